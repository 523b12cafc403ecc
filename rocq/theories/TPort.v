(** Who gets the datagrams: managers that share a port, groups, senders. *)
From Coq Require Import Permutation.
From Verif Require Import Base MBuffer SBuffer PBase MEip SEip MSocket MConnReq SConnReq MConn SConn PConnMap PConnCall2 PConnTop PIoTop PLife PTarget MPort SPort PPort.
Ltac Zify.zify_post_hook ::= Z.div_mod_to_equations.

(** Full statement: whatever the other managers and programs of the host do, and
    whatever address is agreed on, what the device of a connection sends is given to the
    connection, and nothing else. True is: a manager that is alone on its host
    reads exactly what is sent to port 2222 of the host (and of the groups that it is a member of), in this order. *)
Theorem C114_alone_partial (S : Type) h me n (xs : list (nstep S)) w i l : started w -> ~ in_group me -> (i < n)%nat -> has_socket w i ->
  (forall j, j <> i -> (j < n)%nat -> ~ has_socket w j) -> opens_only i xs -> sent me xs l ->
  let '(N, e) := net_run h me n xs (net0 w) in
  read_by i e ++ n_q N i = l /\ forall j, j <> i -> read_by j e = [] /\ n_q N j = [].
Proof.
  intros W M L B A O T. assert (A' : forall j, j <> i -> (j < n)%nat -> m_socks (w_m w j) = []).
  { intros j J1 J2. specialize (A j J1 J2). unfold has_socket in A. destruct (m_socks (w_m w j)); [reflexivity|]. now destruct A. }
  pose proof (alone h me n i xs L M O (net0 w) l (started_ones w W) B A' T) as K. destruct (net_run h me n xs (net0 w)) as [N e]. cbn [fst snd net0 n_q app] in K.
  split; [specialize (K i); now rewrite Nat.eqb_refl in K|]. intros j J. specialize (K j). apply Nat.eqb_neq in J. rewrite J in K. now apply app_eq_nil in K.
Qed.
Print Assumptions C114_alone_partial.

(** What it reads is given to the connection it is for (ids as in C38). *)
Theorem C114_delivered_partial (S : Type) h me n (w : world S) i p joined pick rounds env i0 i1 items rest c :
  started w -> ~ in_group me -> (i < n)%nat -> has_socket w i -> (forall j, j <> i -> (j < n)%nat -> ~ has_socket w j) ->
  reaches me p joined -> is_bytes (k_data p) -> carries (k_data p) (i0 :: i1 :: items) -> is_u32 (io_t2oId c) -> it_data i0 = le 4 (io_t2oId c) ++ rest ->
  lock (io_oid c) (w_m w i) = Some c -> (forall o c', lock o (w_m w i) = Some c' -> io_t2oId c' mod 65536 = io_t2oId c mod 65536 -> io_t2oId c' = io_t2oId c) ->
  front c <= zlen (it_data i1) ->
  exists c' ev more, io_receive h c (it_data i1) = Ok (c', ev)
    /\ m_log (w_m (n_w (fst (net_run h me n [NArrive p joined pick; NCall i (CHandle rounds SelQuiet env)] (net0 w)))) i) = m_log (w_m w i) ++ ev ++ more.
Proof.
  intros W M L B A. assert (A' : forall j, j <> i -> (j < n)%nat -> m_socks (w_m w j) = []).
  { intros j J1 J2. specialize (A j J1 J2). unfold has_socket in A. destruct (m_socks (w_m w j)); [reflexivity|]. now destruct A. }
  now apply heard.
Qed.
Print Assumptions C114_delivered_partial.

(** Several managers: what is sent to the host is read by (or waits for) one of
    them; nothing is lost and nothing is read twice. *)
Theorem C114_shared (S : Type) h me n (xs : list (nstep S)) w i l : started w -> ~ in_group me -> (i < n)%nat -> has_socket w i ->
  no_member xs -> sent me xs l ->
  let '(N, e) := net_run h me n xs (net0 w) in
  Permutation (concat (map (fun j => read_by j e ++ n_q N j) (seq 0 n))) l.
Proof.
  intros W M L B G T. pose proof (conserved h me n xs M G (net0 w) l (started_ones w W) (ex_intro _ i (conj L B)) T) as K.
  destruct (net_run h me n xs (net0 w)) as [N e]. cbn [fst snd net0 n_q] in K. rewrite K.
  replace (concat (map (fun _ : nat => []) (seq 0 n))) with (@nil bytes); [reflexivity|]. generalize (seq 0 n). intros L0. now induction L0.
Qed.
Print Assumptions C114_shared.
(** Which one it is is up to the system. *)
Theorem C114_any (S : Type) h me n (w : world S) q i p joined : started w -> ~ in_group me -> (i < n)%nat -> has_socket w i -> k_to p = me -> k_port p = 2222 ->
  exists pick, let '(N, e) := net_step h me n (NArrive p joined pick) (mkNet w q) in
  n_w N = w /\ e = [] /\ n_q N i = q i ++ [k_data p] /\ forall j, j <> i -> n_q N j = q j.
Proof.
  intros W M L B T P. destruct (any_one me n p joined w i (started_ones w W) M T P L B) as [pick E]. exists pick. cbn [net_step n_w n_q].
  rewrite E. cbn [existsb]. rewrite Nat.eqb_refl. repeat split; trivial. intros j J. apply Nat.eqb_neq in J. now rewrite J.
Qed.
Print Assumptions C114_any.
(** Groups: a packet for a group that the host is a member of is read by all. *)
Theorem C114_group (S : Type) h me n (w : world S) q p pick : started w -> in_group (k_to p) -> k_port p = 2222 ->
  let '(N, e) := net_step h me n (NArrive p true pick) (mkNet w q) in
  n_w N = w /\ e = [] /\ forall i, (has_socket w i /\ (i < n)%nat -> n_q N i = q i ++ [k_data p]) /\ (~ has_socket w i \/ (n <= i)%nat -> n_q N i = q i).
Proof.
  intros W G P. cbn [net_step n_w n_q]. repeat split; intros.
  - assert (I : In i (receivers me n p true pick w)) by (apply all_in; [now apply started_ones|assumption..|intuition]). apply mem_iff in I. now rewrite I.
  - destruct (existsb _ _) eqn:E; [|reflexivity]. apply mem_iff, all_in in E; [|now apply started_ones|assumption..]. destruct E as [E1 E2]. destruct H; [contradiction|lia].
Qed.
Print Assumptions C114_group.
(** What is sent elsewhere, also to groups that nobody has joined, is as if it was not
    sent. *)
Theorem C114_elsewhere (S : Type) h me n (xs : list (nstep S)) w : started w -> sent me xs [] ->
  let '(N, e) := net_run h me n xs (net0 w) in e = [] /\ n_w N = run_calls h (unheard xs) w /\ forall j, n_q N j = [].
Proof.
  intros W T. pose proof (deaf h me n xs (net0 w) (started_ones w W) (fun _ => eq_refl) T) as K. destruct (net_run h me n xs (net0 w)). exact K.
Qed.
Print Assumptions C114_elsewhere.
(** What a call of handleConnections does with what is waiting: all of it (if
    ::select() fails, as much as it reported before) is given to the handler in order, up to the
    first datagram whose handler throws, which is read too; then come the ticks, unless something was thrown. *)
Theorem C114_reads (S : Type) h me n (w : world S) q i rounds ending env : has_socket w i ->
  let l := match ending with SelQuiet => q i | SelFail _ => firstn (List.length rounds) (q i) end in
  exists r o m', reads h (w_m w i) l r o m' /\
  let '(N, e) := net_step h me n (NCall i (CHandle rounds ending env)) (mkNet w q) in
  e = map (pair i) r /\ n_q N i = skipn (List.length r) (q i) /\ (forall j, j <> i -> n_q N j = q j)
  /\ w_m (n_w N) i = (match o, ending with Ok _, SelQuiet => snd (run_ticks env m') | _, _ => m' end)
  /\ (forall j, j <> i -> w_m (n_w N) j = w_m w j) /\ w_g (n_w N) = w_g w /\ w_s (n_w N) = w_s w.
Proof. apply handle_reads. Qed.
Print Assumptions C114_reads.
(** It does not matter who sends. *)
Theorem C114_sender (S : Type) h me n (xs ys : list (nstep S)) N : Forall2 but_sender xs ys -> net_run h me n xs N = net_run h me n ys N.
Proof. intros F. now apply run_sender. Qed.
Print Assumptions C114_sender.
(** The items of the reply that say where the target sends its data (type 0x8001), and all but those of type
    0x8000, do not matter: no socket is bound to their port and no group is joined. *)
Theorem C114_items h env host large c service status addl data items i items' gm : it_type i <> 0x8000 ->
  fo_answer h env host large c (mkResp service status addl data (items ++ i :: items')) gm
  = fo_answer h env host large c (mkResp service status addl data (items ++ items')) gm.
Proof. apply items_ignored. Qed.
Print Assumptions C114_items.
(** In all these runs the managers are as after a history of calls, so what is proved
    of these holds. *)
Theorem C114_history (S : Type) h me n (xs : list (nstep S)) w : exists ops, n_w (fst (net_run h me n xs (net0 w))) = run_calls h ops w.
Proof. apply (run_history h me n xs (net0 w)). Qed.
Print Assumptions C114_history.

(** ** Cases *)
(** 192.168.0.10, 10.0.0.1, 239.192.1.1 *)
Definition host0 : Z := 0xC0A8000A.
Definition device0 : Z := 0x0A000001.
Definition group0 : Z := 0xEFC00101.
Definition stranger0 : Z := 0xC0A80063.
Definition one0 := run_calls strict [(0%nat, open_call 0x10007 10000 10000 (class1 1 0))] start0.
Definition two0 := run_calls strict [(0%nat, open_call 0x10007 10000 10000 (class1 1 0)); (1%nat, open_call 0x10008 10000 10000 (class1 1 0))] start0.
Lemma one0_started : started one0.
Proof. eexists strict, _, start0. split; [apply start_new|reflexivity]. Qed.
Lemma two0_started : started two0.
Proof. eexists strict, _, start0. split; [apply start_new|reflexivity]. Qed.
Definition polls (i : nat) (t : Z) : nstep (list encaps) := NCall i (CHandle [] SelQuiet (at_ms t)).
Definition to_host (from X : Z) (pick : nat) : nstep (list encaps) := NArrive (mkPacket from host0 2222 (gram X [1; 0; 9; 9])) false pick.
Definition to_group (X : Z) : nstep (list encaps) := NArrive (mkPacket device0 group0 2222 (gram X [1; 0; 9; 9])) false 0.

Lemma one0_has : has_socket one0 0 /\ m_socks (w_m one0 1%nat) = [].
Proof. split; [intros E; vm_compute in E; discriminate|vm_compute; reflexivity]. Qed.
Lemma two0_has : has_socket two0 0 /\ has_socket two0 1.
Proof. split; intros E; vm_compute in E; discriminate. Qed.
Lemma host0_single : ~ in_group host0.
Proof. unfold in_group, host0. lia. Qed.
Lemma comes from X : reaches host0 (mkPacket from host0 2222 (gram X [1; 0; 9; 9])) false.
Proof. split; [reflexivity|left; reflexivity]. Qed.
Lemma passes X : ~ reaches host0 (mkPacket device0 group0 2222 (gram X [1; 0; 9; 9])) false.
Proof. intros [_ [E|[_ E]]]; [cbn [k_to] in E; unfold group0, host0 in E; lia|discriminate]. Qed.

(** The device sends twice, somebody else sends to another port; two are read. *)
Definition alone0 : list (nstep (list encaps)) :=
  [to_host device0 0x10007 3; NArrive (mkPacket device0 host0 44818 [1]) false 0; to_group 0x10007; to_host device0 0x10007 0; polls 0 5; to_host device0 0x10008 1].
Example C114_alone_case : started one0 /\ has_socket one0 0 /\ (forall j, j <> 0%nat -> (j < 2)%nat -> ~ has_socket one0 j) /\ opens_only 0 alone0
  /\ sent host0 alone0 [gram 0x10007 [1; 0; 9; 9]; gram 0x10007 [1; 0; 9; 9]; gram 0x10008 [1; 0; 9; 9]]
  /\ (let '(N, e) := net_run strict host0 2 alone0 (net0 one0) in
      e = [(0%nat, gram 0x10007 [1; 0; 9; 9]); (0%nat, gram 0x10007 [1; 0; 9; 9])] /\ n_q N 0%nat = [gram 0x10008 [1; 0; 9; 9]]
      /\ m_log (w_m (n_w N) 0%nat) = [EvData 0 0 1 [9; 9]; EvData 0 0 1 [9; 9]]).
Proof.
  split; [apply one0_started|]. split; [apply one0_has|]. split; [|split; [|split; [|vm_compute; auto]]].
  - intros j J L. destruct j as [|[|j]]; [easy| |lia]. intros B. apply B, one0_has.
  - intros j op I. cbn in I. repeat (destruct I as [I|I]; [try discriminate; inv I; exact Logic.I|]). contradiction.
  - apply SentIn; [apply comes|]. apply SentOut; [intros [E _]; cbn in E; lia|]. apply SentOut; [apply passes|].
    apply SentIn; [apply comes|]. apply SentCall. apply SentIn; [apply comes|]. apply SentNil.
Qed.
Example C114_delivered_case : exists c, lock 0 (w_m one0 0%nat) = Some c /\ io_oid c = 0%nat /\ is_u32 (io_t2oId c) /\ front c = 2
  /\ is_bytes (gram 0x10007 [1; 0; 9; 9]) /\ carries (gram 0x10007 [1; 0; 9; 9]) [mkItem 32770 8 (le 4 0x10007 ++ le 4 1); mkItem 177 4 [1; 0; 9; 9]]
  /\ (forall o c', lock o (w_m one0 0%nat) = Some c' -> io_t2oId c' = io_t2oId c) /\ io_t2oId c = 0x10007.
Proof.
  destruct (lock 0 (w_m one0 0%nat)) as [c|] eqn:E; vm_compute in E; inv E. eexists. split; [reflexivity|]. split; [reflexivity|].
  split; [unfold is_u32; cbn [io_t2oId]; lia|]. split; [reflexivity|]. split; [repeat constructor; cbn; lia|].
  split. { apply (carries_iff strict); [repeat constructor; cbn; lia|]. vm_compute. reflexivity. }
  split; [|reflexivity]. intros o c' L. destruct o as [|o]; vm_compute in L; [now inv L|discriminate].
Qed.

(** Two managers, a connection each: the system may give the one what is for the other. *)
Definition mixed0 : list (nstep (list encaps)) := [to_host device0 0x10007 0; to_host device0 0x10007 1; to_host device0 0x10008 0; polls 0 5].
Example C114_shared_case : started two0 /\ has_socket two0 0 /\ has_socket two0 1 /\ no_member mixed0
  /\ sent host0 mixed0 [gram 0x10007 [1; 0; 9; 9]; gram 0x10007 [1; 0; 9; 9]; gram 0x10008 [1; 0; 9; 9]]
  /\ (let '(N, e) := net_run strict host0 2 mixed0 (net0 two0) in
      read_by 0 e = [gram 0x10007 [1; 0; 9; 9]; gram 0x10008 [1; 0; 9; 9]] /\ n_q N 1%nat = [gram 0x10007 [1; 0; 9; 9]]
      /\ m_log (w_m (n_w N) 0%nat) = [EvData 0 0 1 [9; 9]]).
Proof.
  split; [apply two0_started|]. split; [apply two0_has|]. split; [apply two0_has|]. split; [|split; [|vm_compute; auto]].
  - intros p joined pick I. cbn in I. repeat (destruct I as [I|I]; [try discriminate; now inv I|]). contradiction.
  - apply SentIn; [apply comes|]. apply SentIn; [apply comes|]. apply SentIn; [apply comes|]. apply SentCall, SentNil.
Qed.
(** An empty datagram (the handler throws: it has no item) between two others. *)
Example C114_reads_case : has_socket one0 0
  /\ (let '(N, e) := net_step strict host0 1 (polls 0 5) (mkNet one0 (fun _ => [gram 0x10007 [1; 0; 9; 9]; [0; 0]; gram 0x10007 [1; 0; 8; 8]])) in
      e = [(0%nat, gram 0x10007 [1; 0; 9; 9]); (0%nat, [0; 0])] /\ n_q N 0%nat = [gram 0x10007 [1; 0; 8; 8]]
      /\ m_log (w_m (n_w N) 0%nat) = [EvData 0 0 1 [9; 9]]).
Proof. split; [apply one0_has|vm_compute; auto]. Qed.
Example C114_group_case : in_group (k_to (mkPacket device0 group0 2222 [])) /\ ~ has_socket one0 1
  /\ n_q (fst (net_step strict host0 2 (NArrive (mkPacket device0 group0 2222 [7]) true 0) (net0 two0))) 1%nat = [[7]].
Proof. split; [unfold in_group, group0; cbn; lia|]. split; [intros B; apply B, one0_has|vm_compute; reflexivity]. Qed.
Example C114_sender_case : Forall2 but_sender [to_host device0 0x10007 0; polls 0 5] [to_host stranger0 0x10007 0; polls 0 5].
Proof. constructor; [|constructor; [constructor|constructor]]. apply (ButFrom (mkPacket device0 host0 2222 _)). Qed.

(** Two managers in one program (or programs on one host): the device sends every 10 ms, both managers are
    polled every 10 ms, but what is sent is read by the other manager, which does not know
    the connection. The connection is closed after 50 ms. *)
Definition stolen0 : list (nstep (list encaps)) :=
  concat (map (fun t => [to_host device0 0x10007 1; polls 0 t; polls 1 t]) [10; 20; 30; 40; 50]).
Definition quiet_log (l : list event) : bool := forallb (fun e => match e with EvData _ _ _ _ => false | _ => true end) l.
Theorem C114_refuted : exists (w : world (list encaps)) c xs l, started w /\ lock 0 (w_m w 0%nat) = Some c /\ io_t2oId c = 0x10007
  /\ sent host0 xs l /\ l = repeat (gram 0x10007 [1; 0; 9; 9]) 5
  /\ let '(N, e) := net_run strict host0 2 xs (net0 w) in
     read_by 1 e = l /\ read_by 0 e = [] /\ In (EvClosed 0) (m_log (w_m (n_w N) 0%nat)) /\ lock 0 (w_m (n_w N) 0%nat) = None
     /\ quiet_log (m_log (w_m (n_w N) 0%nat)) = true /\ quiet_log (m_log (w_m (n_w N) 1%nat)) = true.
Proof.
  destruct (lock 0 (w_m two0 0%nat)) as [c|] eqn:E; [|now vm_compute in E]. exists two0, c, stolen0, (repeat (gram 0x10007 [1; 0; 9; 9]) 5).
  split; [apply two0_started|]. split; [exact E|]. split; [vm_compute in E; now inv E|]. split; [|split; [reflexivity|vm_compute; intuition]].
  cbn [repeat stolen0 map concat app]. repeat (first [apply SentIn; [apply comes|]|apply SentCall|apply SentNil]).
Qed.
Print Assumptions C114_refuted.

(** A connection of type multicast, whose target says where it will send: item 0x8001 with
    239.192.1.1, port 2222. *)
Definition reply_group : encaps :=
  let data := [212; 0; 0; 0] ++ fo_reply_bytes (mkFoResp 0x0A0B0C0D 0x10007 5 342 0x12345678 10000 10000 0 []) 0 [] in
  let r := le 2 0 ++ le 2 0 ++ le 2 178 ++ le 2 (zlen data) ++ data ++ le 2 0x8001 ++ le 2 16 ++ [0; 2; 8; 174; 239; 192; 1; 1] ++ zeros 8 in
  mkEncaps 111 (zlen r + 8) 1 0 (zeros 8) 0 (zeros 6 ++ le 2 3 ++ r).
Definition multi0 : world (list encaps) :=
  run_calls strict [(0%nat, COpen false (recording 1 (fun _ _ => Ok reply_group)) "10.0.0.1" (env_ok 0) false class1m)] start0.
Definition multicast0 : list (nstep (list encaps)) := concat (map (fun t => [to_group 0x10007; polls 0 t]) [10; 20; 30; 40; 50]).
Theorem C114_multicast_refuted : exists (w : world (list encaps)) c xs, started w /\ lock 0 (w_m w 0%nat) = Some c /\ io_t2oId c = 0x10007 /\ sent host0 xs []
  /\ (forall p joined pick, In (NArrive p joined pick) xs -> k_to p = group0 /\ k_port p = 2222 /\ k_data p = gram 0x10007 [1; 0; 9; 9])
  /\ let '(N, e) := net_run strict host0 1 xs (net0 w) in
     In (EvClosed 0) (m_log (w_m (n_w N) 0%nat)) /\ lock 0 (w_m (n_w N) 0%nat) = None /\ quiet_log (m_log (w_m (n_w N) 0%nat)) = true.
Proof.
  destruct (lock 0 (w_m multi0 0%nat)) as [c|] eqn:E; [|now vm_compute in E]. exists multi0, c, multicast0.
  split. { eexists strict, _, start0. split; [apply start_new|reflexivity]. }
  split; [exact E|]. split; [vm_compute in E; now inv E|]. split; [|split; [|vm_compute; intuition]].
  - cbn [multicast0 map concat app]. repeat (first [apply SentOut; [apply passes|]|apply SentCall|apply SentNil]).
  - intros p joined pick I. unfold multicast0 in I. apply in_concat in I as (l & I1 & I2). apply in_map_iff in I1 as (t & <- & _).
    destruct I2 as [E1|[E1|[]]]; [|discriminate]. unfold to_group in E1. injection E1 as <- <- <-. cbn [k_to k_port k_data]. auto.
Qed.
Print Assumptions C114_multicast_refuted.

(** Data that somebody else sends is delivered as if the device had sent it. *)
Theorem C114_sender_refuted : exists (w : world (list encaps)) c p, started w /\ lock 0 (w_m w 0%nat) = Some c /\ ep_host (io_dest c) = "10.0.0.1"%string /\ k_from p = stranger0
  /\ m_log (w_m (n_w (fst (net_run strict host0 1 [NArrive p false 0; polls 0 5] (net0 w)))) 0%nat) = m_log (w_m w 0%nat) ++ [EvData 0 0 1 [9; 9]].
Proof.
  destruct (lock 0 (w_m one0 0%nat)) as [c|] eqn:E; [|now vm_compute in E]. exists one0, c, (mkPacket stranger0 host0 2222 (gram 0x10007 [1; 0; 9; 9])).
  split; [apply one0_started|]. split; [exact E|]. vm_compute in E. inv E. split; [reflexivity|]. split; [reflexivity|]. vm_compute. reflexivity.
Qed.
Print Assumptions C114_sender_refuted.
