(** Proofs about sockets and sessions. *)
From Verif Require Import Base MBuffer SBuffer PBase PBuffer PReader MEip SEip PPathT PEip PRouter MSocket SSocket.
Ltac Zify.zify_post_hook ::= Z.div_mod_to_equations.
Local Open Scope outcome_scope.

Lemma err_cases e : e = EINTR \/ (e <> EINTR /\ forall r, stream (Err e :: r) = []
   /\ ending_of (Err e :: r) = Failed e /\ after (Err e :: r) = r).
Proof.
  destruct (Z.eq_dec e EINTR) as [->|N]; [auto|right]. split; [assumption|]. intros r.
  unfold EINTR in N. cbn [stream ending_of after].
  destruct e as [|[[[| |]|[| |]|]|[[| |]|[| |]|]|]|]; try (split; [reflexivity|split; reflexivity]); congruence.
Qed.

(** Everything Receive can do. *)
Lemma recv_any segs : forall n acc,
  if Nat.leb n (List.length (stream segs))
  then exists segs', recv_loop n acc segs = (Ok (acc ++ firstn n (stream segs)), segs')
       /\ stream segs' = skipn n (stream segs) /\ ending_of segs' = ending_of segs /\ after segs' = after segs
  else recv_loop n acc segs
       = match ending_of segs with
         | Silent => (Throw (SystemError EAGAIN), [])
         | Failed e => (Throw (SystemError e), after segs)
         | Closed => (Ok (acc ++ stream segs ++ zeros (n - List.length (stream segs))), after segs)
         end.
Proof.
  induction segs as [|s segs IH]; intros n acc.
  - cbn [stream List.length ending_of after]. destruct n; cbn [Nat.leb recv_loop firstn skipn].
    + exists []. rewrite app_nil_r. auto.
    + reflexivity.
  - destruct n as [|n].
    { cbn [Nat.leb]. exists (s :: segs). cbn [recv_loop firstn skipn]. rewrite app_nil_r. auto. }
    destruct s as [l|e|].
    + cbn [stream ending_of after]. rewrite app_length. cbn [recv_loop].
      destruct (Nat.leb_spec (List.length l) (S n)) as [L|L].
      * specialize (IH (S n - List.length l)%nat (acc ++ l)).
        destruct (Nat.leb_spec (S n) (List.length l + List.length (stream segs))) as [G|G].
        -- replace (Nat.leb _ _) with true in IH by (symmetry; apply Nat.leb_le; lia).
           destruct IH as (segs' & E & S1 & S2 & S3). exists segs'. rewrite E.
           rewrite firstn_app, skipn_app, (firstn_all2 l), (skipn_all2 l) by lia.
           rewrite <- app_assoc. cbn [app]. auto.
        -- replace (Nat.leb _ _) with false in IH by (symmetry; apply Nat.leb_gt; lia).
           rewrite IH. destruct (ending_of segs); try reflexivity.
           rewrite <- !app_assoc.
           replace (S n - List.length l - List.length (stream segs))%nat
             with (S n - (List.length l + List.length (stream segs)))%nat by lia. reflexivity.
      * replace (Nat.leb (S n) (List.length l + List.length (stream segs))) with true
          by (symmetry; apply Nat.leb_le; lia).
        exists (Data (skipn (S n) l) :: segs).
        rewrite firstn_app, skipn_app. replace (S n - List.length l)%nat with O by lia.
        cbn [firstn skipn]. rewrite app_nil_r. cbn [stream ending_of after]. auto.
    + destruct (err_cases e) as [->|[N H]].
      * cbn [recv_loop EINTR Z.eqb Pos.eqb stream ending_of after]. apply IH.
      * destruct (H segs) as (H1 & H2 & H3). rewrite H1, H2, H3. cbn [List.length Nat.leb recv_loop].
        replace (e =? EINTR) with false by (symmetry; apply Z.eqb_neq; assumption). reflexivity.
    + reflexivity.
Qed.

Lemma receive_any n segs :
  if Nat.leb n (List.length (stream segs))
  then exists segs', tcp_receive n segs = (Ok (firstn n (stream segs)), segs')
       /\ stream segs' = skipn n (stream segs) /\ ending_of segs' = ending_of segs /\ after segs' = after segs
  else tcp_receive n segs
       = match ending_of segs with
         | Silent => (Throw (SystemError EAGAIN), [])
         | Failed e => (Throw (SystemError e), after segs)
         | Closed => (Ok (stream segs ++ zeros (n - List.length (stream segs))), after segs)
         end.
Proof. exact (recv_any segs n []). Qed.

Lemma receive_enough n segs : (n <= List.length (stream segs))%nat ->
  exists segs', tcp_receive n segs = (Ok (firstn n (stream segs)), segs')
       /\ stream segs' = skipn n (stream segs) /\ ending_of segs' = ending_of segs /\ after segs' = after segs.
Proof. intros L. pose proof (receive_any n segs) as H. apply Nat.leb_le in L. now rewrite L in H. Qed.

Lemma receive_short n segs : (List.length (stream segs) < n)%nat ->
  tcp_receive n segs
  = match ending_of segs with
    | Silent => (Throw (SystemError EAGAIN), [])
    | Failed e => (Throw (SystemError e), after segs)
    | Closed => (Ok (stream segs ++ zeros (n - List.length (stream segs))), after segs)
    end.
Proof. intros L. pose proof (receive_any n segs) as H. apply Nat.leb_gt in L. now rewrite L in H. Qed.

Lemma skipn_skipn {A} a b (l : list A) : skipn b (skipn a l) = skipn (a + b) l.
Proof. revert l. induction a as [|a IH]; intros l; [reflexivity|]. destruct l; cbn [skipn Nat.add]; [apply skipn_nil|apply IH]. Qed.

Lemma receives_pieces sizes : forall segs, (list_sum sizes <= List.length (stream segs))%nat ->
  exists segs', receives sizes segs = (map Ok (pieces sizes (stream segs)), segs')
    /\ stream segs' = skipn (list_sum sizes) (stream segs) /\ ending_of segs' = ending_of segs.
Proof.
  induction sizes as [|n sizes IH]; intros segs L; cbn [receives pieces map].
  - exists segs. auto.
  - change (list_sum (n :: sizes)) with (n + list_sum sizes)%nat in *.
    destruct (receive_enough n segs) as (s1 & E & S1 & E1 & _); [lia|]. rewrite E.
    destruct (IH s1) as (s2 & E2 & S2 & E3).
    { rewrite S1, skipn_length. lia. }
    rewrite E2. exists s2. rewrite S1. split; [reflexivity|]. split; [|congruence].
    rewrite S2, S1. apply skipn_skipn.
Qed.

Lemma pieces_concat sizes l : (list_sum sizes <= List.length l)%nat ->
  concat (pieces sizes l) = firstn (list_sum sizes) l.
Proof.
  revert l. induction sizes as [|n sizes IH]; intros l L; [reflexivity|].
  change (list_sum (n :: sizes)) with (n + list_sum sizes)%nat in *. cbn [pieces concat].
  rewrite IH by (rewrite skipn_length; lia).
  rewrite <- (firstn_skipn n l) at 3. rewrite firstn_app, firstn_length_le by lia.
  replace (n + list_sum sizes - n)%nat with (list_sum sizes) by lia. f_equal.
  symmetry. apply firstn_all2. rewrite firstn_length. lia.
Qed.

Lemma receive_early_close : exists segs n d rest,
  ending_of segs = Closed /\ (List.length (stream segs) < n)%nat
  /\ tcp_receive n segs = (Ok d, rest).
Proof. exists [Data [1]; Eof], 3%nat, [1; 0; 0], [Eof]. split; [reflexivity|]. split; [cbn; lia|reflexivity]. Qed.

Lemma receive_error n segs : (List.length (stream segs) < n)%nat -> ending_of segs <> Closed ->
  exists e, fst (tcp_receive n segs) = Throw (SystemError e)
    /\ (ending_of segs = Failed e \/ ending_of segs = Silent /\ e = 11).
Proof.
  intros L N. rewrite receive_short by assumption. destruct (ending_of segs) as [|e|]; [| |congruence].
  - exists 11. auto.
  - exists e. auto.
Qed.

(** ** Sending *)
Lemma send_check_any size count errno : 0 <= size < 2 ^ 63 -> -1 <= count <= size ->
  send_check size (mkSend count errno)
  = if (0 <=? count) && (count <? size) then Throw (SystemError errno) else Ok tt.
Proof.
  intros S C. unfold send_check; cbn [s_count s_errno].
  destruct (Z.ltb_spec count 0), (Z.leb_spec 0 count); try lia; cbn [andb]; [|reflexivity].
  destruct (Z.ltb_spec (2 ^ 64 + count) size); [lia|reflexivity].
Qed.
Lemma send_refuted : exists size count errno, 0 < size /\ count < size
  /\ send_check size (mkSend count errno) = Ok tt.
Proof. exists 10, (-1), 32. split; [lia|]. split; [lia|reflexivity]. Qed.

(** ** Connecting *)
Lemma connect_wait_cases k : tcp_connect_wait k = Ok tt \/ exists e, tcp_connect_wait k = Throw (SystemError e).
Proof.
  unfold tcp_connect_wait. destruct (k_connect k) as [e|]; [|auto].
  destruct (e =? EINPROGRESS); [|eauto]. destruct (k_select k) as [res err].
  destruct ((res <? 0) && negb (err =? EINTR)); [eauto|].
  destruct (0 <? res); [|eauto].
  destruct (k_getsockopt k); cbn [sys bind]; [eauto|]. destruct (negb (k_soerr k =? 0)); eauto.
Qed.

Lemma connect_partial k : k_getfl1 k = None -> k_setfl1 k = None ->
  (tcp_connect k = (Ok tt, OpenFd (Z.land (Z.lor (k_flags k) 2048) (Z.lnot 2048))))
  \/ exists e fd, tcp_connect k = (Throw (SystemError e), fd) /\ (fd = NoFd \/ fd = ClosedFd).
Proof.
  intros G S. unfold tcp_connect. rewrite G, S. destruct (k_socket k) as [e|]; [right; eauto 6|].
  unfold tcp_connect_try. destruct (connect_wait_cases k) as [->|[e ->]]; cbn [bind]; [|right; eauto 6].
  destruct (k_getfl2 k) as [e|]; cbn [sys bind]; [right; eauto 6|].
  destruct (k_setfl2 k) as [e|]; cbn [sys]; [right; eauto 6|]. left. reflexivity.
Qed.

Lemma connect_flags flags i : 0 <= i ->
  Z.testbit (Z.land (Z.lor flags 2048) (Z.lnot 2048)) i = negb (i =? 11) && Z.testbit flags i.
Proof.
  intros Hi. rewrite Z.land_spec, Z.lor_spec, Z.lnot_spec by assumption.
  change 2048 with (2 ^ 11). rewrite Z.pow2_bits_eqb by lia.
  rewrite (Z.eqb_sym 11 i). destruct (i =? 11), (Z.testbit flags i); reflexivity.
Qed.

Lemma connect_refuted : exists k e flags, tcp_connect k = (Throw (SystemError e), OpenFd flags).
Proof.
  exists (mkCalls None 2 None (Some 9) None (0, 0) None 0 None None), 9, 2. reflexivity.
Qed.

Lemma connect_always_open k e flags : tcp_connect k = (Throw e, OpenFd flags) ->
  k_socket k = None /\ (k_getfl1 k <> None \/ k_setfl1 k <> None).
Proof.
  unfold tcp_connect. destruct (k_socket k); [discriminate|].
  destruct (k_getfl1 k); [intros _; split; [reflexivity|left; discriminate]|].
  destruct (k_setfl1 k); [intros _; split; [reflexivity|right; discriminate]|].
  unfold tcp_connect_try. destruct (connect_wait_cases k) as [->|[e' ->]]; cbn [bind]; [|discriminate].
  destruct (k_getfl2 k); cbn [sys bind]; [discriminate|]. destruct (k_setfl2 k); discriminate.
Qed.

Lemma connect_leak k : (exists e flags, tcp_connect k = (Throw e, OpenFd flags)) <->
  k_socket k = None /\ (k_getfl1 k <> None \/ k_setfl1 k <> None).
Proof.
  split; [intros (e & f & E); exact (connect_always_open _ _ _ E)|]. intros [E1 E2]. unfold tcp_connect. rewrite E1.
  destruct (k_getfl1 k) as [e|]; [eauto|]. destruct (k_setfl1 k) as [e|]; [eauto|]. destruct E2 as [E2|E2]; now destruct E2.
Qed.

(** Exactly when the connection is made (after the descriptor was prepared). *)
Lemma connect_success k : tcp_connect k = (Ok tt, OpenFd (Z.land (Z.lor (k_flags k) 2048) (Z.lnot 2048))) <->
  k_socket k = None /\ k_getfl1 k = None /\ k_setfl1 k = None /\ k_getfl2 k = None /\ k_setfl2 k = None
  /\ (k_connect k = None
      \/ k_connect k = Some 115 /\ 0 < fst (k_select k) /\ k_getsockopt k = None /\ k_soerr k = 0).
Proof.
  unfold tcp_connect. split.
  - destruct (k_socket k); [discriminate|]. destruct (k_getfl1 k); [discriminate|].
    destruct (k_setfl1 k); [discriminate|]. unfold tcp_connect_try, tcp_connect_wait.
    destruct (k_connect k) as [e|].
    + destruct (Z.eqb_spec e EINPROGRESS) as [->|]; [|discriminate]. destruct (k_select k) as [res err].
      destruct ((res <? 0) && negb (err =? EINTR)); [discriminate|].
      destruct (Z.ltb_spec 0 res); [|discriminate].
      destruct (k_getsockopt k); [discriminate|]. cbn [sys bind].
      destruct (Z.eqb_spec (k_soerr k) 0) as [E|]; [|discriminate]. cbn [negb bind].
      destruct (k_getfl2 k); [discriminate|]. cbn [sys bind]. destruct (k_setfl2 k); [discriminate|].
      intros _. do 5 (split; [reflexivity|]). right. cbn [fst]. auto.
    + cbn [bind]. destruct (k_getfl2 k); [discriminate|]. cbn [sys bind]. destruct (k_setfl2 k); [discriminate|].
      intros _. do 5 (split; [reflexivity|]). left; reflexivity.
  - intros (-> & -> & -> & E2 & E3 & C). unfold tcp_connect_try, tcp_connect_wait. rewrite E2, E3.
    destruct C as [->|(-> & C & -> & ->)]; [reflexivity|].
    destruct (k_select k) as [res err]. cbn [fst] in C.
    cbn [EINPROGRESS Z.eqb Pos.eqb]. replace (115 =? EINPROGRESS) with true by reflexivity.
    replace (res <? 0) with false by (symmetry; apply Z.ltb_ge; lia).
    replace (0 <? res) with true by (symmetry; apply Z.ltb_lt; lia). reflexivity.
Qed.

Lemma interval_ok ms : portable_interval ms = (if ms <? 0 then (0, 0) else (ms / 1000, (ms mod 1000) * 1000)).
Proof.
  unfold portable_interval. destruct (Z.ltb_spec ms 0) as [L|L].
  - f_equal.
    + rewrite Z.max_r; [reflexivity|]. destruct (Z.eq_dec (Z.quot ms 1000) 0); [lia|].
      pose proof (Z.quot_le_mono ms 0 1000 ltac:(lia) ltac:(lia)) as Q. rewrite Z.quot_0_l in Q by lia. lia.
    + rewrite Z.max_r; [reflexivity|]. pose proof (Z.rem_nonpos ms 1000 ltac:(lia) ltac:(lia)). lia.
  - rewrite Z.quot_div_nonneg, Z.rem_mod_nonneg by lia.
    assert (0 <= ms / 1000) by (apply Z.div_pos; lia).
    pose proof (Z.mod_pos_bound ms 1000 ltac:(lia)).
    rewrite !Z.max_l by lia. reflexivity.
Qed.
Lemma interval_sum ms : 0 <= ms -> let '(s, us) := portable_interval ms in
  s * 1000000 + us = ms * 1000 /\ 0 <= us < 1000000.
Proof.
  intros L. rewrite interval_ok. replace (ms <? 0) with false by (symmetry; apply Z.ltb_ge; lia). lia.
Qed.

(** ** UDP *)
Lemma udp_ok size l r : udp_receive size (Dgram l :: r)
  = (Ok (firstn size (l ++ zeros size)), r).
Proof.
  unfold udp_receive. rewrite firstn_app. f_equal. f_equal. f_equal.
  unfold zeros. rewrite <- (firstn_all2 (n := size) (repeat 0 (size - _))) by (rewrite repeat_length; lia).
  destruct (Nat.le_gt_cases (List.length l) size) as [L|L].
  - rewrite (firstn_all2 (n := size)) by (rewrite repeat_length; lia).
    replace size with ((size - List.length l) + List.length l)%nat at 3 by lia.
    rewrite repeat_app, firstn_app, repeat_length, Nat.sub_diag, firstn_O, app_nil_r.
    symmetry. apply firstn_all2. rewrite repeat_length. lia.
  - replace (size - List.length l)%nat with O by lia. cbn [repeat firstn]. now rewrite firstn_nil.
Qed.
Lemma udp_length size ds d r : udp_receive size ds = (Ok d, r) -> List.length d = size.
Proof.
  destruct ds as [|[l|e] ds]; cbn [udp_receive]; try discriminate.
  intros E. assert (firstn size l ++ zeros (size - List.length l) = d) by congruence. subst d.
  rewrite app_length, firstn_length, zeros_length. lia.
Qed.

(** ** Sessions *)
Lemma send_check_all (data : bytes) e : send_check (zlen data) (mkSend (zlen data) e) = Ok tt.
Proof.
  unfold send_check; cbn [s_count s_errno]. pose proof (zlen_nonneg data).
  destruct (Z.ltb_spec (zlen data) 0); [lia|]. now rewrite Z.ltb_irrefl.
Qed.

Lemma net_send_all p data w : sends_all w data ->
  net_send p data w = (Ok tt, mkNet (n_sent w ++ [data]) (incoming p w data) (tl (n_results w))).
Proof.
  unfold sends_all, net_send, incoming. intros H.
  destruct (n_results w) as [|[c e] rs]; cbv zeta; cbn [s_count s_errno] in *; [|subst c];
    rewrite send_check_all; unfold zlen; rewrite Nat2Z.id, firstn_all; reflexivity.
Qed.

Lemma stream_app a b : ending_of a = Silent -> stream (a ++ b) = stream a ++ stream b
  /\ ending_of (a ++ b) = ending_of b /\ after (a ++ b) = after b.
Proof.
  induction a as [|[l|e|] a IH]; cbn [app]; intros E.
  - auto.
  - cbn [stream ending_of after] in *. destruct (IH E) as (-> & -> & ->). now rewrite app_assoc.
  - destruct (err_cases e) as [->|[N H]].
    + cbn [stream ending_of after EINTR] in *. apply IH. assumption.
    + destruct (H a) as (_ & X & _). congruence.
  - discriminate.
Qed.

Lemma header_bytes r : encaps_wf r ->
  exists hd, encaps_pack r = hd ++ e_data r /\ List.length hd = 24%nat
    /\ is_bytes hd /\ le_val (firstn 2 (skipn 2 hd)) = e_length r.
Proof.
  intros (Wc & Wl & Wh & Ws & Lx & Bx & Wo & Bd). rewrite encaps_pack_bytes. unfold encaps_bytes.
  exists (le 2 (e_command r) ++ le 2 (e_length r) ++ le 4 (e_handle r) ++ le 4 (e_status r)
          ++ e_context r ++ le 4 (e_options r)).
  rewrite <- !app_assoc. split; [reflexivity|]. split; [rewrite !app_length, !le_length, Lx; reflexivity|].
  split.
  - repeat (apply is_bytes_app; split); try apply le_bytes. assumption.
  - change (le_val (le 2 (e_length r)) = e_length r). rewrite le_val_le. apply Z.mod_small. exact Wl.
Qed.

(** [send_and_receive] after the packet went out. *)
Definition receive_reply (h : heap) (handle : Z) : st net encaps :=
  st_bind (net_receive HEADER_SIZE) (fun header =>
  st_bind (fun w => (length_from_header h header, w)) (fun len =>
  st_bind (net_receive (Z.to_nat len)) (fun data =>
  fun w => (r <- finished (encaps_expand h encaps0 (header ++ data)) ;; check_reply handle r, w)))).

Lemma sar_sent h p handle q w : sends_all w (encaps_pack q) ->
  send_and_receive h p handle q w
  = receive_reply h handle (mkNet (n_sent w ++ [encaps_pack q]) (incoming p w (encaps_pack q)) (tl (n_results w))).
Proof. intros S. unfold send_and_receive, st_bind at 1. now rewrite net_send_all. Qed.

Lemma check_reply_ok handle r : acceptable handle r = true -> check_reply handle r = Ok r.
Proof.
  unfold acceptable, check_reply, ENCAPS_SUCCESS.
  destruct (e_status r =? 0), (handle =? 0), (e_handle r =? handle); cbn; congruence.
Qed.
Lemma check_reply_bad handle r : acceptable handle r = false ->
  check_reply handle r = Throw (RuntimeError (if e_status r =? 0 then RtSessionHandle else RtSessionStatus)).
Proof.
  unfold acceptable, check_reply, ENCAPS_SUCCESS.
  destruct (e_status r =? 0), (handle =? 0), (e_handle r =? handle); cbn; congruence.
Qed.

Lemma check_verdict handle r : check_reply handle r = verdict handle r.
Proof.
  unfold verdict. destruct (acceptable handle r) eqn:E; [now apply check_reply_ok|now apply check_reply_bad].
Qed.

(** A complete reply on the stream is delivered, and exactly it is consumed. *)
Lemma receive_reply_good h handle r w : well_formed r ->
  forall rest, stream (n_in w) = encaps_pack r ++ rest ->
  exists w', receive_reply h handle w = (verdict handle r, w')
    /\ stream (n_in w') = rest /\ ending_of (n_in w') = ending_of (n_in w)
    /\ n_sent w' = n_sent w /\ n_results w' = n_results w.
Proof.
  intros [W El] rest E. destruct (header_bytes r W) as (hd & Ep & Lh & Bh & Vl).
  rewrite Ep, <- app_assoc in E.
  unfold receive_reply, st_bind at 1, net_receive at 1.
  destruct (receive_enough HEADER_SIZE (n_in w)) as (s1 & E1 & S1 & N1 & _).
  { rewrite E, app_length, Lh. unfold HEADER_SIZE. lia. }
  rewrite E1. rewrite E in S1 |- *. unfold HEADER_SIZE in *. rewrite <- Lh in S1 |- *.
  rewrite firstn_app_exact. rewrite skipn_app_exact in S1. 
  unfold st_bind at 1. rewrite length_from_header_ok by (assumption || lia). rewrite Vl.
  unfold st_bind at 1, net_receive; cbn [n_in n_sent n_results].
  assert (LZ : Z.to_nat (e_length r) = List.length (e_data r)) by (rewrite El; unfold zlen; apply Nat2Z.id).
  destruct (receive_enough (Z.to_nat (e_length r)) s1) as (s2 & E2 & S2 & N2 & _).
  { rewrite S1, app_length. lia. }
  rewrite E2. rewrite S1 in S2 |- *. rewrite LZ in S2 |- *.
  rewrite firstn_app_exact. rewrite skipn_app_exact in S2.
  rewrite <- Ep. destruct (encaps_roundtrip h encaps0 r W El eq_refl) as (_ & _ & ->).
  cbn [finished bind]. rewrite check_verdict.
  eexists. split; [reflexivity|]. cbn [n_in n_sent n_results]. split; [assumption|].
  split; [congruence|]. split; reflexivity.
Qed.

(** Whatever arrives: a reply is only returned if it was on the stream; zeros
    may stand for bytes that were missing when the peer closed the stream. *)
Lemma receive_padded n segs d segs' : is_bytes (stream segs) -> tcp_receive n segs = (Ok d, segs') ->
  exists k, (k = O \/ ending_of segs = Closed /\ stream segs' = [] /\ ending_of segs' = Closed)
    /\ stream segs ++ zeros k = d ++ stream segs' /\ ending_of segs' = ending_of segs
    /\ List.length d = n /\ is_bytes d.
Proof.
  intros B E. destruct (Nat.le_gt_cases n (List.length (stream segs))) as [L|L].
  - destruct (receive_enough n segs L) as (s & E' & S & N & _). rewrite E' in E.
    assert (d = firstn n (stream segs) /\ segs' = s) as [-> ->] by (split; congruence).
    exists O. split; [auto|]. cbn [zeros repeat]. rewrite app_nil_r, S, firstn_skipn.
    split; [reflexivity|]. split; [assumption|]. split; [now apply firstn_length_le|].
    unfold is_bytes in *. rewrite <- (firstn_skipn n (stream segs)) in B. apply Forall_app in B. tauto.
  - rewrite receive_short in E by assumption. destruct (ending_of segs) eqn:En; try discriminate.
    assert (d = stream segs ++ zeros (n - List.length (stream segs)) /\ segs' = after segs) as [-> ->] by (split; congruence).
    assert (A : stream (after segs) = [] /\ ending_of (after segs) = Closed).
    { clear - En. induction segs as [|[l|e|] segs IH]; cbn [ending_of after] in *; auto; try discriminate.
      destruct (err_cases e) as [->|[N H]].
      - cbn [ending_of after EINTR] in *. auto.
      - destruct (H segs) as (_ & X & _). cbn [ending_of] in X. congruence. }
    destruct A as [A1 A2]. exists (n - List.length (stream segs))%nat. rewrite A1, A2, app_nil_r.
    split; [auto|]. split; [reflexivity|]. split; [reflexivity|].
    split; [rewrite app_length, zeros_length; lia|]. apply is_bytes_app. split; [assumption|apply zeros_bytes].
Qed.

Lemma zeros_app a b : zeros a ++ zeros b = zeros (a + b).
Proof. unfold zeros. now rewrite repeat_app. Qed.

Lemma receive_reply_sound h handle w r w' : is_bytes (stream (n_in w)) ->
  receive_reply h handle w = (Ok r, w') ->
  well_formed r /\ acceptable handle r = true
  /\ exists k, (k = O \/ ending_of (n_in w) = Closed)
       /\ stream (n_in w) ++ zeros k = encaps_pack r ++ stream (n_in w')
       /\ ending_of (n_in w') = ending_of (n_in w).
Proof.
  intros B H. unfold receive_reply, st_bind at 1, net_receive at 1 in H.
  destruct (tcp_receive HEADER_SIZE (n_in w)) as [o s1] eqn:E1. destruct o as [hd| | |]; try discriminate.
  destruct (receive_padded _ _ _ _ B E1) as (k1 & K1 & S1 & N1 & L1 & B1).
  unfold st_bind at 1 in H. rewrite length_from_header_ok in H by (try assumption; rewrite L1; unfold HEADER_SIZE; lia).
  set (len := le_val (firstn 2 (skipn 2 hd))) in *.
  unfold st_bind at 1, net_receive in H; cbn [n_in n_sent n_results] in H.
  destruct (tcp_receive (Z.to_nat len) s1) as [o s2] eqn:E2. destruct o as [d| | |]; try discriminate.
  assert (B' : is_bytes (stream s1)).
  { assert (X : is_bytes (stream (n_in w) ++ zeros k1)) by (apply is_bytes_app; split; [assumption|apply zeros_bytes]).
    rewrite S1 in X. apply is_bytes_app in X. tauto. }
  destruct (receive_padded _ _ _ _ B' E2) as (k2 & K2 & S2 & N2 & L2 & B2).
  destruct (encaps_expand h encaps0 (hd ++ d)) as [p o] eqn:Ee. destruct o as [[]| | |]; try discriminate.
  cbn [finished bind] in H. rewrite check_verdict in H. unfold verdict in H.
  destruct (acceptable handle p) eqn:A; [|discriminate].
  assert (p = r) by congruence. subst p. assert (Ew : w' = mkNet (n_sent w) s2 (n_results w)) by congruence. subst w'.
  apply encaps_value in Ee; [|apply is_bytes_app; split; assumption|reflexivity]. destruct Ee as (W & El & Ep).
  split; [split; assumption|]. split; [assumption|]. cbn [n_in].
  exists (k1 + k2)%nat. split.
  - destruct K1 as [->|(K1 & _)]; [|auto]. destruct K2 as [->|(K2 & _)]; [auto|]. right. congruence.
  - split; [|congruence]. rewrite Ep, <- zeros_app, app_assoc, S1.
    rewrite <- app_assoc, S2. now rewrite app_assoc.
Qed.

(** Receiving never runs into undefined behaviour. *)
Lemma receive_reply_outcome h handle w : is_bytes (stream (n_in w)) ->
  match fst (receive_reply h handle w) with Ok _ | Throw _ => True | _ => False end.
Proof.
  intros B. unfold receive_reply, st_bind at 1, net_receive at 1.
  destruct (tcp_receive HEADER_SIZE (n_in w)) as [o s1] eqn:E1.
  assert (O1 : (exists d, o = Ok d) \/ exists e, o = Throw e).
  { destruct (Nat.le_gt_cases HEADER_SIZE (List.length (stream (n_in w)))) as [L|L].
    - destruct (receive_enough _ _ L) as (s & E' & _). rewrite E' in E1. inversion E1; eauto.
    - rewrite receive_short in E1 by assumption. destruct (ending_of (n_in w)); inversion E1; eauto. }
  destruct O1 as [[hd ->]|[e ->]]; [|exact I].
  destruct (receive_padded _ _ _ _ B E1) as (k1 & K1 & S1 & N1 & L1 & B1).
  unfold st_bind at 1. rewrite length_from_header_ok by (try assumption; rewrite L1; unfold HEADER_SIZE; lia).
  set (len := le_val (firstn 2 (skipn 2 hd))) in *.
  unfold st_bind at 1, net_receive; cbn [n_in n_sent n_results].
  assert (B' : is_bytes (stream s1)).
  { assert (X : is_bytes (stream (n_in w) ++ zeros k1)) by (apply is_bytes_app; split; [assumption|apply zeros_bytes]).
    rewrite S1 in X. apply is_bytes_app in X. tauto. }
  destruct (tcp_receive (Z.to_nat len) s1) as [o s2] eqn:E2.
  assert (O2 : (exists d, o = Ok d) \/ exists e, o = Throw e).
  { destruct (Nat.le_gt_cases (Z.to_nat len) (List.length (stream s1))) as [L|L].
    - destruct (receive_enough _ _ L) as (s & E' & _). rewrite E' in E2. inversion E2; eauto.
    - rewrite receive_short in E2 by assumption. destruct (ending_of s1); inversion E2; eauto. }
  destruct O2 as [[d ->]|[e ->]]; [|exact I].
  destruct (receive_padded _ _ _ _ B' E2) as (k2 & K2 & S2 & N2 & L2 & B2).
  assert (Bh : is_bytes (hd ++ d)) by (apply is_bytes_app; split; assumption).
  pose proof (encaps_reject h encaps0 (hd ++ d) Bh eq_refl) as R.
  destruct (encaps_expand h encaps0 (hd ++ d)) as [p o]. cbn [snd] in R.
  destruct R as [->|[->| ->]]; cbn [finished bind fst]; [|exact I..].
  rewrite check_verdict. unfold verdict. destruct (acceptable handle p); exact I.
Qed.

(** What goes out does not depend on what comes in. *)
Lemma receive_reply_sent h handle w : n_sent (snd (receive_reply h handle w)) = n_sent w
  /\ n_results (snd (receive_reply h handle w)) = n_results w.
Proof.
  unfold receive_reply, st_bind, net_receive.
  destruct (tcp_receive HEADER_SIZE (n_in w)) as [o s1]. destruct o as [hd| | |]; try (split; reflexivity).
  destruct (length_from_header h hd) as [len| | |]; try (split; reflexivity).
  cbn [n_in n_sent n_results].
  destruct (tcp_receive (Z.to_nat len) s1) as [o s2]. destruct o as [d| | |]; split; reflexivity.
Qed.

Lemma sar_good h p handle q r w : sends_all w (encaps_pack q) -> well_formed r ->
  forall rest, stream (incoming p w (encaps_pack q)) = encaps_pack r ++ rest ->
  exists w', send_and_receive h p handle q w = (verdict handle r, w')
    /\ stream (n_in w') = rest /\ ending_of (n_in w') = ending_of (incoming p w (encaps_pack q))
    /\ n_sent w' = n_sent w ++ [encaps_pack q] /\ n_results w' = tl (n_results w).
Proof.
  intros S W rest E. rewrite sar_sent by assumption.
  destruct (receive_reply_good h handle r (mkNet (n_sent w ++ [encaps_pack q]) (incoming p w (encaps_pack q)) (tl (n_results w))) W rest E)
    as (w' & H). exists w'. exact H.
Qed.

Lemma sar_sound h p handle q w r w' : sends_all w (encaps_pack q) ->
  is_bytes (stream (incoming p w (encaps_pack q))) ->
  send_and_receive h p handle q w = (Ok r, w') ->
  well_formed r /\ acceptable handle r = true
  /\ exists k, (k = O \/ ending_of (incoming p w (encaps_pack q)) = Closed)
       /\ stream (incoming p w (encaps_pack q)) ++ zeros k = encaps_pack r ++ stream (n_in w')
       /\ ending_of (n_in w') = ending_of (incoming p w (encaps_pack q)).
Proof.
  intros S B E. rewrite sar_sent in E by assumption. apply receive_reply_sound in E; assumption.
Qed.

(** For every result of send(). *)
Lemma net_send_cases p data w :
  (exists w1, net_send p data w = (Ok tt, w1)) \/ (exists e w1, net_send p data w = (Throw (SystemError e), w1)).
Proof.
  unfold net_send, send_check. cbv zeta.
  destruct (_ <? zlen data); [right|left]; eauto.
Qed.

Lemma sar_accepts h p handle q w r w' : (forall log data, is_bytes (stream (n_in w ++ p log data))) ->
  send_and_receive h p handle q w = (Ok r, w') ->
  e_status r = 0 /\ (handle <> 0 -> e_handle r = handle).
Proof.
  intros B E. unfold send_and_receive, st_bind at 1 in E.
  destruct (net_send p (encaps_pack q) w) as [o w1] eqn:En. destruct o as [[]| | |]; try discriminate.
  change (receive_reply h handle w1 = (Ok r, w')) in E.
  assert (B1 : is_bytes (stream (n_in w1))).
  { unfold net_send in En. cbv zeta in En. assert (X : n_in w1 = n_in (snd (Ok tt, w1))) by reflexivity.
    rewrite <- En in X. cbn [snd n_in] in X. rewrite X. apply B. }
  apply receive_reply_sound in E; [|assumption]. destruct E as (_ & A & _).
  unfold acceptable in A. apply andb_true_iff in A as [A1 A2]. split; [lia|].
  intros N. apply orb_true_iff in A2 as [A2|A2]; lia.
Qed.

Lemma session_handle0 : exists h p q w r w', send_and_receive h p 0 q w = (Ok r, w') /\ e_handle r <> 0.
Proof.
  exists strict, (fun _ _ => [Data (encaps_pack (packet 111 5 0 []))]), (rr_data_packet 0 0 []),
    (mkNet [] [] []), (packet 111 5 0 []), (mkNet [encaps_pack (rr_data_packet 0 0 [])] [] []).
  split; [reflexivity|discriminate].
Qed.

(** Registration *)
Lemma register_sound h p w handle w' : sends_all w (encaps_pack register_packet) ->
  let inc := incoming p w (encaps_pack register_packet) in
  is_bytes (stream inc) -> session_register h p w = (Ok handle, w') ->
  exists r k, well_formed r /\ e_status r = 0 /\ e_handle r = handle
    /\ (k = O \/ ending_of inc = Closed) /\ stream inc ++ zeros k = encaps_pack r ++ stream (n_in w').
Proof.
  intros S inc B E. unfold session_register, st_bind at 1 in E.
  destruct (send_and_receive h p 0 register_packet w) as [o w1] eqn:Es. destruct o as [r| | |]; try discriminate.
  apply sar_sound in Es; [|assumption..]. destruct Es as (W & A & k & K & St & _).
  unfold acceptable in A. cbn [Z.eqb orb] in A. rewrite andb_true_r in A.
  unfold ENCAPS_SUCCESS in E. rewrite A in E. cbn [negb] in E.
  assert (e_handle r = handle /\ w1 = w') as [Eh ->] by (split; congruence).
  exists r, k. split; [assumption|]. split; [lia|]. auto.
Qed.
Lemma register_good h p w r rest : sends_all w (encaps_pack register_packet) -> well_formed r -> e_status r = 0 ->
  stream (incoming p w (encaps_pack register_packet)) = encaps_pack r ++ rest ->
  exists w', session_register h p w = (Ok (e_handle r), w') /\ stream (n_in w') = rest
    /\ ending_of (n_in w') = ending_of (incoming p w (encaps_pack register_packet))
    /\ n_sent w' = n_sent w ++ [encaps_pack register_packet] /\ n_results w' = tl (n_results w).
Proof.
  intros S W Z E. destruct (sar_good h p 0 register_packet r w S W rest E) as (w' & Es & H).
  exists w'. split; [|exact H]. unfold session_register, st_bind. rewrite Es.
  unfold verdict, acceptable. rewrite Z. cbn [Z.eqb andb orb]. unfold ENCAPS_SUCCESS. rewrite Z. reflexivity.
Qed.
Lemma register_refuted : exists h p w w', sends_all w (encaps_pack register_packet)
  /\ (forall log data, stream (p log data) = []) /\ n_in w = []
  /\ session_register h p w = (Ok 0, w').
Proof.
  exists strict, (fun _ _ => [Eof]), (mkNet [] [] []), (mkNet [encaps_pack register_packet] [Eof] []).
  split; [exact I|]. split; [reflexivity|]. split; reflexivity.
Qed.

Lemma register_status h p w r rest : sends_all w (encaps_pack register_packet) -> well_formed r -> e_status r <> 0 ->
  stream (incoming p w (encaps_pack register_packet)) = encaps_pack r ++ rest ->
  fst (session_register h p w) = Throw (RuntimeError RtSessionStatus).
Proof.
  intros S W Z E. destruct (sar_good h p 0 register_packet r w S W rest E) as (w' & Es & H).
  unfold session_register, st_bind. rewrite Es. unfold verdict, acceptable.
  replace (e_status r =? 0) with false by (symmetry; apply Z.eqb_neq; assumption). reflexivity.
Qed.

(** Histories *)
Lemma exchanges_paired h p handle qs rs log : answers p log qs rs -> forall w,
  n_sent w = log -> n_results w = [] -> drained (n_in w) ->
  exists w', exchanges h p handle qs w = (map (verdict handle) rs, w')
    /\ n_sent w' = log ++ map encaps_pack qs /\ n_results w' = [] /\ drained (n_in w').
Proof.
  induction 1 as [log|log q qs r rs W E Q _ IH]; intros w L R D; cbn [exchanges map].
  - exists w. rewrite app_nil_r. auto.
  - destruct D as [D1 D2]. destruct (stream_app (n_in w) (p (n_sent w) (encaps_pack q)) D2) as (A1 & A2 & A3).
    destruct (sar_good h p handle q r w) with (rest := @nil Z) as (w1 & Es & S1 & N1 & L1 & R1).
    + unfold sends_all. now rewrite R.
    + assumption.
    + unfold incoming. rewrite A1, D1, L, E. now rewrite app_nil_r.
    + rewrite Es. unfold incoming in N1. rewrite A2, L, Q in N1.
      destruct (IH w1) as (w2 & E2 & L2 & R2 & D2').
      * now rewrite L1, L.
      * now rewrite R1, R.
      * split; assumption.
      * rewrite E2. exists w2. split; [reflexivity|]. split; [|auto]. rewrite L2, <- app_assoc. reflexivity.
Qed.

Lemma exchanges_sent h p handle qs : forall w, n_results w = [] ->
  n_sent (snd (exchanges h p handle qs w)) = n_sent w ++ map encaps_pack qs
  /\ n_results (snd (exchanges h p handle qs w)) = []
  /\ List.length (fst (exchanges h p handle qs w)) = List.length qs.
Proof.
  induction qs as [|q qs IH]; intros w R; cbn [exchanges map].
  - rewrite app_nil_r. auto.
  - assert (S : sends_all w (encaps_pack q)) by (unfold sends_all; now rewrite R).
    rewrite (sar_sent h p handle q w S).
    set (w0 := mkNet (n_sent w ++ [encaps_pack q]) (incoming p w (encaps_pack q)) (tl (n_results w))).
    destruct (receive_reply_sent h handle w0) as [X Y].
    destruct (receive_reply h handle w0) as [o w1]. cbn [snd] in X, Y.
    destruct (IH w1) as (H1 & H2 & H3). { rewrite Y. subst w0. cbn [n_results]. now rewrite R. }
    destruct (exchanges h p handle qs w1) as [os w2]. cbn [fst snd] in *.
    rewrite H1, X. subst w0. cbn [n_sent]. rewrite <- app_assoc. split; [reflexivity|].
    split; [assumption|]. cbn [List.length]. now rewrite H3.
Qed.

Lemma pairing_refuted : exists p handle q1 q2 r1 r2 w os w',
  stream (p [] (encaps_pack q1)) = [] /\ after (p [] (encaps_pack q1)) = [Data (encaps_pack r1)]
  /\ p [encaps_pack q1] (encaps_pack q2) = [Data (encaps_pack r2)]
  /\ well_formed r1 /\ well_formed r2 /\ r1 <> r2 /\ w = mkNet [] [] []
  /\ exchanges strict p handle [q1; q2] w = (os, w')
  /\ os = [Throw (SystemError 11); Ok r1].
Proof.
  set (q1 := rr_data_packet 7 0 [1]). set (q2 := rr_data_packet 7 0 [2]).
  set (r1 := packet 111 7 0 [11]). set (r2 := packet 111 7 0 [22]).
  exists (fun log _ => match log with [] => [Err 11; Data (encaps_pack r1)] | _ => [Data (encaps_pack r2)] end),
    7, q1, q2, r1, r2, (mkNet [] [] []).
  assert (W : forall x, is_u8 x -> well_formed (packet 111 7 0 [x])).
  { intros x X. split; [|reflexivity]. apply packet_wf; [unfold is_u16; lia|unfold is_u32; lia|unfold is_u32; lia|].
    repeat constructor; apply X. }
  do 2 eexists. split; [reflexivity|]. split; [reflexivity|]. split; [reflexivity|].
  split; [apply W; unfold is_u8; lia|]. split; [apply W; unfold is_u8; lia|].
  split; [discriminate|]. split; [reflexivity|]. split; [vm_compute; reflexivity|]. reflexivity.
Qed.

(** Destruction *)
Lemma destroy_ok p handle w : sends_all w (encaps_pack (unregister_packet handle)) ->
  exists w', session_destroy p handle w = (Ok tt, w')
  /\ n_sent w' = n_sent w ++ [encaps_bytes 102 0 handle 0 [0;0;0;0;0;0;0;0] 0 []].
Proof.
  intros S. unfold session_destroy. rewrite net_send_all by assumption.
  eexists. split; [reflexivity|]. cbn [n_sent]. now rewrite factory_unregister.
Qed.
Lemma destroy_short p handle w c e rs : n_results w = mkSend c e :: rs -> 0 <= c < 24 ->
  fst (session_destroy p handle w) = Abort.
Proof.
  intros R C. unfold session_destroy, net_send. rewrite R. cbv zeta. cbn [s_count s_errno].
  rewrite factory_unregister. unfold send_check; cbn [s_count s_errno].
  destruct (Z.ltb_spec c 0); [lia|].
  change (zlen (encaps_bytes 102 0 handle 0 (zeros 8) 0 [])) with 24.
  destruct (Z.ltb_spec c 24); [reflexivity|lia].
Qed.

(** Whole life of a session over which every send() accepts everything: for
    any peer, what reaches the peer is the registration, each request once and
    in order, and one unregistration with the handle of this session. *)
Lemma life h p w handle w1 qs : n_results w = [] -> session_register h p w = (Ok handle, w1) ->
  n_sent (snd (session_destroy p handle (snd (exchanges h p handle qs w1))))
  = n_sent w ++ [encaps_pack register_packet] ++ map encaps_pack qs
    ++ [encaps_bytes 102 0 handle 0 [0;0;0;0;0;0;0;0] 0 []].
Proof.
  intros R E.
  assert (S : sends_all w (encaps_pack register_packet)) by (unfold sends_all; now rewrite R).
  assert (X : n_sent w1 = n_sent w ++ [encaps_pack register_packet] /\ n_results w1 = []).
  { unfold session_register, st_bind at 1 in E. rewrite (sar_sent h p 0 register_packet w S) in E.
    set (w0 := mkNet _ _ _) in E. destruct (receive_reply_sent h 0 w0) as [X Y].
    destruct (receive_reply h 0 w0) as [o w2]. cbn [snd] in X, Y. destruct o; try discriminate.
    assert (w2 = w1) by congruence. subst w2. rewrite X, Y. subst w0. cbn [n_sent n_results]. now rewrite R. }
  destruct X as [X Y]. destruct (exchanges_sent h p handle qs w1 Y) as (H1 & H2 & _).
  destruct (destroy_ok p handle (snd (exchanges h p handle qs w1))) as (w3 & E3 & H3).
  { unfold sends_all. now rewrite H2. }
  rewrite E3. cbn [snd]. rewrite H3, H1, X, <- !app_assoc. reflexivity.
Qed.

Lemma open_descriptor h k p w : k_getfl1 k = None -> k_setfl1 k = None ->
  let '(run, fd) := session_open h k p in
  match fst (run w) with
  | Ok _ => exists flags, fd w = OpenFd flags /\ Z.testbit flags 11 = false
  | _ => fd w = NoFd \/ fd w = ClosedFd
  end.
Proof.
  intros G S. unfold session_open. destruct (connect_partial k G S) as [->|(e & fd & -> & F)].
  - destruct (fst (session_register h p w)); [|right; reflexivity..].
    eexists. split; [reflexivity|]. rewrite connect_flags by lia. reflexivity.
  - cbn [fst]. assumption.
Qed.
