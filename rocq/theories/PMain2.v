(** Proofs about whole programs: implicit messaging, and sessions that fail. *)
From Verif Require Import Base MBuffer SBuffer PBase MEip SEip SObj PObj MSocket SSocket PSocket MFile SFile PFile MIdent MParam SParam MYaskawa
  MConnReq SConnReq MConn SConn PConnMap PConnHist PConnTop SLife PLife SHost PHost STarget PTarget SWire PWire MExample SExample PExample PExample2 MMain SMain PMain.
Local Open Scope Z_scope.

Section Implicit.
Context {D : Type}.
Variables (p : peer) (handle : Z) (dev : device D) (d : D).
Hypothesis HP : hosts p handle dev d.
Hypothesis HD : device_wf dev.
Hypothesis HH : is_u32 handle.
Variable h : heap.
Notation live := (live_session h p handle).
Notation direct := (served handle dev).

Definition good (g : globals) (ms : nat -> mgr) : Prop := (forall i, mgr_inv g (ms i)) /\ forall i, sendable_paths (ms i).
Definition wlike {A} (m : st (world net) A) (m' : st (world (D * trace)) A) : Prop :=
  forall g ms w, good g ms -> idle w -> exists o g' ms' w',
    m (mkWorld g ms w) = (o, mkWorld g' ms' w')
    /\ m' (mkWorld g ms (played handle dev d (n_sent w))) = (o, mkWorld g' ms' (played handle dev d (n_sent w')))
    /\ went_on handle w w' /\ good g' ms'.
Lemma wlike_call i op : ncall_wf op -> wlike (call_world h i (over live op)) (call_world h i (over direct op)).
Proof.
  intros W g ms w [Iv P] Id. unfold call_world. cbn [w_g w_m w_s].
  destruct (call_like p handle dev d h HP HD HH op g (ms i) w W (P i) Id) as (o & g1 & m1 & w1 & E1 & E2 & I1). rewrite E1, E2.
  destruct (call_inv h (over live op) g (ms i) w _ _ _ _ (Iv i) E1) as [Iv1 Le].
  pose proof (paths_call h live op g (ms i) w _ _ _ _ (Iv i) (P i) W E1) as Pv.
  eexists _, _, _, _. split; [reflexivity|]. split; [reflexivity|]. split; [exact I1|]. split.
  - intros j. unfold update. destruct (Nat.eqb j i); [assumption|]. eapply inv_later; eauto.
  - intros j. unfold update. destruct (Nat.eqb j i); [assumption|apply P].
Qed.
Lemma wlike_loop rs n : wlike (serve_loop h rs n) (serve_loop h rs n).
Proof.
  induction n as [|n IH]; intros g ms w G I; cbn [serve_loop].
  - eexists _, _, _, _. split; [reflexivity|]. split; [reflexivity|]. split; [now apply wo_refl|exact G].
  - cbn [w_m]. destruct (has_open (ms 0%nat)).
    2: { eexists _, _, _, _. split; [reflexivity|]. split; [reflexivity|]. split; [now apply wo_refl|exact G]. }
    destruct (rs n) as [[[rounds ending] now] send].
    destruct (wlike_call 0 (NHandle rounds ending (mkTick now (fun _ d => d) send)) Logic.I g ms w G I) as (o & g1 & ms1 & w1 & E1 & E2 & W1 & G1).
    cbn [over] in E1, E2. rewrite E1, E2. destruct o as [a|e|u|].
    2-4: eexists _, _, _, _; split; [reflexivity|]; split; [reflexivity|]; split; [exact W1|exact G1].
    destruct (IH g1 ms1 w1 G1 (proj1 W1)) as (o2 & g2 & ms2 & w2 & F1 & F2 & W2 & G2). rewrite F1, F2.
    eexists _, _, _, _. split; [reflexivity|]. split; [reflexivity|]. split; [eapply wo_trans; eassumption|exact G2].
Qed.
Lemma wlike_implicit host env rs : wlike (implicit_example h live host env rs) (implicit_example h direct host env rs).
Proof.
  intros g ms w G I. unfold implicit_example.
  destruct (wlike_call 0 (NOpen false host env false example_params) example_wf g ms w G I) as (o & g1 & ms1 & w1 & E1 & E2 & W1 & G1).
  cbn [over] in E1, E2. rewrite E1, E2. destruct o as [io|e|u|].
  2-4: eexists _, _, _, _; split; [reflexivity|]; split; [reflexivity|]; split; [exact W1|exact G1].
  cbn zeta.
  set (x := match io with Some oid => _ | None => mkWorld g1 ms1 w1 end).
  set (x' := match io with Some oid => _ | None => mkWorld g1 ms1 (played handle dev d (n_sent w1)) end).
  assert (X : exists g2 ms2 w2, x = mkWorld g2 ms2 w2 /\ x' = mkWorld g2 ms2 (played handle dev d (n_sent w2)) /\ went_on handle w w2 /\ good g2 ms2).
  { unfold x, x'. destruct io as [oid|]; [|exists g1, ms1, w1; auto]. cbn [w_m]. destruct (lock oid (ms1 0%nat)); [|exists g1, ms1, w1; auto].
    destruct (wlike_call 0 (NData oid (zeros 32)) Logic.I g1 ms1 w1 G1 (proj1 W1)) as (o2 & g2 & ms2 & w2 & F1 & F2 & W2 & G2).
    cbn [over] in F1, F2. rewrite F1, F2. exists g2, ms2, w2. split; [reflexivity|]. split; [reflexivity|]. split; [eapply wo_trans; eassumption|exact G2]. }
  clearbody x x'. destruct X as (g2 & ms2 & w2 & -> & -> & W2 & G2).
  destruct (wlike_loop rs 200 g2 ms2 w2 G2 (proj1 W2)) as (o3 & g3 & ms3 & w3 & F1 & F2 & W3 & G3). rewrite F1, F2.
  pose proof (wo_trans _ _ _ _ W2 W3) as W23. destruct o3 as [n|e|u|].
  2-4: eexists _, _, _, _; split; [reflexivity|]; split; [reflexivity|]; split; [exact W23|exact G3].
  destruct io as [oid|].
  2: { eexists _, _, _, _. split; [reflexivity|]. split; [reflexivity|]. split; [exact W23|exact G3]. }
  destruct (wlike_call 0 (NClose false oid) Logic.I g3 ms3 w3 G3 (proj1 W3)) as (o4 & g4 & ms4 & w4 & H1 & H2 & W4 & G4).
  cbn [over] in H1, H2. rewrite H1, H2. eexists _, _, _, _. split; [reflexivity|]. split; [reflexivity|]. split; [eapply wo_trans; eassumption|exact G4].
Qed.
Lemma like_implicit inc host env rs :
  like handle dev d (fun w => let '(o, w') := implicit_example h live host env rs (mkWorld globals0 (fun _ => mgr0 inc) w) in (o, w_s w'))
    (fun s => let '(o, s') := implicit_example h direct host env rs (mkWorld globals0 (fun _ => mgr0 inc) s) in (o, w_s s')).
Proof.
  intros w I. destruct (wlike_implicit host env rs globals0 (fun _ => mgr0 inc) w) as (o & g' & ms' & w' & E1 & E2 & W & _).
  - split; [intros i; apply inv_new|]. intros i oid c L. discriminate.
  - exact I.
  - unfold same_run. rewrite E1, E2. cbn [fst snd w_s]. exists w'. auto.
Qed.
End Implicit.

Lemma exchange_sends h p handle q w : exists x, n_sent (snd (send_and_receive h p handle q w)) = n_sent w ++ [x].
Proof.
  unfold send_and_receive, st_bind, net_send, net_receive. cbv zeta. eexists.
  destruct (send_check _ _); [|reflexivity..]. cbn [n_in n_sent n_results].
  destruct (tcp_receive HEADER_SIZE _) as [[hd|e|u|] s1]; try reflexivity. destruct (length_from_header h hd); try reflexivity. cbn [n_in n_sent n_results].
  destruct (tcp_receive _ s1) as [[x|e|u|] s2]; reflexivity.
Qed.
Lemma no_session {A} h k p (body : session_if net -> st net A) w o w1 : fst (session_open h k p) w = (o, w1) -> (forall handle, o <> Ok handle) ->
  (exists o', session_main h k p body w = (o', w1) /\ (forall a, o' <> Ok a) /\ (forall e, o' <> Throw e))
  /\ (n_sent w1 = n_sent w \/ exists x, n_sent w1 = n_sent w ++ [x]).
Proof.
  intros E N. split.
  - unfold session_main, st_bind at 1. rewrite E. destruct o as [a|e|u|]; [now elim (N a)|..]; eexists; (split; [reflexivity|]); split; discriminate.
  - unfold session_open in E. destruct (tcp_connect k) as [[[]|e|u|] fd]; cbn [fst] in E; try (injection E as _ <-; now left).
    right. unfold session_register, st_bind in E. destruct (exchange_sends h p 0 register_packet w) as (x & X).
    destruct (send_and_receive h p 0 register_packet w) as [[r|e|u|] w2]; injection E as _ <-; now exists x.
Qed.

(** The whole way of a file. *)
Lemma file_over_tcp h k p handle F T crc : is_u32 handle -> is_bytes F -> zlen F < 2 ^ 32 -> 1 <= T <= 255 ->
  is_bytes crc -> List.length crc = 2%nat -> fst (tcp_connect k) = Ok tt ->
  registers p handle -> hosts p handle (uploader 200 F T crc) None ->
  exists n, Z.of_nat n = pieces (zlen F) T
    /\ forall m, (n <= m)%nat -> exists w', file_main h k p m (mkNet [] [] []) = (Ok (false, Some F), w')
         /\ List.length (n_sent w') = (n + 4)%nat.
Proof.
  intros H BF LF TT BC LC C R HP. pose proof (uploader_wf 200 F T crc BF TT BC LC) as HD.
  destruct (file_saved h handle F T crc H BF LF TT BC LC []) as (n & trn & N & L & Run).
  exists n. split; [exact N|]. intros m Lm.
  assert (Wh : whole handle (uploader 200 F T crc) None (file_main h k p m) (file_example h (served handle (uploader 200 F T crc)) m)).
  { apply main_whole; try assumption. apply like_file; assumption. }
  destruct Wh as (o & tr & w' & E & M & (req & Ca & S)). pose proof (eq_trans (eq_sym (Run m Lm)) E) as Q. injection Q as <- _ <-. exists w'. split; [exact M|].
  rewrite S. cbn [List.length]. rewrite app_length. unfold carries in Ca. apply (f_equal (@List.length _)) in Ca. rewrite !map_length in Ca. rewrite Ca, L. cbn. lia.
Qed.
(** The whole way of implicit messages. *)
Lemma implicit_over_tcp h k p handle pol inc host env rs o w' : is_u32 handle -> policy_wf pol -> fst (tcp_connect k) = Ok tt ->
  registers p handle -> hosts p handle (target pol) [] ->
  implicit_main h k p inc host env rs (mkNet [] [] []) = (o, w') ->
  exists q c requests, example_open q c
  /\ n_sent w' = register_bytes :: requests ++ match o with Ok _ => [unregister_bytes handle] | _ => [] end
  /\ let T := fst (played handle (target pol) [] (n_sent w')) in
     (o = Ok 0%nat /\ map (asked_in handle) requests = [Some q] /\ T = []
      \/ exists t, tc_name t = (c_serial c, c_vendor c, c_origSerial c) /\ tc_path t = c_path c
         /\ ((exists q', o = Ok 200%nat /\ map (asked_in handle) requests = [Some q; Some q'] /\ example_close q' t /\ T = [])
             \/ (exists n, o = Ok n /\ (0 < n <= 200)%nat /\ map (asked_in handle) requests = [Some q] /\ T = [t])
             \/ ((forall n, o <> Ok n) /\ map (asked_in handle) requests = [Some q] /\ T = [t]))).
Proof.
  intros H W C R HP M. pose proof (target_wf pol W) as HD.
  assert (Wh : whole handle (target pol) [] (implicit_main h k p inc host env rs)
    (fun s => let '(o, s') := implicit_example h (served handle (target pol)) host env rs (mkWorld globals0 (fun _ => mgr0 inc) s) in (o, w_s s'))).
  { apply main_whole; try assumption. now apply like_implicit. }
  destruct Wh as (o' & tr & w1 & E & M' & (req & Ca & S)).
  pose proof (eq_trans (eq_sym M) M') as Q. injection Q as -> ->. clear M'.
  match type of E with context [implicit_example ?a ?b ?c ?d ?e ?f] => destruct (implicit_example a b c d e f) as [oo [g' ms' s']] eqn:X end.
  change (mkWorld globals0 (fun _ => mgr0 inc) _) with (target_start (fun _ : nat => inc)) in X.
  destruct (implicit_runs _ _ _ _ _ _ _ _ _ H W X) as (q & c & a & more & EO & Tr & Rest).
  cbn [w_s] in E, Tr. injection E as -> E. unfold at_target in Rest. cbn [w_s w_m] in Rest. rewrite E in Tr, Rest. cbn [fst snd] in Tr, Rest. rewrite Tr in Ca.
  exists q, c, req. split; [exact EO|]. unfold carries in Ca. cbn [map fst] in Ca.
  assert (S' : n_sent w1 = register_bytes :: req ++ match match o' with Throw _ => Abort | _ => o' end with Ok _ => [unregister_bytes handle] | _ => [] end) by (rewrite S; now destruct o').
  split; [exact S'|]. cbv zeta.
  destruct Rest as [(_ & -> & -> & T & _)|(_ & t & N & P & _ & Rest)].
  - left. auto.
  - right. exists t. split; [exact N|]. split; [exact P|]. destruct Rest as [(q' & a' & -> & -> & EC & _ & T & _)|[(n & -> & B & -> & T & _)|(NO & -> & T)]].
    + left. exists q'. auto.
    + right. left. exists n. auto.
    + right. right. split; [|auto]. intros n F. destruct o'; try discriminate F. now apply (NO n).
Qed.
