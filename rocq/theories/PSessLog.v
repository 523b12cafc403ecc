(** Proofs about the log of sessions. *)
From Coq Require Import Permutation.
From Verif Require Import Base MBuffer PBase MEip SEip MSocket SSocket PSocket SSession PSession MLog MMsg SMsg SText PText PMsg MConn MFd MRes SRes PRes MSessLog SSessLog.
Local Open Scope Z_scope.

Lemma read_registered v : 0 <= v -> handle_after "Registered session " (registered_message v) = [v]
  /\ handle_after "Unregistered session " (registered_message v) = [].
Proof.
  intros V. unfold registered_message, handle_after. cbn [snd]. rewrite strip_app.
  pose proof (number_to_string v "" V I) as N. rewrite append_nil in N. rewrite N. split; reflexivity.
Qed.
Lemma read_unregistered v : 0 <= v -> handle_after "Unregistered session " (unregistered_message v) = [v]
  /\ handle_after "Registered session " (unregistered_message v) = [].
Proof.
  intros V. unfold unregistered_message, handle_after. cbn [snd]. rewrite strip_app.
  pose proof (number_to_string v "" V I) as N. rewrite append_nil in N. rewrite N. split; reflexivity.
Qed.

Lemma logged_run h : forall cs s l, fst (rrun_logged h cs (s, l)) = rrun h cs s.
Proof.
  induction cs as [|c cs IH]; intros s l; [reflexivity|]. cbn [rrun_logged rrun]. destruct (rw_over s); [reflexivity|]. apply IH.
Qed.

(** The handle a session gets is a number of 32 bits. *)
Lemma handle_u32 h fd k p w handle w' ev : on_the_wire (ROpen fd k p w) ->
  session_open_fd h fd k p w = (Ok handle, w', ev) -> is_u32 handle.
Proof.
  intros B E. unfold session_open_fd in E. destruct (tcp_connect_fd fd k) as [[u|e|u|] d]; try discriminate.
  destruct (session_register h p w) as [o w1] eqn:R. injection E as -> _ _. unfold session_register, st_bind at 1 in R.
  destruct (send_and_receive h p 0 register_packet w) as [o2 w2] eqn:Es. destruct o2 as [r| | |]; try discriminate.
  destruct (negb _); [discriminate|]. injection R as <- _.
  unfold send_and_receive, st_bind at 1 in Es. destruct (net_send p (encaps_pack register_packet) w) as [o w3] eqn:En.
  destruct o as [[]| | |]; try discriminate. change (receive_reply h 0 w3 = (Ok r, w2)) in Es.
  assert (B1 : is_bytes (stream (n_in w3))).
  { unfold net_send in En. cbv zeta in En. assert (X : n_in w3 = n_in (snd (Ok tt, w3))) by reflexivity.
    rewrite <- En in X. cbn [snd n_in] in X. rewrite X. apply B. }
  apply receive_reply_sound in Es; [|assumption]. destruct Es as (W & _). destruct W as [W _]. unfold encaps_wf in W. tauto.
Qed.

Definition lives (s : rworld) : Prop := forall i v, rw_live s i = Some v -> (i < rw_next s)%nat /\ 0 <= lv_handle v.
Definition agrees (s : rworld) (l : list message) : Prop :=
  lives s /\ (rw_over s = false -> Permutation (registered l) (unregistered l ++ living s (rw_next s))).

Lemma living_ext s s' n : (forall i, (i < n)%nat -> rw_live s' i = rw_live s i \/
   exists v v', rw_live s i = Some v /\ rw_live s' i = Some v' /\ lv_handle v' = lv_handle v) -> living s' n = living s n.
Proof.
  intros H. unfold living. rewrite !flat_map_concat_map. f_equal. apply map_ext_in. intros i I. apply in_seq in I.
  destruct (H i) as [->|(v & v' & A & B & C)]; [lia|reflexivity|]. rewrite A, B, C. reflexivity.
Qed.
Lemma living_S s n : living s (S n) = living s n ++ match rw_live s n with Some v => [lv_handle v] | None => [] end.
Proof. unfold living. rewrite seq_S, flat_map_app. cbn [flat_map Nat.add]. now rewrite app_nil_r. Qed.
Lemma living_drop s s' i v n : (i < n)%nat -> rw_live s i = Some v -> (forall j, rw_live s' j = if Nat.eqb j i then None else rw_live s j) ->
  Permutation (living s n) (lv_handle v :: living s' n).
Proof.
  intros I L H. induction n as [|n IH]; [lia|]. rewrite !living_S. rewrite H. destruct (Nat.eqb_spec n i) as [->|D].
  - rewrite L, app_nil_r. rewrite (living_ext s s' i); [symmetry; apply Permutation_cons_append|].
    intros j J. left. rewrite H. destruct (Nat.eqb_spec j i); [lia|reflexivity].
  - rewrite IH by lia. reflexivity.
Qed.

Lemma close_no_throw p v fd w e ev : session_close_fd p v fd w <> (Throw e, ev).
Proof.
  unfold session_close_fd, session_destroy. destruct (net_send_cases p (encaps_pack (unregister_packet v)) w) as [(w1 & ->)|(e' & w1 & ->)];
    cbn [fst]; discriminate.
Qed.
Lemma agrees_step h c s l : on_the_wire c -> rw_over s = false -> agrees s l -> agrees (rstep h c s) (l ++ session_log h c s).
Proof.
  intros B Os [L P]. specialize (P Os). unfold agrees, registered, unregistered in *. rewrite !flat_map_app.
  destruct c as [fd k p w|i q|i|sock b sent ep ds]; cbn [rstep session_log].
  - destruct (session_open_fd h fd k p w) as [[o w'] ev] eqn:E. destruct o as [v|e|u|]; cbn [rw_live rw_next rw_over ends flat_map app].
    + assert (V := handle_u32 h fd k p w v w' ev B E).
      destruct (read_registered v) as [R1 R2]; [unfold is_u32 in V; lia|]. split.
      * intros j x. cbn [rw_live rw_next]. unfold update. destruct (Nat.eqb_spec j (rw_next s)) as [->|].
        -- intros X. injection X as <-. cbn [lv_handle]. split; [lia|unfold is_u32 in V; lia].
        -- intros X. apply L in X. split; [lia|tauto].
      * intros _. rewrite R1, R2, !app_nil_r. rewrite living_S. rewrite (living_ext s).
        { cbn [rw_live]. unfold update. rewrite Nat.eqb_refl. cbn [lv_handle]. rewrite app_assoc. now apply Permutation_app_tail. }
        intros j J. left. cbn [rw_live]. unfold update. destruct (Nat.eqb_spec j (rw_next s)); [lia|reflexivity].
    + split; [intros j x X; apply L in X; cbn [rw_next]; split; [lia|tauto]|]. intros _. rewrite !app_nil_r, living_S. cbn [rw_live].
      destruct (rw_live s (rw_next s)) eqn:X; [apply L in X; lia|]. rewrite app_nil_r. exact P.
    + split; [intros j x X; apply L in X; cbn [rw_next]; split; [lia|tauto]|discriminate].
    + split; [intros j x X; apply L in X; cbn [rw_next]; split; [lia|tauto]|discriminate].
  - cbn [flat_map]. rewrite !app_nil_r. destruct (rw_live s i) as [v|] eqn:X; [|split; [exact L|intros _; exact P]].
    destruct (send_and_receive _ _ _ _ _) as [o w']. split.
    + intros j x. cbn [rw_live rw_next]. unfold update. destruct (Nat.eqb_spec j i) as [->|].
      * intros Y. injection Y as <-. apply L in X. exact X.
      * apply L.
    + intros _. cbn [rw_next]. rewrite (living_ext s); [exact P|]. intros j J. cbn [rw_live]. unfold update.
      destruct (Nat.eqb_spec j i) as [->|]; [right; eexists _, _; split; [exact X|]; split; reflexivity|now left].
  - destruct (rw_live s i) as [v|] eqn:X; [|cbn [flat_map]; rewrite !app_nil_r; split; [exact L|intros _; exact P]].
    destruct (session_close_fd _ _ _ _) as [o ev] eqn:C. split.
    + intros j x. cbn [rw_live rw_next]. unfold update. destruct (Nat.eqb_spec j i); [discriminate|apply L].
    + cbn [rw_over rw_next]. destruct (L i v X) as [I V]. destruct o as [[]|e| |]; try discriminate; intros _.
      * cbn [flat_map]. destruct (read_unregistered (lv_handle v) V) as [R1 R2]. rewrite R1, R2, !app_nil_r. rewrite P, <- app_assoc.
        apply Permutation_app_head. apply (living_drop s _ i v); [exact I|exact X|]. intros j. reflexivity.
      * now apply close_no_throw in C.
  - cbn [flat_map]. rewrite !app_nil_r. destruct (discover_fd _ _ _ _ _ _) as [[o w'] ev]. split; [exact L|]. intros _. exact P.
Qed.

Lemma agrees_run h : forall cs s l, Forall on_the_wire cs -> agrees s l ->
  agrees (fst (rrun_logged h cs (s, l))) (snd (rrun_logged h cs (s, l))).
Proof.
  induction cs as [|c cs IH]; intros s l F A; [exact A|]. cbn [rrun_logged]. destruct (rw_over s) eqn:O; [exact A|].
  inv F. apply IH; [assumption|]. now apply agrees_step.
Qed.
Lemma agrees_start : agrees rstart [].
Proof. split; [discriminate|]. intros _. constructor. Qed.

Lemma logged_snoc h c : forall cs s l, rw_over (rrun h cs s) = false ->
  rrun_logged h (cs ++ [c]) (s, l)
  = (rstep h c (rrun h cs s), snd (rrun_logged h cs (s, l)) ++ session_log h c (rrun h cs s)).
Proof.
  induction cs as [|x cs IH]; intros s l O; cbn [app rrun_logged rrun snd] in *; [now rewrite O|].
  destruct (rw_over s) eqn:Os; [congruence|]. now apply IH.
Qed.
Lemma told_call h cs c : Forall on_the_wire (cs ++ [c]) -> rw_over (rrun h cs rstart) = false ->
  let s := rrun h cs rstart in let s' := rstep h c s in
  exists lg, rrun_logged h (cs ++ [c]) (rstart, []) = (s', snd (rrun_logged h cs (rstart, [])) ++ lg) /\ call_told c s s' lg.
Proof.
  intros F O s s'. exists (session_log h c s). split; [now apply logged_snoc|].
  apply Forall_app in F as [F Fc]. inv Fc. rename H1 into B.
  assert (A : lives s).
  { pose proof (agrees_run h cs rstart [] F agrees_start) as [A _]. rewrite logged_run in A. exact A. }
  subst s'. unfold call_told. destruct c as [fd k p w|i q|i|sock b sent ep ds]; cbn [session_log]; try reflexivity.
  - cbn [rstep]. destruct (session_open_fd h fd k p w) as [[o w'] ev] eqn:E.
    assert (N : rw_live s (rw_next s) = None) by (destruct (rw_live s (rw_next s)) eqn:X; [apply A in X; lia|reflexivity]).
    destruct o as [v|e|u|]; cbn [rw_live]; try (rewrite N; reflexivity).
    unfold update. rewrite Nat.eqb_refl. cbn [lv_handle]. eexists. split; [apply to_string_numeral|reflexivity].
    apply (handle_u32 h fd k p w v w' ev B) in E. unfold is_u32 in E. lia.
  - cbn [rstep]. destruct (rw_live s i) as [v|] eqn:L; [|reflexivity].
    destruct (session_close_fd _ _ _ _) as [o ev] eqn:C. cbn [rw_over].
    destruct o as [[]|e| |]; cbn [ends]; try reflexivity; [|now apply close_no_throw in C].
    eexists. split; [apply to_string_numeral; now apply A in L|reflexivity].
Qed.
Lemma exchanges_fold h p handle : forall qs w,
  fold_left (fun w q => snd (send_and_receive h p handle q w)) qs w = snd (exchanges h p handle qs w).
Proof.
  induction qs as [|q qs IH]; intros w; [reflexivity|]. cbn [fold_left exchanges].
  destruct (send_and_receive h p handle q w) as [o w1]. cbn [snd]. rewrite IH. now destruct (exchanges h p handle qs w1).
Qed.

Lemma in_living s v : lives s -> (In v (living s (rw_next s)) <-> exists i x, rw_live s i = Some x /\ lv_handle x = v).
Proof.
  intros L. unfold living. rewrite in_flat_map. split.
  - intros (i & _ & I). destruct (rw_live s i) as [x|] eqn:X; [|destruct I]. destruct I as [I|[]]. now exists i, x.
  - intros (i & x & X & <-). exists i. split; [|rewrite X; now left]. apply in_seq. apply L in X. lia.
Qed.
Lemma distinct_live h cs v : Forall on_the_wire cs ->
  let '(s, l) := rrun_logged h cs (rstart, []) in
  rw_over s = false -> NoDup (registered l) ->
  ((exists i x, rw_live s i = Some x /\ lv_handle x = v) <-> In v (registered l) /\ ~ In v (unregistered l)).
Proof.
  intros F. pose proof (agrees_run h cs rstart [] F agrees_start) as [L A]. destruct (rrun_logged h cs (rstart, [])) as [s l].
  cbn [fst snd] in *. intros O N. specialize (A O). rewrite <- (in_living s v L).
  assert (N' := Permutation_NoDup A N). split.
  - intros I. split; [apply (Permutation_in v (Permutation_sym A)), in_or_app; now right|].
    intros U. apply in_split in U as (a & b & E). rewrite E in N'. rewrite <- app_assoc in N'. cbn [app] in N'. apply NoDup_remove_2 in N'.
    apply N'. apply in_or_app. right. apply in_or_app. now right.
  - intros [I U]. apply (Permutation_in v A) in I. apply in_app_or in I. tauto.
Qed.
Lemma all_released h cs n : Forall on_the_wire cs -> (List.length cs <= n)%nat ->
  let '(s, l) := rrun_logged h (cs ++ map RClose (seq 0 n)) (rstart, []) in
  rw_over s = false -> Permutation (registered l) (unregistered l).
Proof.
  intros F Hn. assert (F' : Forall on_the_wire (cs ++ map RClose (seq 0 n))).
  { apply Forall_app. split; [assumption|]. apply Forall_map, Forall_forall. intros x _. exact I. }
  pose proof (agrees_run h _ rstart [] F' agrees_start) as [L A]. pose proof (logged_run h (cs ++ map RClose (seq 0 n)) rstart []) as R.
  destruct (rrun_logged h _ (rstart, [])) as [s l]. cbn [fst snd] in *. intros O. specialize (A O).
  assert (E : living s (rw_next s) = []).
  { unfold living. assert (X : forall i, rw_live s i = None); [|induction (seq 0 (rw_next s)) as [|i q IH]; [reflexivity|]; cbn [flat_map]; now rewrite X].
    intros i. subst s. rewrite rrun_app in *. apply closes_live; [assumption|].
    destruct (Nat.ltb_spec i n) as [Li|Li]; [right; apply in_seq; lia|left]. apply next_fresh; [reflexivity|].
    pose proof (run_next h cs rstart) as Q. cbn [rstart rw_next] in Q. lia. }
  rewrite E, app_nil_r in A. exact A.
Qed.
Lemma registered_answer h fd k p w s m v :
  sends_all w (encaps_pack register_packet) -> is_bytes (stream (incoming p w (encaps_pack register_packet))) ->
  session_log h (ROpen fd k p w) s = [m] -> registered [m] = [v] ->
  exists r j rest, well_formed r /\ e_status r = 0 /\ e_handle r = v
    /\ (j = O \/ ending_of (incoming p w (encaps_pack register_packet)) = Closed)
    /\ stream (incoming p w (encaps_pack register_packet)) ++ zeros j = encaps_pack r ++ rest.
Proof.
  intros S B E R. cbn [session_log] in E. destruct (session_open_fd h fd k p w) as [[[x| | |] w'] ev] eqn:O; try discriminate. injection E as <-.
  unfold session_open_fd in O. destruct (tcp_connect_fd fd k) as [[u|e|u|] d]; try discriminate.
  destruct (session_register h p w) as [o w1] eqn:G. injection O as -> _ _.
  destruct (register_sound h p w x w1 S B G) as (r & j & W & Z0 & H & J & St). exists r, j, (stream (n_in w1)).
  split; [assumption|]. split; [assumption|]. split; [|split; assumption].
  assert (U : 0 <= x) by (subst x; destruct W as [W _]; unfold encaps_wf, is_u32 in W; lia).
  destruct (read_registered x U) as [Q _]. unfold registered in R. cbn [flat_map] in R. rewrite Q in R. cbn [app] in R. congruence.
Qed.
Lemma unregistered_sent h before after fd k p w handle w' ev :
  session_open_fd h fd k p w = (Ok handle, w', ev) ->
  let i := opened_in before in let cs := before ++ ROpen fd k p w :: after in
  let packets := [encaps_pack register_packet] ++ map encaps_pack (packets_of i after)
                 ++ [encaps_bytes 102 0 handle 0 [0; 0; 0; 0; 0; 0; 0; 0] 0 []] in
  Forall on_the_wire cs -> rw_over (rrun h cs rstart) = false -> ~ In (RClose i) after -> all_accepted (n_results w) packets ->
  exists v t, rw_live (rrun h cs rstart) i = Some v
  /\ n_sent (snd (session_destroy (lv_peer v) (lv_handle v) (lv_net v))) = n_sent w ++ packets
  /\ numeral t handle
  /\ snd (rrun_logged h (cs ++ [RClose i]) (rstart, []))
     = snd (rrun_logged h cs (rstart, [])) ++ [(INFO, "Unregistered session " ++ t)%string].
Proof.
  intros E i cs packets F O N A. pose proof (session_alone h before after fd k p w handle w' ev E O N) as L. fold i cs in L.
  assert (U : is_u32 handle).
  { apply (handle_u32 h fd k p w handle w' ev); [|exact E]. subst cs. apply Forall_app in F as [_ F]. now inv F. }
  assert (G : session_register h p w = (Ok handle, w')).
  { unfold session_open_fd in E. destruct (tcp_connect_fd fd k) as [[u|e|u|] d]; try discriminate.
    destruct (session_register h p w) as [o w1] eqn:G. injection E as -> -> _. reflexivity. }
  rewrite exchanges_fold in L. destruct (life_accepted h p w handle w' (packets_of i after) G A) as (w2 & D & Sn).
  eexists _, (to_string handle). split; [exact L|]. cbn [lv_peer lv_handle lv_net]. rewrite D. cbn [snd]. split; [exact Sn|].
  split; [apply to_string_numeral; unfold is_u32 in U; lia|].
  rewrite logged_snoc by assumption. cbn [snd session_log]. rewrite L. cbn [lv_peer lv_handle lv_net lv_fd].
  unfold session_close_fd. rewrite D. reflexivity.
Qed.
