(** Proofs: connections when there is not enough memory. *)
From Verif Require Import Base MBuffer SBuffer PBase PBuffer PReader PBufferT MEip SEip PEip PRouter
  MSocket SSocket PSocket MConnReq SConnReq PConnReq MConn SConn PConnOpen PConnMap PIo PConnCall PConnCall2 PConnHist MMem MLow SLow.
Ltac Zify.zify_post_hook ::= Z.div_mod_to_equations.
Local Open Scope outcome_scope.

Lemma enough_hd fs : enough fs -> hd false fs = false.
Proof. intros E. destruct fs as [|b r]; [reflexivity|]. apply E. now left. Qed.
Lemma enough_tl fs : enough fs -> enough (tl fs).
Proof. intros E b I. destruct fs as [|x r]; [destruct I|]. apply E. now right. Qed.
Local Hint Resolve enough_hd enough_tl : core.

Ltac hd_in E := match type of E with context [hd false ?x] => destruct (hd false x) end.
(** ** ticks *)
Section Ticks.
Variable warning : bool.

Lemma ltick_done now hook sr c fs o fs' c' ev : l_tick warning now hook sr c fs = (Done o, fs', c', ev) -> o <> Abort ->
  io_tick now hook sr c = (o, c', ev).
Proof.
  unfold l_tick, io_tick. cbv zeta. intros E N. destruct (_ <? _).
  { destruct (warning && _); inv E; [congruence|reflexivity]. }
  destruct (_ <=? _); [|inv E; reflexivity]. destruct (hd false fs); [discriminate|]. destruct ((_ || _) && _); [discriminate|].
  destruct (_ && negb _).
  - destruct (warning && _); inv E; [congruence|reflexivity].
  - hd_in E; [discriminate|]. inv E. reflexivity.
Qed.
Lemma ltick_enough now hook sr c fs : enough fs -> exists o fs' c' ev,
  l_tick warning now hook sr c fs = (Done o, fs', c', ev) /\ enough fs' /\ io_tick now hook sr c = (o, c', ev).
Proof.
  intros En. unfold l_tick, io_tick. cbv zeta. rewrite (enough_hd fs En), !andb_false_r. destruct (_ <? _).
  { do 4 eexists. split; [reflexivity|]. split; [destruct warning; auto|reflexivity]. }
  destruct (_ <=? _).
  2:{ do 4 eexists. split; [reflexivity|]. auto. }
  rewrite (enough_hd (tl fs)), !andb_false_r by auto.
  set (f2 := if has_seq (io_trigger c) || io_o2tRTF c then tl (tl fs) else tl fs). assert (E2 : enough f2) by (unfold f2; destruct (_ || _); auto).
  rewrite (enough_hd f2 E2), !andb_false_r. destruct (_ && negb _).
  - do 4 eexists. split; [reflexivity|]. split; [destruct warning; auto|reflexivity].
  - do 4 eexists. split; [reflexivity|]. auto.
Qed.
(** exactly what a tick that runs out of memory leaves *)
Lemma ltick_low now hook sr c fs fs' c' ev : l_tick warning now hook sr c fs = (NoMemory, fs', c', ev) ->
  let period := Z.quot (now - io_last c) 1000000 * 1000 in
  let tcount := u32 (io_tcount c + period) in let timer := u32 (io_o2tTimer c + period) in
  ev = [] /\ u32 (io_mult c * io_t2oAPI c) >= tcount /\ io_o2tAPI c <= timer
  /\ (c' = io_set_tick c tcount now timer (u32 (io_o2tSeq c + 1)) (io_seqCount c) (io_out c)
      \/ c' = io_set_tick c tcount now timer (u32 (io_o2tSeq c + 1)) (if has_seq (io_trigger c) then u16 (io_seqCount c + 1) else io_seqCount c) (io_out c)
      \/ c' = io_set_tick c tcount now 0 (u32 (io_o2tSeq c + 1)) (if has_seq (io_trigger c) then u16 (io_seqCount c + 1) else io_seqCount c) (hook (io_out c))).
Proof.
  unfold l_tick. cbv zeta. intros E. destruct (Z.ltb_spec (u32 (io_mult c * io_t2oAPI c)) (u32 (io_tcount c + Z.quot (now - io_last c) 1000000 * 1000))).
  { destruct (warning && _); inv E. }
  destruct (Z.leb_spec (io_o2tAPI c) (u32 (io_o2tTimer c + Z.quot (now - io_last c) 1000000 * 1000))); [|inv E].
  destruct (hd false fs); [inv E; repeat split; auto; lia|]. destruct ((_ || _) && _); [inv E; repeat split; auto; lia|].
  destruct (_ && negb _).
  - destruct (warning && _); inv E.
  - hd_in E; inv E. repeat split; auto; lia.
Qed.
Lemma ltick_static now hook sr c fs : io_static (snd (fst (l_tick warning now hook sr c fs))) = io_static c.
Proof.
  unfold l_tick. cbv zeta. destruct (_ <? _); [destruct (warning && _); reflexivity|]. destruct (_ <=? _); [|reflexivity].
  destruct (hd false fs); [reflexivity|]. destruct ((_ || _) && _); [reflexivity|]. destruct (_ && negb _); [destruct (warning && _); reflexivity|].
  match goal with |- context [hd false ?x] => destruct (hd false x) end; reflexivity.
Qed.

Lemma lticks_done env l : forall fs o fs' l' ev, l_ticks warning env l fs = (Done o, fs', l', ev) -> o <> Abort -> ticks env l = (o, l', ev).
Proof.
  induction l as [|[k c] l IH]; intros fs o fs' l' ev E N; cbn [l_ticks ticks] in *; [inv E; reflexivity|]. cbv zeta in *.
  destruct (l_tick _ _ _ _ _ _) as [[[res f1] c1] e1] eqn:T.
  destruct res as [[b|x|u|]|]; try (inv E; erewrite ltick_done by (eassumption || discriminate); reflexivity); try discriminate.
  - rewrite (ltick_done _ _ _ _ _ _ _ _ _ T) by discriminate. destruct (negb b && _); [discriminate|].
    destruct (l_ticks warning env l _) as [[[res' f2] l2] e2] eqn:L. destruct res' as [o'|]; [|discriminate]. inv E.
    rewrite (IH _ _ _ _ _ L); [reflexivity|]. intros ->. now apply N.
  - inv E. congruence.
Qed.
Lemma lticks_enough env l : forall fs, enough fs -> exists o fs' l' ev,
  l_ticks warning env l fs = (Done o, fs', l', ev) /\ enough fs' /\ ticks env l = (o, l', ev).
Proof.
  induction l as [|[k c] l IH]; intros fs En; cbn [l_ticks ticks]; [do 4 eexists; split; [reflexivity|]; auto|]. cbv zeta.
  destruct (ltick_enough (t_now env (io_oid c)) (t_hook env (io_oid c)) (t_send env (io_oid c)) c fs En) as (o & f1 & c1 & e1 & -> & E1 & ->).
  destruct o as [b|x|u|]; try (do 4 eexists; split; [reflexivity|]; auto).
  rewrite (enough_hd f1 E1), andb_false_r. destruct (IH (if b then f1 else tl f1)) as (o' & f2 & l2 & e2 & -> & E2 & ->); [destruct b; auto|].
  do 4 eexists. split; [reflexivity|]. auto.
Qed.
Lemma lticks_low env l : forall fs fs' l' ev, l_ticks warning env l fs = (NoMemory, fs', l', ev) ->
  statics l' = statics l /\ exists ev', snd (ticks env l) = ev ++ ev'.
Proof.
  induction l as [|[k c] l IH]; intros fs fs' l' ev E; cbn [l_ticks ticks] in *; [discriminate|]. cbv zeta in *.
  pose proof (ltick_static (t_now env (io_oid c)) (t_hook env (io_oid c)) (t_send env (io_oid c)) c fs) as St.
  destruct (l_tick _ _ _ _ _ _) as [[[res f1] c1] e1] eqn:T. cbn [fst snd] in St.
  destruct res as [[b|x|u|]|]; try discriminate.
  - rewrite (ltick_done _ _ _ _ _ _ _ _ _ T) by discriminate. destruct (negb b && _).
    + inv E. split; [cbn [statics map fst snd]; now rewrite St|]. destruct (ticks env l) as [[r l2] e2]. cbn [snd]. now exists e2.
    + destruct (l_ticks warning env l _) as [[[res' f2] l2] e2] eqn:L. destruct res' as [o'|]; [discriminate|]. inv E.
      destruct (IH _ _ _ _ L) as (S2 & e3 & X). split; [cbn [statics map fst snd]; rewrite St; now f_equal|].
      destruct (ticks env l) as [[r l3] e4]. cbn [snd] in *. subst e4. exists e3. now rewrite app_assoc.
  - inv E. destruct (ltick_low _ _ _ _ _ _ _ _ T) as [-> _]. split; [cbn [statics map fst snd]; now rewrite St|]. now eexists.
Qed.
End Ticks.

(** ** the loop *)
Definition grew (m0 m : mgr) : Prop := m_socks m = m_socks m0 /\ m_inc m = m_inc m0 /\ exists ev, m_log m = m_log m0 ++ ev.
Lemma grew_refl m : grew m m.
Proof. repeat split. exists []. now rewrite app_nil_r. Qed.
Lemma grew_trans a b c : grew a b -> grew b c -> grew a c.
Proof.
  intros (A1 & A2 & e & A3) (B1 & B2 & e' & B3). split; [congruence|]. split; [congruence|]. exists (e ++ e'). now rewrite B3, A3, app_assoc.
Qed.
Lemma run_ticks_grew env m : grew m (snd (run_ticks env m)).
Proof.
  unfold run_ticks. destruct (ticks env (m_map m)) as [[res l] ev]. destruct res; (split; [reflexivity|split; [reflexivity|now exists ev]]).
Qed.
Lemma readable_case h d m : snd (on_readable h d m) = m
  \/ exists k c c' data ev, map_find k (m_map m) = Some c /\ io_receive h c data = Ok (c', ev) /\ snd (on_readable h d m) = add_log (set_map m (map_update k c' (m_map m))) ev.
Proof.
  unfold on_readable. destruct (fst _) as [data|e|u|]; [|now left..].
  match goal with |- context [match ?x with Ok _ => _ | Throw _ => _ | Undef _ => _ | Abort => _ end] => destruct x as [m1|e|u|] eqn:E end; [|now left..].
  cbn [snd]. apply bind_Ok in E as (items & _ & E). destruct (nth_error items 0) as [i0|]; [|discriminate].
  apply bind_Ok in E as ([id b] & _ & E). cbv zeta in E. destruct (map_find _ _) as [c|] eqn:F; [|inv E; now left].
  destruct (nth_error items 1) as [i1|]; [|discriminate]. apply bind_Ok in E as ([c' ev] & R & E). inv E. right.
  exists (u16 id), c, c', (it_data i1), ev. auto.
Qed.
Lemma readable_grew h d m : grew m (snd (on_readable h d m)).
Proof.
  destruct (readable_case h d m) as [->|(k & c & c' & data & ev & _ & _ & ->)]; [apply grew_refl|]. split; [reflexivity|]. split; [reflexivity|]. now exists ev.
Qed.
Lemma readable_statics h d m : NoDup (keys (m_map m)) -> statics (m_map (snd (on_readable h d m))) = statics (m_map m).
Proof.
  intros N. destruct (readable_case h d m) as [->|(k & c & c' & data & ev & F & R & ->)]; [reflexivity|].
  cbn [add_log set_map m_map]. apply (update_statics k c); [assumption|assumption|eapply receive_static; eauto].
Qed.

Section Loop.
Variables info warning error : bool.
Variable h : heap.

Lemma lread_done d fs m o fs' m' : l_readable warning error h d (fs, m) = (Done o, (fs', m')) -> o <> Abort -> on_readable h d m = (o, m').
Proof.
  unfold l_readable. destruct (on_readable h d m) as [o1 m1]. unfold l_bind, l_need. intros E N.
  destruct (hd false fs); [discriminate|]. destruct (hd false (tl fs)); [discriminate|].
  destruct o1 as [[]|x|u|]; try (inv E; reflexivity).
  destruct (l_target h d m) as [[c|]|]; unfold l_message, l_ret in E;
    repeat match type of E with context [if ?x then _ else _] => destruct x end; inv E; try reflexivity; congruence.
Qed.
Lemma lread_low d fs m fs' m' : l_readable warning error h d (fs, m) = (NoMemory, (fs', m')) -> m' = m.
Proof.
  unfold l_readable. destruct (on_readable h d m) as [o1 m1]. unfold l_bind, l_need. intros E.
  destruct (hd false fs); [inv E; reflexivity|]. destruct (hd false (tl fs)); [inv E; reflexivity|].
  destruct o1 as [[]|x|u|]; try discriminate.
  destruct (l_target h d m) as [[c|]|]; unfold l_message, l_ret in E;
    repeat match type of E with context [if ?x then _ else _] => destruct x end; inv E.
Qed.
Lemma lread_enough d fs m : enough fs -> exists fs', enough fs' /\ l_readable warning error h d (fs, m) = (Done (fst (on_readable h d m)), (fs', snd (on_readable h d m))).
Proof.
  intros En. unfold l_readable. destruct (on_readable h d m) as [o1 m1]. unfold l_bind, l_need. cbn [fst snd].
  rewrite (enough_hd fs), (enough_hd (tl fs)) by auto. destruct o1 as [[]|x|u|]; try (eexists; split; [|reflexivity]; now auto).
  destruct (l_target h d m) as [[c|]|]; unfold l_message, l_ret;
    repeat match goal with |- context [if ?x then _ else _] => match x with hd _ _ => rewrite (enough_hd (tl (tl fs))) by auto | _ => destruct x end end;
    (eexists; split; [|reflexivity]; now auto).
Qed.

Lemma ldisp_done n : forall ready i fs m o fs' m', l_dispatch warning error h n ready (fs, m) = (Done o, (fs', m')) -> o <> Abort ->
  dispatch (fun _ : nat => on_readable h) i n ready m = (o, m').
Proof.
  induction n as [|n IH]; intros ready i fs m o fs' m' E N; cbn [l_dispatch dispatch] in *; [inv E; reflexivity|].
  destruct ready as [|[d|] r]; [inv E; reflexivity| |now eapply IH; eauto].
  unfold l_bind in E. unfold st_bind. destruct (l_readable _ _ _ _ _) as [[o1|] [f1 m1]] eqn:R; [|discriminate].
  destruct o1 as [[]|x|u|]; try (inv E; erewrite lread_done by (eassumption || discriminate); reflexivity).
  - rewrite (lread_done _ _ _ _ _ _ R) by discriminate. eapply IH; eauto.
Qed.
Lemma ldisp_enough n : forall ready i fs m, enough fs -> exists fs', enough fs' /\ l_dispatch warning error h n ready (fs, m)
  = (Done (fst (dispatch (fun _ : nat => on_readable h) i n ready m)), (fs', snd (dispatch (fun _ : nat => on_readable h) i n ready m))).
Proof.
  induction n as [|n IH]; intros ready i fs m En; cbn [l_dispatch dispatch]; [exists fs; auto|].
  destruct ready as [|[d|] r]; [exists fs; auto| |now apply IH]. unfold l_bind, st_bind.
  destruct (lread_enough d fs m En) as (f1 & E1 & ->). destruct (on_readable h d m) as [[[]|x|u|] m1]; cbn [fst snd]; try (exists f1; now auto).
  now apply IH.
Qed.
Lemma disp_grew n : forall ready i m, grew m (snd (dispatch (fun _ : nat => on_readable h) i n ready m)).
Proof.
  induction n as [|n IH]; intros ready i m; cbn [dispatch]; [apply grew_refl|].
  destruct ready as [|[d|] r]; [apply grew_refl| |apply IH]. unfold st_bind. pose proof (readable_grew h d m) as G.
  destruct (on_readable h d m) as [[[]|x|u|] m1]; cbn [snd] in *; try assumption. eapply grew_trans; [exact G|apply IH].
Qed.
Lemma disp_statics n : forall ready i m, NoDup (keys (m_map m)) -> statics (m_map (snd (dispatch (fun _ : nat => on_readable h) i n ready m))) = statics (m_map m).
Proof.
  induction n as [|n IH]; intros ready i m N; cbn [dispatch]; [reflexivity|].
  destruct ready as [|[d|] r]; [reflexivity| |now apply IH]. unfold st_bind. pose proof (readable_statics h d m N) as G.
  destruct (on_readable h d m) as [[[]|x|u|] m1]; cbn [snd] in *; try assumption. rewrite <- G. apply IH. now rewrite (statics_keys _ _ G).
Qed.
Lemma ldisp_low n : forall ready i fs m fs' m', NoDup (keys (m_map m)) -> l_dispatch warning error h n ready (fs, m) = (NoMemory, (fs', m')) ->
  statics (m_map m') = statics (m_map m) /\ grew m m' /\ grew m' (snd (dispatch (fun _ : nat => on_readable h) i n ready m)).
Proof.
  induction n as [|n IH]; intros ready i fs m fs' m' N E; cbn [l_dispatch] in E; [discriminate|].
  destruct ready as [|[d|] r]; [discriminate| |now eapply (IH r (S i)); eauto].
  unfold l_bind in E. destruct (l_readable _ _ _ _ _) as [[o1|] [f1 m1]] eqn:R.
  - destruct o1 as [[]|x|u|]; try discriminate. apply lread_done in R; [|discriminate]. cbn [dispatch]. unfold st_bind. rewrite R.
    pose proof (readable_statics h d m N) as G. pose proof (readable_grew h d m) as G'. rewrite R in G, G'. cbn [snd] in *.
    destruct (IH r (S i) f1 m1 fs' m') as (A & B & C); [now rewrite (statics_keys _ _ G)|assumption|].
    split; [congruence|]. split; [eapply grew_trans; eassumption|assumption].
  - inv E. apply lread_low in R. subst m'. split; [reflexivity|]. split; [apply grew_refl|]. apply (disp_grew (S n) (Some d :: r)).
Qed.

Lemma lround_done n rounds ending : forall fs m o fs' m', l_rounds warning error h n rounds ending (fs, m) = (Done o, (fs', m')) -> o <> Abort ->
  select_rounds (fun _ : nat => on_readable h) n rounds ending m = (o, m').
Proof.
  induction rounds as [|r rs IH]; intros fs m o fs' m' E N; cbn [l_rounds select_rounds] in *.
  - destruct ending; inv E; reflexivity.
  - unfold l_bind in E. unfold st_bind. destruct (l_dispatch _ _ _ _ _ _) as [[o1|] [f1 m1]] eqn:R; [|discriminate].
    destruct o1 as [[]|x|u|]; try (inv E; erewrite ldisp_done by (eassumption || discriminate); reflexivity).
    + rewrite (ldisp_done _ _ 0 _ _ _ _ _ R) by discriminate. eapply IH; eauto.
Qed.
Lemma lround_enough n rounds ending : forall fs m, enough fs -> exists fs', enough fs' /\ l_rounds warning error h n rounds ending (fs, m)
  = (Done (fst (select_rounds (fun _ : nat => on_readable h) n rounds ending m)), (fs', snd (select_rounds (fun _ : nat => on_readable h) n rounds ending m))).
Proof.
  induction rounds as [|r rs IH]; intros fs m En; cbn [l_rounds select_rounds].
  - destruct ending; exists fs; auto.
  - unfold l_bind, st_bind. destruct (ldisp_enough n (sr_ready r) 0 fs m En) as (f1 & E1 & ->).
    destruct (dispatch _ _ _ _ _) as [[[]|x|u|] m1]; cbn [fst snd]; try (exists f1; now auto). now apply IH.
Qed.
Lemma round_grew n rounds ending : forall m, grew m (snd (select_rounds (fun _ : nat => on_readable h) n rounds ending m)).
Proof.
  induction rounds as [|r rs IH]; intros m; cbn [select_rounds]; [destruct ending; apply grew_refl|].
  unfold st_bind. pose proof (disp_grew n (sr_ready r) 0 m) as G. destruct (dispatch _ _ _ _ _) as [[[]|x|u|] m1]; cbn [snd] in *; try assumption.
  eapply grew_trans; [exact G|apply IH].
Qed.
Lemma round_statics n rounds ending : forall m, NoDup (keys (m_map m)) -> statics (m_map (snd (select_rounds (fun _ : nat => on_readable h) n rounds ending m))) = statics (m_map m).
Proof.
  induction rounds as [|r rs IH]; intros m N; cbn [select_rounds]; [destruct ending; reflexivity|].
  unfold st_bind. pose proof (disp_statics n (sr_ready r) 0 m N) as G. destruct (dispatch _ _ _ _ _) as [[[]|x|u|] m1]; cbn [snd] in *; try assumption.
  rewrite <- G. apply IH. now rewrite (statics_keys _ _ G).
Qed.
Lemma lround_low n rounds ending : forall fs m fs' m', NoDup (keys (m_map m)) -> l_rounds warning error h n rounds ending (fs, m) = (NoMemory, (fs', m')) ->
  statics (m_map m') = statics (m_map m) /\ grew m m' /\ grew m' (snd (select_rounds (fun _ : nat => on_readable h) n rounds ending m)).
Proof.
  induction rounds as [|r rs IH]; intros fs m fs' m' N E; cbn [l_rounds select_rounds] in *; [destruct ending; discriminate|].
  unfold l_bind in E. unfold st_bind. destruct (l_dispatch _ _ _ _ _ _) as [[o1|] [f1 m1]] eqn:R.
  - destruct o1 as [[]|x|u|]; try discriminate. apply (ldisp_done _ _ 0) in R; [|discriminate]. rewrite R.
    pose proof (disp_statics n (sr_ready r) 0 m N) as G. pose proof (disp_grew n (sr_ready r) 0 m) as G'. rewrite R in G, G'. cbn [snd] in *.
    destruct (IH f1 m1 fs' m') as (A & B & C); [now rewrite (statics_keys _ _ G)|assumption|].
    split; [congruence|]. split; [eapply grew_trans; eassumption|assumption].
  - inv E. destruct (ldisp_low _ _ 0 _ _ _ _ N R) as (A & B & C). split; [assumption|]. split; [assumption|].
    destruct (dispatch _ _ _ _ _) as [[[]|x|u|] m1]; cbn [snd] in *; try assumption. eapply grew_trans; [exact C|apply round_grew].
Qed.

Lemma lrun_done env fs m o fs' m' : l_run_ticks warning env (fs, m) = (Done o, (fs', m')) -> o <> Abort -> run_ticks env m = (o, m').
Proof.
  unfold l_run_ticks, run_ticks. intros E N. destruct (l_ticks warning env (m_map m) fs) as [[[res f1] l] ev] eqn:L.
  destruct res as [[ks|x|u|]|]; inv E; try congruence; erewrite lticks_done by (eassumption || discriminate); reflexivity.
Qed.
Lemma lrun_enough env fs m : enough fs -> exists fs', enough fs' /\ l_run_ticks warning env (fs, m) = (Done (fst (run_ticks env m)), (fs', snd (run_ticks env m))).
Proof.
  intros En. unfold l_run_ticks, run_ticks. destruct (lticks_enough warning env (m_map m) fs En) as (o & f1 & l & ev & -> & E1 & ->).
  destruct o; exists f1; auto.
Qed.
Lemma lrun_low env fs m fs' m' : l_run_ticks warning env (fs, m) = (NoMemory, (fs', m')) ->
  statics (m_map m') = statics (m_map m) /\ grew m m' /\ grew m' (snd (run_ticks env m)).
Proof.
  unfold l_run_ticks, run_ticks. intros E. destruct (l_ticks warning env (m_map m) fs) as [[[res f1] l] ev] eqn:L.
  destruct res as [[ks|x|u|]|]; inv E. destruct (lticks_low _ _ _ _ _ _ _ L) as (A & ev' & B). split; [exact A|].
  split; [split; [reflexivity|split; [reflexivity|now exists ev]]|].
  destruct (ticks env (m_map m)) as [[res l2] e2]. cbn [snd] in B. subst e2.
  destruct res; (split; [reflexivity|split; [reflexivity|exists ev'; cbn [snd add_log set_map m_log]; now rewrite app_assoc]]).
Qed.

Lemma lhandle_done rounds ending env fs m o fs' m' : l_handle warning error h rounds ending env (fs, m) = (Done o, (fs', m')) -> o <> Abort ->
  handle_connections h rounds ending env m = (o, m').
Proof.
  unfold l_handle, handle_connections, bs_select, st_bind. intros E N. destruct (m_socks m) as [|s0 ss] eqn:K; [unfold l_bind in E; cbn in E; inv E; reflexivity|].
  cbn [List.length] in *. unfold l_bind at 1 in E. unfold l_need in E. destruct (hd false fs); [discriminate|].
  unfold l_bind in E. destruct (l_rounds _ _ _ _ _ _ _) as [[o1|] [f1 m1]] eqn:R; [|discriminate].
  destruct o1 as [[]|x|u|]; try (inv E; erewrite lround_done by (eassumption || discriminate); reflexivity).
  - rewrite (lround_done _ _ _ _ _ _ _ _ R) by discriminate. eapply lrun_done; eauto.
Qed.
Lemma lhandle_enough rounds ending env fs m : enough fs -> exists fs', enough fs' /\ l_handle warning error h rounds ending env (fs, m)
  = (Done (fst (handle_connections h rounds ending env m)), (fs', snd (handle_connections h rounds ending env m))).
Proof.
  intros En. unfold l_handle, handle_connections, bs_select, st_bind. destruct (m_socks m) as [|s0 ss] eqn:K; [exists fs; auto|].
  cbn [List.length]. unfold l_bind, l_need. rewrite (enough_hd fs En).
  destruct (lround_enough (S (List.length ss)) rounds ending (tl fs) m) as (f1 & E1 & ->); [auto|].
  destruct (select_rounds _ _ _ _ _) as [[[]|x|u|] m1]; cbn [fst snd]; try (exists f1; now auto). now apply lrun_enough.
Qed.
Lemma lhandle_low rounds ending env fs m fs' m' : NoDup (keys (m_map m)) -> l_handle warning error h rounds ending env (fs, m) = (NoMemory, (fs', m')) ->
  statics (m_map m') = statics (m_map m) /\ grew m m' /\ grew m' (snd (handle_connections h rounds ending env m)).
Proof.
  unfold l_handle, handle_connections, bs_select, st_bind. intros N E. destruct (m_socks m) as [|s0 ss] eqn:K; [discriminate|].
  cbn [List.length] in *. unfold l_bind at 1 in E. unfold l_need in E.
  pose proof (round_grew (S (List.length ss)) rounds ending m) as G. pose proof (round_statics (S (List.length ss)) rounds ending m N) as G1.
  destruct (hd false fs).
  - inv E. split; [reflexivity|]. split; [apply grew_refl|]. destruct (select_rounds _ _ _ _ _) as [[[]|x|u|] m1]; cbn [snd] in *; try assumption.
    eapply grew_trans; [exact G|apply run_ticks_grew].
  - unfold l_bind in E. destruct (l_rounds _ _ _ _ _ _ _) as [[o1|] [f1 m1]] eqn:R.
    + destruct o1 as [[]|x|u|]; try discriminate. apply lround_done in R; [|discriminate]. rewrite R in *. cbn [snd] in *.
      destruct (lrun_low _ _ _ _ _ E) as (A & B & C). split; [congruence|]. split; [eapply grew_trans; eassumption|assumption].
    + inv E. destruct (lround_low _ _ _ _ _ _ _ N R) as (A & B & C). split; [assumption|]. split; [assumption|].
      destruct (select_rounds _ _ _ _ _) as [[[]|x|u|] m1]; cbn [snd] in *; try assumption. eapply grew_trans; [exact C|apply run_ticks_grew].
Qed.
End Loop.

(** ** opening and closing *)
Definition sim {W A} (L : low W A) (M : st W A) : Prop := forall fs w,
  (forall o fs' w', L (fs, w) = (Done o, (fs', w')) -> o <> Abort -> M w = (o, w'))
  /\ (enough fs -> exists fs', enough fs' /\ L (fs, w) = (Done (fst (M w)), (fs', snd (M w)))).
Lemma sim_ret {W A} (a : A) : sim (@l_ret W A a) (st_ret a).
Proof. intros fs w. split; [intros o fs' w' E N; now inv E|]. intros En. exists fs. auto. Qed.
Lemma sim_lift {W A} (M : st W A) : sim (l_lift M) M.
Proof.
  intros fs w. unfold l_lift. destruct (M w) as [o w'] eqn:E. split; [intros o1 fs' w1 E1 N; now inv E1|]. intros En. exists fs. auto.
Qed.
Lemma sim_need {W} : sim (@l_need W) (st_ret tt).
Proof.
  intros fs w. unfold l_need. split.
  - intros o fs' w' E N. destruct (hd false fs); [discriminate|]. now inv E.
  - intros En. rewrite (enough_hd fs En). exists (tl fs). auto.
Qed.
Lemma sim_message {W} b : sim (@l_message W b) (st_ret tt).
Proof.
  intros fs w. unfold l_message. split.
  - intros o fs' w' E N. destruct b; [destruct (hd false fs)|]; inv E; [congruence|reflexivity..].
  - intros En. rewrite (enough_hd fs En). destruct b; [exists (tl fs)|exists fs]; auto.
Qed.
Lemma sim_bind {W A B} (L : low W A) M (k : A -> low W B) n : sim L M -> (forall a, sim (k a) (n a)) -> sim (l_bind L k) (st_bind M n).
Proof.
  intros H K fs w. destruct (H fs w) as [H1 H2]. unfold l_bind, st_bind. split.
  - intros o fs' w' E N. destruct (L (fs, w)) as [[o1|] [f1 w1]]; [|discriminate]. specialize (H1 o1 f1 w1 eq_refl).
    destruct o1 as [a|e|u|]; [|inv E; try congruence; now rewrite H1 by discriminate..]. rewrite H1 by discriminate. destruct (K a f1 w1) as [K1 _]. eapply K1; eauto.
  - intros En. destruct (H2 En) as (f1 & E1 & ->). destruct (M w) as [[a|e|u|] w1]; cbn [fst snd]; try (exists f1; now auto).
    destruct (K a f1 w1) as [_ K2]. now apply K2.
Qed.
Lemma sim_skip {W A} (L : low W unit) (k : unit -> low W A) n : sim L (st_ret tt) -> (forall a, sim (k a) n) -> sim (l_bind L k) n.
Proof. intros H K. exact (sim_bind L (st_ret tt) k (fun _ => n) H K). Qed.
Lemma sim_ext {W A} (L : low W A) M M' : sim L M -> (forall w, M w = M' w) -> sim L M'.
Proof. intros H E fs w. rewrite <- E. apply H. Qed.

Definition same_map {S} (w w' : globals * mgr * S) : Prop := m_map (snd (fst w')) = m_map (snd (fst w)) /\ m_log (snd (fst w')) = m_log (snd (fst w)).
Lemma same_trans {S} (a b c : globals * mgr * S) : same_map a b -> same_map b c -> same_map a c.
Proof. unfold same_map. intros [A1 A2] [B1 B2]. split; congruence. Qed.
Lemma same_refl {S} (a : globals * mgr * S) : same_map a a.
Proof. now split. Qed.
(** what holds between the states before and after, if the call goes on ([g = true]) or runs out of memory *)
Definition keeps {S A} (L : low (globals * mgr * S) A) : Prop := forall fs w r fs' w', L (fs, w) = (r, (fs', w')) -> same_map w w'.
Definition low_keeps {S A} (L : low (globals * mgr * S) A) : Prop := forall fs w fs' w', L (fs, w) = (NoMemory, (fs', w')) -> same_map w w'.
Lemma keeps_low {S A} (L : low (globals * mgr * S) A) : keeps L -> low_keeps L.
Proof. intros K fs w fs' w' E. eapply K; eauto. Qed.
Lemma low_bind {S A B} (L : low (globals * mgr * S) A) (k : A -> low _ B) : keeps L -> (forall a, low_keeps (k a)) -> low_keeps (l_bind L k).
Proof.
  intros H K fs w fs' w' E. unfold l_bind in E. destruct (L (fs, w)) as [[[a|e|u|]|] [f1 w1]] eqn:X; try discriminate.
  - eapply same_trans; [eapply H; eauto|]. eapply K; eauto.
  - inv E. eapply H; eauto.
Qed.
Lemma keeps_need {S} : keeps (@l_need (globals * mgr * S)).
Proof. intros fs w r fs' w' E. unfold l_need in E. inv E. apply same_refl. Qed.
Lemma keeps_message {S} b : keeps (@l_message (globals * mgr * S) b).
Proof. intros fs w r fs' w' E. unfold l_message in E. destruct b; inv E; apply same_refl. Qed.
Lemma keeps_st {S A} (o : outcome A) : keeps (@l_lift (globals * mgr * S) A (st_lift o)).
Proof. intros fs w r fs' w' E. unfold l_lift, st_lift in E. inv E. apply same_refl. Qed.
Lemma low_lift {S A} (M : st (globals * mgr * S) A) : low_keeps (l_lift M).
Proof. intros fs w fs' w' E. unfold l_lift in E. destruct (M w). discriminate. Qed.

Section Opening.
Variables info warning error : bool.
Variable h : heap.
Context {S : Type}.
Variable use8 : bool.
Variable si : session_if S.
Variable req : Z -> bytes -> low S response.

Lemma keeps_req service data : keeps (l_req req service data).
Proof.
  intros fs [[g m] s] r fs' w' E. unfold l_req in E. destruct (req service data (fs, s)) as [o [f1 s1]]. inv E. now split.
Qed.
Lemma sim_req service data : runs_as h use8 si req -> sim (l_req req service data) (fun '(g, m, s) =>
  let '(o, s) := send_request h si use8 service CM_PATH data [] s in (o, (g, m, s))).
Proof.
  intros R fs [[g m] s]. destruct (R service data fs s) as [R1 R2]. unfold l_req. split.
  - intros o fs' w' E N. destruct (req service data (fs, s)) as [[o1|] [f1 s1]]; [|discriminate]. inv E. now rewrite (R1 _ _ _ eq_refl N).
  - intros En. destruct (R2 En) as (f1 & E1 & ->). destruct (send_request _ _ _ _ _ _ _ s) as [o s1]. exists f1. auto.
Qed.

Lemma low_answer env host large c resp : low_keeps (@l_answer info error h S env host large c resp).
Proof.
  unfold l_answer. destruct (negb _); [apply low_bind; [apply keeps_message|intros ? fs w fs' w' E; discriminate]|].
  apply low_bind; [apply keeps_need|intros ?]. apply low_bind; [apply keeps_st|intros r]. apply low_bind; [apply keeps_message|intros ?].
  apply low_bind; [apply keeps_need|intros ?]. apply low_bind; [apply keeps_st|intros [mult dest]]. apply low_bind; [apply keeps_need|intros ?].
  apply low_bind; [apply keeps_message|intros ?]. apply low_bind; [apply keeps_need|intros ?]. apply low_bind.
  { intros fs [[g m] s] rr fs' w' E. unfold l_lift in E. destruct (find_or_create_socket _ _ m) as [o m1] eqn:F. inv E.
    unfold find_or_create_socket in F. destruct (existsb _ _); [inv F; now split|]. destruct (v_bind env); inv F; now split. }
  intros ?. apply low_bind; [apply keeps_need|intros ?]. intros fs [[g m] s] fs' w' E. cbv zeta in E.
  eapply (low_bind (match map_find (u16 (f_t2oId r)) (m_map m) with Some _ => l_message error | None => l_ret tt end)); [| |exact E].
  - destruct (map_find _ _); [apply keeps_message|]. intros f1 w1 r1 f2 w2 E1. inv E1. apply same_refl.
  - intros ?. apply low_lift.
Qed.
Lemma low_open env host large c : low_keeps (l_open info error h req env host large c).
Proof.
  unfold l_open. apply low_bind.
  { intros fs [[g m] s] r fs' w' E. unfold l_lift in E. destruct (fo_prepare _ _ _ _) as [[c' g']|x|u|]; inv E; now split. }
  intros c'. apply low_bind; [apply keeps_need|intros ?]. apply low_bind; [apply keeps_st|intros data].
  apply low_bind; [apply keeps_req|intros resp]. apply low_answer.
Qed.
Lemma low_close ptr : low_keeps (l_close info warning req ptr).
Proof.
  destruct ptr as [c|]; cbn [l_close].
  - apply low_bind; [apply keeps_need|intros ?]. apply low_bind; [apply keeps_message|intros ?]. apply low_bind; [apply keeps_req|intros resp].
    apply low_bind; [|intros ?; apply low_lift]. destruct (_ =? _); [|apply keeps_message]. intros fs w r fs' w' E. inv E. apply same_refl.
  - apply keeps_low, keeps_message.
Qed.

Lemma sim_answer env host large c resp : sim (@l_answer info error h S env host large c resp)
  (fun '(g, m, s) => let '(o, (g, m)) := fo_answer h env host large c resp (g, m) in (o, (g, m, s))).
Proof.
  unfold l_answer. destruct (negb (r_status resp =? 0)) eqn:Es.
  { eapply sim_ext; [apply sim_skip; [apply sim_message|intros ?; apply sim_ret]|]. intros [[g m] s]. unfold fo_answer. now rewrite Es. }
  apply sim_ext with (M := st_bind (st_lift (fo_expand h (r_data resp))) (fun r =>
    st_bind (st_lift (mult <- fo_multiplier (c_multiplier c) ;; dest <- fo_dest h (v_aton env) host (r_items resp) ;;
                      _ <- checked (v_udp env) ;; Ok (mult, dest))) (fun md =>
    st_bind (fun '(g, m, s) =>
              let '(o, m) := find_or_create_socket (v_bind env) (ep_of_host (v_aton env) host EIP_DEFAULT_IMPLICIT_PORT) m in
              (o, (mkGlobals (g_serial g) (g_o2t g) (g_t2o g) (Datatypes.S (g_oid g)), m, s))) (fun _ '(g, m, s) =>
      (Ok (Some (pred (g_oid g))),
        (g, set_map m (map_insert (u16 (f_t2oId r)) (fo_connection large c r (fst md) (pred (g_oid g)) (v_now env) (snd md)) (m_map m)), s)))))).
  { apply sim_skip; [apply sim_need|intros ?]. apply sim_bind; [apply sim_lift|intros r]. apply sim_skip; [apply sim_message|intros ?].
    apply sim_skip; [apply sim_need|intros ?]. apply sim_bind; [apply sim_lift|intros [mult dest]]. apply sim_skip; [apply sim_need|intros ?].
    apply sim_skip; [apply sim_message|intros ?]. apply sim_skip; [apply sim_need|intros ?]. apply sim_bind; [apply sim_lift|intros ?].
    apply sim_skip; [apply sim_need|intros ?].
    intros fs [[g m] s].
    assert (Z1 : sim (l_bind (match map_find (u16 (f_t2oId r)) (m_map m) with Some _ => l_message error | None => l_ret tt end) (fun _ =>
      l_lift (fun _ : globals * mgr * S => (Ok (Some (pred (g_oid g))),
        (g, set_map m (map_insert (u16 (f_t2oId r)) (fo_connection large c r mult (pred (g_oid g)) (v_now env) dest) (m_map m)), s)))))
      (fun _ => (Ok (Some (pred (g_oid g))),
        (g, set_map m (map_insert (u16 (f_t2oId r)) (fo_connection large c r mult (pred (g_oid g)) (v_now env) dest) (m_map m)), s)))).
    { apply sim_skip; [|intros ?; apply sim_lift]. destruct (map_find _ _); [apply sim_message|apply sim_ret]. }
    exact (Z1 fs (g, m, s)). }
  intros [[g m] s]. unfold fo_answer. rewrite Es. unfold st_bind, st_lift.
  destruct (fo_expand h (r_data resp)) as [r|x|u|]; try reflexivity. cbn [bind].
  destruct (fo_multiplier (c_multiplier c)) as [mult|x|u|]; try reflexivity. cbn [bind].
  destruct (fo_dest h (v_aton env) host (r_items resp)) as [dest|x|u|]; try reflexivity. cbn [bind].
  destruct (checked (v_udp env)) as [[]|x|u|]; try reflexivity. cbn [bind].
  destruct (find_or_create_socket _ _ m) as [[[]|x|u|] m1]; reflexivity.
Qed.
Lemma sim_open env host large c : runs_as h use8 si req ->
  sim (l_open info error h req env host large c) (forward_open h use8 si host env large c).
Proof.
  intros R. unfold l_open. eapply sim_ext.
  { apply sim_bind; [apply sim_lift|intros c']. apply sim_skip; [apply sim_need|intros ?]. apply sim_bind; [apply sim_lift|intros data].
    apply sim_bind; [now apply sim_req|intros resp]. apply sim_answer. }
  intros [[g m] s]. unfold forward_open, st_bind, st_lift. destruct (fo_prepare large (m_inc m) c g) as [[c' g']|x|u|]; try reflexivity.
  destruct (fo_request large c') as [data|x|u|]; try reflexivity.
  destruct (send_request _ _ _ _ _ _ _ s) as [[resp|x|u|] s1]; reflexivity.
Qed.
Lemma sim_close ptr : runs_as h use8 si req -> sim (l_close info warning req ptr)
  (fun '(g, m, s) => let '(o, (m, s)) := forward_close h use8 si ptr (m, s) in (o, (g, m, s))).
Proof.
  intros R. destruct ptr as [c|]; cbn [l_close].
  - eapply sim_ext.
    { apply sim_skip; [apply sim_need|intros ?]. apply sim_skip; [apply sim_message|intros ?]. apply sim_bind; [now apply sim_req|intros resp].
      apply sim_skip; [|intros ?; apply sim_lift]. destruct (_ =? _); [apply sim_ret|apply sim_message]. }
    intros [[g m] s]. unfold forward_close, st_bind. destruct (send_request _ _ _ _ _ _ _ s) as [[resp|x|u|] s1]; reflexivity.
  - eapply sim_ext; [apply sim_message|]. intros [[g m] s]. reflexivity.
Qed.
End Opening.
