(** Proofs about listeners that use the connection manager. *)
From Verif Require Import Base MBuffer SBuffer PBase PBuffer MEip SEip PEip
  MSocket SSocket PSocket MConnReq SConnReq PConnReq MConn SConn PConnOpen PConnMap PIo PConnCall PConnCall2 PConnHist PIo2 PConnTop PIoTop SLife PLife MReent SReent.
Ltac Zify.zify_post_hook ::= Z.div_mod_to_equations.
Local Open Scope outcome_scope.

Lemma output_same c : io_set_output c (io_out c) = c.
Proof. now destruct c. Qed.
Lemma output_twice c a b : io_set_output (io_set_output c a) b = io_set_output c b.
Proof. reflexivity. Qed.

(** ** What a listener may do *)
Lemma data_lock oid p d m c : lock oid m = Some c ->
  lock oid (set_output p d m) = Some (if Nat.eqb p oid then io_set_output c d else c).
Proof.
  intros L. unfold lock, set_output in *. cbn [m_map set_map].
  destruct (Nat.eqb_spec p oid) as [->|N].
  - induction (m_map m) as [|[k c1] l IH]; cbn [find map snd option_map fst] in *; [discriminate|].
    destruct (Nat.eqb_spec (io_oid c1) oid) as [Q|Q]; cbn [snd io_oid io_set_output].
    + subst. rewrite Nat.eqb_refl. cbn [option_map snd] in *. now inv L.
    + destruct (Nat.eqb_spec (io_oid c1) oid); [contradiction|]. now apply IH.
  - rewrite <- L. clear - N. induction (m_map m) as [|[k c1] l IH]; cbn [find map snd option_map fst] in *; [reflexivity|].
    destruct (Nat.eqb_spec (io_oid c1) p) as [Q|Q]; cbn [snd io_oid io_set_output].
    + destruct (Nat.eqb_spec (io_oid c1) oid); [congruence|]. exact IH.
    + destruct (Nat.eqb_spec (io_oid c1) oid); [reflexivity|]. exact IH.
Qed.
Lemma open_keeps {S} h use8 (si : session_if S) host env large cp g m s oid c o g' m' s' : mgr_inv g m -> lock oid m = Some c ->
  forward_open h use8 si host env large cp (g, m, s) = (o, (g', m', s')) -> lock oid m' = lock oid m /\ m_log m' = m_log m.
Proof.
  intros I L E.
  assert (D : (exists q, o = Ok (Some q)) \/ forall q, o <> Ok (Some q)).
  { destruct o as [[q|]|?|?|]; [left; eauto|right; intros; discriminate..]. }
  destruct D as [[q ->]|D].
  - destruct (open_returns _ _ _ _ _ _ _ _ _ _ _ _ _ _ I E) as
      (Dq & LG & resp & r & mult & dest & data & s1 & _ & _ & _ & _ & _ & _ & F1 & F2).
    split; [|assumption].
    destruct (map_find (u16 (f_t2oId r)) (m_map m)) as [c1|] eqn:F.
    + apply F2. exists (u16 (f_t2oId r)), c1. pose proof (find_in _ _ _ F) as J. split; [assumption|]. symmetry. exact (mi_key g m I _ _ J).
    + assert (oid <> q) by (intros ->; congruence).
      rewrite F1; [destruct (Nat.eqb_spec oid q); [contradiction|reflexivity]|].
      intros k c' J Q. apply find_none in F. apply F. rewrite <- Q, <- (mi_key g m I _ _ J). eapply in_keys; eauto.
  - destruct (open_fails _ _ _ _ _ _ _ _ _ _ _ _ _ _ E D) as [D1 D2]. split; [|assumption]. unfold lock. now rewrite D1.
Qed.
Lemma close_keeps {S} h use8 (si : session_if S) g m s oid p c o m' s' : mgr_inv g m -> lock oid m = Some c -> p <> oid ->
  forward_close h use8 si (lock p m) (m, s) = (o, (m', s')) -> lock oid m' = lock oid m /\ m_log m' = m_log m.
Proof.
  intros I L N E. destruct (lock p m) as [c1|] eqn:Lp; [|cbn [forward_close] in E; now inv E].
  destruct (send_request h si use8 78 CM_PATH (fc_pack (u16 (io_serial c1)) (io_vendor c1) (io_orig c1) (io_path c1)) [] s) as [o1 s1] eqn:R.
  assert (D : (exists resp, o1 = Ok resp) \/ forall resp, o1 <> Ok resp).
  { destruct o1; [left; eauto|right; intros; discriminate..]. }
  destruct D as [[resp ->]|D].
  - destruct (close_ok h use8 si g m s p c1 resp s1 I Lp R) as (m1 & E1 & LG & LK). rewrite Lp in E1. rewrite E1 in E. inv E.
    split; [|assumption]. rewrite LK. destruct (Nat.eqb_spec oid p); [congruence|reflexivity].
  - destruct (close_fails h use8 si m s p c1 o1 s1 Lp R D) as [E1 E2]. rewrite Lp in E1. rewrite E in E1. inv E1. auto.
Qed.
Lemma do_inv {S} h (op : lcall S) g m s o g' m' s' : mgr_inv g m ->
  do_call h op (g, m, s) = (o, (g', m', s')) -> mgr_inv g' m' /\ (g_oid g <= g_oid g')%nat.
Proof.
  intros I E. destruct op; [exact (call_inv _ _ _ _ _ _ _ _ _ I E)..|]. cbn [do_call] in E. inv E. auto.
Qed.
Lemma call_keeps {S} h (op : lcall S) g m s oid c o g' m' s' : mgr_inv g m -> lock oid m = Some c ->
  (forall use8 si, op <> LClose use8 si oid) ->
  do_call h op (g, m, s) = (o, (g', m', s')) ->
  mgr_inv g' m' /\ m_log m' = m_log m /\ exists d, lock oid m' = Some (io_set_output c d).
Proof.
  intros I L N E. split; [exact (proj1 (do_inv h op g m s o g' m' s' I E))|].
  destruct op as [use8 si host env large cp|use8 si p|p d|e]; cbn [do_call call_mgr] in E.
  - destruct (open_keeps h use8 si host env large cp g m s oid c _ _ _ _ I L E) as [A B]. split; [assumption|].
    exists (io_out c). rewrite output_same. congruence.
  - destruct (forward_close h use8 si (lock p m) (m, s)) as [o1 [m1 s1]] eqn:F. inv E.
    assert (Np : p <> oid) by (intros ->; eapply N; reflexivity).
    destruct (close_keeps h use8 si g' m s oid p c _ _ _ I L Np F) as [A B]. split; [assumption|].
    exists (io_out c). rewrite output_same. congruence.
  - inv E. split; [reflexivity|]. rewrite (data_lock oid p d m c L).
    destruct (Nat.eqb p oid); [eauto|]. exists (io_out c). now rewrite output_same.
  - inv E. split; [reflexivity|]. exists (io_out c). now rewrite output_same.
Qed.

Lemma lcall_log {S} h (op : lcall S) g m s o g' m' s' : mgr_inv g m ->
  do_call h op (g, m, s) = (o, (g', m', s')) -> mgr_inv g' m' /\ m_log m' = m_log m.
Proof.
  intros I E. split; [exact (proj1 (do_inv h op g m s o g' m' s' I E))|].
  destruct op as [use8 si host env large cp|use8 si p|p d|e]; cbn [do_call call_mgr] in E.
  - assert (D : (exists q, o = Ok (Some q)) \/ forall q, o <> Ok (Some q)).
    { destruct o as [[q|]|?|?|]; [left; eauto|right; intros; discriminate..]. }
    destruct D as [[q ->]|D].
    + now destruct (open_returns _ _ _ _ _ _ _ _ _ _ _ _ _ _ I E) as (Dq & LG & _).
    + now destruct (open_fails _ _ _ _ _ _ _ _ _ _ _ _ _ _ E D) as [D1 D2].
  - destruct (forward_close h use8 si (lock p m) (m, s)) as [o1 [m1 s1]] eqn:F. inv E.
    destruct (lock p m) as [c1|] eqn:Lp; [|cbn [forward_close] in F; now inv F].
    destruct (send_request h si use8 78 CM_PATH (fc_pack (u16 (io_serial c1)) (io_vendor c1) (io_orig c1) (io_path c1)) [] s) as [o2 s2] eqn:R.
    assert (D : (exists resp, o2 = Ok resp) \/ forall resp, o2 <> Ok resp).
    { destruct o2; [left; eauto|right; intros; discriminate..]. }
    destruct D as [[resp ->]|D].
    + destruct (close_ok h use8 si g' m s p c1 resp s2 I Lp R) as (m2 & E1 & LG & LK). rewrite Lp in E1. rewrite E1 in F. now inv F.
    + destruct (close_fails h use8 si m s p c1 o2 s2 Lp R D) as [E1 E2]. rewrite Lp in E1. rewrite F in E1. now inv E1.
  - inv E. reflexivity.
  - now inv E.
Qed.
Lemma react_log {S} h (calls : list (lcall S)) : forall g m s o g' m' s', mgr_inv g m ->
  react h calls (g, m, s) = (o, (g', m', s')) -> mgr_inv g' m' /\ m_log m' = m_log m.
Proof.
  induction calls as [|op r IH]; intros g m s o g' m' s' I E; cbn [react] in E.
  - unfold st_ret in E. inv E. auto.
  - unfold st_bind in E. destruct (do_call h op (g, m, s)) as [o1 [[g1 m1] s1]] eqn:F.
    destruct (lcall_log h op g m s _ _ _ _ I F) as [I1 L1].
    destruct o1; [|inv E; auto..]. destruct (IH _ _ _ _ _ _ _ I1 E) as [I2 L2]. split; [assumption|congruence].
Qed.
Lemma react_keeps {S} h oid (calls : list (lcall S)) : forall g m s c o g' m' s', mgr_inv g m -> lock oid m = Some c ->
  ~ closes oid calls -> react h calls (g, m, s) = (o, (g', m', s')) ->
  exists d, lock oid m' = Some (io_set_output c d).
Proof.
  induction calls as [|op r IH]; intros g m s c o g' m' s' I L N E; cbn [react] in E.
  - unfold st_ret in E. inv E. exists (io_out c). now rewrite output_same.
  - unfold st_bind in E. destruct (do_call h op (g, m, s)) as [o1 [[g1 m1] s1]] eqn:F.
    assert (N1 : forall use8 si, op <> LClose use8 si oid) by (intros use8 si ->; apply N; exists use8, si; now left).
    destruct (call_keeps h op g m s oid c _ _ _ _ I L N1 F) as (I1 & L1 & d & K1).
    destruct o1; [|inv E; eauto..].
    assert (N2 : ~ closes oid r) by (intros (use8 & si & J); apply N; exists use8, si; now right).
    destruct (IH _ _ _ _ _ _ _ _ I1 K1 N2 E) as [d' K2]. exists d'. now rewrite K2.
Qed.
Lemma still_lock g m k oid c : mgr_inv g m -> k = u16 (io_t2oId c) -> lock oid m = Some c -> still k oid m = Some c.
Proof.
  intros I -> L. unfold still. pose proof (lock_in _ _ _ L) as [E _]. apply (lock_iff g) in L as [_ J]; [|assumption].
  apply find_iff in J; [|apply sorted_nodup, (mi_sorted g m I)]. rewrite J, E, Nat.eqb_refl. reflexivity.
Qed.
Lemma still_after g m k oid c c1 d : mgr_inv g m -> k = u16 (io_t2oId c) -> io_static c1 = io_static c ->
  lock oid m = Some (io_set_output c1 d) -> still k oid m = Some (io_set_output c1 d).
Proof. intros I -> St. apply (still_lock g); [assumption|]. cbn [io_t2oId io_set_output]. now rewrite (static_t2o _ _ St). Qed.

(** ** The two halves of a tick *)
Lemma tick_split now hook sr c :
  io_tick now hook sr c =
  match tick_begin now c with
  | (PhClose, c1) => (Ok false, c1, [EvClosed (io_oid c)])
  | (PhWait, c1) => (Ok true, c1, [])
  | (PhSend, c1) => let c2 := io_set_output c1 (hook (io_out c1)) in let '(o, ev) := tick_send sr c2 in (o, c2, ev)
  end.
Proof.
  unfold io_tick, tick_begin, tick_send. cbv zeta. destruct (_ <? _); [reflexivity|]. destruct (_ <=? _); [|reflexivity].
  destruct c. cbn. destruct (_ && _); reflexivity.
Qed.
Lemma begin_static now c : io_static (snd (tick_begin now c)) = io_static c.
Proof. unfold tick_begin. cbv zeta. destruct (_ <? _); [reflexivity|]. destruct (_ <=? _); reflexivity. Qed.
Lemma begin_output now c d : tick_begin now (io_set_output c d) = (fst (tick_begin now c), io_set_output (snd (tick_begin now c)) d).
Proof.
  unfold tick_begin. cbv zeta. destruct c; cbn -[u32 u16 Z.mul Z.add]. repeat (destruct (_ <? _)); try reflexivity. destruct (_ <=? _); reflexivity.
Qed.
Lemma send_about sr c : Forall (fun e => ev_oid e = io_oid c) (snd (tick_send sr c)).
Proof. unfold tick_send. destruct (_ && _); repeat constructor. Qed.
Lemma send_ub sr c u : fst (tick_send sr c) <> Undef u.
Proof.
  unfold tick_send. destruct (_ && _); [discriminate|]. cbn [fst]. unfold send_check.
  destruct (sr _); repeat match goal with |- context [if ?b then _ else _] => destruct b end; cbn; discriminate.
Qed.

(** ** One entry *)
Lemma react_case {S} (h : heap) (calls : list (lcall S)) (k : unit -> st (view S) bool) w :
  (exists w', react h calls w = (Ok tt, w') /\ st_bind (react h calls) k w = k tt w')
  \/ (exists (o : outcome unit) (o' : outcome bool) w', react h calls w = (o, w') /\ o <> Ok tt /\ st_bind (react h calls) k w = (o', w')
      /\ (forall b, o' <> Ok b) /\ omap (fun _ => tt) o' = o).
Proof.
  unfold st_bind. destruct (react h calls w) as [[[]|e|u|] w'].
  - left. eauto.
  - right. exists (Throw e), (Throw e), w'. repeat split; discriminate.
  - right. exists (Undef u), (Undef u), w'. repeat split; discriminate.
  - right. exists Abort, Abort, w'. repeat split; discriminate.
Qed.

Section Entry.
Context {S : Type} (h : heap) (L : listeners S) (env : tick_env).

Lemma entry_inv g m s k c o g' m' s' : mgr_inv g m -> map_find k (m_map m) = Some c ->
  tick_entry h L env k c (g, m, s) = (o, (g', m', s')) -> mgr_inv g' m'.
Proof.
  intros I F E. unfold tick_entry in E.
  pose proof (begin_static (t_now env (io_oid c)) c) as St. destruct (tick_begin _ c) as [[] c1]; cbn [snd] in St.
  - assert (I1 : mgr_inv g (add_log (set_map m (map_update k c1 (m_map m))) [EvClosed (io_oid c)])).
    { destruct (inv_update g m k c c1 I F (static_oid _ _ St) (static_t2o _ _ St)). now constructor. }
    match type of E with st_bind (react h ?cs) ?kk ?w = _ => destruct (react_case h cs kk w) as [([[g2 m2] s2] & R & E1)|(o1 & o2 & [[g2 m2] s2] & R & _ & E1 & _)] end;
      rewrite E1 in E; apply react_log in R; try assumption; destruct R as [I2 _]; now inv E.
  - assert (I1 : mgr_inv g (set_map m (map_update k c1 (m_map m)))).
    { exact (inv_update g m k c c1 I F (static_oid _ _ St) (static_t2o _ _ St)). }
    match type of E with st_bind (react h ?cs) ?kk ?w = _ => destruct (react_case h cs kk w) as [([[g2 m2] s2] & R & E1)|(o1 & o2 & [[g2 m2] s2] & R & _ & E1 & _)] end;
      rewrite E1 in E; apply react_log in R; try assumption; destruct R as [I2 _]; [|now inv E].
    destruct (still k (io_oid c) m2) as [c2|]; [|now inv E]. destruct (tick_send _ c2) as [o3 ev]. inv E.
    destruct I2. now constructor.
  - inv E. exact (inv_update g' m k c c1 I F (static_oid _ _ St) (static_t2o _ _ St)).
Qed.

(** Nothing goes wrong but what a listener's own calls or sendto() do. *)
Lemma entry_ends g m s k c o w : polite L -> mgr_inv g m -> map_find k (m_map m) = Some c ->
  tick_entry h L env k c (g, m, s) = (o, w) -> (forall b, o <> Ok b) ->
  ends h L (omap (fun _ => tt) o) \/ exists oid n, omap (fun _ => tt) o = send_check n (t_send env oid n).
Proof.
  intros P I F E N. unfold tick_entry in E. pose proof (mi_key g m I k c (find_in _ _ _ F)) as Kc.
  pose proof (begin_static (t_now env (io_oid c)) c) as St. destruct (tick_begin _ c) as [[] c1]; cbn [snd] in St.
  - assert (I1 : mgr_inv g (add_log (set_map m (map_update k c1 (m_map m))) [EvClosed (io_oid c)])).
    { destruct (inv_update g m k c c1 I F (static_oid _ _ St) (static_t2o _ _ St)). now constructor. }
    pose proof (update_lock g m k c c1 (io_oid c) I F St [EvClosed (io_oid c)]) as Lk. rewrite Nat.eqb_refl in Lk.
    match type of E with st_bind (react h ?cs) ?kk ?w = _ => destruct (react_case h cs kk w) as [([[g2 m2] s2] & R & E1)|(o1 & o2 & w2 & R & _ & E1 & _ & <-)] end; rewrite E1 in E.
    + exfalso. pose proof (react_log _ _ _ _ _ _ _ _ _ I1 R) as [I2 _].
      destruct (react_keeps h (io_oid c) _ _ _ _ _ _ _ _ _ I1 Lk (proj1 (P _ _ [])) R) as [d K].
      rewrite (still_after g2 m2 k (io_oid c) c c1 d I2 Kc St K) in E. inv E. eapply N; reflexivity.
    + inv E. left. eexists _, _, _. left. exact R.
  - assert (I1 : mgr_inv g (set_map m (map_update k c1 (m_map m)))).
    { exact (inv_update g m k c c1 I F (static_oid _ _ St) (static_t2o _ _ St)). }
    pose proof (update_lock g m k c c1 (io_oid c) I F St []) as Lk. rewrite Nat.eqb_refl in Lk.
    change (lock (io_oid c) (set_map m (map_update k c1 (m_map m))) = Some c1) in Lk.
    match type of E with st_bind (react h ?cs) ?kk ?w = _ => destruct (react_case h cs kk w) as [([[g2 m2] s2] & R & E1)|(o1 & o2 & w2 & R & _ & E1 & _ & <-)] end; rewrite E1 in E.
    + pose proof (react_log _ _ _ _ _ _ _ _ _ I1 R) as [I2 _].
      destruct (react_keeps h (io_oid c) _ _ _ _ _ _ _ _ _ I1 Lk (proj2 (P _ _ _)) R) as [d K].
      rewrite (still_after g2 m2 k (io_oid c) c c1 d I2 Kc St K) in E.
      unfold tick_send in E. destruct (_ && _); inv E; [exfalso; eapply N; reflexivity|].
      right. match goal with |- context [send_check ?n (?f ?x) ] => exists (io_oid c), x; destruct (send_check n (f x)) as [[]|?|?|]; reflexivity end.
    + inv E. left. eexists _, _, _. right. left. eexists. exact R.
  - inv E. exfalso. eapply N; reflexivity.
Qed.

Lemma entry_other g m s k c oid c0 o g' m' s' : spares L oid -> mgr_inv g m -> map_find k (m_map m) = Some c ->
  lock oid m = Some c0 -> io_oid c <> oid ->
  tick_entry h L env k c (g, m, s) = (o, (g', m', s')) ->
  about oid (m_log m') = about oid (m_log m) /\ exists d, lock oid m' = Some (io_set_output c0 d).
Proof.
  intros P I F Lo N E. unfold tick_entry in E.
  pose proof (begin_static (t_now env (io_oid c)) c) as St. destruct (tick_begin _ c) as [[] c1]; cbn [snd] in St.
  - assert (I1 : mgr_inv g (add_log (set_map m (map_update k c1 (m_map m))) [EvClosed (io_oid c)])).
    { destruct (inv_update g m k c c1 I F (static_oid _ _ St) (static_t2o _ _ St)). now constructor. }
    pose proof (update_lock g m k c c1 oid I F St [EvClosed (io_oid c)]) as Lk. rewrite Lo in Lk.
    destruct (Nat.eqb_spec oid (io_oid c)); [congruence|].
    assert (A : forall l, about oid (l ++ [EvClosed (io_oid c)]) = about oid l).
    { intros l. rewrite about_app, (about_none oid (io_oid c) [EvClosed (io_oid c)]); [apply app_nil_r|repeat constructor|assumption]. }
    match type of E with st_bind (react h ?cs) ?kk ?w = _ => destruct (react_case h cs kk w) as [([[g2 m2] s2] & R & E1)|(o1 & o2 & [[g2 m2] s2] & R & _ & E1 & _)] end; rewrite E1 in E;
      (pose proof (react_log _ _ _ _ _ _ _ _ _ I1 R) as [I2 Lg]; cbn [add_log m_log set_map] in Lg;
       destruct (react_keeps h oid _ _ _ _ _ _ _ _ _ I1 Lk (proj1 (proj2 (P _ _ 0 0 []))) R) as [d K]; inv E;
       rewrite Lg, A; eauto).
  - assert (I1 : mgr_inv g (set_map m (map_update k c1 (m_map m)))).
    { exact (inv_update g m k c c1 I F (static_oid _ _ St) (static_t2o _ _ St)). }
    pose proof (update_lock g m k c c1 oid I F St []) as Lk. rewrite Lo in Lk.
    destruct (Nat.eqb_spec oid (io_oid c)); [congruence|].
    change (lock oid (set_map m (map_update k c1 (m_map m))) = Some c0) in Lk.
    match type of E with st_bind (react h ?cs) ?kk ?w = _ => destruct (react_case h cs kk w) as [([[g2 m2] s2] & R & E1)|(o1 & o2 & [[g2 m2] s2] & R & _ & E1 & _)] end; rewrite E1 in E;
      (pose proof (react_log _ _ _ _ _ _ _ _ _ I1 R) as [I2 Lg]; cbn [m_log set_map] in Lg;
       destruct (react_keeps h oid _ _ _ _ _ _ _ _ _ I1 Lk (proj2 (proj2 (P _ _ 0 0 _))) R) as [d K]).
    2:{ inv E. rewrite Lg. eauto. }
    destruct (still k (io_oid c) m2) as [c2|] eqn:Sl; [|inv E; rewrite Lg; eauto].
    pose proof (send_about (t_send env (io_oid c)) c2) as Sa. destruct (tick_send _ c2) as [o3 ev]. inv E. cbn [add_log m_log snd] in *.
    rewrite about_app, (about_none oid (io_oid c) ev), Lg, app_nil_r; [eauto| |assumption].
    unfold still in Sl. destruct (map_find k (m_map m2)) as [c3|]; [|discriminate]. destruct (Nat.eqb_spec (io_oid c3) (io_oid c)) as [Q|]; [|discriminate]. inv Sl. now rewrite <- Q.
  - inv E. split; [reflexivity|]. exists (io_out c0). rewrite output_same.
    pose proof (update_lock g' m k c c1 oid I F St []) as Lk. rewrite Lo in Lk.
    destruct (Nat.eqb_spec oid (io_oid c)); [congruence|]. exact Lk.
Qed.

Lemma entry_self g m s k c b g' m' s' : spares L (io_oid c) -> mgr_inv g m -> map_find k (m_map m) = Some c ->
  tick_entry h L env k c (g, m, s) = (Ok b, (g', m', s')) ->
  exists d2 d c' ev, io_tick (t_now env (io_oid c)) (fun _ => d2) (t_send env (io_oid c)) c = (Ok b, c', ev)
    /\ about (io_oid c) (m_log m') = about (io_oid c) (m_log m) ++ ev /\ lock (io_oid c) m' = Some (io_set_output c' d).
Proof.
  intros P I F E. unfold tick_entry in E. pose proof (mi_key g m I k c (find_in _ _ _ F)) as Kc.
  setoid_rewrite tick_split. set (now := t_now env (io_oid c)) in *.
  pose proof (begin_static now c) as St. destruct (tick_begin _ c) as [[] c1]; cbn [snd] in St.
  - assert (I1 : mgr_inv g (add_log (set_map m (map_update k c1 (m_map m))) [EvClosed (io_oid c)])).
    { destruct (inv_update g m k c c1 I F (static_oid _ _ St) (static_t2o _ _ St)). now constructor. }
    pose proof (update_lock g m k c c1 (io_oid c) I F St [EvClosed (io_oid c)]) as Lk. rewrite Nat.eqb_refl in Lk.
    match type of E with st_bind (react h ?cs) ?kk ?w = _ => destruct (react_case h cs kk w) as [([[g2 m2] s2] & R & E1)|(o1 & o2 & [[g2 m2] s2] & R & _ & E1 & N & _)] end; rewrite E1 in E.
    2:{ inv E. exfalso. eapply N; reflexivity. }
    pose proof (react_log _ _ _ _ _ _ _ _ _ I1 R) as [I2 Lg]. cbn [add_log m_log set_map] in Lg.
    destruct (react_keeps h (io_oid c) _ _ _ _ _ _ _ _ _ I1 Lk (proj1 (proj2 (P _ _ 0 0 []))) R) as [d K].
    destruct (still k (io_oid c) m2); inv E.
    exists [], d, c1, [EvClosed (io_oid c)]. split; [reflexivity|]. split; [|exact K].
    rewrite Lg, about_app, (about_all (io_oid c) [EvClosed (io_oid c)]); [reflexivity|repeat constructor].
  - assert (I1 : mgr_inv g (set_map m (map_update k c1 (m_map m)))).
    { exact (inv_update g m k c c1 I F (static_oid _ _ St) (static_t2o _ _ St)). }
    pose proof (update_lock g m k c c1 (io_oid c) I F St []) as Lk. rewrite Nat.eqb_refl in Lk.
    change (lock (io_oid c) (set_map m (map_update k c1 (m_map m))) = Some c1) in Lk.
    match type of E with st_bind (react h ?cs) ?kk ?w = _ => destruct (react_case h cs kk w) as [([[g2 m2] s2] & R & E1)|(o1 & o2 & [[g2 m2] s2] & R & _ & E1 & N & _)] end; rewrite E1 in E.
    2:{ inv E. exfalso. eapply N; reflexivity. }
    pose proof (react_log _ _ _ _ _ _ _ _ _ I1 R) as [I2 Lg]. cbn [m_log set_map] in Lg.
    destruct (react_keeps h (io_oid c) _ _ _ _ _ _ _ _ _ I1 Lk (proj2 (proj2 (P _ _ 0 0 _))) R) as [d K].
    rewrite (still_after g2 m2 k (io_oid c) c c1 d I2 Kc St K) in E.
    exists d, d, (io_set_output c1 d). cbv zeta.
    pose proof (send_about (t_send env (io_oid c)) (io_set_output c1 d)) as Sa.
    destruct (tick_send _ (io_set_output c1 d)) as [o3 ev]. inv E. exists ev. split; [reflexivity|].
    cbn [add_log m_log]. rewrite about_app, Lg, (about_all (io_oid c) ev); [split; [reflexivity|]; rewrite output_twice; exact K|].
    cbn [snd] in Sa. replace (io_oid c) with (io_oid (io_set_output c1 d)) by (cbn [io_oid io_set_output]; now apply static_oid). exact Sa.
  - clear Kc. inv E. exists [], (io_out c1), c1, []. split; [reflexivity|]. rewrite app_nil_r, output_same. split; [reflexivity|].
    pose proof (update_lock g' m k c c1 (io_oid c) I F St []) as Lk. now rewrite Nat.eqb_refl in Lk.
Qed.

(** ** The loop *)
Lemma find_ge k l k' c : sorted l -> find (fun e : Z * iocon => k <=? fst e) l = Some (k', c) ->
  k <= k' /\ map_find k' l = Some c /\ forall q d, In (q, d) l -> k <= q -> k' <= q.
Proof.
  intros So E. pose proof (find_some _ _ E) as [J K]. apply Z.leb_le in K. cbn [fst] in K. split; [assumption|].
  split; [now apply find_iff; [apply sorted_nodup|]|].
  clear K. intros q d. induction l as [|[k1 c1] l IH]; [discriminate|]. intros I Q. cbn [find fst] in E.
  unfold sorted in So. cbn [keys map fst] in So. inv So.
  destruct (Z.leb_spec k k1).
  - inv E. destruct I as [I|I]; [inv I; lia|]. rewrite Forall_forall in H2. specialize (H2 q (in_keys _ _ _ I)). lia.
  - destruct I as [I|I]; [inv I; lia|]. destruct J as [J|J]; [inv J; apply find_some in E as [_ E]; apply Z.leb_le in E; cbn [fst] in E; lia|]. now apply IH.
Qed.
Lemma find_ge_none k l q d : find (fun e : Z * iocon => k <=? fst e) l = None -> In (q, d) l -> q < k.
Proof. intros E J. apply (List.find_none _ _ E) in J. cbn [fst] in J. lia. Qed.

Lemma key_range g m k c : mgr_inv g m -> map_find k (m_map m) = Some c -> 0 <= k < 65536.
Proof. intros I F. rewrite (mi_key g m I k c (find_in _ _ _ F)). unfold u16. lia. Qed.

Lemma loop_inv n : forall k g m s o g' m' s', mgr_inv g m -> tick_loop h L env n k (g, m, s) = (o, (g', m', s')) -> mgr_inv g' m'.
Proof.
  induction n as [|n IH]; intros k g m s o g' m' s' I E; cbn [tick_loop] in E; [unfold st_ret in E; now inv E|].
  cbn [fst snd] in E. destruct (find _ (m_map m)) as [[k1 c1]|] eqn:F; [|now inv E].
  destruct (find_ge k _ k1 c1 (mi_sorted g m I) F) as (_ & G & _).
  unfold st_bind at 1 in E. destruct (tick_entry h L env k1 c1 (g, m, s)) as [o1 [[g1 m1] s1]] eqn:T.
  pose proof (entry_inv g m s k1 c1 _ _ _ _ I G T) as I1. destruct o1 as [b| | |]; [|now inv E..].
  unfold st_bind in E. destruct (tick_loop h L env n (k1 + 1) (g1, m1, s1)) as [o2 [[g2 m2] s2]] eqn:T2.
  pose proof (IH _ _ _ _ _ _ _ _ I1 T2) as I2. destruct o2; now inv E.
Qed.
Lemma loop_ends n : polite L -> forall k g m s o w, mgr_inv g m -> tick_loop h L env n k (g, m, s) = (o, w) -> (forall ks, o <> Ok ks) ->
  ends h L (omap (fun _ => tt) o) \/ exists oid n, omap (fun _ => tt) o = send_check n (t_send env oid n).
Proof.
  intros P. induction n as [|n IH]; intros k g m s o w I E N; cbn [tick_loop] in E.
  { unfold st_ret in E. inv E. exfalso. eapply N; reflexivity. }
  cbn [fst snd] in E. destruct (find _ (m_map m)) as [[k1 c1]|] eqn:F; [|inv E; exfalso; eapply N; reflexivity].
  destruct (find_ge k _ k1 c1 (mi_sorted g m I) F) as (_ & G & _).
  unfold st_bind at 1 in E. destruct (tick_entry h L env k1 c1 (g, m, s)) as [o1 [[g1 m1] s1]] eqn:T.
  pose proof (entry_inv g m s k1 c1 _ _ _ _ I G T) as I1.
  pose proof (entry_ends g m s k1 c1 _ _ P I G T) as X.
  destruct o1 as [b| | |]; [|inv E; apply X; discriminate..]. clear X.
  unfold st_bind in E. destruct (tick_loop h L env n (k1 + 1) (g1, m1, s1)) as [o2 w2] eqn:T2.
  pose proof (IH _ _ _ _ _ _ I1 T2) as X.
  destruct o2; inv E; [exfalso; eapply N; reflexivity|apply X; discriminate..].
Qed.

(** After its own entry was passed, nothing more happens to a connection. *)
Lemma loop_after n oid : spares L oid -> forall k g m s c ks g' m' s', mgr_inv g m -> lock oid m = Some c -> u16 (io_t2oId c) < k ->
  tick_loop h L env n k (g, m, s) = (Ok ks, (g', m', s')) ->
  about oid (m_log m') = about oid (m_log m) /\ ~ In (u16 (io_t2oId c)) ks /\ exists d, lock oid m' = Some (io_set_output c d).
Proof.
  intros P. induction n as [|n IH]; intros k g m s c ks g' m' s' I Lo Lt E; cbn [tick_loop] in E.
  { unfold st_ret in E. inv E. split; [reflexivity|]. split; [easy|]. exists (io_out c). now rewrite output_same. }
  cbn [fst snd] in E. destruct (find _ (m_map m)) as [[k1 c1]|] eqn:F.
  2:{ inv E. split; [reflexivity|]. split; [easy|]. exists (io_out c). now rewrite output_same. }
  destruct (find_ge k _ k1 c1 (mi_sorted g m I) F) as (Ge & G & _).
  assert (No : io_oid c1 <> oid).
  { intros Q. pose proof (lock_some g m k1 c1 I (find_in _ _ _ G)) as X. rewrite Q, Lo in X. inv X.
    rewrite (mi_key g m I k1 c1 (find_in _ _ _ G)) in Ge. lia. }
  unfold st_bind at 1 in E. destruct (tick_entry h L env k1 c1 (g, m, s)) as [o1 [[g1 m1] s1]] eqn:T.
  pose proof (entry_inv g m s k1 c1 _ _ _ _ I G T) as I1.
  destruct (entry_other g m s k1 c1 oid c _ _ _ _ P I G Lo No T) as (A1 & d & L1).
  destruct o1 as [b| | |]; [|discriminate..].
  unfold st_bind in E. destruct (tick_loop h L env n (k1 + 1) (g1, m1, s1)) as [o2 [[g2 m2] s2]] eqn:T2.
  destruct o2 as [ks2| | |]; [|discriminate..]. unfold st_ret in E. inv E.
  destruct (IH (k1 + 1) g1 m1 s1 (io_set_output c d) ks2 g' m' s' I1 L1 ltac:(cbn [io_t2oId io_set_output]; lia) T2) as (A2 & N2 & d' & L2).
  cbn [io_t2oId io_set_output] in N2. split; [congruence|]. split; [|exists d'; exact L2].
  destruct b; [assumption|]. intros [J|J]; [lia|contradiction].
Qed.

(** Its own entry comes once. *)
Lemma loop_once n oid : spares L oid -> forall k g m s c ks g' m' s', mgr_inv g m -> lock oid m = Some c ->
  k <= u16 (io_t2oId c) < k + Z.of_nat n ->
  tick_loop h L env n k (g, m, s) = (Ok ks, (g', m', s')) ->
  exists d1 d2 d3 b c' ev, io_tick (t_now env oid) (fun _ => d2) (t_send env oid) (io_set_output c d1) = (Ok b, c', ev)
    /\ about oid (m_log m') = about oid (m_log m) ++ ev /\ (In (u16 (io_t2oId c)) ks <-> b = false)
    /\ lock oid m' = Some (io_set_output c' d3).
Proof.
  intros P. induction n as [|n IH]; intros k g m s c ks g' m' s' I Lo Lt E; cbn [tick_loop] in E; [lia|].
  pose proof Lo as Lo0. apply (lock_iff g) in Lo0 as [Oc J]; [|assumption].
  cbn [fst snd] in E. destruct (find _ (m_map m)) as [[k1 c1]|] eqn:F.
  2:{ pose proof (find_ge_none _ _ _ _ F J). lia. }
  destruct (find_ge k _ k1 c1 (mi_sorted g m I) F) as (Ge & G & Fi). specialize (Fi _ _ J ltac:(lia)).
  unfold st_bind at 1 in E. destruct (tick_entry h L env k1 c1 (g, m, s)) as [o1 [[g1 m1] s1]] eqn:T.
  pose proof (entry_inv g m s k1 c1 _ _ _ _ I G T) as I1.
  destruct o1 as [b| | |]; [|discriminate..].
  unfold st_bind in E. destruct (tick_loop h L env n (k1 + 1) (g1, m1, s1)) as [o2 [[g2 m2] s2]] eqn:T2.
  destruct o2 as [ks2| | |]; [|discriminate..]. unfold st_ret in E. inv E.
  pose proof (mi_key g m I k1 c1 (find_in _ _ _ G)) as Kk.
  destruct (Nat.eq_dec (io_oid c1) (io_oid c)) as [Q|Q].
  - assert (c1 = c). { pose proof (lock_some g m k1 c1 I (find_in _ _ _ G)) as X. rewrite Q, Lo in X. now inv X. } subst c1.
    destruct (entry_self g m s k1 c b _ _ _ P I G T) as (d2 & d & c' & ev & Tk & A1 & L1).
    assert (St : io_static c' = io_static c).
    { pose proof (tick_static (t_now env (io_oid c)) (fun _ => d2) (t_send env (io_oid c)) c) as X. rewrite Tk in X. exact X. }
    destruct (loop_after n (io_oid c) P (k1 + 1) g1 m1 s1 (io_set_output c' d) ks2 g' m' s' I1 L1) as (A2 & N2 & d' & L2).
    { cbn [io_t2oId io_set_output]. rewrite (static_t2o _ _ St). lia. }
    { exact T2. }
    cbn [io_t2oId io_set_output] in N2. rewrite (static_t2o _ _ St) in N2.
    exists (io_out c), d2, d', b, c', ev. rewrite output_same. split; [exact Tk|]. split; [congruence|]. split; [|rewrite output_twice in L2; exact L2].
    rewrite <- Kk in *. destruct b; split; intros H; try discriminate; [contradiction|reflexivity|now left].
  - destruct (entry_other g m s k1 c1 (io_oid c) c _ _ _ _ P I G Lo Q T) as (A1 & d & L1).
    assert (k1 <> u16 (io_t2oId c)).
    { intros Z. apply find_iff in J; [|apply sorted_nodup, (mi_sorted g m I)]. rewrite <- Z, G in J. inv J. now apply Q. }
    destruct (IH (k1 + 1) g1 m1 s1 (io_set_output c d) ks2 g' m' s' I1 L1) as (d1 & d2 & d3 & b' & c' & ev & Tk & A2 & N2 & L2).
    { cbn [io_t2oId io_set_output]. lia. }
    { exact T2. }
    rewrite output_twice in Tk. cbn [io_t2oId io_set_output] in N2.
    exists d1, d2, d3, b', c', ev. split; [exact Tk|]. split; [congruence|]. split; [|exact L2].
    rewrite <- N2. destruct b; [reflexivity|]. cbn [In]. split; [intros [?|?]; [lia|assumption]|auto].
Qed.

Definition ticks_with (n : nat) : st (view S) unit :=
  st_bind (tick_loop h L env n 0) (fun ks '(g, m, s) =>
    (Ok tt, (g, set_map m (fold_left (fun l k => map_erase k l) ks (m_map m)), s))).
Lemma ticks_reent_inv n g m s o g' m' s' : mgr_inv g m -> ticks_with n (g, m, s) = (o, (g', m', s')) -> mgr_inv g' m'.
Proof.
  intros I E. unfold ticks_with, st_bind in E.
  destruct (tick_loop _ _ _ _ _ _) as [o1 [[g1 m1] s1]] eqn:T. pose proof (loop_inv _ _ _ _ _ _ _ _ _ I T) as I1.
  destruct o1; inv E; [|assumption..]. now apply fold_erase_inv.
Qed.
Lemma ticks_once_n n g m s oid c g' m' s' : 65536 <= Z.of_nat n -> mgr_inv g m -> spares L oid -> lock oid m = Some c ->
  ticks_with n (g, m, s) = (Ok tt, (g', m', s')) ->
  exists d1 d2 b c' ev, io_tick (t_now env oid) (fun _ => d2) (t_send env oid) (io_set_output c d1) = (Ok b, c', ev)
    /\ about oid (m_log m') = about oid (m_log m) ++ ev
    /\ if b then exists d3, lock oid m' = Some (io_set_output c' d3) else lock oid m' = None.
Proof.
  intros Hn I P Lo E. unfold ticks_with, st_bind in E.
  destruct (tick_loop _ _ _ _ _ _) as [o1 [[g1 m1] s1]] eqn:T. pose proof (loop_inv _ _ _ _ _ _ _ _ _ I T) as I1.
  destruct o1 as [ks| | |]; [|discriminate..]. inv E.
  destruct (loop_once n oid P 0 g m s c ks g' m1 s' I Lo) as (d1 & d2 & d3 & b & c' & ev & Tk & A & K & L1); [|exact T|].
  { unfold u16. lia. }
  exists d1, d2, b, c', ev. split; [exact Tk|]. split; [exact A|].
  assert (St : io_static c' = io_static c).
  { pose proof (tick_static (t_now env oid) (fun _ => d2) (t_send env oid) (io_set_output c d1)) as X. rewrite Tk in X. exact X. }
  pose proof (fold_erase_inv g' ks m1 I1) as I2.
  apply (lock_iff g') in L1 as [O1 J1]; [|assumption]. cbn [io_t2oId io_set_output] in J1. rewrite (static_t2o _ _ St) in J1.
  destruct b.
  - exists d3. apply (lock_iff g'); [assumption|]. split; [assumption|]. cbn [set_map m_map]. apply fold_erase_in. cbn [fst io_t2oId io_set_output].
    rewrite (static_t2o _ _ St). split; [assumption|]. intros X. apply K in X. discriminate.
  - apply lock_none. intros X. apply in_map_iff in X as ([k2 c2] & O2 & J2). cbn [set_map m_map snd] in *.
    apply fold_erase_in in J2 as [J2 N2]. cbn [fst] in N2.
    pose proof (lock_some g' m1 _ _ I1 J1) as Y1. pose proof (lock_some g' m1 _ _ I1 J2) as Y2. cbn [snd] in *.
    rewrite O2 in Y2. rewrite O1 in Y1. rewrite Y1 in Y2. inv Y2.
    rewrite (mi_key g' m1 I1 _ _ J2) in N2. cbn [io_t2oId io_set_output] in N2. rewrite (static_t2o _ _ St) in N2. apply N2. now apply K.
Qed.
Lemma ticks_ends_n n g m s o w : polite L -> mgr_inv g m -> ticks_with n (g, m, s) = (o, w) -> o <> Ok tt ->
  ends h L o \/ exists oid n, o = send_check n (t_send env oid n).
Proof.
  intros P I E N. unfold ticks_with, st_bind in E.
  destruct (tick_loop _ _ _ _ _ _) as [o1 [[g1 m1] s1]] eqn:T.
  pose proof (loop_ends _ P _ _ _ _ _ _ I T) as X. destruct o1 as [ks| | |]; inv E; [now destruct N|apply X; discriminate..].
Qed.
Lemma listen_with n : Z.of_nat n = 65536 -> listen_ticks h L env = ticks_with n.
Proof. intros E. unfold listen_ticks, ticks_with. f_equal. f_equal. rewrite <- E. apply Nat2Z.id. Qed.
Lemma a_fuel : exists n, Z.of_nat n = 65536.
Proof. exists (Z.to_nat 65536). now rewrite Z2Nat.id by lia. Qed.
Theorem ticks_inv g m s o g' m' s' : mgr_inv g m -> listen_ticks h L env (g, m, s) = (o, (g', m', s')) -> mgr_inv g' m'.
Proof. destruct a_fuel as [n F]. rewrite (listen_with n F). apply ticks_reent_inv. Qed.
Theorem ticks_once g m s oid c g' m' s' : mgr_inv g m -> spares L oid -> lock oid m = Some c ->
  listen_ticks h L env (g, m, s) = (Ok tt, (g', m', s')) ->
  exists d1 d2 b c' ev, io_tick (t_now env oid) (fun _ => d2) (t_send env oid) (io_set_output c d1) = (Ok b, c', ev)
    /\ about oid (m_log m') = about oid (m_log m) ++ ev
    /\ if b then exists d3, lock oid m' = Some (io_set_output c' d3) else lock oid m' = None.
Proof. destruct a_fuel as [n F]. rewrite (listen_with n F). apply (ticks_once_n n). lia. Qed.
Theorem ticks_ends g m s o w : polite L -> mgr_inv g m -> listen_ticks h L env (g, m, s) = (o, w) -> o <> Ok tt ->
  ends h L o \/ exists oid n, o = send_check n (t_send env oid n).
Proof. destruct a_fuel as [n F]. rewrite (listen_with n F). apply ticks_ends_n. Qed.

(** ** Receiving *)
Lemma hear_ends d g m s o w : hear h L d (g, m, s) = (o, w) -> o <> Ok tt ->
  ends h L o \/ fst (on_readable h d m) = o.
Proof.
  intros E N. unfold hear in E. destruct (on_readable h d m) as [o1 m1].
  assert (X : (o1, (g, m1, s)) = (o, w) -> ends h L o \/ fst (o1, m1) = o) by (intros X; inv X; now right).
  destruct o1 as [u|?|?|]; try exact (X E).
  destruct (skipn _ _) as [|[p hdr sq dt|p|p e dt] [|? ?]]; try exact (X E).
  left. eexists _, _, _. right. right. eauto.
Qed.
Lemma hear_inv d g m s o g' m' s' : mgr_inv g m -> hear h L d (g, m, s) = (o, (g', m', s')) -> mgr_inv g' m'.
Proof.
  intros I E. unfold hear in E. pose proof (readable_quiet g h d m m I (quiet_refl m)) as (Q & _).
  destruct (on_readable h d m) as [o1 m1]. cbn [snd] in Q. pose proof (statics_inv g m m1 I Q) as I1.
  assert (X : (o1, (g, m1, s)) = (o, (g', m', s')) -> mgr_inv g' m') by (intros X; now inv X).
  destruct o1 as [u|?|?|]; try exact (X E).
  destruct (skipn _ _) as [|[p hdr sq dt|p|p e dt] [|? ?]]; try exact (X E).
  now apply react_log in E as [? _].
Qed.
Fixpoint hear_seq (ds : list dgram) (w : view S) : outcome unit * view S :=
  match ds with
  | [] => (Ok tt, w)
  | d :: r => match hear h L d w with (Ok _, w') => hear_seq r w' | (o, w') => (o, w') end
  end.
Lemma hear_seq_app a : forall b w, hear_seq (a ++ b) w
  = match hear_seq a w with (Ok _, w') => hear_seq b w' | (o, w') => (o, w') end.
Proof.
  induction a as [|d a IH]; intros b w; cbn [app hear_seq]; [reflexivity|].
  destruct (hear h L d w) as [[[]|?|?|] w']; try reflexivity. apply IH.
Qed.
Lemma hear_dispatch ready : forall i n w, dispatch (fun _ => hear h L) i n ready w = hear_seq (present (firstn n ready)) w.
Proof.
  unfold present. induction ready as [|[d|] r IH]; intros i n w; destruct n; cbn [dispatch firstn flat_map app]; try reflexivity.
  - cbn [hear_seq]. unfold st_bind. destruct (hear h L d w) as [[[]|?|?|] w']; try reflexivity. apply IH.
  - apply IH.
Qed.
Lemma hear_select n rounds ending w : n <> 0%nat ->
  bs_select (fun _ : nat => hear h L) n rounds ending w
  = match hear_seq (arriving n rounds) w with
    | (Ok _, w') => (match ending with SelQuiet => Ok tt | SelFail e => Throw (SystemError e) end, w')
    | (o, w') => (o, w')
    end.
Proof.
  intros N. unfold bs_select. destruct n as [|n]; [contradiction|]. clear N. revert w.
  unfold arriving. induction rounds as [|r rs IH]; intros w; cbn [select_rounds flat_map].
  - destruct ending; reflexivity.
  - unfold st_bind. rewrite hear_dispatch, hear_seq_app. unfold present.
    destruct (hear_seq _ w) as [[[]|?|?|] w']; try reflexivity. apply IH.
Qed.
Lemma seq_ends ds : forall g m s o w, hear_seq ds (g, m, s) = (o, w) -> o <> Ok tt ->
  ends h L o \/ exists d m', In d ds /\ fst (on_readable h d m') = o.
Proof.
  induction ds as [|d r IH]; intros g m s o w E N; cbn [hear_seq] in E; [inv E; now destruct N|].
  destruct (hear h L d (g, m, s)) as [o1 [[g1 m1] s1]] eqn:H.
  pose proof (hear_ends d g m s _ _ H) as X.
  destruct o1 as [u|?|?|].
  - destruct (IH _ _ _ _ _ E N) as [Y|(d' & m' & J & Y)]; [now left|]. right. exists d', m'. split; [now right|assumption].
  - inv E. destruct (X N) as [Y|Y]; [now left|]. right. exists d, m. split; [now left|assumption].
  - inv E. destruct (X N) as [Y|Y]; [now left|]. right. exists d, m. split; [now left|assumption].
  - inv E. destruct (X N) as [Y|Y]; [now left|]. right. exists d, m. split; [now left|assumption].
Qed.
Lemma hear_seq_inv ds : forall g m s o g' m' s', mgr_inv g m -> hear_seq ds (g, m, s) = (o, (g', m', s')) -> mgr_inv g' m'.
Proof.
  induction ds as [|d r IH]; intros g m s o g' m' s' I E; cbn [hear_seq] in E; [now inv E|].
  destruct (hear h L d (g, m, s)) as [o1 [[g1 m1] s1]] eqn:H. pose proof (hear_inv _ _ _ _ _ _ _ _ I H) as I1.
  destruct o1 as [u|?|?|]; [eapply IH; eassumption|now inv E..].
Qed.
Theorem listen_ends rounds ending g m s o w : polite L -> mgr_inv g m ->
  listen_connections h L rounds ending env (g, m, s) = (o, w) -> o <> Ok tt ->
  ends h L o
  \/ (exists d m', In d (arriving (List.length (m_socks m)) rounds) /\ fst (on_readable h d m') = o)
  \/ (exists oid n, o = send_check n (t_send env oid n))
  \/ (exists e, ending = SelFail e /\ o = Throw (SystemError e))
  \/ (m_socks m = [] /\ o = Undef UbDerefEnd).
Proof.
  intros P I E N. unfold listen_connections in E. unfold st_bind in E. cbn [fst snd] in E.
  destruct (List.length (m_socks m)) as [|k] eqn:Ln.
  { right. right. right. right. cbn [bs_select] in E. inv E. split; [|reflexivity]. now destruct (m_socks m). }
  rewrite hear_select in E by lia.
  destruct (hear_seq _ (g, m, s)) as [o1 [[g1 m1] s1]] eqn:H.
  pose proof (hear_seq_inv _ _ _ _ _ _ _ _ I H) as I1. pose proof (seq_ends _ _ _ _ _ _ H) as X.
  destruct o1 as [[]|?|?|].
  - destruct ending as [|e].
    + destruct (ticks_ends g1 m1 s1 o w P I1 E N) as [Y|Y]; auto.
    + inv E. right. right. right. left. eauto.
  - inv E. destruct (X N); auto.
  - inv E. destruct (X N); auto.
  - inv E. destruct (X N); auto.
Qed.
Theorem listen_inv rounds ending g m s o g' m' s' : mgr_inv g m ->
  listen_connections h L rounds ending env (g, m, s) = (o, (g', m', s')) -> mgr_inv g' m'.
Proof.
  intros I E. unfold listen_connections in E. unfold st_bind in E. cbn [fst snd] in E.
  destruct (List.length (m_socks m)) as [|k] eqn:Ln. { cbn [bs_select] in E. now inv E. }
  rewrite hear_select in E by lia.
  destruct (hear_seq _ (g, m, s)) as [o1 [[g1 m1] s1]] eqn:H.
  pose proof (hear_seq_inv _ _ _ _ _ _ _ _ I H) as I1.
  destruct o1 as [[]|?|?|]; [|now inv E..]. destruct ending; [|now inv E]. exact (ticks_inv _ _ _ _ _ _ _ I1 E).
Qed.
End Entry.

(** ** A connection that no listener closes *)
Lemma hear_one {S} (L : listeners S) oid d g m s c g' m' s' : spares L oid -> mgr_inv g m -> lock oid m = Some c -> gram_ok d ->
  hear strict L d (g, m, s) = (Ok tt, (g', m', s')) ->
  mgr_inv g' m' /\ exists l x, d = Dgram l /\
   ((exists dt c1 ev, brings l (io_t2oId c) dt /\ io_receive strict c dt = Ok (c1, ev)
       /\ about oid (m_log m') = about oid (m_log m) ++ ev /\ lock oid m' = Some (io_set_output c1 x))
    \/ (forall dt, ~ brings l (io_t2oId c) dt) /\ about oid (m_log m') = about oid (m_log m) /\ lock oid m' = Some (io_set_output c x)).
Proof.
  intros P I Lo G E. split; [eapply hear_inv; eassumption|].
  pose proof (readable_one g m oid c d I Lo G) as R. pose proof (readable_quiet g strict d m m I (quiet_refl m)) as (Q & _).
  unfold hear in E. destruct (on_readable strict d m) as [o1 m1]. cbn [snd] in Q. pose proof (statics_inv g m m1 I Q) as I1.
  assert (W : o1 = Ok tt /\ about oid (m_log m') = about oid (m_log m1) /\
              forall c1, lock oid m1 = Some c1 -> exists x, lock oid m' = Some (io_set_output c1 x)).
  { assert (X : (o1, (g, m1, s)) = (Ok tt, (g', m', s')) -> o1 = Ok tt /\ about oid (m_log m') = about oid (m_log m1) /\
              forall c1, lock oid m1 = Some c1 -> exists x, lock oid m' = Some (io_set_output c1 x)).
    { intros X. inv X. split; [reflexivity|]. split; [reflexivity|]. intros c1 K. exists (io_out c1). now rewrite output_same. }
    destruct o1 as [[]|?|?|]; try exact (X E).
    destruct (skipn _ _) as [|[p hdr sq dt|p|p e dt] [|? ?]]; try exact (X E).
    split; [reflexivity|]. pose proof (react_log _ _ _ _ _ _ _ _ _ I1 E) as [_ Lg]. split; [congruence|].
    intros c1 K. exact (react_keeps _ oid _ _ _ _ _ _ _ _ _ I1 K (proj1 (P _ _ _ _ _)) E). }
  destruct W as (-> & Ab & K). destruct R as (l & -> & [(dt & c1 & ev & B & Rc & L1 & A1)|(Nb & U1 & U2)]).
  - destruct (K _ L1) as [x L2]. exists l, x. split; [reflexivity|]. left. exists dt, c1, ev. repeat split; try assumption. congruence.
  - rewrite Lo in U1. destruct (K _ U1) as [x L2]. exists l, x. split; [reflexivity|]. right. repeat split; try assumption. congruence.
Qed.
Lemma unset_app a b : unset (a ++ b) = unset a ++ unset b.
Proof. apply filter_app. Qed.
Lemma hear_seq_one {S} (L : listeners S) oid ds : spares L oid -> forall g m s c g' m' s', mgr_inv g m -> lock oid m = Some c -> Forall gram_ok ds ->
  hear_seq strict L ds (g, m, s) = (Ok tt, (g', m', s')) ->
  mgr_inv g' m' /\ exists xs dts c' ev, deliveries (io_t2oId c) ds dts /\ unset xs = map (Recv 0) dts
    /\ io_run strict xs c = (Open c', ev) /\ io_static c' = io_static c
    /\ lock oid m' = Some c' /\ about oid (m_log m') = about oid (m_log m) ++ ev.
Proof.
  intros P. induction ds as [|d ds IH]; intros g m s c g' m' s' I Lo F E; cbn [hear_seq] in E.
  { inv E. split; [assumption|]. exists [], [], c, []. rewrite app_nil_r. repeat split; auto. constructor. }
  apply Forall_cons_iff in F as [F1 F].
  destruct (hear strict L d (g, m, s)) as [[[]|?|?|] [[g1 m1] s1]] eqn:H; [|discriminate..].
  destruct (hear_one L oid d g m s c g1 m1 s1 P I Lo F1 H) as (I1 & l & x & -> & [(dt & c1 & ev & B & Rc & A1 & L1)|(Nb & A1 & L1)]).
  - destruct (IH _ _ _ _ _ _ _ I1 L1 F E) as (I2 & xs & dts & c' & ev' & D & U & X & St & L2 & A2). split; [assumption|].
    pose proof (receive_static _ _ _ _ _ Rc) as Sr. cbn [io_t2oId io_set_output] in D. rewrite (static_t2o _ _ Sr) in D.
    exists (Recv 0 dt :: SetOut x :: xs), (dt :: dts), c', (ev ++ ev'). split; [now constructor|].
    split; [unfold unset in *; cbn [filter map]; now rewrite U|]. cbn [io_run]. rewrite Rc, X. split; [reflexivity|].
    split; [rewrite St; exact Sr|]. split; [assumption|]. rewrite A2, A1. symmetry. apply app_assoc.
  - destruct (IH _ _ _ _ _ _ _ I1 L1 F E) as (I2 & xs & dts & c' & ev' & D & U & X & St & L2 & A2). split; [assumption|].
    cbn [io_t2oId io_set_output] in D.
    exists (SetOut x :: xs), dts, c', ev'. split; [now constructor|].
    split; [exact U|]. cbn [io_run]. split; [exact X|].
    split; [rewrite St; apply output_static|]. split; [assumption|]. congruence.
Qed.
Theorem listen_one {S} (L : listeners S) rounds ending env oid g m s c g' m' s' : spares L oid -> mgr_inv g m -> lock oid m = Some c ->
  byte_grams (CHandle (S := S) rounds ending env) ->
  listen_connections strict L rounds ending env (g, m, s) = (Ok tt, (g', m', s')) ->
  exists xs ds d, deliveries (io_t2oId c) (arriving (List.length (m_socks m)) rounds) ds
    /\ unset xs = map (Recv 0) ds ++ [Tick (t_now env oid) (fun _ => d) (t_send env oid)]
    /\ about oid (m_log m') = about oid (m_log m) ++ snd (io_run strict xs c)
    /\ match fst (io_run strict xs c) with
       | Open c' => lock oid m' = Some c'
       | Closed => lock oid m' = None
       | Broken => False
       end.
Proof.
  intros P I Lo B E. unfold listen_connections in E. unfold st_bind in E. cbn [fst snd] in E.
  destruct (List.length (m_socks m)) as [|k] eqn:Ln. { cbn [bs_select] in E. discriminate. }
  rewrite hear_select in E by lia.
  destruct (hear_seq _ _ _ (g, m, s)) as [[[]|?|?|] [[g1 m1] s1]] eqn:H; [|discriminate..].
  destruct ending; [|discriminate].
  destruct (hear_seq_one L oid _ P _ _ _ _ _ _ _ I Lo (arriving_ok (S := S) _ rounds SelQuiet env B) H) as
    (I1 & xs & dts & c1 & ev & D & U & X & St & L1 & A1).
  destruct (ticks_once strict L env g1 m1 s1 oid c1 _ _ _ I1 P L1 E) as (d1 & d2 & b & c2 & ev2 & Tk & A2 & Q).
  destruct b.
  - destruct Q as [d3 Q].
    exists (xs ++ [SetOut d1; Tick (t_now env oid) (fun _ => d2) (t_send env oid); SetOut d3]), dts, d2.
    split; [assumption|]. split; [rewrite unset_app, U; reflexivity|]. rewrite run_app, X. cbn [io_run]. rewrite Tk. cbn [fst snd].
    rewrite A2, A1, app_nil_r, app_assoc. auto.
  - exists (xs ++ [SetOut d1; Tick (t_now env oid) (fun _ => d2) (t_send env oid)]), dts, d2.
    split; [assumption|]. split; [rewrite unset_app, U; reflexivity|]. rewrite run_app, X. cbn [io_run]. rewrite Tk. cbn [fst snd].
    rewrite A2, A1, app_assoc. auto.
Qed.

(** ** Listeners that do not call the library *)
Lemma find_mid k c (a r : list (Z * iocon)) : NoDup (keys (a ++ (k, c) :: r)) -> map_find k (a ++ (k, c) :: r) = Some c.
Proof. intros N. apply find_iff; [assumption|]. apply in_or_app. right. now left. Qed.
Lemma keys_mid k c c' (a r : list (Z * iocon)) : keys (a ++ (k, c) :: r) = keys (a ++ (k, c') :: r).
Proof. unfold keys. rewrite !map_app. reflexivity. Qed.
Lemma update_mid k c c' (a r : list (Z * iocon)) : NoDup (keys (a ++ (k, c) :: r)) ->
  map_update k c' (a ++ (k, c) :: r) = a ++ (k, c') :: r.
Proof.
  intros N. unfold keys in N. rewrite map_app in N. cbn [map fst] in N. apply NoDup_remove_2 in N. rewrite in_app_iff in N.
  unfold map_update. rewrite map_app. cbn [map fst]. rewrite Z.eqb_refl. f_equal; [|f_equal].
  - rewrite <- (map_id a) at 2. apply map_ext_in. intros [k1 c1] J. cbn [fst]. destruct (Z.eqb_spec k1 k); [|reflexivity].
    subst. exfalso. apply N. left. now apply (in_map fst) in J.
  - rewrite <- (map_id r) at 2. apply map_ext_in. intros [k1 c1] J. cbn [fst]. destruct (Z.eqb_spec k1 k); [|reflexivity].
    subst. exfalso. apply N. right. now apply (in_map fst) in J.
Qed.
Lemma output_mid k c d (a r : list (Z * iocon)) m : m_map m = a ++ (k, c) :: r -> NoDup (oids (a ++ (k, c) :: r)) ->
  set_output (io_oid c) d m = set_map m (a ++ (k, io_set_output c d) :: r).
Proof.
  intros E N. unfold oids in N. rewrite map_app in N. cbn [map snd] in N. apply NoDup_remove_2 in N. rewrite in_app_iff in N.
  unfold set_output. f_equal. rewrite E, map_app. cbn [map fst snd]. rewrite Nat.eqb_refl. f_equal; [|f_equal].
  - rewrite <- (map_id a) at 2. apply map_ext_in. intros [k1 c1] J. cbn [fst snd]. destruct (Nat.eqb_spec (io_oid c1) (io_oid c)) as [Q|]; [|reflexivity].
    exfalso. apply N. left. apply (in_map (fun e => io_oid (snd e))) in J. cbn [snd] in J. now rewrite Q in J.
  - rewrite <- (map_id r) at 2. apply map_ext_in. intros [k1 c1] J. cbn [fst snd]. destruct (Nat.eqb_spec (io_oid c1) (io_oid c)) as [Q|]; [|reflexivity].
    exfalso. apply N. right. apply (in_map (fun e => io_oid (snd e))) in J. cbn [snd] in J. now rewrite Q in J.
Qed.
Lemma add_nothing m : add_log m [] = m.
Proof. destruct m. unfold add_log. cbn. now rewrite app_nil_r. Qed.

Section Passive.
Context {S : Type} (h : heap) (env : tick_env).
Lemma passive_entry g m (s : S) k c a r : mgr_inv g m -> m_map m = a ++ (k, c) :: r ->
  tick_entry h (passive env) env k c (g, m, s)
  = let '(res, c', ev) := io_tick (t_now env (io_oid c)) (t_hook env (io_oid c)) (t_send env (io_oid c)) c in
    (res, (g, add_log (set_map m (a ++ (k, c') :: r)) ev, s)).
Proof.
  intros I E. pose proof (sorted_nodup _ (mi_sorted g m I)) as Nk. pose proof (mi_oids g m I) as No. rewrite E in Nk, No.
  rewrite tick_split. unfold tick_entry. rewrite E.
  pose proof (begin_static (t_now env (io_oid c)) c) as St. destruct (tick_begin _ c) as [[] c1]; cbn [snd] in St.
  - rewrite update_mid by assumption. cbn [passive l_close react]. unfold st_bind, st_ret.
    unfold still. cbn [add_log set_map m_map]. rewrite find_mid by (now rewrite (keys_mid k c1 c)).
    rewrite (static_oid _ _ St), Nat.eqb_refl. reflexivity.
  - rewrite update_mid by assumption. cbn [passive l_send react do_call]. unfold st_bind at 1 2. cbn [call_mgr]. unfold st_ret.
    rewrite <- (static_oid _ _ St).
    assert (No1 : NoDup (oids (a ++ (k, c1) :: r))).
    { unfold oids in *. rewrite map_app in *. cbn [map snd] in *. now rewrite (static_oid _ _ St). }
    rewrite (output_mid k c1 _ a r (set_map m (a ++ (k, c1) :: r)) eq_refl No1). cbn [set_map m_inc m_map m_socks m_log].
    unfold still. cbn [set_map m_map]. rewrite find_mid by (now rewrite (keys_mid k _ c)).
    cbn [io_oid io_set_output]. rewrite Nat.eqb_refl. cbv zeta. 
    destruct (tick_send _ _) as [o ev]. reflexivity.
  - rewrite update_mid by assumption. rewrite add_nothing. reflexivity.
Qed.

Lemma find_skip k (a : list (Z * iocon)) r : Forall (fun e => fst e < k) a -> find (fun e => k <=? fst e) (a ++ r) = find (fun e => k <=? fst e) r.
Proof.
  induction 1 as [|e a H _ IH]; [reflexivity|]. cbn [app find]. destruct (Z.leb_spec k (fst e)); [lia|assumption].
Qed.
Lemma passive_loop r : forall n k a g m (s : S), mgr_inv g m -> m_map m = a ++ r ->
  Forall (fun e => fst e < k) a -> Forall (fun e => k <= fst e < k + Z.of_nat n) r ->
  tick_loop h (passive env) env n k (g, m, s)
  = let '(res, l, ev) := ticks env r in (res, (g, add_log (set_map m (a ++ l)) ev, s)).
Proof.
  induction r as [|[k1 c1] r IH]; intros n k a g m s I E Fa Fr.
  - cbn [ticks]. rewrite add_nothing, <- E. replace (set_map m (m_map m)) with m by (now destruct m).
    destruct n as [|n]; [reflexivity|]. cbn [tick_loop]. cbn [fst snd]. rewrite E, find_skip by assumption. reflexivity.
  - apply Forall_cons_iff in Fr as [Fk Fr]. cbn [fst] in Fk. destruct n as [|n]; [lia|].
    cbn [tick_loop ticks]. cbn [fst snd]. rewrite E, find_skip by assumption. cbn [find fst].
    destruct (Z.leb_spec k k1); [|lia].
    unfold st_bind at 1. rewrite (passive_entry g m s k1 c1 a r I E).
    pose proof (tick_static (t_now env (io_oid c1)) (t_hook env (io_oid c1)) (t_send env (io_oid c1)) c1) as St.
    destruct (io_tick _ _ _ c1) as [[res c'] ev]. cbn [fst snd] in St.
    destruct res as [b|e|u|]; try reflexivity.
    assert (I1 : mgr_inv g (add_log (set_map m (a ++ (k1, c') :: r)) ev)).
    { eapply statics_inv; [exact I|]. cbn [add_log set_map m_map]. rewrite E. unfold statics. rewrite !map_app. cbn [map fst snd]. now rewrite St. }
    pose proof (mi_sorted g m I) as So. rewrite E in So.
    assert (Lt : forall q d, In (q, d) r -> k1 < q).
    { clear - So. intros q d J. unfold sorted, keys in So. rewrite map_app in So. cbn [map fst] in So.
      induction (map fst a) as [|x l IH]; cbn [app] in So; inv So; [|auto].
      rewrite Forall_forall in H2. apply H2. now apply (in_map fst) in J. }
    assert (Lt2 : Forall (fun e => fst e < k1) a).
    { clear - So. apply Forall_forall. intros [q d] J. cbn [fst]. unfold sorted, keys in So. rewrite map_app in So. cbn [map fst] in So.
      apply (in_map fst) in J. cbn [fst] in J. induction (map fst a) as [|x l IH]; [contradiction|]. cbn [app] in So. inv So.
      destruct J as [->|J]; [|auto]. rewrite Forall_forall in H2. apply H2. apply in_or_app. right. now left. }
    unfold st_bind. rewrite (IH n (k1 + 1) (a ++ [(k1, c')]) g _ s I1).
    + destruct (ticks env r) as [[res' l'] ev']. unfold add_log, set_map. cbn [m_inc m_map m_socks m_log]. rewrite <- !app_assoc. cbn [app].
      destruct res'; reflexivity.
    + cbn [add_log set_map m_map]. rewrite <- app_assoc. reflexivity.
    + apply Forall_app. split; [|constructor; [cbn [fst]; lia|constructor]].
      eapply Forall_impl; [|exact Lt2]. cbn beta. intros; lia.
    + apply Forall_forall. intros [q d] J. cbn [fst]. specialize (Lt q d J). rewrite Forall_forall in Fr. specialize (Fr _ J). cbn [fst] in Fr. lia.
Qed.
Lemma passive_ticks g m (s : S) : mgr_inv g m ->
  listen_ticks h (passive env) env (g, m, s) = let '(o, m') := run_ticks env m in (o, (g, m', s)).
Proof.
  intros I. destruct a_fuel as [n F]. rewrite (listen_with h (passive env) env n F). unfold ticks_with, st_bind.
  rewrite (passive_loop (m_map m) n 0 [] g m s I eq_refl).
  - unfold run_ticks. destruct (ticks env (m_map m)) as [[res l] ev]. cbn [app]. destruct res; reflexivity.
  - constructor.
  - apply Forall_forall. intros [q d] J. cbn [fst]. rewrite (mi_key g m I q d J). unfold u16. lia.
Qed.
Lemma passive_hear d g m (s : S) : hear h (passive env) d (g, m, s) = let '(o, m') := on_readable h d m in (o, (g, m', s)).
Proof.
  unfold hear. destruct (on_readable h d m) as [o m']. destruct o as [[]|?|?|]; try reflexivity.
  destruct (skipn _ _) as [|[p hdr sq dt|p|p e dt] [|? ?]]; reflexivity.
Qed.
Lemma passive_dispatch g (s : S) ready : forall i n m,
  dispatch (fun _ => hear h (passive env)) i n ready (g, m, s) = let '(o, m') := dispatch (fun _ => on_readable h) i n ready m in (o, (g, m', s)).
Proof.
  induction ready as [|[d|] r IH]; intros i n m; destruct n; cbn [dispatch]; try reflexivity.
  - unfold st_bind. rewrite passive_hear. destruct (on_readable h d m) as [[[]|?|?|] m']; try reflexivity. apply IH.
  - apply IH.
Qed.
Lemma passive_select g (s : S) n rounds ending : forall m,
  bs_select (fun _ => hear h (passive env)) n rounds ending (g, m, s)
  = let '(o, m') := bs_select (fun _ => on_readable h) n rounds ending m in (o, (g, m', s)).
Proof.
  unfold bs_select. destruct n as [|n]; [reflexivity|].
  induction rounds as [|r rs IH]; intros m; cbn [select_rounds]; [destruct ending; reflexivity|].
  unfold st_bind. rewrite passive_dispatch. destruct (dispatch _ _ _ _ m) as [[[]|?|?|] m']; try reflexivity. apply IH.
Qed.
Theorem passive_same rounds ending g m (s : S) : mgr_inv g m ->
  listen_connections h (passive env) rounds ending env (g, m, s)
  = let '(o, m') := handle_connections h rounds ending env m in (o, (g, m', s)).
Proof.
  intros I. unfold listen_connections, handle_connections. unfold st_bind. cbn [fst snd]. rewrite passive_select.
  pose proof (select_quiet g h rounds ending m I) as Q.
  destruct (bs_select _ _ _ _ m) as [o m'] eqn:B. cbn [snd] in Q. destruct Q as (Q & _). pose proof (statics_inv g m m' I Q) as I1.
  destruct o as [[]|?|?|]; try reflexivity. now apply passive_ticks.
Qed.
End Passive.

(** ** Witnesses *)
Lemma listen_fuel {S} h (L : listeners S) env : exists n, forall rounds ending w,
  listen_connections h L rounds ending env w
  = st_bind (bs_select (fun _ => hear h L) (List.length (m_socks (snd (fst w)))) rounds ending)
            (fun _ => ticks_with h L env (Datatypes.S (Datatypes.S (Datatypes.S n)))) w.
Proof.
  destruct a_fuel as [k F]. assert (K : exists n, k = Datatypes.S (Datatypes.S (Datatypes.S n))).
  { destruct k as [|[|[|n]]]; [lia..|eauto]. }
  destruct K as [n ->]. exists n. intros rounds ending w. unfold listen_connections. rewrite (listen_with h L env _ F). reflexivity.
Qed.
Definition lclose (oid : nat) : lcall (list encaps) := LClose false (recording 1 refuses) oid.
Definition lopen (t2o : Z) : lcall (list encaps) :=
  LOpen false (recording 1 (accepts t2o 10000 10000)) "10.0.0.1" (env_ok 0) false (class1 1 0).
(** the close listener closes its connection *)
Definition closer : listeners (list encaps) := mkListeners (fun _ _ _ _ _ => []) (fun _ oid => [lclose oid]) (fun _ _ _ => []).
(** the send listener closes its connection *)
Definition quitter : listeners (list encaps) := mkListeners (fun _ _ _ _ _ => []) (fun _ _ => []) (fun _ oid _ => [lclose oid]).
(** the send listener of connection 1 replaces connection 0 *)
Definition replacer : listeners (list encaps) :=
  mkListeners (fun _ _ _ _ _ => []) (fun _ _ => []) (fun _ oid _ => match oid with 1%nat => [lclose 0; lopen 0x30007] | _ => [] end).
Definition two_opens : list (nat * call (list encaps)) :=
  [(0%nat, open_call 0x10007 10000 10000 (class1 1 0)); (0%nat, open_call 0x10008 10000 10000 (class1 1 3))].
Definition after12 := run_calls strict two_opens start0.
Lemma after12_reach : reachable (list encaps) (w_g after12) (w_m after12 0).
Proof. exists strict, two_opens, start0, 0%nat. split; [apply start_new|]. split; reflexivity. Qed.

Lemma closer_dangles : exists w, listen_connections strict closer [] SelQuiet (at_ms 70) (w_g after1, w_m after1 0%nat, w_s after1) = (Undef UbDangling, w).
Proof. destruct (listen_fuel strict closer (at_ms 70)) as [n F]. rewrite F. clear F. eexists. vm_compute. reflexivity. Qed.
Lemma quitter_dangles : exists w, listen_connections strict quitter [] SelQuiet (at_ms 20) (w_g after1, w_m after1 0%nat, w_s after1) = (Undef UbDangling, w).
Proof. destruct (listen_fuel strict quitter (at_ms 20)) as [n F]. rewrite F. clear F. eexists. vm_compute. reflexivity. Qed.
Lemma replacer_loses : exists g' m' s',
  listen_connections strict replacer [] SelQuiet (at_ms 70) (w_g after12, w_m after12 0%nat, w_s after12) = (Ok tt, (g', m', s'))
  /\ g_oid (w_g after12) = 2%nat /\ g_oid g' = 3%nat /\ lock 2 m' = None /\ about 2 (m_log m') = [] /\ lock 1 m' <> None.
Proof.
  destruct (listen_fuel strict replacer (at_ms 70)) as [n F]. rewrite F. clear F. do 3 eexists. split; [vm_compute; reflexivity|].
  split; [vm_compute; reflexivity|]. split; [reflexivity|]. split; [reflexivity|]. split; [reflexivity|]. discriminate.
Qed.
Lemma replacer_polite : polite replacer /\ spares replacer 2.
Proof.
  split.
  - intros w oid d. split; [intros (u & si & [])|]. intros (u & si & J). destruct oid as [|[|]]; cbn in J; [contradiction| |contradiction].
    destruct J as [J|[J|[]]]; inv J.
  - intros w p hdr sq d. split; [intros (u & si & [])|]. split; [intros (u & si & [])|]. intros (u & si & J).
    destruct p as [|[|]]; cbn in J; [contradiction| |contradiction]. destruct J as [J|[J|[]]]; inv J.
Qed.
(** a receive listener that opens another connection and sets data *)
Definition opener : listeners (list encaps) :=
  mkListeners (fun _ oid _ _ d => [LData oid d; lopen 0x30009]) (fun _ _ => []) (fun _ _ _ => []).
Lemma opener_spares oid : spares opener oid.
Proof. intros w p hdr sq d. split; [intros (u & si & J); cbn in J; destruct J as [J|[J|[]]]; inv J|]. split; intros (u & si & []). Qed.
Lemma opener_runs : exists g' m' s',
  listen_connections strict opener [mkRound [Some (Dgram (gram 0x10007 [1; 0; 9]))] 0] SelQuiet (at_ms 20)
    (w_g after1, w_m after1 0%nat, w_s after1) = (Ok tt, (g', m', s'))
  /\ about 0 (m_log m') = [EvData 0 0 1 [9]; EvSent 0 (io_dest con1) (io_packet (spec_of con1) 1 [9])]
  /\ about 1 (m_log m') = [EvSent 1 (io_dest con1) (io_packet (spec_of con1) 1 [])] /\ lock 1 m' <> None.
Proof.
  destruct (listen_fuel strict opener (at_ms 20)) as [n F]. rewrite F. clear F. do 3 eexists. split; [vm_compute; reflexivity|].
  split; [vm_compute; reflexivity|]. split; [vm_compute; reflexivity|discriminate].
Qed.
