(** Exceptions that leave handleConnections. *)
From Verif Require Import Base MBuffer SBuffer PBase PBuffer MEip SEip PEip
  MSocket SSocket PSocket MConnReq SConnReq PConnReq MConn SConn PConnOpen PConnMap PIo PConnCall PConnCall2 PConnHist PIo2 PConnTop PIoTop SLife PLife MReent SReent PReent.
Ltac Zify.zify_post_hook ::= Z.div_mod_to_equations.
Local Open Scope outcome_scope.

(** ** Counters only grow *)
Lemma react_mono {S} h (calls : list (lcall S)) : forall g m s o g' m' s', mgr_inv g m ->
  react h calls (g, m, s) = (o, (g', m', s')) -> (g_oid g <= g_oid g')%nat.
Proof.
  induction calls as [|op r IH]; intros g m s o g' m' s' I E; cbn [react] in E.
  - unfold st_ret in E. inv E. auto.
  - unfold st_bind in E. destruct (do_call h op (g, m, s)) as [o1 [[g1 m1] s1]] eqn:F.
    destruct (do_inv h op g m s _ _ _ _ I F) as [I1 L1].
    destruct o1; [|inv E; auto..]. pose proof (IH _ _ _ _ _ _ _ I1 E). lia.
Qed.

Section Throw.
Context {S : Type} (h : heap) (L : listeners S) (env : tick_env).

Lemma entry_mono g m s k c o g' m' s' : mgr_inv g m -> map_find k (m_map m) = Some c ->
  tick_entry h L env k c (g, m, s) = (o, (g', m', s')) -> (g_oid g <= g_oid g')%nat.
Proof.
  intros I F E. unfold tick_entry in E.
  pose proof (begin_static (t_now env (io_oid c)) c) as St. destruct (tick_begin _ c) as [[] c1]; cbn [snd] in St.
  - assert (I1 : mgr_inv g (add_log (set_map m (map_update k c1 (m_map m))) [EvClosed (io_oid c)])).
    { destruct (inv_update g m k c c1 I F (static_oid _ _ St) (static_t2o _ _ St)). now constructor. }
    match type of E with st_bind (react h ?cs) ?kk ?w = _ => destruct (react_case h cs kk w) as [([[g2 m2] s2] & R & E1)|(o1 & o2 & [[g2 m2] s2] & R & _ & E1 & _)] end;
      rewrite E1 in E; apply react_mono in R; try assumption; now inv E.
  - assert (I1 : mgr_inv g (set_map m (map_update k c1 (m_map m)))).
    { exact (inv_update g m k c c1 I F (static_oid _ _ St) (static_t2o _ _ St)). }
    match type of E with st_bind (react h ?cs) ?kk ?w = _ => destruct (react_case h cs kk w) as [([[g2 m2] s2] & R & E1)|(o1 & o2 & [[g2 m2] s2] & R & _ & E1 & _)] end;
      rewrite E1 in E; apply react_mono in R; try assumption; [|now inv E].
    destruct (still k (io_oid c) m2) as [c2|]; [|now inv E]. destruct (tick_send _ c2) as [o3 ev]. now inv E.
  - inv E. auto.
Qed.
Lemma loop_mono n : forall k g m s o g' m' s', mgr_inv g m -> tick_loop h L env n k (g, m, s) = (o, (g', m', s')) -> (g_oid g <= g_oid g')%nat.
Proof.
  induction n as [|n IH]; intros k g m s o g' m' s' I E; cbn [tick_loop] in E; [unfold st_ret in E; inv E; auto|].
  cbn [fst snd] in E. destruct (find _ (m_map m)) as [[k1 c1]|] eqn:F; [|inv E; auto].
  destruct (find_ge k _ k1 c1 (mi_sorted g m I) F) as (_ & G & _).
  unfold st_bind at 1 in E. destruct (tick_entry h L env k1 c1 (g, m, s)) as [o1 [[g1 m1] s1]] eqn:T.
  pose proof (entry_mono g m s k1 c1 _ _ _ _ I G T) as M1.
  pose proof (entry_inv h L env g m s k1 c1 _ _ _ _ I G T) as I1. destruct o1 as [b| | |]; [|inv E; auto..].
  unfold st_bind in E. destruct (tick_loop h L env n (k1 + 1) (g1, m1, s1)) as [o2 [[g2 m2] s2]] eqn:T2.
  pose proof (IH _ _ _ _ _ _ _ _ I1 T2) as I2. destruct o2; unfold st_ret in E; inv E; lia.
Qed.
Lemma ticks_mono g m s o g' m' s' : mgr_inv g m -> listen_ticks h L env (g, m, s) = (o, (g', m', s')) -> (g_oid g <= g_oid g')%nat.
Proof.
  destruct a_fuel as [n F]. rewrite (listen_with h L env n F). intros I E. unfold ticks_with, st_bind in E.
  destruct (tick_loop _ _ _ _ _ _) as [o1 [[g1 m1] s1]] eqn:T. pose proof (loop_mono _ _ _ _ _ _ _ _ _ I T) as I1.
  destruct o1; inv E; auto.
Qed.
Lemma hear_mono d g m s o g' m' s' : mgr_inv g m -> hear h L d (g, m, s) = (o, (g', m', s')) -> (g_oid g <= g_oid g')%nat.
Proof.
  intros I E. unfold hear in E. pose proof (readable_quiet g h d m m I (quiet_refl m)) as (Q & _).
  destruct (on_readable h d m) as [o1 m1]. cbn [snd] in Q. pose proof (statics_inv g m m1 I Q) as I1.
  assert (X : (o1, (g, m1, s)) = (o, (g', m', s')) -> (g_oid g <= g_oid g')%nat) by (intros X; inv X; auto).
  destruct o1 as [u|?|?|]; try exact (X E).
  destruct (skipn _ _) as [|[p hdr sq dt|p|p e dt] [|? ?]]; try exact (X E).
  now apply react_mono in E.
Qed.
Lemma hear_seq_mono ds : forall g m s o g' m' s', mgr_inv g m -> hear_seq h L ds (g, m, s) = (o, (g', m', s')) -> (g_oid g <= g_oid g')%nat.
Proof.
  induction ds as [|d r IH]; intros g m s o g' m' s' I E; cbn [hear_seq] in E; [inv E; auto|].
  destruct (hear h L d (g, m, s)) as [o1 [[g1 m1] s1]] eqn:H. pose proof (hear_inv h L _ _ _ _ _ _ _ _ I H) as I1.
  pose proof (hear_mono _ _ _ _ _ _ _ _ I H) as M1.
  destruct o1 as [u|?|?|]; [|inv E; auto..]. pose proof (IH _ _ _ _ _ _ _ I1 E). lia.
Qed.
Lemma listen_mono rounds ending g m s o g' m' s' : mgr_inv g m ->
  listen_connections h L rounds ending env (g, m, s) = (o, (g', m', s')) -> (g_oid g <= g_oid g')%nat.
Proof.
  intros I E. unfold listen_connections in E. unfold st_bind in E. cbn [fst snd] in E.
  destruct (List.length (m_socks m)) as [|k] eqn:Ln. { cbn [bs_select] in E. inv E. auto. }
  rewrite hear_select in E by lia.
  destruct (hear_seq h L _ (g, m, s)) as [o1 [[g1 m1] s1]] eqn:H.
  pose proof (hear_seq_mono _ _ _ _ _ _ _ _ I H) as M1. pose proof (hear_seq_inv h L _ _ _ _ _ _ _ _ I H) as I1.
  destruct o1 as [u|?|?|]; [|inv E; auto..]. destruct ending; [|inv E; auto].
  pose proof (ticks_mono _ _ _ _ _ _ _ I1 E). lia.
Qed.
End Throw.

Lemma lops_inv {S} h (ops : list (nat * lop S)) : forall w, (forall j, mgr_inv (w_g w) (w_m w j)) ->
  forall j, mgr_inv (w_g (run_lops h ops w)) (w_m (run_lops h ops w) j).
Proof.
  induction ops as [|[i op] ops IH]; intros w I j; cbn [run_lops]; [apply I|].
  destruct (lop_view h op (w_g w, w_m w i, w_s w)) as [[g' m'] s'] eqn:E. apply IH. intros k. cbn [w_m w_g].
  assert (X : mgr_inv g' m' /\ (g_oid (w_g w) <= g_oid g')%nat).
  { destruct op as [c|L rounds ending env]; cbn [lop_view] in E.
    - destruct (call_mgr h c _) as [o v] eqn:F. cbn [snd] in E. subst v. exact (call_inv h c _ _ _ _ _ _ _ (I i) F).
    - destruct (listen_connections h L rounds ending env _) as [o v] eqn:F. cbn [snd] in E. subst v.
      split; [exact (listen_inv h L env _ _ _ _ _ _ _ _ _ (I i) F)|exact (listen_mono h L env _ _ _ _ _ _ _ _ _ (I i) F)]. }
  destruct X as [I' Le]. unfold update. destruct (Nat.eqb k i); [assumption|]. eapply inv_later; eauto.
Qed.
Lemma listened_inv S g m : listened S g m -> mgr_inv g m.
Proof. intros (h & ops & w & i & N & -> & ->). apply lops_inv. intros j. destruct (N j) as [inc ->]. apply inv_new. Qed.
Lemma plain_run {S} h (ops : list (nat * call S)) : forall w, run_lops h (map (fun x => (fst x, Plain (snd x))) ops) w = run_calls h ops w.
Proof.
  induction ops as [|[i op] ops IH]; intros w; cbn [map run_lops run_calls fst snd lop_view]; [reflexivity|].
  unfold call_world. destruct (call_mgr h op (w_g w, w_m w i, w_s w)) as [o [[g m] s]]. cbn [snd]. apply IH.
Qed.
Lemma reachable_listened S g m : reachable S g m -> listened S g m.
Proof.
  intros (h & ops & w & i & N & -> & ->). exists h, (map (fun x => (fst x, Plain (snd x))) ops), w, i.
  rewrite plain_run. auto.
Qed.

Lemma lops_app {S} h (a b : list (nat * lop S)) : forall w, run_lops h (a ++ b) w = run_lops h b (run_lops h a w).
Proof.
  induction a as [|[i op] a IH]; intros w; cbn [app run_lops]; [reflexivity|].
  destruct (lop_view h op _) as [[g m] s]. apply IH.
Qed.
Lemma listened_listen {S} h (ops : list (nat * call S)) (w : world S) i L rounds ending env o v : new_world w ->
  let w1 := run_calls h ops w in
  listen_connections h L rounds ending env (w_g w1, w_m w1 i, w_s w1) = (o, v) -> listened S (fst (fst v)) (snd (fst v)).
Proof.
  intros N w1 E. exists h, (map (fun x => (fst x, Plain (snd x))) ops ++ [(i, Listen L rounds ending env)]), w, i. split; [assumption|].
  rewrite lops_app, plain_run. fold w1. cbn [run_lops lop_view]. rewrite E. cbn [snd]. destruct v as [[g m] s]. cbn [w_g w_m fst snd].
  unfold update. rewrite Nat.eqb_refl. split; reflexivity.
Qed.

(** ** What is left of a connection *)
Section Rest.
Context {S : Type} (h : heap) (L : listeners S) (env : tick_env).

Lemma entry_broken g m s k c o g' m' s' : spares L (io_oid c) -> mgr_inv g m -> map_find k (m_map m) = Some c ->
  tick_entry h L env k c (g, m, s) = (o, (g', m', s')) -> (forall b, o <> Ok b) ->
  exists c' ev, begun h L env (io_oid c) (omap (fun _ => tt) o) c c' ev
    /\ about (io_oid c) (m_log m') = about (io_oid c) (m_log m) ++ ev /\ lock (io_oid c) m' = Some c'.
Proof.
  intros P I F E N. unfold tick_entry in E. pose proof (mi_key g m I k c (find_in _ _ _ F)) as Kc.
  unfold begun. setoid_rewrite tick_split. set (now := t_now env (io_oid c)) in *.
  pose proof (begin_static now c) as St. destruct (tick_begin _ c) as [[] c1]; cbn [snd] in St.
  - assert (I1 : mgr_inv g (add_log (set_map m (map_update k c1 (m_map m))) [EvClosed (io_oid c)])).
    { destruct (inv_update g m k c c1 I F (static_oid _ _ St) (static_t2o _ _ St)). now constructor. }
    pose proof (update_lock g m k c c1 (io_oid c) I F St [EvClosed (io_oid c)]) as Lk. rewrite Nat.eqb_refl in Lk.
    match type of E with st_bind (react h ?cs) ?kk ?w = _ => destruct (react_case h cs kk w) as [([[g2 m2] s2] & R & E1)|(o1 & o2 & [[g2 m2] s2] & R & _ & E1 & Nb & _)] end; rewrite E1 in E.
    + exfalso. pose proof (react_log _ _ _ _ _ _ _ _ _ I1 R) as [I2 Lg].
      destruct (react_keeps h (io_oid c) _ _ _ _ _ _ _ _ _ I1 Lk (proj1 (proj2 (P _ _ 0 0 []))) R) as [d K].
      rewrite (still_after g2 m2 k (io_oid c) c c1 d I2 Kc St K) in E. inv E. eapply N; reflexivity.
    + inv E. pose proof (react_log _ _ _ _ _ _ _ _ _ I1 R) as [I2 Lg]. cbn [add_log m_log set_map] in Lg.
      destruct (react_keeps h (io_oid c) _ _ _ _ _ _ _ _ _ I1 Lk (proj1 (proj2 (P _ _ 0 0 []))) R) as [d K].
      exists (io_set_output c1 d), [EvClosed (io_oid c)]. split.
      * exists [], d, (Ok false), c1, [EvClosed (io_oid c)]. repeat split. now left.
      * split; [|exact K]. rewrite Lg, about_app, (about_all (io_oid c) [EvClosed (io_oid c)]); [reflexivity|repeat constructor].
  - assert (I1 : mgr_inv g (set_map m (map_update k c1 (m_map m)))).
    { exact (inv_update g m k c c1 I F (static_oid _ _ St) (static_t2o _ _ St)). }
    pose proof (update_lock g m k c c1 (io_oid c) I F St []) as Lk. rewrite Nat.eqb_refl in Lk.
    change (lock (io_oid c) (set_map m (map_update k c1 (m_map m))) = Some c1) in Lk.
    match type of E with st_bind (react h ?cs) ?kk ?w = _ => destruct (react_case h cs kk w) as [([[g2 m2] s2] & R & E1)|(o1 & o2 & [[g2 m2] s2] & R & _ & E1 & Nb & Om)] end; rewrite E1 in E.
    + pose proof (react_log _ _ _ _ _ _ _ _ _ I1 R) as [I2 Lg]. cbn [m_log set_map] in Lg.
      destruct (react_keeps h (io_oid c) _ _ _ _ _ _ _ _ _ I1 Lk (proj2 (proj2 (P _ _ 0 0 _))) R) as [d K].
      rewrite (still_after g2 m2 k (io_oid c) c c1 d I2 Kc St K) in E.
      pose proof (send_about (t_send env (io_oid c)) (io_set_output c1 d)) as Sa.
      destruct (tick_send _ (io_set_output c1 d)) as [o3 ev] eqn:Ts. inv E. exists (io_set_output c1 d), ev. split.
      * exists d, d, o, (io_set_output c1 d), ev. cbv zeta. rewrite Ts. rewrite output_twice. repeat split. now left.
      * cbn [add_log m_log]. rewrite about_app, Lg, (about_all (io_oid c) ev); [split; [reflexivity|exact K]|].
        cbn [snd] in Sa. replace (io_oid c) with (io_oid (io_set_output c1 d)) by (cbn [io_oid io_set_output]; now apply static_oid). exact Sa.
    + inv E. pose proof (react_log _ _ _ _ _ _ _ _ _ I1 R) as [I2 Lg]. cbn [m_log set_map] in Lg.
      destruct (react_keeps h (io_oid c) _ _ _ _ _ _ _ _ _ I1 Lk (proj2 (proj2 (P _ _ 0 0 _))) R) as [d K].
      exists (io_set_output c1 d), []. split.
      * destruct (tick_send (t_send env (io_oid c)) (io_set_output c1 [])) as [o3 ev] eqn:Ts.
        exists [], d, o3, (io_set_output c1 []), ev. cbv zeta. rewrite Ts. rewrite output_twice. repeat split. right. split; [reflexivity|].
        eexists _, _, _. exact R.
      * rewrite app_nil_r, Lg. split; [reflexivity|exact K].
  - inv E. exfalso. eapply N; reflexivity.
Qed.

Lemma loop_past n oid : spares L oid -> forall k g m s c o g' m' s', mgr_inv g m -> lock oid m = Some c -> u16 (io_t2oId c) < k ->
  tick_loop h L env n k (g, m, s) = (o, (g', m', s')) ->
  about oid (m_log m') = about oid (m_log m) /\ exists d, lock oid m' = Some (io_set_output c d).
Proof.
  intros P. induction n as [|n IH]; intros k g m s c o g' m' s' I Lo Lt E; cbn [tick_loop] in E.
  { unfold st_ret in E. inv E. split; [reflexivity|]. exists (io_out c). now rewrite output_same. }
  cbn [fst snd] in E. destruct (find _ (m_map m)) as [[k1 c1]|] eqn:F.
  2:{ inv E. split; [reflexivity|]. exists (io_out c). now rewrite output_same. }
  destruct (find_ge k _ k1 c1 (mi_sorted g m I) F) as (Ge & G & _).
  assert (No : io_oid c1 <> oid).
  { intros Q. pose proof (lock_some g m k1 c1 I (find_in _ _ _ G)) as X. rewrite Q, Lo in X. inv X.
    rewrite (mi_key g m I k1 c1 (find_in _ _ _ G)) in Ge. lia. }
  unfold st_bind at 1 in E. destruct (tick_entry h L env k1 c1 (g, m, s)) as [o1 [[g1 m1] s1]] eqn:T.
  pose proof (entry_inv h L env g m s k1 c1 _ _ _ _ I G T) as I1.
  destruct (entry_other h L env g m s k1 c1 oid c _ _ _ _ P I G Lo No T) as (A1 & d & L1).
  destruct o1 as [b| | |]; [|inv E; eauto..].
  unfold st_bind in E. destruct (tick_loop h L env n (k1 + 1) (g1, m1, s1)) as [o2 [[g2 m2] s2]] eqn:T2.
  destruct (IH (k1 + 1) g1 m1 s1 (io_set_output c d) o2 g2 m2 s2 I1 L1 ltac:(cbn [io_t2oId io_set_output]; lia) T2) as (A2 & d' & L2).
  rewrite output_twice in L2. destruct o2; unfold st_ret in E; inv E; (split; [congruence|eauto]).
Qed.

Lemma loop_broken n oid : spares L oid -> forall k g m s c o g' m' s', mgr_inv g m -> lock oid m = Some c ->
  k <= u16 (io_t2oId c) < k + Z.of_nat n ->
  tick_loop h L env n k (g, m, s) = (o, (g', m', s')) -> (forall ks, o <> Ok ks) ->
  (about oid (m_log m') = about oid (m_log m) /\ exists d, lock oid m' = Some (io_set_output c d))
  \/ (exists d1 c' ev, begun h L env oid (omap (fun _ => tt) o) (io_set_output c d1) c' ev
        /\ about oid (m_log m') = about oid (m_log m) ++ ev /\ lock oid m' = Some c').
Proof.
  intros P. induction n as [|n IH]; intros k g m s c o g' m' s' I Lo Lt E N; cbn [tick_loop] in E; [lia|].
  pose proof Lo as Lo0. apply (lock_iff g) in Lo0 as [Oc J]; [|assumption].
  cbn [fst snd] in E. destruct (find _ (m_map m)) as [[k1 c1]|] eqn:F.
  2:{ pose proof (find_ge_none _ _ _ _ F J). lia. }
  destruct (find_ge k _ k1 c1 (mi_sorted g m I) F) as (Ge & G & Fi). specialize (Fi _ _ J ltac:(lia)).
  unfold st_bind at 1 in E. destruct (tick_entry h L env k1 c1 (g, m, s)) as [o1 [[g1 m1] s1]] eqn:T.
  pose proof (entry_inv h L env g m s k1 c1 _ _ _ _ I G T) as I1.
  pose proof (mi_key g m I k1 c1 (find_in _ _ _ G)) as Kk.
  destruct (Nat.eq_dec (io_oid c1) (io_oid c)) as [Q|Q].
  - assert (c1 = c). { pose proof (lock_some g m k1 c1 I (find_in _ _ _ G)) as X. rewrite Q, Oc, Lo in X. now inv X. } subst c1. subst oid.
    right.
    assert (D : (exists b, o1 = Ok b) \/ forall b, o1 <> Ok b) by (destruct o1; [left; eauto|right; intros; discriminate..]).
    destruct D as [[b ->]|D].
    + destruct (entry_self h L env g m s k1 c b _ _ _ P I G T) as (d2 & d & c' & ev & Tk & A1 & L1).
      assert (St : io_static c' = io_static c).
      { pose proof (tick_static (t_now env (io_oid c)) (fun _ => d2) (t_send env (io_oid c)) c) as X. rewrite Tk in X. exact X. }
      unfold st_bind in E. destruct (tick_loop h L env n (k1 + 1) (g1, m1, s1)) as [o2 [[g2 m2] s2]] eqn:T2.
      destruct (loop_past n (io_oid c) P (k1 + 1) g1 m1 s1 (io_set_output c' d) o2 g2 m2 s2 I1 L1) as (A2 & d' & L2).
      { cbn [io_t2oId io_set_output]. rewrite (static_t2o _ _ St). lia. }
      { exact T2. }
      rewrite output_twice in L2.
      assert (X : g2 = g' /\ m2 = m') by (destruct o2; unfold st_ret in E; inv E; auto). destruct X as [-> ->].
      exists (io_out c), (io_set_output c' d'), ev. rewrite output_same. split; [|split; [congruence|exact L2]].
      exists d2, d', (Ok b), c', ev. split; [exact Tk|]. split; [reflexivity|now left].
    + destruct (entry_broken g m s k1 c o1 _ _ _ P I G T D) as (c' & ev & B & A1 & L1).
      assert (X : g1 = g' /\ m1 = m' /\ omap (fun _ => tt) o1 = omap (fun _ => tt) o).
      { destruct o1; inv E; auto. exfalso. eapply D; reflexivity. }
      destruct X as (-> & -> & Eo). exists (io_out c), c', ev. rewrite output_same, <- Eo. auto.
  - rewrite Oc in Q. destruct (entry_other h L env g m s k1 c1 oid c _ _ _ _ P I G Lo Q T) as (A1 & d & L1).
    assert (k1 <> u16 (io_t2oId c)).
    { intros Z. apply find_iff in J; [|apply sorted_nodup, (mi_sorted g m I)]. rewrite <- Z, G in J. inv J. now apply Q. }
    assert (D : (exists b, o1 = Ok b) \/ forall b, o1 <> Ok b) by (destruct o1; [left; eauto|right; intros; discriminate..]).
    destruct D as [[b ->]|D].
    2:{ left. destruct o1; inv E; try eauto. exfalso. eapply D; reflexivity. }
    unfold st_bind in E. destruct (tick_loop h L env n (k1 + 1) (g1, m1, s1)) as [o2 [[g2 m2] s2]] eqn:T2.
    assert (X : g2 = g' /\ m2 = m' /\ omap (fun _ => tt) o2 = omap (fun _ => tt) o /\ forall ks, o2 <> Ok ks).
    { destruct o2; unfold st_ret in E; inv E; try (repeat split; discriminate). exfalso. eapply N; reflexivity. }
    destruct X as (-> & -> & Eo & N2).
    destruct (IH (k1 + 1) g1 m1 s1 (io_set_output c d) o2 g' m' s2 I1 L1) as [(A2 & d' & L2)|(d1 & c' & ev & B & A2 & L2)].
    { cbn [io_t2oId io_set_output]. lia. }
    { exact T2. }
    { exact N2. }
    + left. rewrite output_twice in L2. split; [congruence|eauto].
    + right. rewrite output_twice, Eo in B. exists d1, c', ev. split; [exact B|]. split; [congruence|exact L2].
Qed.
Lemma ticks_broken g m s oid c o g' m' s' : mgr_inv g m -> spares L oid -> lock oid m = Some c ->
  listen_ticks h L env (g, m, s) = (o, (g', m', s')) -> o <> Ok tt ->
  (about oid (m_log m') = about oid (m_log m) /\ exists d, lock oid m' = Some (io_set_output c d))
  \/ (exists d1 c' ev, begun h L env oid o (io_set_output c d1) c' ev
        /\ about oid (m_log m') = about oid (m_log m) ++ ev /\ lock oid m' = Some c').
Proof.
  destruct a_fuel as [n F]. rewrite (listen_with h L env n F). intros I P Lo E N. unfold ticks_with, st_bind in E.
  destruct (tick_loop _ _ _ _ _ _) as [o1 [[g1 m1] s1]] eqn:T.
  assert (X : g1 = g' /\ m1 = m' /\ omap (fun _ => tt) o1 = o /\ forall ks, o1 <> Ok ks).
  { destruct o1; inv E; try (repeat split; discriminate). now destruct N. }
  destruct X as (-> & -> & <- & N2).
  apply (loop_broken n oid P 0 g m s c o1 g' m' s1 I Lo); [unfold u16; lia|exact T|exact N2].
Qed.
End Rest.

Lemma hear_broken {S} (L : listeners S) oid d g m s c o g' m' s' : spares L oid -> mgr_inv g m -> lock oid m = Some c -> gram_ok d ->
  hear strict L d (g, m, s) = (o, (g', m', s')) -> o <> Ok tt ->
  (about oid (m_log m') = about oid (m_log m) /\ lock oid m' = Some c)
  \/ exists l x, d = Dgram l /\
   ((exists dt c1 ev, brings l (io_t2oId c) dt /\ io_receive strict c dt = Ok (c1, ev)
       /\ about oid (m_log m') = about oid (m_log m) ++ ev /\ lock oid m' = Some (io_set_output c1 x))
    \/ (forall dt, ~ brings l (io_t2oId c) dt) /\ about oid (m_log m') = about oid (m_log m) /\ lock oid m' = Some (io_set_output c x)).
Proof.
  intros P I Lo G E N.
  pose proof (readable_one g m oid c d I Lo G) as R. pose proof (readable_quiet g strict d m m I (quiet_refl m)) as (Q & _).
  unfold hear in E. destruct (on_readable strict d m) as [o1 m1]. cbn [snd] in Q. pose proof (statics_inv g m m1 I Q) as I1.
  assert (X : o1 <> Ok tt -> (o1, (g, m1, s)) = (o, (g', m', s')) -> about oid (m_log m') = about oid (m_log m) /\ lock oid m' = Some c).
  { intros No X. inv X. destruct o as [[]|?|?|]; [now destruct No|subst m'; auto..]. }
  destruct o1 as [[]|?|?|]; [|left; apply X; [discriminate|exact E]..]. clear X.
  assert (X : exists p hdr sq dt, react strict (l_data L (g, m1, s) p hdr sq dt) (g, m1, s) = (o, (g', m', s'))).
  { destruct (skipn _ _) as [|[p hdr sq dt|p|p e dt] [|? ?]]; try (inv E; now destruct N). eauto. }
  clear E. destruct X as (p & hdr & sq & dt0 & E). right.
  pose proof (react_log _ _ _ _ _ _ _ _ _ I1 E) as [_ Lg].
  assert (K : forall c1, lock oid m1 = Some c1 -> exists x, lock oid m' = Some (io_set_output c1 x)).
  { intros c1 K. exact (react_keeps _ oid _ _ _ _ _ _ _ _ _ I1 K (proj1 (P _ _ _ _ _)) E). }
  destruct R as (l & -> & [(dt & c1 & ev & B & Rc & L1 & A1)|(Nb & U1 & U2)]).
  - destruct (K _ L1) as [x L2]. exists l, x. split; [reflexivity|]. left. exists dt, c1, ev. repeat split; try assumption. congruence.
  - rewrite Lo in U1. destruct (K _ U1) as [x L2]. exists l, x. split; [reflexivity|]. right. repeat split; try assumption. congruence.
Qed.
Lemma hear_seq_broken {S} (L : listeners S) oid ds : spares L oid -> forall g m s c o g' m' s', mgr_inv g m -> lock oid m = Some c -> Forall gram_ok ds ->
  hear_seq strict L ds (g, m, s) = (o, (g', m', s')) -> o <> Ok tt ->
  exists seen rest xs dts c' ev, ds = seen ++ rest /\ deliveries (io_t2oId c) seen dts /\ unset xs = map (Recv 0) dts
    /\ io_run strict xs c = (Open c', ev) /\ io_static c' = io_static c
    /\ lock oid m' = Some c' /\ about oid (m_log m') = about oid (m_log m) ++ ev.
Proof.
  intros P. induction ds as [|d ds IH]; intros g m s c o g' m' s' I Lo F E N; cbn [hear_seq] in E; [inv E; now destruct N|].
  apply Forall_cons_iff in F as [F1 F].
  destruct (hear strict L d (g, m, s)) as [o1 [[g1 m1] s1]] eqn:H.
  assert (D : o1 = Ok tt \/ o1 <> Ok tt) by (destruct o1 as [[]|?|?|]; [now left|right; discriminate..]).
  destruct D as [->|D].
  - destruct (hear_one L oid d g m s c g1 m1 s1 P I Lo F1 H) as (I1 & l & x & -> & [(dt & c1 & ev & B & Rc & A1 & L1)|(Nb & A1 & L1)]).
    + destruct (IH _ _ _ _ _ _ _ _ I1 L1 F E N) as (seen & rest & xs & dts & c' & ev' & -> & D & U & X & St & L2 & A2).
      pose proof (receive_static _ _ _ _ _ Rc) as Sr. cbn [io_t2oId io_set_output] in D. rewrite (static_t2o _ _ Sr) in D.
      exists (Dgram l :: seen), rest, (Recv 0 dt :: SetOut x :: xs), (dt :: dts), c', (ev ++ ev'). split; [reflexivity|]. split; [now constructor|].
      split; [unfold unset in *; cbn [filter map]; now rewrite U|]. cbn [io_run]. rewrite Rc, X. split; [reflexivity|].
      split; [rewrite St; exact Sr|]. split; [assumption|]. rewrite A2, A1. symmetry. apply app_assoc.
    + destruct (IH _ _ _ _ _ _ _ _ I1 L1 F E N) as (seen & rest & xs & dts & c' & ev' & -> & D & U & X & St & L2 & A2).
      cbn [io_t2oId io_set_output] in D.
      exists (Dgram l :: seen), rest, (SetOut x :: xs), dts, c', ev'. split; [reflexivity|]. split; [now constructor|].
      split; [exact U|]. cbn [io_run]. split; [exact X|].
      split; [rewrite St; apply output_static|]. split; [assumption|]. congruence.
  - assert (X : g1 = g' /\ m1 = m' /\ o1 = o) by (destruct o1 as [[]|?|?|]; [now destruct D|inv E; auto..]). destruct X as (-> & -> & ->).
    destruct (hear_broken L oid d g m s c o g' m' s1 P I Lo F1 H N) as [(A1 & L1)|(l & x & -> & [(dt & c1 & ev & B & Rc & A1 & L1)|(Nb & A1 & L1)])].
    + exists [], (d :: ds), [], [], c, []. rewrite app_nil_r. repeat split; auto. constructor.
    + exists [Dgram l], ds, [Recv 0 dt; SetOut x], [dt], (io_set_output c1 x), ev. split; [reflexivity|].
      split; [constructor; [assumption|constructor]|]. split; [reflexivity|]. cbn [io_run]. rewrite Rc, app_nil_r. split; [reflexivity|].
      split; [exact (receive_static _ _ _ _ _ Rc)|]. auto.
    + exists [Dgram l], ds, [SetOut x], [], (io_set_output c x), []. split; [reflexivity|].
      split; [constructor; [assumption|constructor]|]. split; [reflexivity|]. cbn [io_run]. rewrite app_nil_r. split; [reflexivity|].
      split; [apply output_static|]. auto.
Qed.

Theorem listen_broken {S} (L : listeners S) rounds ending env oid g m s c o g' m' s' : spares L oid -> mgr_inv g m -> lock oid m = Some c ->
  byte_grams (CHandle (S := S) rounds ending env) ->
  listen_connections strict L rounds ending env (g, m, s) = (o, (g', m', s')) -> o <> Ok tt ->
  exists seen rest xs ds c1 ev c' ev', arriving (List.length (m_socks m)) rounds = seen ++ rest
    /\ deliveries (io_t2oId c) seen ds /\ unset xs = map (Recv 0) ds /\ io_run strict xs c = (Open c1, ev)
    /\ lock oid m' = Some c' /\ io_static c' = io_static c /\ about oid (m_log m') = about oid (m_log m) ++ ev ++ ev'
    /\ (c' = c1 /\ ev' = [] \/ rest = [] /\ begun strict L env oid o c1 c' ev').
Proof.
  intros P I Lo B E N. unfold listen_connections in E. unfold st_bind in E. cbn [fst snd] in E.
  destruct (List.length (m_socks m)) as [|k] eqn:Ln.
  { cbn [bs_select] in E. inv E. exists [], (arriving 0 rounds), [], [], c, [], c, []. cbn [app]. rewrite app_nil_r. repeat split; auto. constructor. }
  rewrite hear_select in E by lia. pose proof (arriving_ok (S := S) (Datatypes.S k) rounds ending env B) as G.
  destruct (hear_seq _ _ _ (g, m, s)) as [o1 [[g1 m1] s1]] eqn:H.
  assert (D : o1 = Ok tt \/ o1 <> Ok tt) by (destruct o1 as [[]|?|?|]; [now left|right; discriminate..]).
  destruct D as [->|D].
  2:{ assert (X : g1 = g' /\ m1 = m' /\ o1 = o) by (destruct o1 as [[]|?|?|]; [now destruct D|inv E; auto..]). destruct X as (-> & -> & ->).
      destruct (hear_seq_broken L oid _ P _ _ _ _ _ _ _ _ I Lo G H N) as (seen & rest & xs & dts & c' & ev & -> & Dl & U & X & St & L2 & A2).
      exists seen, rest, xs, dts, c', ev, c', []. rewrite app_nil_r. repeat split; auto. }
  destruct (hear_seq_one L oid _ P _ _ _ _ _ _ _ I Lo G H) as (I1 & xs & dts & c1 & ev & Dl & U & X & St & L1 & A1).
  destruct ending.
  2:{ inv E. exists (arriving (Datatypes.S k) rounds), [], xs, dts, c1, ev, c1, []. rewrite !app_nil_r. repeat split; auto. }
  destruct (ticks_broken strict L env g1 m1 s1 oid c1 o _ _ _ I1 P L1 E N) as [(A2 & d & L2)|(d1 & c' & ev' & Bg & A2 & L2)].
  - exists (arriving (Datatypes.S k) rounds), [], (xs ++ [SetOut d]), dts, (io_set_output c1 d), ev, (io_set_output c1 d), [].
    rewrite !app_nil_r. split; [reflexivity|]. split; [assumption|]. split; [rewrite unset_app, U; cbn; apply app_nil_r|].
    split; [rewrite run_app, X; cbn [io_run]; now rewrite app_nil_r|].
    split; [assumption|]. split; [rewrite <- St; apply output_static|]. split; [congruence|auto].
  - exists (arriving (Datatypes.S k) rounds), [], (xs ++ [SetOut d1]), dts, (io_set_output c1 d1), ev, c', ev'.
    rewrite !app_nil_r. split; [reflexivity|]. split; [assumption|]. split; [rewrite unset_app, U; cbn; apply app_nil_r|].
    split; [rewrite run_app, X; cbn [io_run]; now rewrite app_nil_r|].
    split; [assumption|]. split; [|split; [rewrite A2, A1; symmetry; apply app_assoc|right; auto]].
    destruct Bg as (d2 & d3 & r & c2 & ev2 & Tk & -> & _).
    pose proof (tick_static (t_now env oid) (fun _ => d2) (t_send env oid) (io_set_output c1 d1)) as Y. rewrite Tk in Y.
    rewrite output_static. etransitivity; [exact Y|]. rewrite output_static. exact St.
Qed.

Theorem listen_kept {S} (L : listeners S) rounds ending env oid g m s c o g' m' s' : spares L oid -> mgr_inv g m -> lock oid m = Some c ->
  byte_grams (CHandle (S := S) rounds ending env) ->
  listen_connections strict L rounds ending env (g, m, s) = (o, (g', m', s')) -> o <> Ok tt ->
  exists seen rest xs ds c1 ev c' ev', arriving (List.length (m_socks m)) rounds = seen ++ rest
    /\ deliveries (io_t2oId c) seen ds /\ unset xs = map (Recv 0) ds /\ io_run strict xs c = (Open c1, ev)
    /\ lock oid m' = Some c' /\ spec_of c' = spec_of c /\ io_t2oId c' = io_t2oId c
    /\ about oid (m_log m') = about oid (m_log m) ++ ev ++ ev'
    /\ (c' = c1 /\ ev' = [] \/ rest = [] /\ begun strict L env oid o c1 c' ev').
Proof.
  intros P I Lo B E N.
  destruct (listen_broken L rounds ending env oid g m s c o g' m' s' P I Lo B E N) as (seen & rest & xs & ds & c1 & ev & c' & ev' & A & D & U & X & Lk & St & Ab & Or).
  exists seen, rest, xs, ds, c1, ev, c', ev'. repeat (split; [assumption|]). unfold spec_of. clear - St Ab Or. unfold io_static in St. injection St. intros.
  repeat match goal with H : _ c' = _ c |- _ => rewrite H end. repeat split; assumption.
Qed.

(** ** Exceptions of listeners reach the caller *)
Lemma readable_events h d m : m_log (snd (on_readable h d m)) = m_log m
  \/ exists oid hdr sq dt, m_log (snd (on_readable h d m)) = m_log m ++ [EvData oid hdr sq dt].
Proof.
  unfold on_readable. destruct (fst _) as [data|e|u|]; [|now left..].
  match goal with |- context [match ?x with Ok _ => _ | Throw _ => _ | Undef _ => _ | Abort => _ end] => destruct x as [m1|e|u|] eqn:E end; [|now left..].
  cbn [snd]. apply bind_Ok in E as (items & _ & E). destruct (nth_error items 0) as [i0|]; [|discriminate].
  apply bind_Ok in E as ([id b] & _ & E). cbv zeta in E. destruct (map_find _ _) as [c|] eqn:F; [|inv E; now left].
  destruct (nth_error items 1) as [i1|]; [|discriminate]. apply bind_Ok in E as ([c' ev] & R & E). inv E. cbn [add_log set_map m_log].
  unfold io_receive in R. cbv zeta in R. apply bind_Ok in R as ([hd b1] & _ & R). apply bind_Ok in R as ([sq b2] & _ & R).
  destruct (negb (buf_valid b2)); [discriminate|]. destruct (_ && _); inv R; [left; apply app_nil_r|right; eauto].
Qed.
Section Reach.
Context {S : Type} (h : heap) (L : listeners S) (env : tick_env) (oid : nat) (Mute : never_returns h L oid).
Lemma hear_mute d g m s g' m' s' : mgr_inv g m -> hear h L d (g, m, s) = (Ok tt, (g', m', s')) -> about oid (m_log m') = about oid (m_log m).
Proof.
  intros I E. unfold hear in E. pose proof (readable_events h d m) as Ev.
  pose proof (readable_quiet g h d m m I (quiet_refl m)) as (Q & _).
  destruct (on_readable h d m) as [o1 m1]. cbn [snd] in Q, Ev. pose proof (statics_inv g m m1 I Q) as I1.
  destruct Ev as [Ev|(p & hdr & sq & dt & Ev)]; rewrite Ev in E.
  - rewrite skipn_all in E. destruct o1; inv E. now rewrite Ev.
  - rewrite skipn_app, skipn_all, Nat.sub_diag in E. cbn [app skipn] in E. destruct o1 as [[]|?|?|]; [|discriminate..].
    destruct (Nat.eq_dec p oid) as [->|N]; [exfalso; eapply (proj1 (Mute _ _ _ _ _)); exact E|].
    pose proof (react_log _ _ _ _ _ _ _ _ _ I1 E) as [_ Lg]. rewrite Lg, Ev, about_app, (about_none oid p [_]), app_nil_r; auto.
Qed.
Lemma hear_seq_mute ds : forall g m s g' m' s', mgr_inv g m -> hear_seq h L ds (g, m, s) = (Ok tt, (g', m', s')) -> about oid (m_log m') = about oid (m_log m).
Proof.
  induction ds as [|d r IH]; intros g m s g' m' s' I E; cbn [hear_seq] in E; [now inv E|].
  destruct (hear h L d (g, m, s)) as [[[]|?|?|] [[g1 m1] s1]] eqn:H; [|discriminate..].
  pose proof (hear_inv h L _ _ _ _ _ _ _ _ I H) as I1. rewrite (IH _ _ _ _ _ _ I1 E). eapply hear_mute; eassumption.
Qed.
Lemma entry_mute g m s k c b g' m' s' : mgr_inv g m -> map_find k (m_map m) = Some c ->
  tick_entry h L env k c (g, m, s) = (Ok b, (g', m', s')) -> about oid (m_log m') = about oid (m_log m).
Proof.
  intros I F E. unfold tick_entry in E.
  pose proof (begin_static (t_now env (io_oid c)) c) as St. destruct (tick_begin _ c) as [[] c1]; cbn [snd] in St.
  - assert (I1 : mgr_inv g (add_log (set_map m (map_update k c1 (m_map m))) [EvClosed (io_oid c)])).
    { destruct (inv_update g m k c c1 I F (static_oid _ _ St) (static_t2o _ _ St)). now constructor. }
    match type of E with st_bind (react h ?cs) ?kk ?w = _ => destruct (react_case h cs kk w) as [([[g2 m2] s2] & R & E1)|(o1 & o2 & [[g2 m2] s2] & R & _ & E1 & N & _)] end; rewrite E1 in E.
    2:{ inv E. exfalso. eapply N; reflexivity. }
    destruct (Nat.eq_dec (io_oid c) oid) as [Q|N]; [rewrite Q in R; exfalso; eapply (proj1 (proj2 (Mute _ 0 0 [] _))); exact R|].
    pose proof (react_log _ _ _ _ _ _ _ _ _ I1 R) as [_ Lg]. inv E. rewrite Lg. cbn [add_log m_log set_map].
    rewrite about_app, (about_none oid (io_oid c) [_]), app_nil_r; auto.
  - assert (I1 : mgr_inv g (set_map m (map_update k c1 (m_map m)))).
    { exact (inv_update g m k c c1 I F (static_oid _ _ St) (static_t2o _ _ St)). }
    match type of E with st_bind (react h ?cs) ?kk ?w = _ => destruct (react_case h cs kk w) as [([[g2 m2] s2] & R & E1)|(o1 & o2 & [[g2 m2] s2] & R & _ & E1 & N & _)] end; rewrite E1 in E.
    2:{ inv E. exfalso. eapply N; reflexivity. }
    destruct (Nat.eq_dec (io_oid c) oid) as [Q|N]; [rewrite Q in R; exfalso; eapply (proj2 (proj2 (Mute _ 0 0 _ _))); exact R|].
    pose proof (react_log _ _ _ _ _ _ _ _ _ I1 R) as [I2 Lg]. cbn [m_log set_map] in Lg.
    destruct (still k (io_oid c) m2) as [c2|] eqn:Sk; [|discriminate].
    pose proof (send_about (t_send env (io_oid c)) c2) as Sa. destruct (tick_send _ c2) as [o3 ev]. inv E.
    assert (O : io_oid c2 = io_oid c). { unfold still in Sk. destruct (map_find k (m_map m2)); [|discriminate]. destruct (Nat.eqb_spec (io_oid i) (io_oid c)); now inv Sk. }
    cbn [add_log m_log snd] in *. rewrite about_app, Lg, (about_none oid (io_oid c2) ev), app_nil_r; congruence.
  - now inv E.
Qed.
Lemma loop_mute n : forall k g m s ks g' m' s', mgr_inv g m -> tick_loop h L env n k (g, m, s) = (Ok ks, (g', m', s')) -> about oid (m_log m') = about oid (m_log m).
Proof.
  induction n as [|n IH]; intros k g m s ks g' m' s' I E; cbn [tick_loop] in E; [unfold st_ret in E; now inv E|].
  cbn [fst snd] in E. destruct (find _ (m_map m)) as [[k1 c1]|] eqn:F; [|now inv E].
  destruct (find_ge k _ k1 c1 (mi_sorted g m I) F) as (_ & G & _).
  unfold st_bind at 1 in E. destruct (tick_entry h L env k1 c1 (g, m, s)) as [o1 [[g1 m1] s1]] eqn:T.
  destruct o1 as [b| | |]; [|discriminate..]. pose proof (entry_inv h L env g m s k1 c1 _ _ _ _ I G T) as I1.
  unfold st_bind in E. destruct (tick_loop h L env n (k1 + 1) (g1, m1, s1)) as [o2 [[g2 m2] s2]] eqn:T2.
  destruct o2; unfold st_ret in E; inv E. rewrite (IH _ _ _ _ _ _ _ _ I1 T2). eapply entry_mute; eassumption.
Qed.
Theorem listen_mute rounds ending g m s g' m' s' : mgr_inv g m ->
  listen_connections h L rounds ending env (g, m, s) = (Ok tt, (g', m', s')) -> about oid (m_log m') = about oid (m_log m).
Proof.
  intros I E. unfold listen_connections in E. unfold st_bind in E. cbn [fst snd] in E.
  destruct (List.length (m_socks m)) as [|k] eqn:Ln. { cbn [bs_select] in E. discriminate. }
  rewrite hear_select in E by lia.
  destruct (hear_seq h L _ (g, m, s)) as [[[]|?|?|] [[g1 m1] s1]] eqn:H; [|discriminate..].
  destruct ending; [|discriminate]. pose proof (hear_seq_inv h L _ _ _ _ _ _ _ _ I H) as I1.
  rewrite <- (hear_seq_mute _ _ _ _ _ _ _ I H). destruct a_fuel as [n F]. rewrite (listen_with h L env n F) in E. unfold ticks_with, st_bind in E.
  destruct (tick_loop _ _ _ _ _ _) as [o1 [[g2 m2] s2]] eqn:T. destruct o1; inv E. cbn [set_map m_log]. eapply loop_mute; eassumption.
Qed.
End Reach.

(** ** Witnesses *)
Definition throws (e : exn) : list (lcall (list encaps)) := [LThrow e].
(** the close listener throws *)
Definition angry : listeners (list encaps) := mkListeners (fun _ _ _ _ _ => []) (fun _ _ => throws OutOfRange) (fun _ _ _ => []).
(** the send listener throws while there is nothing to send *)
Definition empty_handed : listeners (list encaps) :=
  mkListeners (fun _ _ _ _ _ => []) (fun _ _ => []) (fun _ _ d => match d with [] => throws OutOfRange | _ => [] end).
Definition view1 : view (list encaps) := (w_g after1, w_m after1 0%nat, w_s after1).
Definition calm : listeners (list encaps) := mkListeners (fun _ _ _ _ _ => []) (fun _ _ => []) (fun _ _ _ => []).
(** handleConnections of a manager with few connections *)
Definition briefly (L : listeners (list encaps)) rounds env (w : view (list encaps)) :=
  st_bind (bs_select (fun _ => hear strict L) (List.length (m_socks (snd (fst w)))) rounds SelQuiet) (fun _ => ticks_with strict L env 3) w.
Definition angry1 := snd (briefly angry [] (at_ms 70) view1).
Definition angry2 := snd (briefly calm [] (at_ms 70) angry1).
Definition knock : list (sel_round dgram) := [mkRound [Some (Dgram (gram 0x10007 [1; 0; 9]))] 0].
Definition late1 := snd (briefly calm [] (at_ms 35) view1).
Definition late2 := snd (briefly angry [] (at_ms 50) late1).
Definition late3 := snd (briefly calm knock (at_ms 55) late2).
Definition gap1 := snd (briefly empty_handed [] (at_ms 20) view1).
Definition gap2 := snd (briefly calm [] (at_ms 40) gap1).
Lemma angry_1 : listen_connections strict angry [] SelQuiet (at_ms 70) view1 = (Throw OutOfRange, angry1).
Proof. destruct (listen_fuel strict angry (at_ms 70)) as [n F]. rewrite F. clear F. vm_compute. reflexivity. Qed.
Lemma angry_2 : listen_connections strict calm [] SelQuiet (at_ms 70) angry1 = (Ok tt, angry2).
Proof. destruct (listen_fuel strict calm (at_ms 70)) as [n F]. rewrite F. clear F. vm_compute. reflexivity. Qed.
Lemma late_1 : listen_connections strict calm [] SelQuiet (at_ms 35) view1 = (Ok tt, late1).
Proof. destruct (listen_fuel strict calm (at_ms 35)) as [n F]. rewrite F. clear F. vm_compute. reflexivity. Qed.
Lemma late_2 : listen_connections strict angry [] SelQuiet (at_ms 50) late1 = (Throw OutOfRange, late2).
Proof. destruct (listen_fuel strict angry (at_ms 50)) as [n F]. rewrite F. clear F. vm_compute. reflexivity. Qed.
Lemma late_3 : listen_connections strict calm knock SelQuiet (at_ms 55) late2 = (Ok tt, late3).
Proof. destruct (listen_fuel strict calm (at_ms 55)) as [n F]. rewrite F. clear F. vm_compute. reflexivity. Qed.
Lemma gap_1 : listen_connections strict empty_handed [] SelQuiet (at_ms 20) view1 = (Throw OutOfRange, gap1).
Proof. destruct (listen_fuel strict empty_handed (at_ms 20)) as [n F]. rewrite F. clear F. vm_compute. reflexivity. Qed.
Lemma gap_2 : listen_connections strict calm [] SelQuiet (at_ms 40) gap1 = (Ok tt, gap2).
Proof. destruct (listen_fuel strict calm (at_ms 40)) as [n F]. rewrite F. clear F. vm_compute. reflexivity. Qed.
Lemma angry_twice : about 0 (m_log (snd (fst angry2))) = [EvClosed 0; EvClosed 0].
Proof. vm_compute. reflexivity. Qed.
Lemma late_seen : exists p1 p2, about 0 (m_log (snd (fst late3))) = [EvSent 0 (io_dest con1) p1; EvClosed 0; EvData 0 0 1 [9]; EvSent 0 (io_dest con1) p2].
Proof. vm_compute. eexists _, _. reflexivity. Qed.
Lemma late_open : lock 0 (snd (fst late3)) <> None.
Proof. vm_compute. discriminate. Qed.
Lemma gap_seen : about 0 (m_log (snd (fst gap2))) = [EvSent 0 (io_dest con1) (io_packet (spec_of con1) 2 [])].
Proof. vm_compute. reflexivity. Qed.
Lemma triple {A B C D} (x : D * (A * B * C)) o v : x = (o, v) -> x = (o, (fst (fst v), snd (fst v), snd v)).
Proof. intros ->. now destruct v as [[a b] c]. Qed.
Lemma angry1_listened : listened (list encaps) (fst (fst angry1)) (snd (fst angry1)).
Proof. eapply (listened_listen strict [(0%nat, open_call 0x10007 10000 10000 (class1 1 0))] start0 0%nat); [apply start_new|]. exact angry_1. Qed.
(** all listeners throw *)
Definition fury : listeners (list encaps) :=
  mkListeners (fun _ _ _ _ _ => throws LengthError) (fun _ _ => throws LengthError) (fun _ _ _ => throws LengthError).
Lemma fury_calm : exists v, listen_connections strict fury [] SelQuiet (at_ms 5) view1 = (Ok tt, v).
Proof. destruct (listen_fuel strict fury (at_ms 5)) as [n F]. rewrite F. clear F. eexists. vm_compute. reflexivity. Qed.
Lemma fury_ends : exists v, listen_connections strict fury [] SelQuiet (at_ms 20) view1 = (Throw LengthError, v).
Proof. destruct (listen_fuel strict fury (at_ms 20)) as [n F]. rewrite F. clear F. eexists. vm_compute. reflexivity. Qed.
