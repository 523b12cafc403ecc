(** Proofs about listeners that call handleConnections. *)
From Verif Require Import Base MBuffer SBuffer PBase PBuffer MEip SEip PEip
  MSocket SSocket PSocket MConnReq SConnReq PConnReq MConn SConn PConnOpen PConnMap PIo PConnCall PConnCall2 PConnHist PIo2 PConnTop PIoTop SLife PLife MReent SReent PReent MDeep SDeep.
Ltac Zify.zify_post_hook ::= Z.div_mod_to_equations.
Local Open Scope outcome_scope.

(** ** Calls of listeners and connections that are gone *)
Lemma do_dead {S} h (op : lcall S) g m s oid o g' m' s' : mgr_inv g m -> lock oid m = None -> (oid < g_oid g)%nat ->
  do_call h op (g, m, s) = (o, (g', m', s')) -> untouched oid m m'.
Proof.
  intros I L O E. pose proof (lcall_log h op g m s o g' m' s' I E) as [_ Lg]. split; [|now rewrite Lg]. rewrite L.
  assert (X : forall c : call S, sends_whole c -> call_mgr h c (g, m, s) = (o, (g', m', s')) -> lock oid m' = None).
  { intros c W Ec. pose proof (call_step h c _ _ _ _ _ _ _ I W Ec) as St. destruct (lock oid m') as [c1|] eqn:Q; [|reflexivity]. exfalso.
    assert (Al : alive oid m') by (unfold alive; congruence). apply (st_alive _ _ _ _ _ _ St) in Al as [[Al _]|Op]; [now apply Al|].
    apply (st_new _ _ _ _ _ _ St) in Op. lia. }
  destruct op as [use8 si host env large cp|use8 si p|p d|e]; cbn [do_call] in E; try (eapply X; [|exact E]; exact Logic.I).
  inv E. assumption.
Qed.
Lemma react_dead {S} h (calls : list (lcall S)) : forall g m s oid o g' m' s', mgr_inv g m -> lock oid m = None -> (oid < g_oid g)%nat ->
  react h calls (g, m, s) = (o, (g', m', s')) -> untouched oid m m' /\ (g_oid g <= g_oid g')%nat.
Proof.
  induction calls as [|c r IH]; intros g m s oid o g' m' s' I L O E; cbn [react] in E.
  - unfold st_ret in E. inv E. split; [apply untouched_refl|lia].
  - unfold st_bind in E. destruct (do_call h c (g, m, s)) as [o1 [[g1 m1] s1]] eqn:D.
    pose proof (do_dead h c _ _ _ _ _ _ _ _ I L O D) as [U1 U2]. pose proof (do_inv h c _ _ _ _ _ _ _ I D) as [I1 G1].
    destruct o1 as [x|?|?|]; [|inv E; split; [split; assumption|assumption]..].
    rewrite L in U1. destruct (IH g1 m1 s1 oid _ _ _ _ I1 U1 ltac:(lia) E) as [[V1 V2] G2]. split; [split; congruence|lia].
Qed.
Lemma react_oid {S} h (calls : list (lcall S)) : forall g m s o g' m' s', mgr_inv g m ->
  react h calls (g, m, s) = (o, (g', m', s')) -> (g_oid g <= g_oid g')%nat.
Proof.
  induction calls as [|c r IH]; intros g m s o g' m' s' I E; cbn [react] in E.
  - unfold st_ret in E. inv E. lia.
  - unfold st_bind in E. destruct (do_call h c (g, m, s)) as [o1 [[g1 m1] s1]] eqn:D.
    pose proof (do_inv h c _ _ _ _ _ _ _ I D) as [I1 G1]. destruct o1 as [x|?|?|]; [|inv E; assumption..].
    pose proof (IH _ _ _ _ _ _ _ I1 E). lia.
Qed.
Lemma lives g m oid c : mgr_inv g m -> lock oid m = Some c -> (oid < g_oid g)%nat.
Proof. intros I L. apply lock_in in L as [<- [k K]]. exact (mi_fresh g m I k c K). Qed.
Lemma react_lock {S} h oid (calls : list (lcall S)) : forall g m s c o g' m' s', mgr_inv g m -> lock oid m = Some c ->
  react h calls (g, m, s) = (o, (g', m', s')) -> lock oid m' = None \/ exists d, lock oid m' = Some (io_set_output c d).
Proof.
  induction calls as [|op r IH]; intros g m s c o g' m' s' I L E; cbn [react] in E.
  - unfold st_ret in E. inv E. right. exists (io_out c). now rewrite output_same.
  - unfold st_bind in E. destruct (do_call h op (g, m, s)) as [o1 [[g1 m1] s1]] eqn:D.
    pose proof (do_inv h op _ _ _ _ _ _ _ I D) as [I1 G1]. pose proof (lives _ _ _ _ I L) as O.
    assert (X : lock oid m1 = None \/ exists d, lock oid m1 = Some (io_set_output c d)).
    { assert (C : (exists use8 si, op = LClose use8 si oid) \/ forall use8 si, op <> LClose use8 si oid).
      { destruct op as [| u si p| |]; try (right; intros; discriminate). destruct (Nat.eq_dec p oid) as [->|]; [left; eauto|right; congruence]. }
      destruct C as [(u & si & ->)|C].
      - cbn [do_call call_mgr] in D. rewrite L in D. unfold forward_close in D.
        destruct (send_request _ _ _ _ _ _ _ _) as [[rs|?|?|] s2]; cbn [omap bind] in D; inv D.
        2-4: right; exists (io_out c); now rewrite output_same.
        left. pose proof (lock_in _ _ _ L) as [Eo _]. apply lock_none. intros Q. unfold oids in Q. cbn [set_map m_map] in Q.
        apply in_map_iff in Q as ([k2 c2] & O2 & J2). cbn [snd] in O2. apply erase_in in J2 as [J2 N2]. cbn [fst] in N2.
        pose proof (lock_some _ _ _ _ I J2) as L2. rewrite O2, L in L2. inv L2. apply N2. exact (mi_key _ _ I _ _ J2).
      - right. now apply (call_keeps h op g m s oid c o1 g1 m1 s1 I L C) in D as (_ & _ & D). }
    destruct o1 as [x|?|?|]; [|inv E; exact X..].
    destruct X as [X|[d X]].
    + left. apply (react_dead h r _ _ _ oid) in E as [[E _] _]; try assumption; [congruence|lia].
    + destruct (IH _ _ _ _ _ _ _ _ I1 X E) as [Y|[d2 Y]]; [now left|right]. exists d2. now rewrite output_twice in Y.
Qed.
Lemma still_locked g m k oid c : mgr_inv g m -> still k oid m = Some c -> lock oid m = Some c.
Proof.
  intros I E. unfold still in E. destruct (map_find k (m_map m)) as [c1|] eqn:F; [|discriminate].
  destruct (Nat.eqb_spec (io_oid c1) oid) as [<-|]; inv E. exact (lock_some g m k c I (find_in _ _ _ F)).
Qed.

(** ** Listeners that make no inner calls in the ticks *)
Definition strip {S} (c : ncall S) : list (lcall S) := match c with NPlain c => [c] | NHandle _ _ _ => [] end.
Definition plain_of {S} (L : dlisteners S) : listeners S :=
  mkListeners (fun w oid hdr seq d => flat_map strip (dl_data L w oid hdr seq d)) (fun w oid => flat_map strip (dl_close L w oid))
              (fun w oid d => flat_map strip (dl_send L w oid d)).
Lemma in_strip {S} (c : lcall S) calls : In c (flat_map strip calls) <-> In (NPlain c) calls.
Proof.
  rewrite in_flat_map. split.
  - intros ([x|? ? ?] & J & K); cbn [strip] in K; [|contradiction]. destruct K as [->|[]]. exact J.
  - intros J. exists (NPlain c). split; [exact J|now left].
Qed.
Lemma strip_polite {S} (L : dlisteners S) : dpolite L -> polite (plain_of L).
Proof. intros P w oid d. split; intros (u & si & J); apply in_strip in J; [apply (proj1 (P w oid d)) in J|apply (proj2 (P w oid d)) in J]; assumption. Qed.
Lemma strip_spares {S} (L : dlisteners S) oid : dspares L oid -> spares (plain_of L) oid.
Proof.
  intros P w p hdr sq d. destruct (P w p hdr sq d) as (A & B & C).
  repeat split; intros (u & si & J); apply in_strip in J; [apply A in J|apply B in J|apply C in J]; assumption.
Qed.
Section Same.
Context {S : Type} (h : heap) (L : dlisteners S) (inner : list (sel_round dgram) -> sel_end -> tick_env -> st (view S) unit).
Lemma dreact_plain calls : plain calls -> forall w, dreact h inner calls w = react h (flat_map strip calls) w.
Proof.
  induction calls as [|[c|rounds ending env] r IH]; intros P w; [reflexivity| |].
  - cbn [dreact flat_map strip app react]. unfold st_bind. destruct (do_call h c w) as [[x|?|?|] w']; try reflexivity.
    apply IH. intros a b e J. apply (P a b e). now right.
  - exfalso. apply (P rounds ending env). now left.
Qed.
Lemma entry_same (C : calm L) env g m s k c : mgr_inv g m -> map_find k (m_map m) = Some c ->
  dtick_entry h L inner env k c (g, m, s) = tick_entry h (plain_of L) env k c (g, m, s).
Proof.
  intros I F. unfold dtick_entry, tick_entry.
  pose proof (begin_static (t_now env (io_oid c)) c) as St. destruct (tick_begin _ c) as [[] c1]; cbn [snd] in St.
  - unfold st_bind. cbn [plain_of l_close]. rewrite dreact_plain by exact (proj1 (C _ _ [])). reflexivity.
  - assert (I1 : mgr_inv g (set_map m (map_update k c1 (m_map m)))).
    { exact (inv_update g m k c c1 I F (static_oid _ _ St) (static_t2o _ _ St)). }
    pose proof (update_lock g m k c c1 (io_oid c) I F St []) as Lk. rewrite Nat.eqb_refl in Lk.
    change (lock (io_oid c) (set_map m (map_update k c1 (m_map m))) = Some c1) in Lk.
    unfold st_bind. cbn [plain_of l_send]. rewrite dreact_plain by exact (proj2 (C _ _ _)).
    destruct (react h _ _) as [[[]|?|?|] [[g2 m2] s2]] eqn:R; try reflexivity.
    pose proof (react_log _ _ _ _ _ _ _ _ _ I1 R) as [I2 _].
    destruct (still k (io_oid c) m2) as [c2|] eqn:Sl; [|reflexivity]. apply (still_locked g2) in Sl; [|assumption].
    destruct (react_lock _ _ _ _ _ _ _ _ _ _ _ I1 Lk R) as [X|[d X]]; rewrite X in Sl; [discriminate|]. inv Sl. reflexivity.
  - reflexivity.
Qed.
Lemma loop_same (C : calm L) env n : forall k g m s, mgr_inv g m ->
  dtick_loop h L inner env n k (g, m, s) = tick_loop h (plain_of L) env n k (g, m, s).
Proof.
  induction n as [|n IH]; intros k g m s I; cbn [dtick_loop tick_loop]; [reflexivity|]. cbn [fst snd].
  destruct (find _ (m_map m)) as [[k1 c1]|] eqn:F; [|reflexivity].
  destruct (find_ge k _ k1 c1 (mi_sorted g m I) F) as (_ & G & _). unfold st_bind. rewrite entry_same by assumption.
  destruct (tick_entry h (plain_of L) env k1 c1 (g, m, s)) as [[b|?|?|] [[g1 m1] s1]] eqn:E; try reflexivity.
  now rewrite (IH _ _ _ _ (entry_inv h _ env _ _ _ _ _ _ _ _ _ I G E)).
Qed.
Lemma ticks_same (C : calm L) env g m s : mgr_inv g m -> dticks h L inner env (g, m, s) = listen_ticks h (plain_of L) env (g, m, s).
Proof. intros I. unfold dticks, listen_ticks. unfold st_bind. now rewrite loop_same. Qed.
End Same.

(** ** Without inner calls *)
Lemma strip_plain {S} (calls : list (lcall S)) : flat_map strip (map NPlain calls) = calls.
Proof. induction calls as [|c r IH]; [reflexivity|]. cbn [map flat_map strip app]. now rewrite IH. Qed.
Lemma map_is_plain {S} (calls : list (lcall S)) : plain (map NPlain calls).
Proof. intros r e v J. apply in_map_iff in J as (c & J & _). discriminate. Qed.
Lemma shallow_calm {S} (L : listeners S) : calm (shallow L).
Proof. intros w oid d. split; apply map_is_plain. Qed.
Section Shallow.
Context {S : Type} (h : heap) (L : listeners S) (inner : list (sel_round dgram) -> sel_end -> tick_env -> st (view S) unit).
Lemma shallow_hear d w : dhear h (shallow L) inner d w = hear h L d w.
Proof.
  destruct w as [[g m] s]. unfold dhear, hear. destruct (on_readable h d m) as [[[]|?|?|] m']; try reflexivity.
  destruct (skipn _ _) as [|[p hdr sq dt|p|p e dt] [|? ?]]; try reflexivity.
  cbn [shallow dl_data]. rewrite dreact_plain by apply map_is_plain. now rewrite strip_plain.
Qed.
Lemma shallow_dispatch ready : forall i n w,
  dispatch (fun _ => dhear h (shallow L) inner) i n ready w = dispatch (fun _ => hear h L) i n ready w.
Proof.
  induction ready as [|[d|] r IH]; intros i n w; destruct n; cbn [dispatch]; try reflexivity; [|apply IH].
  unfold st_bind. rewrite shallow_hear. destruct (hear h L d w) as [[[]|?|?|] w']; try reflexivity. apply IH.
Qed.
Lemma shallow_select n rounds ending w :
  bs_select (fun _ => dhear h (shallow L) inner) n rounds ending w = bs_select (fun _ => hear h L) n rounds ending w.
Proof.
  unfold bs_select. destruct n as [|n]; [reflexivity|]. revert w. induction rounds as [|r rs IH]; intros w; cbn [select_rounds]; [reflexivity|].
  unfold st_bind. rewrite shallow_dispatch. destruct (dispatch _ _ _ _ w) as [[[]|?|?|] w']; try reflexivity. apply IH.
Qed.
Lemma plain_shallow_ticks env g m (s : S) : listen_ticks h (plain_of (shallow L)) env (g, m, s) = listen_ticks h L env (g, m, s).
Proof.
  assert (En : forall k c w, tick_entry h (plain_of (shallow L)) env k c w = tick_entry h L env k c w).
  { intros k c [[g1 m1] s1]. unfold tick_entry. destruct (tick_begin _ c) as [[] c1]; [| |reflexivity];
      cbn [plain_of shallow l_close l_send dl_close dl_send]; unfold st_bind; now rewrite strip_plain. }
  assert (Lp : forall n k w, tick_loop h (plain_of (shallow L)) env n k w = tick_loop h L env n k w).
  { induction n as [|n IH]; intros k w; cbn [tick_loop]; [reflexivity|]. destruct (find _ _) as [[k1 c1]|]; [|reflexivity].
    unfold st_bind. rewrite En. destruct (tick_entry h L env k1 c1 w) as [[b|?|?|] w']; try reflexivity. now rewrite IH. }
  unfold listen_ticks. unfold st_bind. now rewrite Lp.
Qed.
Lemma shallow_handle rounds ending env g m s : mgr_inv g m ->
  dhandle h (shallow L) inner rounds ending env (g, m, s) = listen_connections h L rounds ending env (g, m, s).
Proof.
  intros I. unfold dhandle, listen_connections. unfold st_bind. rewrite shallow_select. cbn [fst snd].
  destruct (List.length (m_socks m)) as [|k] eqn:Ln; [unfold bs_select; cbv beta iota; reflexivity|].
  rewrite hear_select by lia. destruct (hear_seq h L _ (g, m, s)) as [o1 [[g1 m1] s1]] eqn:H.
  pose proof (hear_seq_inv _ _ _ _ _ _ _ _ _ _ I H) as I1. destruct o1 as [[]|?|?|]; [|cbv beta iota; reflexivity..].
  destruct ending; [|cbv beta iota; reflexivity]. rewrite ticks_same; [apply plain_shallow_ticks|apply shallow_calm|assumption].
Qed.
End Shallow.
Theorem shallow_deep {S} h (L : listeners S) n rounds ending env g m s : mgr_inv g m ->
  deep h (shallow L) (Datatypes.S n) rounds ending env (g, m, s) = listen_connections h L rounds ending env (g, m, s).
Proof. apply shallow_handle. Qed.

(** ** Ticks and connections that are gone *)
Section Gone.
Context {S : Type} (h : heap) (L : listeners S) (env : tick_env).
Lemma entry_dead g m s k c oid o g' m' s' : mgr_inv g m -> map_find k (m_map m) = Some c -> lock oid m = None -> (oid < g_oid g)%nat ->
  tick_entry h L env k c (g, m, s) = (o, (g', m', s')) -> untouched oid m m' /\ (g_oid g <= g_oid g')%nat.
Proof.
  intros I F Lo O E. unfold tick_entry in E.
  assert (N : io_oid c <> oid).
  { intros Q. pose proof (lock_some _ _ _ _ I (find_in _ _ _ F)) as X. rewrite Q in X. congruence. }
  pose proof (begin_static (t_now env (io_oid c)) c) as St. destruct (tick_begin _ c) as [[] c1]; cbn [snd] in St.
  - assert (I1 : mgr_inv g (add_log (set_map m (map_update k c1 (m_map m))) [EvClosed (io_oid c)])).
    { destruct (inv_update g m k c c1 I F (static_oid _ _ St) (static_t2o _ _ St)). now constructor. }
    pose proof (update_lock g m k c c1 oid I F St [EvClosed (io_oid c)]) as Lk. rewrite Lo in Lk.
    destruct (Nat.eqb_spec oid (io_oid c)); [congruence|].
    assert (A : forall l, about oid (l ++ [EvClosed (io_oid c)]) = about oid l).
    { intros l. rewrite about_app, (about_none oid (io_oid c) [EvClosed (io_oid c)]); [apply app_nil_r|repeat constructor|assumption]. }
    match type of E with st_bind (react h ?cs) ?kk ?w = _ => destruct (react_case h cs kk w) as [([[g2 m2] s2] & R & E1)|(o1 & o2 & [[g2 m2] s2] & R & _ & E1 & _)] end; rewrite E1 in E;
      (destruct (react_dead h _ _ _ _ _ _ _ _ _ I1 Lk O R) as [[U1 U2] G]; cbn [add_log m_log set_map] in U2; inv E;
       split; [split; [congruence|rewrite U2; apply A]|assumption]).
  - assert (I1 : mgr_inv g (set_map m (map_update k c1 (m_map m)))).
    { exact (inv_update g m k c c1 I F (static_oid _ _ St) (static_t2o _ _ St)). }
    pose proof (update_lock g m k c c1 oid I F St []) as Lk. rewrite Lo in Lk.
    destruct (Nat.eqb_spec oid (io_oid c)); [congruence|].
    change (lock oid (set_map m (map_update k c1 (m_map m))) = None) in Lk.
    match type of E with st_bind (react h ?cs) ?kk ?w = _ => destruct (react_case h cs kk w) as [([[g2 m2] s2] & R & E1)|(o1 & o2 & [[g2 m2] s2] & R & _ & E1 & _)] end; rewrite E1 in E;
      (pose proof (react_log _ _ _ _ _ _ _ _ _ I1 R) as [I2 Lg]; cbn [m_log set_map] in Lg;
       destruct (react_dead h _ _ _ _ _ _ _ _ _ I1 Lk O R) as [[U1 U2] G]; cbn [m_log set_map] in U2).
    2:{ inv E. split; [split; congruence|assumption]. }
    destruct (still k (io_oid c) m2) as [c2|] eqn:Sl; [|inv E; split; [split; congruence|assumption]].
    pose proof (send_about (t_send env (io_oid c)) c2) as Sa. destruct (tick_send _ c2) as [o3 ev]. inv E. cbn [add_log m_log snd] in *.
    split; [split|assumption]; [change (lock oid m2 = lock oid m); congruence|]. cbn [add_log m_log].
    rewrite about_app, (about_none oid (io_oid c) ev), app_nil_r; [exact U2| |assumption].
    apply (still_locked g') in Sl; [|assumption]. apply lock_in in Sl as [<- _]. exact Sa.
  - inv E. split; [|lia]. split; [|reflexivity]. pose proof (update_lock g' m k c c1 oid I F St []) as Lk. rewrite Lo in *.
    destruct (Nat.eqb_spec oid (io_oid c)); [congruence|]. exact Lk.
Qed.
Lemma loop_dead n oid : forall k g m s ks g' m' s', mgr_inv g m -> lock oid m = None -> (oid < g_oid g)%nat ->
  tick_loop h L env n k (g, m, s) = (Ok ks, (g', m', s')) -> untouched oid m m' /\ (g_oid g <= g_oid g')%nat /\ mgr_inv g' m'.
Proof.
  induction n as [|n IH]; intros k g m s ks g' m' s' I Lo O E; cbn [tick_loop] in E.
  { unfold st_ret in E. inv E. split; [apply untouched_refl|auto]. }
  cbn [fst snd] in E. destruct (find _ (m_map m)) as [[k1 c1]|] eqn:F; [|inv E; split; [apply untouched_refl|auto]].
  destruct (find_ge k _ k1 c1 (mi_sorted g m I) F) as (_ & G & _). unfold st_bind in E.
  destruct (tick_entry h L env k1 c1 (g, m, s)) as [[b|?|?|] [[g1 m1] s1]] eqn:T; try discriminate.
  pose proof (entry_inv h L env _ _ _ _ _ _ _ _ _ I G T) as I1.
  destruct (entry_dead _ _ _ _ _ oid _ _ _ _ I G Lo O T) as [[U1 U2] G1].
  destruct (tick_loop h L env n (k1 + 1) (g1, m1, s1)) as [[ks1|?|?|] [[g2 m2] s2]] eqn:T2; try discriminate. unfold st_ret in E. inv E.
  rewrite Lo in U1. destruct (IH _ _ _ _ _ _ _ _ I1 U1 ltac:(lia) T2) as ([V1 V2] & G2 & I2).
  split; [split; congruence|]. split; [lia|assumption].
Qed.
Lemma with_dead n oid g m s g' m' s' : mgr_inv g m -> lock oid m = None -> (oid < g_oid g)%nat ->
  ticks_with h L env n (g, m, s) = (Ok tt, (g', m', s')) -> untouched oid m m' /\ (g_oid g <= g_oid g')%nat.
Proof.
  intros I Lo O E. unfold ticks_with, st_bind in E.
  destruct (tick_loop _ _ _ _ _ _) as [[ks|?|?|] [[g1 m1] s1]] eqn:T; try discriminate. inv E.
  destruct (loop_dead _ oid _ _ _ _ _ _ _ _ I Lo O T) as ([U1 U2] & G & I1). split; [|assumption]. split; [|exact U2].
  rewrite Lo in *. apply lock_none. intros X. apply in_map_iff in X as ([k2 c2] & O2 & J2). cbn [set_map m_map snd] in *.
  apply fold_erase_in in J2 as [J2 _]. pose proof (lock_some _ _ _ _ I1 J2) as Y. rewrite O2 in Y. congruence.
Qed.
Lemma loop_oid n : forall k g m s ks g' m' s', mgr_inv g m ->
  tick_loop h L env n k (g, m, s) = (Ok ks, (g', m', s')) -> (g_oid g <= g_oid g')%nat.
Proof.
  induction n as [|n IH]; intros k g m s ks g' m' s' I E; cbn [tick_loop] in E; [unfold st_ret in E; now inv E|].
  cbn [fst snd] in E. destruct (find _ (m_map m)) as [[k1 c1]|] eqn:F; [|now inv E].
  destruct (find_ge k _ k1 c1 (mi_sorted g m I) F) as (_ & G & _). unfold st_bind in E.
  destruct (tick_entry h L env k1 c1 (g, m, s)) as [[b|?|?|] [[g1 m1] s1]] eqn:T; try discriminate.
  pose proof (entry_inv h L env _ _ _ _ _ _ _ _ _ I G T) as I1.
  destruct (tick_loop h L env n (k1 + 1) (g1, m1, s1)) as [[ks1|?|?|] [[g2 m2] s2]] eqn:T2; try discriminate. unfold st_ret in E. inv E.
  pose proof (IH _ _ _ _ _ _ _ _ I1 T2). enough (g_oid g <= g_oid g1)%nat by lia. clear - I G T.
  unfold tick_entry in T. pose proof (begin_static (t_now env (io_oid c1)) c1) as St. destruct (tick_begin _ c1) as [[] c2]; cbn [snd] in St.
  - assert (I1 : mgr_inv g (add_log (set_map m (map_update k1 c2 (m_map m))) [EvClosed (io_oid c1)])).
    { destruct (inv_update g m k1 c1 c2 I G (static_oid _ _ St) (static_t2o _ _ St)). now constructor. }
    unfold st_bind in T. destruct (react h _ _) as [[[]|?|?|] [[g2 m2] s2]] eqn:R; try discriminate. inv T. exact (react_oid _ _ _ _ _ _ _ _ _ I1 R).
  - assert (I1 : mgr_inv g (set_map m (map_update k1 c2 (m_map m)))).
    { exact (inv_update g m k1 c1 c2 I G (static_oid _ _ St) (static_t2o _ _ St)). }
    unfold st_bind in T. destruct (react h _ _) as [[[]|?|?|] [[g2 m2] s2]] eqn:R; try discriminate. pose proof (react_oid _ _ _ _ _ _ _ _ _ I1 R).
    destruct (still _ _ _); [|discriminate]. destruct (tick_send _ _). inv T. assumption.
  - inv T. lia.
Qed.
Lemma with_oid n g m s g' m' s' : mgr_inv g m -> ticks_with h L env n (g, m, s) = (Ok tt, (g', m', s')) -> (g_oid g <= g_oid g')%nat.
Proof.
  intros I E. unfold ticks_with, st_bind in E. destruct (tick_loop _ _ _ _ _ _) as [[ks|?|?|] [[g1 m1] s1]] eqn:T; try discriminate. inv E.
  eapply loop_oid; eassumption.
Qed.
Lemma ticks_dead oid g m s g' m' s' : mgr_inv g m -> lock oid m = None -> (oid < g_oid g)%nat ->
  listen_ticks h L env (g, m, s) = (Ok tt, (g', m', s')) -> untouched oid m m' /\ (g_oid g <= g_oid g')%nat.
Proof. destruct a_fuel as [n F]. rewrite (listen_with h L env n F). apply with_dead. Qed.
Lemma ticks_oid g m s g' m' s' : mgr_inv g m -> listen_ticks h L env (g, m, s) = (Ok tt, (g', m', s')) -> (g_oid g <= g_oid g')%nat.
Proof. destruct a_fuel as [n F]. rewrite (listen_with h L env n F). apply with_oid. Qed.
End Gone.

(** ** One connection during nested calls *)
Lemma readable_exact g m oid c d m1 : mgr_inv g m -> lock oid m = Some c -> gram_ok d -> on_readable strict d m = (Ok tt, m1) ->
  exists l ev, d = Dgram l /\ m_log m1 = m_log m ++ ev /\
     ((exists dt c', brings l (io_t2oId c) dt /\ io_receive strict c dt = Ok (c', ev) /\ lock oid m1 = Some c')
      \/ (forall dt, ~ brings l (io_t2oId c) dt) /\ untouched oid m m1 /\ Forall (fun e => ev_oid e <> oid) ev).
Proof.
  intros I L B E. destruct d as [l|e]; [|unfold on_readable in E; discriminate].
  pose proof (readable_ok_iff g l m I B) as RO. pose proof (sorted_nodup _ (mi_sorted g m I)) as Nd.
  rewrite E in RO. cbn [fst] in RO. apply proj1 in RO. specialize (RO eq_refl). exists l.
  destruct RO as (i0 & items & X & rest & C & V & E0 & H).
  rewrite (readable_items strict l m i0 items X rest B C V E0) in E.
  destruct (Z.eq_dec (u16 X) (u16 (io_t2oId c))) as [K|K].
  - pose proof L as L0. apply (lock_iff g) in L as [Eo J]; [|assumption]. apply (find_iff _ _ _ Nd) in J. rewrite K, J in E.
    destruct (H oid c L0 (eq_sym K)) as (i1 & items' & -> & _).
    destruct (io_receive strict c (it_data i1)) as [[c' ev]|?|?|] eqn:R; inv E.
    exists ev. split; [reflexivity|]. split; [reflexivity|]. left.
    exists (it_data i1), c'. split; [|split; [exact R|]].
    { exists i0, i1, items', X, rest. split; [assumption|]. split; [assumption|]. split; [assumption|]. split; [exact K|reflexivity]. }
    pose proof (receive_static _ _ _ _ _ R) as St.
    rewrite (update_lock g m _ c c' _ I J St). now rewrite Nat.eqb_refl.
  - assert (Nb : forall dt, ~ brings l (io_t2oId c) dt).
    { intros dt (j0 & j1 & jt & Y & r & D & W & E1 & Q & _).
      pose proof (carries_fun l _ _ B C D) as F. inv F. apply K. unfold u16.
      assert (Y = X); [|congruence]. rewrite E0 in E1. symmetry. eapply le4_inj; eauto. }
    destruct (map_find (u16 X) (m_map m)) as [c1|] eqn:F.
    2:{ inv E. exists []. rewrite app_nil_r. do 2 (split; [reflexivity|]). right. repeat split; auto. }
    pose proof (find_in _ _ _ F) as J1. pose proof (mi_key g m I _ _ J1) as K1.
    assert (N : io_oid c1 <> oid).
    { intros Q. pose proof (lock_some g m _ _ I J1) as L1. rewrite Q, L in L1. inv L1. congruence. }
    destruct items as [|i1 items]; [inv E|].
    destruct (io_receive strict c1 (it_data i1)) as [[c' ev]|?|?|] eqn:R; inv E.
    exists ev. do 2 (split; [reflexivity|]). right. split; [assumption|].
    pose proof (receive_static _ _ _ _ _ R) as St. pose proof (receive_about _ _ _ _ _ R) as Ab. split; [split|].
    + rewrite (update_lock g m _ c1 c' _ I F St). destruct (Nat.eqb_spec oid (io_oid c1)); [congruence|reflexivity].
    + cbn [add_log m_log set_map]. rewrite about_app, (about_none oid (io_oid c1) ev); [apply app_nil_r|assumption|assumption].
    + eapply Forall_impl; [|exact Ab]. intros e Q. cbv beta in Q. congruence.
Qed.
Lemma receive_events c d c' ev : io_receive strict c d = Ok (c', ev) -> ev = [] \/ exists hdr seq data, ev = [EvData (io_oid c) hdr seq data].
Proof.
  unfold io_receive. intros E. cbv zeta in E. apply bind_Ok in E as ([hd b1] & _ & E).
  apply bind_Ok in E as ([sq b2] & _ & E). destruct (negb (buf_valid b2)); [discriminate|].
  destruct (_ && _); inv E; [now left|]. right. eauto.
Qed.
(** What a call did, seen from connection [oid]. *)
Definition went (oid : nat) (R : option iocon -> list event -> option iocon -> Prop) (m m' : mgr) : Prop :=
  match lock oid m with
  | Some c => exists ev, R (Some c) ev (lock oid m') /\ about oid (m_log m') = about oid (m_log m) ++ ev
  | None => untouched oid m m'
  end.
Section Inner.
Context {S : Type} (L : dlisteners S) (inner : list (sel_round dgram) -> sel_end -> tick_env -> st (view S) unit) (oid : nat).
Definition good (calls : list (ncall S)) : Prop :=
  leaves oid calls /\ forall rounds ending env, In (NHandle rounds ending env) calls -> byte_grams (CHandle (S := S) rounds ending env).
Context (IH : forall rounds ending env g m s g' m' s', mgr_inv g m -> (oid < g_oid g)%nat ->
  byte_grams (CHandle (S := S) rounds ending env) -> inner rounds ending env (g, m, s) = (Ok tt, (g', m', s')) ->
  mgr_inv g' m' /\ (g_oid g <= g_oid g')%nat /\ exists n, went oid (whole L oid n rounds env) m m').
Lemma does_went calls : good calls -> forall g m s g' m' s', mgr_inv g m -> (oid < g_oid g)%nat ->
  dreact strict inner calls (g, m, s) = (Ok tt, (g', m', s')) ->
  mgr_inv g' m' /\ (g_oid g <= g_oid g')%nat /\ went oid (does L oid calls) m m'.
Proof.
  induction calls as [|[op|rounds ending env] r IHr]; intros [Gl Gb] g m s g' m' s' I O E; cbn [dreact] in E.
  - unfold st_ret in E. inv E. split; [assumption|]. split; [lia|]. unfold went. destruct (lock oid m') eqn:Q; [|apply untouched_refl].
    exists []. rewrite app_nil_r. split; [constructor|reflexivity].
  - assert (Gr : good r).
    { split; [intros u si J; apply (Gl u si); now right|]. intros a b d J. apply (Gb a b d). now right. }
    unfold st_bind in E. destruct (do_call strict op (g, m, s)) as [[x|?|?|] [[g1 m1] s1]] eqn:D; try discriminate.
    pose proof (do_inv _ _ _ _ _ _ _ _ _ I D) as [I1 G1]. destruct (IHr Gr _ _ _ _ _ _ I1 ltac:(lia) E) as (I2 & G2 & W).
    split; [assumption|]. split; [lia|]. unfold went in *. destruct (lock oid m) as [c|] eqn:Q.
    + assert (N : forall use8 si, op <> LClose use8 si oid) by (intros u si ->; apply (Gl u si); now left).
      destruct (call_keeps _ _ _ _ _ _ _ _ _ _ _ I Q N D) as (_ & Lg & _).
      assert (C : (exists d, op = LData oid d) \/ forall d, op <> LData oid d).
      { destruct op as [| |p d|]; try (right; intros; discriminate). destruct (Nat.eq_dec p oid) as [->|]; [left; eauto|right; congruence]. }
      destruct C as [[d ->]|C].
      * assert (L1 : lock oid m1 = Some (io_set_output c d)).
        { cbn [do_call call_mgr] in D. inv D. rewrite (data_lock oid oid d m c Q). now rewrite Nat.eqb_refl. }
        rewrite L1 in W. destruct W as (ev & W & A). exists ev. split; [now constructor|]. congruence.
      * assert (L1 : lock oid m1 = Some c).
        { clear - I Q N C D. destruct op as [use8 si host env large cp|use8 si p|p d|e]; cbn [do_call call_mgr] in D.
          - destruct (open_keeps _ use8 si host env large cp g m s oid c _ _ _ _ I Q D) as [A B]. congruence.
          - destruct (forward_close _ use8 si (lock p m) (m, s)) as [o1 [m2 s2]] eqn:F. inv D.
            assert (Np : p <> oid) by (intros ->; eapply N; reflexivity).
            destruct (close_keeps _ use8 si g1 m s oid p c _ _ _ I Q Np F) as [A B]. congruence.
          - inv D. rewrite (data_lock oid p d m c Q). destruct (Nat.eqb_spec p oid); [|reflexivity]. subst. exfalso. eapply C; reflexivity.
          - discriminate. }
        rewrite L1 in W. destruct W as (ev & W & A). exists ev. split; [now apply ds_plain|]. congruence.
    + destruct (do_dead _ _ _ _ _ oid _ _ _ _ I Q O D) as [U1 U2]. rewrite Q in U1. rewrite U1 in W. destruct W as [V1 V2].
      split; congruence.
  - assert (Gr : good r).
    { split; [intros u si J; apply (Gl u si); now right|]. intros a b d J. apply (Gb a b d). now right. }
    unfold st_bind in E. destruct (inner rounds ending env (g, m, s)) as [[[]|?|?|] [[g1 m1] s1]] eqn:D; try discriminate.
    destruct (IH _ _ _ _ _ _ _ _ _ I O (Gb _ _ _ (or_introl eq_refl)) D) as (I1 & G1 & n & W1).
    destruct (IHr Gr _ _ _ _ _ _ I1 ltac:(lia) E) as (I2 & G2 & W).
    split; [assumption|]. split; [lia|]. unfold went in *. destruct (lock oid m) as [c|] eqn:Q.
    + destruct W1 as (ev1 & W1 & A1). destruct (lock oid m1) as [c1|] eqn:Q1.
      * destruct W as (ev2 & W2 & A2). exists (ev1 ++ ev2). split; [econstructor; eassumption|]. rewrite A2, A1. symmetry. apply app_assoc.
      * destruct W as [V1 V2]. rewrite Q1 in V1. exists (ev1 ++ []). split; [econstructor; [eassumption|]; rewrite V1; constructor|].
        rewrite app_nil_r. congruence.
    + destruct W1 as [U1 U2]. rewrite Q in U1. rewrite U1 in W. destruct W as [V1 V2]. split; congruence.
Qed.
Context (Dg : forall w p hdr seq d, good (dl_data L w p hdr seq d)).
Fixpoint dseq (ds : list dgram) (w : view S) : outcome unit * view S :=
  match ds with
  | [] => (Ok tt, w)
  | d :: r => match dhear strict L inner d w with (Ok _, w') => dseq r w' | (o, w') => (o, w') end
  end.
Lemma hears_went ds : forall g m s g' m' s', mgr_inv g m -> (oid < g_oid g)%nat -> Forall gram_ok ds ->
  dseq ds (g, m, s) = (Ok tt, (g', m', s')) ->
  mgr_inv g' m' /\ (g_oid g <= g_oid g')%nat /\ went oid (hears L oid ds) m m'.
Proof.
  induction ds as [|d r IHr]; intros g m s g' m' s' I O F E; cbn [dseq] in E.
  { inv E. split; [assumption|]. split; [lia|]. unfold went. destruct (lock oid m') eqn:Q; [|apply untouched_refl].
    exists []. rewrite app_nil_r. split; [constructor|reflexivity]. }
  apply Forall_cons_iff in F as [F1 F].
  destruct (dhear strict L inner d (g, m, s)) as [[[]|?|?|] [[g1 m1] s1]] eqn:H; [|discriminate..].
  unfold dhear in H. destruct (on_readable strict d m) as [o2 m2] eqn:R.
  assert (o2 = Ok tt) as ->. { destruct o2 as [[]|?|?|]; [reflexivity|discriminate..]. }
  pose proof (readable_quiet g strict d m m I (quiet_refl m)) as (Qs & _). rewrite R in Qs. cbn [snd] in Qs. pose proof (statics_inv g m m2 I Qs) as I2.
  assert (J : exists calls, good calls /\ dreact strict inner calls (g, m2, s) = (Ok tt, (g1, m1, s1))
     /\ match skipn (List.length (m_log m)) (m_log m2) with
        | [EvData p hdr sq dt] => calls = dl_data L (g, m2, s) p hdr sq dt
        | _ => calls = []
        end).
  { destruct (skipn _ _) as [|[p hdr sq dt|p|p e dt] [|? ?]]; [exists []|exists (dl_data L (g, m2, s) p hdr sq dt)|exists []..];
      (split; [first [apply Dg|split; [intros u si []|intros a b q []]]|split; [exact H|reflexivity]]). }
  destruct J as (calls & Gc & Rc & Cl). destruct (does_went calls Gc _ _ _ _ _ _ I2 O Rc) as (I1 & G1 & W1).
  destruct (IHr _ _ _ _ _ _ I1 ltac:(lia) F E) as (I3 & G3 & W). split; [assumption|]. split; [lia|].
  unfold went in *. destruct (lock oid m) as [c|] eqn:Q.
  - destruct (readable_exact g m oid c d m2 I Q F1 R) as (l & ev0 & -> & Lg & X).
    rewrite Lg, skipn_app, skipn_all, Nat.sub_diag in Cl. cbn [skipn app] in Cl.
    destruct X as [(dt & c' & Br & Rv & L2)|(Nb & [U1 U2] & Fe)].
    + rewrite L2 in W1. destruct W1 as (ev1 & W1 & A1). rewrite Lg in A1.
      assert (Eo : io_oid c = oid) by (apply lock_in in Q; tauto).
      destruct (receive_events _ _ _ _ Rv) as [->|(hdr & sq & data & ->)]; rewrite ?Eo in *.
      * subst calls. inversion W1; subst. rewrite app_nil_r in A1. rewrite app_nil_r in A1.
        match goal with Q1 : Some c' = lock oid m1 |- _ => rewrite <- Q1 in W end.
        destruct W as (ev2 & W2 & A2). exists ev2. split; [eapply hr_misfit; eassumption|]. congruence.
      * subst calls. rewrite about_app in A1. rewrite (about_all oid [EvData oid hdr sq data]) in A1 by (repeat constructor).
        destruct (lock oid m1) as [c1|] eqn:Q1.
        -- destruct W as (ev2 & W2 & A2). exists (EvData oid hdr sq data :: ev1 ++ ev2). split; [eapply hr_mine; eassumption|].
           rewrite A2, A1, <- !app_assoc. reflexivity.
        -- destruct W as [V1 V2]. rewrite Q1 in V1. exists (EvData oid hdr sq data :: ev1 ++ []). rewrite V1.
           split; [eapply hr_mine; try eassumption; constructor|]. rewrite V2, A1, <- !app_assoc, app_nil_r. reflexivity.
    + rewrite Q in U1. rewrite U1 in W1. destruct W1 as (ev1 & W1 & A1). rewrite U2 in A1.
      assert (Y : (exists p hdr sq dt, calls = dl_data L (g, m2, s) p hdr sq dt /\ p <> oid) \/ calls = []).
      { destruct ev0 as [|[p hdr sq dt|p|p e dt] [|? ?]]; try (right; assumption). left. exists p, hdr, sq, dt. split; [assumption|].
        now apply Forall_cons_iff in Fe as [Fe _]. }
      destruct Y as [(p & hdr & sq & dt & -> & Np)| ->].
      * destruct (lock oid m1) as [c1|] eqn:Q1.
        -- destruct W as (ev2 & W2 & A2). exists (ev1 ++ ev2). split; [eapply hr_other; eassumption|]. rewrite A2, A1. symmetry. apply app_assoc.
        -- destruct W as [V1 V2]. rewrite Q1 in V1. exists (ev1 ++ []). rewrite V1.
           split; [eapply hr_other; try eassumption; constructor|]. rewrite V2, A1, app_nil_r. reflexivity.
      * inversion W1; subst. rewrite app_nil_r in A1.
        match goal with Q1 : Some c = lock oid m1 |- _ => rewrite <- Q1 in W end.
        destruct W as (ev2 & W2 & A2). exists ev2. split; [now apply hr_nobody|]. congruence.
  - pose proof (readable_dead g m oid d I Q) as U. rewrite R in U. cbn [snd] in U. destruct U as [U1 U2]. rewrite Q in U1.
    rewrite U1 in W1. destruct W1 as [V1 V2]. rewrite U1 in V1. rewrite V1 in W. destruct W as [X1 X2]. split; congruence.
Qed.
End Inner.

(** ** A whole call *)
Section Seq.
Context {S : Type} (h : heap) (L : dlisteners S) (inner : list (sel_round dgram) -> sel_end -> tick_env -> st (view S) unit).
Fixpoint hseq (ds : list dgram) (w : view S) : outcome unit * view S :=
  match ds with
  | [] => (Ok tt, w)
  | d :: r => match dhear h L inner d w with (Ok _, w') => hseq r w' | (o, w') => (o, w') end
  end.
Lemma hseq_app a : forall b w, hseq (a ++ b) w
  = match hseq a w with (Ok _, w') => hseq b w' | (o, w') => (o, w') end.
Proof.
  induction a as [|d a IH]; intros b w; cbn [app hseq]; [reflexivity|].
  destruct (dhear h L inner d w) as [[[]|?|?|] w']; try reflexivity. apply IH.
Qed.
Lemma hseq_dispatch ready : forall i n w, dispatch (fun _ => dhear h L inner) i n ready w = hseq (present (firstn n ready)) w.
Proof.
  unfold present. induction ready as [|[d|] r IH]; intros i n w; destruct n; cbn [dispatch firstn flat_map app]; try reflexivity.
  - cbn [hseq]. unfold st_bind. destruct (dhear h L inner d w) as [[[]|?|?|] w']; try reflexivity. apply IH.
  - apply IH.
Qed.
Lemma hseq_select n rounds ending w : n <> 0%nat ->
  bs_select (fun _ : nat => dhear h L inner) n rounds ending w
  = match hseq (arriving n rounds) w with
    | (Ok _, w') => (match ending with SelQuiet => Ok tt | SelFail e => Throw (SystemError e) end, w')
    | (o, w') => (o, w')
    end.
Proof.
  intros N. unfold bs_select. destruct n as [|n]; [contradiction|]. clear N. revert w.
  unfold arriving. induction rounds as [|r rs IH]; intros w; cbn [select_rounds flat_map].
  - destruct ending; reflexivity.
  - unfold st_bind. rewrite hseq_dispatch, hseq_app. unfold present.
    destruct (hseq _ w) as [[[]|?|?|] w']; try reflexivity. apply IH.
Qed.
End Seq.
Lemma dseq_hseq {S} (L : dlisteners S) inner ds : forall w, dseq L inner ds w = hseq strict L inner ds w.
Proof.
  induction ds as [|d r IH]; intros w; cbn [dseq hseq]; [reflexivity|]. destruct (dhear strict L inner d w) as [[[]|?|?|] w']; auto.
Qed.
Lemma good_data {S} (L : dlisteners S) oid : dspares L oid -> octets L -> forall w p hdr seq d, good oid (dl_data L w p hdr seq d).
Proof. intros D O w p hdr sq d. split; [exact (proj1 (D w p hdr sq d))|]. intros r e v. apply O. Qed.
Theorem deep_went {S} (L : dlisteners S) oid : calm L -> dspares L oid -> octets L ->
  forall n rounds ending env g m s g' m' s', mgr_inv g m -> (oid < g_oid g)%nat ->
  byte_grams (CHandle (S := S) rounds ending env) -> deep strict L n rounds ending env (g, m, s) = (Ok tt, (g', m', s')) ->
  mgr_inv g' m' /\ (g_oid g <= g_oid g')%nat /\ went oid (whole L oid (List.length (m_socks m)) rounds env) m m'.
Proof.
  intros C D Oc. induction n as [|n IH]; intros rounds ending env g m s g' m' s' I O B E; cbn [deep] in E; [discriminate|].
  unfold dhandle in E. unfold st_bind in E. cbn [fst snd] in E.
  destruct (List.length (m_socks m)) as [|k] eqn:Ln. { unfold bs_select in E. cbv beta iota in E. discriminate. }
  rewrite hseq_select in E by lia. rewrite <- dseq_hseq in E.
  destruct (dseq _ _ _ (g, m, s)) as [[[]|?|?|] [[g1 m1] s1]] eqn:H; [|discriminate..].
  destruct ending; [|discriminate].
  assert (IH' : forall rounds ending env g m s g' m' s', mgr_inv g m -> (oid < g_oid g)%nat ->
    byte_grams (CHandle (S := S) rounds ending env) -> deep strict L n rounds ending env (g, m, s) = (Ok tt, (g', m', s')) ->
    mgr_inv g' m' /\ (g_oid g <= g_oid g')%nat /\ exists n, went oid (whole L oid n rounds env) m m').
  { intros ? ? ? ? ? ? ? ? ? J1 J2 J3 J4. destruct (IH _ _ _ _ _ _ _ _ _ J1 J2 J3 J4) as (K1 & K2 & K3). eauto. }
  destruct (hears_went L _ oid IH' (good_data L oid D Oc) _ _ _ _ _ _ _ I O (arriving_ok (S := S) _ rounds SelQuiet env B) H) as (I1 & G1 & W).
  rewrite ticks_same in E by assumption.
  pose proof (ticks_inv strict (plain_of L) env _ _ _ _ _ _ _ I1 E) as I2. pose proof (ticks_oid strict (plain_of L) env _ _ _ _ _ _ I1 E) as G2.
  split; [assumption|]. split; [lia|]. unfold went in *. destruct (lock oid m) as [c|] eqn:Q.
  - destruct W as (ev & W & A). destruct (lock oid m1) as [c1|] eqn:Q1.
    + destruct (ticks_once strict (plain_of L) env g1 m1 s1 oid c1 _ _ _ I1 (strip_spares L oid D) Q1 E) as (d1 & d2 & b & c2 & ev2 & Tk & A2 & X).
      exists (ev ++ ev2). split; [|rewrite A2, A; symmetry; apply app_assoc].
      destruct b.
      * destruct X as [d3 X]. rewrite X. exact (wh_tick L oid _ _ _ _ _ _ _ _ d3 true _ _ W Tk).
      * rewrite X. exact (wh_tick L oid _ _ _ _ _ _ _ _ [] false _ _ W Tk).
    + destruct (ticks_dead strict (plain_of L) env oid _ _ _ _ _ _ I1 Q1 ltac:(lia) E) as [[U1 U2] _]. rewrite Q1 in U1. rewrite U1.
      exists ev. split; [now constructor|]. congruence.
  - destruct W as [U1 U2]. rewrite Q in U1. destruct (ticks_dead strict (plain_of L) env oid _ _ _ _ _ _ I1 U1 ltac:(lia) E) as [[V1 V2] _].
    split; congruence.
Qed.

(** ** How calls end *)
Definition live (g : globals) (m : mgr) : Prop := mgr_inv g m /\ m_socks m <> [].
Lemma do_live {S} h (op : lcall S) g m s o g' m' s' : live g m -> do_call h op (g, m, s) = (o, (g', m', s')) -> live g' m'.
Proof.
  intros [I N] E. split; [exact (proj1 (do_inv _ _ _ _ _ _ _ _ _ I E))|].
  destruct op as [use8 si host env large cp|use8 si p|p d|e]; [exact (socks_grow _ _ _ _ _ _ _ _ _ E N)..|]. cbn [do_call] in E. now inv E.
Qed.
Lemma react_live {S} h (calls : list (lcall S)) : forall g m s o g' m' s', live g m -> react h calls (g, m, s) = (o, (g', m', s')) -> live g' m'.
Proof.
  induction calls as [|c r IH]; intros g m s o g' m' s' I E; cbn [react] in E; [unfold st_ret in E; now inv E|].
  unfold st_bind in E. destruct (do_call h c (g, m, s)) as [o1 [[g1 m1] s1]] eqn:D. pose proof (do_live _ _ _ _ _ _ _ _ _ I D) as I1.
  destruct o1; [eapply IH; eassumption|now inv E..].
Qed.
Lemma react_fails {S} h (calls : list (lcall S)) : forall w o w', react h calls w = (o, w') -> o <> Ok tt ->
  exists op v x v', In op calls /\ do_call h op v = (x, v') /\ o = omap (fun _ => tt) x.
Proof.
  induction calls as [|c r IH]; intros w o w' E N; cbn [react] in E; [unfold st_ret in E; inv E; now destruct N|].
  unfold st_bind in E. destruct (do_call h c w) as [x v] eqn:D.
  assert (X : forall y, x = y -> o = omap (fun _ => tt) y -> exists op v x v', In op (c :: r) /\ do_call h op v = (x, v') /\ o = omap (fun _ => tt) x).
  { intros y <- Q. exists c, w, x, v. split; [now left|]. split; assumption. }
  destruct x; [|inv E; eapply X; reflexivity..].
  destruct (IH _ _ _ E N) as (op & v1 & x1 & v2 & J & K). exists op, v1, x1, v2. split; [now right|assumption].
Qed.
Section Socks.
Context {S : Type} (h : heap) (L : listeners S) (env : tick_env).
Lemma entry_socks g m s k c o g' m' s' : m_socks m <> [] -> mgr_inv g m -> map_find k (m_map m) = Some c ->
  tick_entry h L env k c (g, m, s) = (o, (g', m', s')) -> m_socks m' <> [].
Proof.
  intros N I F E. unfold tick_entry in E.
  pose proof (begin_static (t_now env (io_oid c)) c) as St. destruct (tick_begin _ c) as [[] c1]; cbn [snd] in St.
  - assert (I1 : live g (add_log (set_map m (map_update k c1 (m_map m))) [EvClosed (io_oid c)])).
    { split; [|exact N]. destruct (inv_update g m k c c1 I F (static_oid _ _ St) (static_t2o _ _ St)). now constructor. }
    match type of E with st_bind (react h ?cs) ?kk ?w = _ => destruct (react_case h cs kk w) as [([[g2 m2] s2] & R & E1)|(o1 & o2 & [[g2 m2] s2] & R & _ & E1 & _)] end; rewrite E1 in E;
      apply (react_live _ _ _ _ _ _ _ _ _ I1) in R as [_ R]; now inv E.
  - assert (I1 : live g (set_map m (map_update k c1 (m_map m)))).
    { split; [|exact N]. exact (inv_update g m k c c1 I F (static_oid _ _ St) (static_t2o _ _ St)). }
    match type of E with st_bind (react h ?cs) ?kk ?w = _ => destruct (react_case h cs kk w) as [([[g2 m2] s2] & R & E1)|(o1 & o2 & [[g2 m2] s2] & R & _ & E1 & _)] end; rewrite E1 in E;
      apply (react_live _ _ _ _ _ _ _ _ _ I1) in R as [_ R]; [|now inv E].
    destruct (still k (io_oid c) m2) as [c2|]; [|now inv E]. destruct (tick_send _ c2) as [o3 ev]. now inv E.
  - now inv E.
Qed.
Lemma loop_socks n : forall k g m s o g' m' s', m_socks m <> [] -> mgr_inv g m ->
  tick_loop h L env n k (g, m, s) = (o, (g', m', s')) -> m_socks m' <> [].
Proof.
  induction n as [|n IH]; intros k g m s o g' m' s' N I E; cbn [tick_loop] in E; [unfold st_ret in E; now inv E|].
  cbn [fst snd] in E. destruct (find _ (m_map m)) as [[k1 c1]|] eqn:F; [|now inv E].
  destruct (find_ge k _ k1 c1 (mi_sorted g m I) F) as (_ & G & _). unfold st_bind in E.
  destruct (tick_entry h L env k1 c1 (g, m, s)) as [o1 [[g1 m1] s1]] eqn:T.
  pose proof (entry_inv h L env _ _ _ _ _ _ _ _ _ I G T) as I1. pose proof (entry_socks _ _ _ _ _ _ _ _ _ N I G T) as N1.
  destruct o1; [|now inv E..]. destruct (tick_loop h L env n (k1 + 1) (g1, m1, s1)) as [o2 [[g2 m2] s2]] eqn:T2.
  pose proof (IH _ _ _ _ _ _ _ _ N1 I1 T2). destruct o2; now inv E.
Qed.
Lemma with_socks n g m s o g' m' s' : m_socks m <> [] -> mgr_inv g m -> ticks_with h L env n (g, m, s) = (o, (g', m', s')) -> m_socks m' <> [].
Proof.
  intros N I E. unfold ticks_with, st_bind in E. destruct (tick_loop _ _ _ _ _ _) as [o1 [[g1 m1] s1]] eqn:T.
  pose proof (loop_socks _ _ _ _ _ _ _ _ _ N I T). destruct o1; now inv E.
Qed.
Lemma ticks_live g m s o g' m' s' : live g m -> listen_ticks h L env (g, m, s) = (o, (g', m', s')) -> live g' m'.
Proof.
  intros [I N] E. split; [exact (ticks_inv _ _ _ _ _ _ _ _ _ _ I E)|]. destruct a_fuel as [n F]. rewrite (listen_with h L env n F) in E.
  eapply with_socks; eassumption.
Qed.
End Socks.
Section Fails.
Context {S : Type} (h : heap) (L : dlisteners S) (n : nat) (C : calm L) (P : dpolite L).
Context (IH : forall rounds ending env g m s o g' m' s', live g m -> deep h L n rounds ending env (g, m, s) = (o, (g', m', s')) ->
  live g' m' /\ (o <> Ok tt -> fails h L n rounds ending env o)).
Lemma calls_fail v p hdr seq d rounds ending env calls : incl calls (dl_data L v p hdr seq d) -> forall g m s o g' m' s', live g m ->
  dreact h (deep h L n) calls (g, m, s) = (o, (g', m', s')) ->
  live g' m' /\ (o <> Ok tt -> fails h L (Datatypes.S n) rounds ending env o).
Proof.
  induction calls as [|[op|r1 e1 v1] r IHr]; intros Ic g m s o g' m' s' I E; cbn [dreact] in E.
  - unfold st_ret in E. inv E. split; [assumption|]. intros N. now destruct N.
  - apply incl_cons_inv in Ic as [J Ic]. unfold st_bind in E. destruct (do_call h op (g, m, s)) as [x [[g1 m1] s1]] eqn:D.
    pose proof (do_live _ _ _ _ _ _ _ _ _ I D) as I1.
    pose proof (fl_call h L n rounds ending env op v p hdr seq d _ _ _ (or_introl J) D) as X.
    destruct x; [eapply IHr; eassumption|inv E; split; [assumption|intros _; exact X]..].
  - apply incl_cons_inv in Ic as [J Ic]. unfold st_bind in E. destruct (deep h L n r1 e1 v1 (g, m, s)) as [x [[g1 m1] s1]] eqn:D.
    destruct (IH _ _ _ _ _ _ _ _ _ _ I D) as [I1 X].
    destruct x as [[]|?|?|]; [eapply IHr; eassumption|inv E; split; [assumption|intros N; eapply fl_inner; [exact J|apply X; discriminate]]..].
Qed.
Lemma seq_fail rounds ending env k ds : incl ds (arriving k rounds) -> forall g m s o g' m' s', live g m ->
  hseq h L (deep h L n) ds (g, m, s) = (o, (g', m', s')) -> live g' m' /\ (o <> Ok tt -> fails h L (Datatypes.S n) rounds ending env o).
Proof.
  induction ds as [|d r IHr]; intros Ic g m s o g' m' s' I E; cbn [hseq] in E.
  { inv E. split; [assumption|]. intros N. now destruct N. }
  apply incl_cons_inv in Ic as [J Ic]. destruct (dhear h L (deep h L n) d (g, m, s)) as [o1 [[g1 m1] s1]] eqn:H.
  assert (X : live g1 m1 /\ (o1 <> Ok tt -> fails h L (Datatypes.S n) rounds ending env o1)).
  { clear E IHr Ic. unfold dhear in H. pose proof (fl_gram h L n rounds ending env k d m J) as Fg.
    destruct I as [I Ns]. pose proof (readable_quiet g h d m m I (quiet_refl m)) as (Qs & Qk & _).
    destruct (on_readable h d m) as [o2 m2]. cbn [fst snd] in *. assert (I2 : live g m2).
    { split; [eapply statics_inv; eassumption|]. congruence. }
    assert (Y : (o2, (g, m2, s)) = (o1, (g1, m1, s1)) -> live g1 m1 /\ (o1 <> Ok tt -> fails h L (Datatypes.S n) rounds ending env o1)).
    { intros Y. inv Y. split; [assumption|]. intros _. exact Fg. }
    destruct o2 as [[]|?|?|]; try exact (Y H). destruct (skipn _ _) as [|[p hdr sq dt|p|p e dt] [|? ?]]; try exact (Y H).
    exact (calls_fail _ _ _ _ _ rounds ending env _ (incl_refl _) _ _ _ _ _ _ _ I2 H). }
  destruct X as [I1 X]. destruct o1 as [[]|?|?|]; [eapply IHr; eassumption|inv E; split; [assumption|apply X]..].
Qed.
End Fails.
Theorem deep_fails {S} h (L : dlisteners S) n : calm L -> dpolite L -> forall rounds ending env g m s o g' m' s', live g m ->
  deep h L n rounds ending env (g, m, s) = (o, (g', m', s')) -> live g' m' /\ (o <> Ok tt -> fails h L n rounds ending env o).
Proof.
  intros C P. induction n as [|n IH]; intros rounds ending env g m s o g' m' s' I E; cbn [deep] in E.
  { inv E. split; [assumption|]. intros _. constructor. }
  unfold dhandle in E. unfold st_bind in E. cbn [fst snd] in E.
  destruct (List.length (m_socks m)) as [|k] eqn:Ln. { destruct I as [_ I]. now destruct (m_socks m). }
  rewrite hseq_select in E by lia. destruct (hseq _ _ _ _ (g, m, s)) as [o1 [[g1 m1] s1]] eqn:H.
  destruct (seq_fail h L n IH rounds ending env _ _ (incl_refl _) _ _ _ _ _ _ _ I H) as [I1 X].
  destruct o1 as [[]|?|?|]; [|inv E; split; [assumption|apply X]..].
  destruct ending as [|e]; [|inv E; split; [assumption|intros _; constructor]].
  rewrite ticks_same in E by (apply C || apply I1). pose proof (ticks_live h (plain_of L) env _ _ _ _ _ _ _ I1 E) as I2.
  split; [assumption|]. intros N. destruct (ticks_ends h (plain_of L) env _ _ _ _ _ (strip_polite L P) (proj1 I1) E N) as [Y|(oid & j & ->)].
  - destruct Y as (v & p & w' & [Y|[(d & Y)|(hdr & sq & d & Y)]]); apply react_fails in Y; try assumption;
      destruct Y as (op & v1 & x & v2 & J & D & ->); cbn [plain_of l_close l_send l_data] in J; apply in_strip in J.
    + eapply (fl_call h L n rounds SelQuiet env op v p 0 0 []); [right; left; exact J|exact D].
    + eapply (fl_call h L n rounds SelQuiet env op v p 0 0 d); [right; right; exact J|exact D].
    + eapply (fl_call h L n rounds SelQuiet env op v p hdr sq d); [left; exact J|exact D].
  - constructor.
Qed.

(** ** Witnesses *)
Definition dticks_with {S} h (L : dlisteners S) inner env (n : nat) : st (view S) unit :=
  st_bind (dtick_loop h L inner env n 0) (fun ks '(g, m, s) =>
    (Ok tt, (g, set_map m (fold_left (fun l k => map_erase k l) ks (m_map m)), s))).
Fixpoint deep_with {S} (h : heap) (L : dlisteners S) (f n : nat) (rounds : list (sel_round dgram)) (ending : sel_end) (env : tick_env)
  : st (view S) unit :=
  match n with
  | O => fun w => (Abort, w)
  | Datatypes.S n' => fun w =>
    st_bind (bs_select (fun _ => dhear h L (deep_with h L f n')) (List.length (m_socks (snd (fst w)))) rounds ending)
            (fun _ => dticks_with h L (deep_with h L f n') env f) w
  end.
Lemma deep_with_is {S} h (L : dlisteners S) f n : Z.of_nat f = 65536 -> deep_with h L f n = deep h L n.
Proof.
  intros E. assert (F : Z.to_nat 65536 = f) by (rewrite <- E; apply Nat2Z.id). clear E.
  induction n as [|n IH]; [reflexivity|]. cbn [deep_with deep]. rewrite IH. unfold dhandle, dticks, dticks_with. rewrite F. reflexivity.
Qed.
Lemma deep_fuel {S} h (L : dlisteners S) : exists f, forall n, deep h L n = deep_with h L (Datatypes.S (Datatypes.S (Datatypes.S f))) n.
Proof.
  destruct a_fuel as [k F]. assert (K : exists n, k = Datatypes.S (Datatypes.S (Datatypes.S n))).
  { destruct k as [|[|[|n]]]; [lia..|eauto]. }
  destruct K as [f ->]. exists f. intros n. now rewrite deep_with_is.
Qed.
Definition once_in (m : mgr) (oid : nat) : bool := Nat.ltb (List.length (filter (fun e => match e with EvClosed o => Nat.eqb o oid | _ => false end) (m_log m))) 2.
(** the close listener calls handleConnections, the first time it is called *)
Definition drainer : dlisteners (list encaps) :=
  mkDl (fun _ _ _ _ _ => []) (fun '(_, m, _) oid => if once_in m oid then [NHandle [] SelQuiet (at_ms 70)] else []) (fun _ _ _ => []).
Lemma drainer_dangles : exists w, deep strict drainer 2 [] SelQuiet (at_ms 70) (w_g after1, w_m after1 0%nat, w_s after1) = (Undef UbDangling, w).
Proof. destruct (deep_fuel strict drainer) as [f F]. rewrite F. eexists. vm_compute. reflexivity. Qed.
(** the send listener calls handleConnections once, a while later *)
Definition poller : dlisteners (list encaps) :=
  mkDl (fun _ _ _ _ _ => []) (fun _ _ => [])
       (fun _ oid d => match d with [] => [NPlain (LData oid [1]); NHandle [] SelQuiet (at_ms 30)] | _ => [] end).
Definition drainer1 : dlisteners (list encaps) :=
  mkDl (fun _ _ _ _ _ => []) (fun _ _ => []) (fun _ oid _ => match oid with 1%nat => [NHandle [] SelQuiet (at_ms 70)] | _ => [] end).
(** a receive listener that waits for more *)
Definition waiter : dlisteners (list encaps) :=
  mkDl (fun _ _ _ _ d => match d with [9] => [NHandle [mkRound [Some (Dgram (gram 0x10007 [2; 0; 8]))] 0] SelQuiet (at_ms 10)] | _ => [] end)
       (fun _ _ => []) (fun _ _ _ => []).
Lemma poller_runs : exists g' m' s', deep strict poller 2 [] SelQuiet (at_ms 20) (w_g after1, w_m after1 0%nat, w_s after1) = (Ok tt, (g', m', s'))
  /\ about 0 (m_log m') = [EvSent 0 (io_dest con1) (io_packet (spec_of con1) 2 [1]); EvSent 0 (io_dest con1) (io_packet (spec_of con1) 1 [1])].
Proof.
  destruct (deep_fuel strict poller) as [f F]. rewrite F. do 3 eexists. split; [vm_compute; reflexivity|]. vm_compute. reflexivity.
Qed.
Lemma drainer1_runs : exists g' m' s', deep strict drainer1 2 [] SelQuiet (at_ms 70) (w_g after12, w_m after12 0%nat, w_s after12) = (Ok tt, (g', m', s'))
  /\ about 0 (m_log m') = [EvClosed 0; EvClosed 0].
Proof.
  destruct (deep_fuel strict drainer1) as [f F]. rewrite F. do 3 eexists. split; [vm_compute; reflexivity|]. vm_compute. reflexivity.
Qed.
Lemma waiter_runs : exists g' m' s',
  deep strict waiter 2 [mkRound [Some (Dgram (gram 0x10007 [1; 0; 9]))] 0] SelQuiet (at_ms 20) (w_g after1, w_m after1 0%nat, w_s after1) = (Ok tt, (g', m', s'))
  /\ about 0 (m_log m') = [EvData 0 0 1 [9]; EvData 0 0 2 [8];
                           EvSent 0 (io_dest con1) (io_packet (spec_of con1) 1 []); EvSent 0 (io_dest con1) (io_packet (spec_of con1) 2 [])].
Proof.
  destruct (deep_fuel strict waiter) as [f F]. rewrite F. do 3 eexists. split; [vm_compute; reflexivity|]. vm_compute. reflexivity.
Qed.
Lemma waiter_ok oid : calm waiter /\ dpolite waiter /\ dspares waiter oid /\ octets waiter.
Proof.
  assert (D : forall w p hdr seq d c, In c (dl_data waiter w p hdr seq d) ->
    c = NHandle [mkRound [Some (Dgram (gram 0x10007 [2; 0; 8]))] 0] SelQuiet (at_ms 10)).
  { intros w p hdr sq d c J. cbn [waiter dl_data] in J.
    repeat match type of J with In _ (match ?x with _ => _ end) => destruct x; try contradiction end. destruct J as [J|[]]. congruence. }
  split; [intros w p d; split; intros ? ? ? []|]. split; [intros w p d; split; intros ? ? []|]. split.
  - intros w p hdr sq d. split; [|split; intros ? ? []]. intros u si J. apply D in J. discriminate.
  - intros w p hdr sq d r e v J. apply D in J. inv J. constructor; [|constructor]. constructor; [|constructor]. cbv beta iota.
    vm_compute. repeat (constructor; [split; [discriminate|reflexivity]|]). constructor.
Qed.
(** the same without room for the inner call *)
Lemma waiter_stack : exists w, deep strict waiter 1 [mkRound [Some (Dgram (gram 0x10007 [1; 0; 9]))] 0] SelQuiet (at_ms 20)
  (w_g after1, w_m after1 0%nat, w_s after1) = (Abort, w).
Proof. destruct (deep_fuel strict waiter) as [f F]. rewrite F. eexists. vm_compute. reflexivity. Qed.

(** ** Managers after nested calls *)
Definition later (g : globals) (w : mgr) (g' : globals) : Prop := mgr_inv g' w /\ (g_oid g <= g_oid g')%nat.
Section Later.
Context {S : Type} (h : heap) (L : dlisteners S) (inner : list (sel_round dgram) -> sel_end -> tick_env -> st (view S) unit).
Context (IH : forall rounds ending env g m s o g' m' s', mgr_inv g m -> inner rounds ending env (g, m, s) = (o, (g', m', s')) -> later g m' g').
Lemma react_later calls : forall g m s o g' m' s', mgr_inv g m -> dreact h inner calls (g, m, s) = (o, (g', m', s')) -> later g m' g'.
Proof.
  induction calls as [|[op|r1 e1 v1] r IHr]; intros g m s o g' m' s' I E; cbn [dreact] in E.
  - unfold st_ret in E. inv E. split; [assumption|lia].
  - unfold st_bind in E. destruct (do_call h op (g, m, s)) as [x [[g1 m1] s1]] eqn:D. destruct (do_inv _ _ _ _ _ _ _ _ _ I D) as [I1 G1].
    destruct x; [|inv E; split; assumption..]. destruct (IHr _ _ _ _ _ _ _ I1 E) as [I2 G2]. split; [assumption|lia].
  - unfold st_bind in E. destruct (inner r1 e1 v1 (g, m, s)) as [x [[g1 m1] s1]] eqn:D. destruct (IH _ _ _ _ _ _ _ _ _ _ I D) as [I1 G1].
    destruct x; [|inv E; split; assumption..]. destruct (IHr _ _ _ _ _ _ _ I1 E) as [I2 G2]. split; [assumption|lia].
Qed.
Lemma seq_later ds : forall g m s o g' m' s', mgr_inv g m -> hseq h L inner ds (g, m, s) = (o, (g', m', s')) -> later g m' g'.
Proof.
  induction ds as [|d r IHr]; intros g m s o g' m' s' I E; cbn [hseq] in E; [inv E; split; [assumption|lia]|].
  destruct (dhear h L inner d (g, m, s)) as [o1 [[g1 m1] s1]] eqn:H.
  assert (X : later g m1 g1).
  { clear E IHr. unfold dhear in H. pose proof (readable_quiet g h d m m I (quiet_refl m)) as (Qs & _).
    destruct (on_readable h d m) as [o2 m2]. cbn [fst snd] in *. pose proof (statics_inv g m m2 I Qs) as I2.
    assert (Y : (o2, (g, m2, s)) = (o1, (g1, m1, s1)) -> later g m1 g1) by (intros Y; inv Y; split; [assumption|lia]).
    destruct o2 as [[]|?|?|]; try exact (Y H). destruct (skipn _ _) as [|[p hdr sq dt|p|p e dt] [|? ?]]; try exact (Y H).
    exact (react_later _ _ _ _ _ _ _ _ I2 H). }
  destruct X as [I1 G1]. destruct o1; [|inv E; split; assumption..]. destruct (IHr _ _ _ _ _ _ _ I1 E) as [I2 G2]. split; [assumption|lia].
Qed.
Lemma entry_later env k c g m s o g' m' s' : mgr_inv g m -> map_find k (m_map m) = Some c ->
  dtick_entry h L inner env k c (g, m, s) = (o, (g', m', s')) -> later g m' g'.
Proof.
  intros I F E. unfold dtick_entry in E.
  pose proof (begin_static (t_now env (io_oid c)) c) as St. destruct (tick_begin _ c) as [[] c1]; cbn [snd] in St.
  - assert (I1 : mgr_inv g (add_log (set_map m (map_update k c1 (m_map m))) [EvClosed (io_oid c)])).
    { destruct (inv_update g m k c c1 I F (static_oid _ _ St) (static_t2o _ _ St)). now constructor. }
    unfold st_bind in E. destruct (dreact h inner _ _) as [o1 [[g1 m1] s1]] eqn:R. pose proof (react_later _ _ _ _ _ _ _ _ I1 R) as X.
    destruct o1; inv E; exact X.
  - assert (I1 : mgr_inv g (set_map m (map_update k c1 (m_map m)))).
    { exact (inv_update g m k c c1 I F (static_oid _ _ St) (static_t2o _ _ St)). }
    unfold st_bind in E. destruct (dreact h inner _ _) as [o1 [[g1 m1] s1]] eqn:R. pose proof (react_later _ _ _ _ _ _ _ _ I1 R) as X.
    destruct o1; [|inv E; exact X..]. destruct (still _ _ _); [|inv E; exact X]. destruct (tick_send _ _) as [o3 ev]. inv E.
    destruct X as [X G]. split; [|assumption]. destruct X. now constructor.
  - inv E. split; [|lia]. exact (inv_update g' m k c c1 I F (static_oid _ _ St) (static_t2o _ _ St)).
Qed.
Lemma loop_later env n : forall k g m s o g' m' s', mgr_inv g m -> dtick_loop h L inner env n k (g, m, s) = (o, (g', m', s')) -> later g m' g'.
Proof.
  induction n as [|n IHn]; intros k g m s o g' m' s' I E; cbn [dtick_loop] in E; [unfold st_ret in E; inv E; split; [assumption|lia]|].
  cbn [fst snd] in E. destruct (find _ (m_map m)) as [[k1 c1]|] eqn:F; [|inv E; split; [assumption|lia]].
  destruct (find_ge k _ k1 c1 (mi_sorted g m I) F) as (_ & G & _). unfold st_bind in E.
  destruct (dtick_entry h L inner env k1 c1 (g, m, s)) as [o1 [[g1 m1] s1]] eqn:T. destruct (entry_later _ _ _ _ _ _ _ _ _ _ I G T) as [I1 G1].
  destruct o1; [|inv E; split; assumption..]. destruct (dtick_loop h L inner env n (k1 + 1) (g1, m1, s1)) as [o2 [[g2 m2] s2]] eqn:T2.
  destruct (IHn _ _ _ _ _ _ _ _ I1 T2) as [I2 G2]. destruct o2; inv E; (split; [assumption|lia]).
Qed.
Lemma handle_later f rounds ending env g m s o g' m' s' : mgr_inv g m ->
  st_bind (bs_select (fun _ => dhear h L inner) (List.length (m_socks m)) rounds ending) (fun _ => dticks_with h L inner env f) (g, m, s) = (o, (g', m', s')) ->
  later g m' g'.
Proof.
  intros I E. unfold st_bind in E.
  destruct (List.length (m_socks m)) as [|k] eqn:Ln. { unfold bs_select in E. inv E. split; [assumption|lia]. }
  rewrite hseq_select in E by lia. destruct (hseq _ _ _ _ (g, m, s)) as [o1 [[g1 m1] s1]] eqn:H.
  destruct (seq_later _ _ _ _ _ _ _ _ I H) as [I1 G1]. destruct o1; [|inv E; split; assumption..]. destruct ending; [|inv E; split; assumption].
  unfold dticks_with, st_bind in E. destruct (dtick_loop _ _ _ _ _ _ _) as [o2 [[g2 m2] s2]] eqn:T.
  destruct (loop_later _ _ _ _ _ _ _ _ _ _ I1 T) as [I2 G2]. destruct o2; inv E; (split; [|lia]); [|assumption..].
  apply fold_erase_inv. assumption.
Qed.
End Later.
Lemma deep_later {S} h (L : dlisteners S) n : forall rounds ending env g m s o g' m' s', mgr_inv g m ->
  deep h L n rounds ending env (g, m, s) = (o, (g', m', s')) -> later g m' g'.
Proof.
  destruct a_fuel as [f F]. rewrite <- (deep_with_is h L f n F).
  induction n as [|n IH]; intros rounds ending env g m s o g' m' s' I E; cbn [deep_with] in E; [inv E; split; [assumption|lia]|].
  cbn [fst snd] in E. eapply handle_later; eassumption.
Qed.
Lemma dops_inv {S} h (ops : list (nat * dop S)) : forall w, (forall j, mgr_inv (w_g w) (w_m w j)) ->
  forall j, mgr_inv (w_g (run_dops h ops w)) (w_m (run_dops h ops w) j).
Proof.
  induction ops as [|[i op] ops IH]; intros w I j; cbn [run_dops]; [apply I|].
  destruct (dop_view h op (w_g w, w_m w i, w_s w)) as [[g' m'] s'] eqn:E. apply IH. intros k. cbn [w_m w_g].
  assert (X : mgr_inv g' m' /\ (g_oid (w_g w) <= g_oid g')%nat).
  { destruct op as [c|L n rounds ending env]; cbn [dop_view] in E.
    - destruct (call_mgr h c _) as [o v] eqn:F. cbn [snd] in E. subst v. exact (call_inv h c _ _ _ _ _ _ _ (I i) F).
    - destruct (deep h L n rounds ending env _) as [o v] eqn:F. cbn [snd] in E. subst v.
      exact (deep_later h L n _ _ _ _ _ _ _ _ _ _ (I i) F). }
  destruct X as [I' Le]. unfold update. destruct (Nat.eqb k i); [assumption|]. eapply inv_later; eauto.
Qed.
Lemma dlistened_inv S g m : dlistened S g m -> mgr_inv g m.
Proof. intros (h & ops & w & i & N & -> & ->). apply dops_inv. intros j. destruct (N j) as [inc ->]. apply inv_new. Qed.
Lemma dplain_run {S} h (ops : list (nat * call S)) : forall w, run_dops h (map (fun x => (fst x, DPlain (snd x))) ops) w = run_calls h ops w.
Proof.
  induction ops as [|[i op] ops IH]; intros w; cbn [map run_dops run_calls fst snd dop_view]; [reflexivity|].
  unfold call_world. destruct (call_mgr h op (w_g w, w_m w i, w_s w)) as [o [[g m] s]]. cbn [snd]. apply IH.
Qed.
Lemma reachable_dlistened S g m : reachable S g m -> dlistened S g m.
Proof.
  intros (h & ops & w & i & N & -> & ->). exists h, (map (fun x => (fst x, DPlain (snd x))) ops), w, i.
  rewrite dplain_run. auto.
Qed.

(** ** The theorems *)
Lemma deep_ends {S} h (L : dlisteners S) n rounds ending env g m s o w : dlistened S g m -> calm L -> dpolite L ->
  deep h L n rounds ending env (g, m, s) = (o, w) -> o <> Ok tt -> fails h L n rounds ending env o \/ m_socks m = [] /\ o = Undef UbDerefEnd.
Proof.
  intros R C P E N. apply dlistened_inv in R. destruct w as [[g' m'] s'].
  destruct (m_socks m) as [|e l] eqn:Sk.
  - destruct n as [|n]; cbn [deep] in E; [inv E; left; constructor|]. right. split; [reflexivity|].
    unfold dhandle in E. unfold st_bind in E. cbn [fst snd] in E. rewrite Sk in E. unfold bs_select in E. cbn [List.length] in E. now inv E.
  - left. refine (proj2 (deep_fails h L n C P _ _ _ _ _ _ _ _ _ _ (conj R _) E) N). congruence.
Qed.
Lemma deep_each {S} (L : dlisteners S) oid n rounds ending env g m s c g' m' s' : dlistened S g m -> calm L -> dspares L oid -> octets L ->
  lock oid m = Some c -> byte_grams (CHandle (S := S) rounds ending env) ->
  deep strict L n rounds ending env (g, m, s) = (Ok tt, (g', m', s')) ->
  exists ev, whole L oid (List.length (m_socks m)) rounds env (Some c) ev (lock oid m') /\ about oid (m_log m') = about oid (m_log m) ++ ev.
Proof.
  intros R C D O Q B E. apply dlistened_inv in R.
  destruct (deep_went L oid C D O n rounds ending env g m s g' m' s' R (lives _ _ _ _ R Q) B E) as (_ & _ & W).
  unfold went in W. now rewrite Q in W.
Qed.

(** In terms of [io_run]. *)
Scheme hears_mut := Minimality for hears Sort Prop with does_mut := Minimality for does Sort Prop with whole_mut := Minimality for whole Sort Prop.
Definition ran (x : option iocon) (ev : list event) (x' : option iocon) : Prop :=
  match x with
  | None => ev = [] /\ x' = None
  | Some c => exists xs, io_run strict xs c = (match x' with Some c' => Open c' | None => Closed end, ev)
  end.
Lemma ran_refl x : ran x [] x.
Proof. destruct x; [exists []; reflexivity|split; reflexivity]. Qed.
Lemma ran_trans x ev1 y ev2 z : ran x ev1 y -> ran y ev2 z -> ran x (ev1 ++ ev2) z.
Proof.
  unfold ran. destruct x as [c|]; [|intros [-> ->] [-> ->]; auto]. intros [xs X] Y.
  destruct y as [c1|].
  - destruct Y as [ys Y]. exists (xs ++ ys). now rewrite run_app, X, Y.
  - destruct Y as [-> ->]. exists xs. now rewrite app_nil_r.
Qed.
Lemma ran_recv c d c1 ev : io_receive strict c d = Ok (c1, ev) -> ran (Some c) ev (Some c1).
Proof. intros R. exists [Recv 0 d]. cbn [io_run]. rewrite R. now rewrite app_nil_r. Qed.
Lemma whole_ran {S} (L : dlisteners S) oid n rounds env x ev x' : whole L oid n rounds env x ev x' -> ran x ev x'.
Proof.
  apply (whole_mut S L oid (fun _ x ev x' => ran x ev x') (fun _ x ev x' => ran x ev x') (fun _ _ _ x ev x' => ran x ev x')).
  - intros. apply ran_refl.
  - intros. split; reflexivity.
  - intros l r c d c1 w hdr seq data ev1 x1 ev2 x2 _ R _ D _ H.
    exact (ran_trans _ [_] _ _ _ (ran_recv _ _ _ _ R) (ran_trans _ _ _ _ _ D H)).
  - intros l r c d c1 ev0 x0 _ R _ H. exact (ran_trans _ [] _ _ _ (ran_recv _ _ _ _ R) H).
  - intros l r c w p hdr seq data ev1 x1 ev2 x2 _ _ _ D _ H. exact (ran_trans _ _ _ _ _ D H).
  - intros l r c ev0 x0 _ _ H. exact H.
  - intros. apply ran_refl.
  - intros. split; reflexivity.
  - intros d r c ev0 x0 _ H. destruct H as [xs H]. exists (SetOut d :: xs). exact H.
  - intros op r c ev0 x0 _ _ H. exact H.
  - intros n0 rounds0 ending env0 r c ev1 x1 ev2 x2 _ D _ H. exact (ran_trans _ _ _ _ _ D H).
  - intros n0 rounds0 env0 c ev0 _ H. exact H.
  - intros n0 rounds0 env0 c ev0 c1 d1 d2 d3 b c2 ev2 _ H Tk. eapply ran_trans; [exact H|].
    destruct b; [exists [SetOut d1; Tick (t_now env0 oid) (fun _ => d2) (t_send env0 oid); SetOut d3]
                |exists [SetOut d1; Tick (t_now env0 oid) (fun _ => d2) (t_send env0 oid)]]; cbn [io_run]; rewrite Tk; rewrite ?app_nil_r; reflexivity.
Qed.
Lemma deep_run {S} (L : dlisteners S) oid n rounds ending env g m s c g' m' s' : dlistened S g m -> calm L -> dspares L oid -> octets L ->
  lock oid m = Some c -> byte_grams (CHandle (S := S) rounds ending env) ->
  deep strict L n rounds ending env (g, m, s) = (Ok tt, (g', m', s')) ->
  exists xs, about oid (m_log m') = about oid (m_log m) ++ snd (io_run strict xs c)
    /\ fst (io_run strict xs c) = match lock oid m' with Some c' => Open c' | None => Closed end.
Proof.
  intros R C D O Q B E. destruct (deep_each L oid n rounds ending env g m s c g' m' s' R C D O Q B E) as (ev & W & A).
  apply whole_ran in W. destruct W as [xs W]. exists xs. rewrite W. split; [exact A|reflexivity].
Qed.
