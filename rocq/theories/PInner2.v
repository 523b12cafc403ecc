(** Proofs for C110: the listeners assigned last, and the listeners of C93 and C102. *)
From Verif Require Import Base MBuffer SBuffer PBase PBuffer MEip SEip PEip
  MSocket SSocket PSocket MConnReq SConnReq PConnReq MConn SConn PConnOpen PConnMap PIo PConnCall PConnCall2 PConnHist PIo2 PConnTop PIoTop SLife PLife
  MReent SReent PReent MDeep SDeep PDeep MSlot SSlot PSlot MInner SInner PInner.
Local Open Scope outcome_scope.

Lemma perform_one {S} h oid k gone (a : act S) w o w' : do_act h oid k gone a w = (o, w') -> perform h oid k gone [a] w = (omap (fun _ => tt) o, w').
Proof. intros E. cbn [perform]. unfold st_bind. rewrite E. now destruct o. Qed.
Lemma xperform_flat {S} h inner oid k (acts : list (act S)) : forall gone w, xperform h inner oid k gone (map XAct acts) w = perform h oid k gone acts w.
Proof.
  induction acts as [|a r IH]; intros gone w; [reflexivity|]. cbn [map xperform perform do_xact]. unfold st_bind.
  destruct (do_act h oid k gone a w) as [[b| | |] w']; auto.
Qed.

(** ** The callable assigned last *)
Section Latest.
Context {S : Type} (h : heap) (bodies : view S -> nat -> nat -> larg -> list (xact S)) (s0 : slots).
Context (inner : list (sel_round dgram) -> sel_end -> tick_env -> st (svw (S := S)) unit).
Context (IH0 : sound (up_to_date s0) (fun _ _ => True) (fun _ => True) inner).
Lemma xperform_latest oid k (acts : list (xact S)) : forall gone (w : svw (S := S)) o w', up_to_date s0 w ->
  xperform h inner oid k gone acts w = (o, w') -> up_to_date s0 w'.
Proof.
  induction acts as [|a r IH]; intros gone w o w' U E; cbn [xperform] in E; [unfold st_ret in E; now inv E|].
  unfold st_bind in E. destruct (do_xact h inner oid k gone a w) as [o1 w1] eqn:D.
  assert (U1 : up_to_date s0 w1).
  { destruct a as [a|r1 e1 v1]; cbn [do_xact] in D.
    - apply perform_one in D. eapply perform_latest; eassumption.
    - destruct (inner r1 e1 v1 w) as [o2 w2] eqn:N. inv D. exact (proj1 (IH0 _ _ _ _ _ _ U N)). }
  destruct o1 as [b| | |]; [eapply IH; eassumption|now inv E..].
Qed.
Lemma xfire_latest oid k a w o w' : up_to_date s0 w -> xfire h bodies inner oid k a w = (o, w') -> up_to_date s0 w'.
Proof.
  destruct w as [v [s l]]. intros U E. unfold xfire in E. destruct (s oid k) as [| |f] eqn:X; [now inv E..|].
  refine (xperform_latest _ _ _ _ _ _ _ _ E). destruct U as [L A]. split.
  - apply latest_snoc; [assumption|]. intros p j g b Y. inv Y. now rewrite <- A.
  - intros p j. rewrite A. symmetry. apply assigned_other. discriminate.
Qed.
End Latest.
Theorem nest_latest {S} h (bodies : view S -> nat -> nat -> larg -> list (xact S)) s0 n :
  sound (up_to_date s0) (fun _ _ => True) (fun _ => True) (nest h bodies n).
Proof.
  apply xrule; auto.
  - intros inner IH0 d [[[g m] s] x] o1 w1 U1 E1. split; [|auto]. pose proof (xhear_case h bodies inner d g m s x) as C.
    destruct (on_readable h d m) as [o2 m2]. destruct C as [[C _]|(oid & hdr & seq & data & _ & _ & C)]; apply (eq_trans (eq_sym C)) in E1.
    + inv E1. exact U1.
    + eapply xfire_latest; [exact IH0| |exact E1]. exact U1.
  - intros inner IH0 env j k c [[[g m] s] x] o1 w1 U1 _ E1. split; [|auto]. unfold xtick_entry in E1.
    destruct (tick_begin _ c) as [[] c1].
    + match type of E1 with st_bind (xfire _ _ _ _ _ _) ?kk ?w = _ => destruct (xfire_case h bodies inner (io_oid c) ForClose Closing kk w)
        as [([[[g2 m2] s2] x2] & R & E2)|(o2 & o3 & w2 & R & _ & E2 & _)] end; rewrite E2 in E1; inv E1;
      (eapply xfire_latest; [exact IH0| |exact R]); exact U1.
    + match type of E1 with st_bind (xfire _ _ _ _ _ ?a) ?kk ?w = _ => destruct (xfire_case h bodies inner (io_oid c) ForSend a kk w)
        as [([[[g2 m2] s2] x2] & R & E2)|(o2 & o3 & w2 & R & _ & E2 & _)] end; rewrite E2 in E1.
      * assert (X : up_to_date s0 (g2, m2, s2, x2)) by (eapply xfire_latest; [exact IH0| |exact R]; exact U1).
        destruct (still k _ m2) as [c2|]; [destruct (tick_send _ _)|]; inv E1; exact X.
      * inv E1. eapply xfire_latest; [exact IH0| |exact R]. exact U1.
    + inv E1. exact U1.
Qed.

(** ** Callables without inner calls *)
Lemma perform_lock {S} h oid p k (acts : list (act S)) : forall gone g m s x c o g' m' s' x', mgr_inv g m -> lock oid m = Some c ->
  perform h p k gone acts (g, m, s, x) = (o, (g', m', s', x')) -> lock oid m' = None \/ exists d, lock oid m' = Some (io_set_output c d).
Proof.
  assert (Dead : forall (acts : list (act S)) gone g m s x o g' m' s' x', mgr_inv g m -> lock oid m = None -> (oid < g_oid g)%nat ->
    perform h p k gone acts (g, m, s, x) = (o, (g', m', s', x')) -> lock oid m' = None).
  { clear acts. intros acts. induction acts as [|a r IH]; intros gone g m s x o g' m' s' x' I L O E; cbn [perform] in E; [unfold st_ret in E; now inv E|].
    unfold st_bind in E. destruct (do_act h p k gone a (g, m, s, x)) as [o1 [[[g1 m1] s1] x1]] eqn:D.
    assert (X : mgr_inv g1 m1 /\ (g_oid g <= g_oid g1)%nat /\ lock oid m1 = None).
    { destruct x as [sl l]. unfold do_act in D. destruct a as [c|q j y|].
      - destruct (do_call h c (g, m, s)) as [o2 [[g2 m2] s2]] eqn:C. inv D. destruct (do_inv h c g m s _ _ _ _ I C) as [A B].
        destruct (do_dead h c _ _ _ _ _ _ _ _ I L O C) as [U _]. split; [assumption|]. split; [assumption|congruence].
      - destruct (lock q _); inv D; auto.
      - inv D. auto. }
    destruct X as (I1 & G1 & L1). destruct o1; [|now inv E..]. eapply (IH _ _ _ _ _ _ _ _ _ _ I1 L1); [lia|exact E]. }
  induction acts as [|a r IH]; intros gone g m s x c o g' m' s' x' I L E; cbn [perform] in E.
  - unfold st_ret in E. inv E. right. exists (io_out c). now rewrite output_same.
  - unfold st_bind in E. destruct (do_act h p k gone a (g, m, s, x)) as [o1 [[[g1 m1] s1] x1]] eqn:D. pose proof (lives _ _ _ _ I L) as O.
    assert (X : mgr_inv g1 m1 /\ (g_oid g <= g_oid g1)%nat /\ (lock oid m1 = None \/ exists d, lock oid m1 = Some (io_set_output c d))).
    { assert (Y : exists d, lock oid m = Some (io_set_output c d)) by (exists (io_out c); now rewrite output_same).
      destruct x as [sl l]. unfold do_act in D. destruct a as [op|q j y|].
      - destruct (do_call h op (g, m, s)) as [o2 [[g2 m2] s2]] eqn:C. inv D. destruct (do_inv h op g m s _ _ _ _ I C) as [A B].
        split; [assumption|]. split; [assumption|].
        refine (react_lock h oid [op] g m s c (omap (fun _ => tt) o2) g1 m1 s1 I L _). cbn [react]. unfold st_bind. rewrite C. now destruct o2.
      - destruct (lock q _); inv D; auto.
      - inv D. auto. }
    destruct X as (I1 & G1 & X). destruct o1; [|inv E; exact X..]. destruct X as [X|[d X]].
    + left. eapply Dead; [exact I1|exact X| |exact E]. lia.
    + destruct (IH _ _ _ _ _ _ _ _ _ _ _ I1 X E) as [Y|[d2 Y]]; [now left|right]. exists d2. now rewrite output_twice in Y.
Qed.
Section Flat.
Context {S : Type} (h : heap) (bodies : view S -> nat -> nat -> larg -> list (act S)).
Context (inner : list (sel_round dgram) -> sel_end -> tick_env -> st (svw (S := S)) unit).
Lemma fire_flat oid k a w : xfire h (flat bodies) inner oid k a w = fire h bodies oid k a w.
Proof. destruct w as [v [s l]]. unfold xfire, fire. destruct (s oid k) as [| |f]; [reflexivity..|]. unfold flat. apply xperform_flat. Qed.
Lemma hear_flat d w : xhear h (flat bodies) inner d w = shear h bodies d w.
Proof.
  destruct w as [[[g m] s] x]. unfold xhear, shear. destruct (on_readable h d m) as [o m'].
  destruct o as [u|e|u|]; [|reflexivity..]. destruct (skipn _ _) as [|[p hdr sq dt|p|p e dt] [|? ?]]; try reflexivity. apply fire_flat.
Qed.
Lemma entry_flat env k c g m s x : mgr_inv g m -> map_find k (m_map m) = Some c ->
  xtick_entry h (flat bodies) inner env k c (g, m, s, x) = stick_entry h bodies env k c (g, m, s, x).
Proof.
  intros I F. unfold xtick_entry, stick_entry.
  pose proof (begin_static (t_now env (io_oid c)) c) as St. destruct (tick_begin _ c) as [[] c1]; cbn [snd] in St.
  - unfold st_bind. now rewrite fire_flat.
  - assert (I1 : mgr_inv g (set_map m (map_update k c1 (m_map m)))).
    { exact (inv_update g m k c c1 I F (static_oid _ _ St) (static_t2o _ _ St)). }
    pose proof (update_lock g m k c c1 (io_oid c) I F St []) as Lk. rewrite Nat.eqb_refl in Lk.
    change (lock (io_oid c) (set_map m (map_update k c1 (m_map m))) = Some c1) in Lk.
    unfold st_bind. rewrite fire_flat.
    destruct (fire h bodies _ _ _ _) as [[[]|?|?|] [[[g2 m2] s2] x2]] eqn:R; try reflexivity.
    destruct (still k (io_oid c) m2) as [c2|] eqn:Sl; [|reflexivity].
    assert (X : sinv (g2, m2, s2, x2)) by (refine (proj1 (fire_keeps h bodies _ _ _ _ _ _ _ R)); exact I1).
    apply (still_locked g2) in Sl; [|assumption].
    assert (Y : lock (io_oid c) m2 = None \/ exists d, lock (io_oid c) m2 = Some (io_set_output c1 d)).
    { destruct x as [sl l]. unfold fire in R. destruct (sl (io_oid c) ForSend) as [| |f].
      - inv R. right. exists (io_out c1). now rewrite output_same.
      - discriminate.
      - exact (perform_lock h _ _ _ _ _ _ _ _ _ _ _ _ _ _ _ I1 Lk R). }
    destruct Y as [Y|[d Y]]; rewrite Y in Sl; [discriminate|]. inv Sl. reflexivity.
  - reflexivity.
Qed.
Lemma loop_flat env n : forall k g m s x, mgr_inv g m ->
  xtick_loop h (flat bodies) inner env n k (g, m, s, x) = stick_loop h bodies env n k (g, m, s, x).
Proof.
  induction n as [|n IH]; intros k g m s x I; cbn [xtick_loop stick_loop]; [reflexivity|]. cbn [fst snd].
  destruct (find _ (m_map m)) as [[k1 c1]|] eqn:F; [|reflexivity].
  destruct (find_ge k _ k1 c1 (mi_sorted g m I) F) as (_ & G & _). unfold st_bind. rewrite entry_flat by assumption.
  destruct (stick_entry h bodies env k1 c1 (g, m, s, x)) as [[b|?|?|] [[[g1 m1] s1] x1]] eqn:E; try reflexivity.
  rewrite IH; [reflexivity|].
  (* the entry keeps the invariant *)
  unfold stick_entry in E. pose proof (begin_static (t_now env (io_oid c1)) c1) as St. destruct (tick_begin _ c1) as [[] c2]; cbn [snd] in St.
  - match type of E with st_bind (fire _ _ _ _ _) ?kk ?w = _ => destruct (fire_case h bodies (io_oid c1) ForClose Closing kk w)
      as [([[[g2 m2] s2] x2] & R & E2)|(o2 & o3 & [[[g2 m2] s2] x2] & R & _ & E2 & _)] end; rewrite E2 in E; inv E;
    (apply fire_keeps in R; [|exact (set_ok_inv g m k1 c1 c2 _ I G St)]); exact (proj1 R).
  - match type of E with st_bind (fire _ _ _ _ ?a) ?kk ?w = _ => destruct (fire_case h bodies (io_oid c1) ForSend a kk w)
      as [([[[g2 m2] s2] x2] & R & E2)|(o2 & o3 & [[[g2 m2] s2] x2] & R & _ & E2 & _)] end; rewrite E2 in E;
    (apply fire_keeps in R; [|exact (inv_update g m k1 c1 c2 I G (static_oid _ _ St) (static_t2o _ _ St))]).
    + destruct R as [R _]. destruct (still k1 _ m2) as [c3|]; [destruct (tick_send _ _)|]; inv E. now apply log_inv.
    + inv E. exact (proj1 R).
  - inv E. exact (inv_update g1 m k1 c1 c2 I G (static_oid _ _ St) (static_t2o _ _ St)).
Qed.
Lemma dispatch_flat ready : forall i n w, dispatch (fun _ => xhear h (flat bodies) inner) i n ready w = dispatch (fun _ => shear h bodies) i n ready w.
Proof.
  induction ready as [|[d|] r IH]; intros i n w; destruct n; cbn [dispatch]; try reflexivity.
  - unfold st_bind. rewrite hear_flat. destruct (shear h bodies d w) as [[[]| | |] w']; auto.
  - apply IH.
Qed.
Lemma select_flat n rounds ending w : bs_select (fun _ => xhear h (flat bodies) inner) n rounds ending w = bs_select (fun _ => shear h bodies) n rounds ending w.
Proof.
  unfold bs_select. destruct n; [reflexivity|]. revert w. induction rounds as [|r rs IH]; intros w; cbn [select_rounds]; [reflexivity|].
  unfold st_bind. rewrite dispatch_flat. destruct (dispatch _ _ _ _ w) as [[[]| | |] w']; auto.
Qed.
Lemma select_keeps n rounds ending w o w' : sinv w -> bs_select (fun _ => shear h bodies) n rounds ending w = (o, w') -> sinv w'.
Proof.
  intros I E.
  enough (X : sinv w' /\ True /\ (o <> Ok tt -> True)) by tauto.
  refine (rule_select h bodies sinv (fun _ _ => True) (fun _ => True) _ _ _ _ _ n rounds ending w o w' I E); auto.
  intros d [[[g m] s] x] o1 w1 I1 E1. split; [|auto].
  pose proof (shear_case h bodies d g m s x) as C. cbn in I1.
  pose proof (readable_quiet g h d m m I1 (quiet_refl m)) as (Q & _).
  destruct (on_readable h d m) as [o2 m2]. cbn [snd] in Q. pose proof (statics_inv g m m2 I1 Q) as I2.
  destruct C as [[C L]|(p & hdr & seq & data & _ & L & C)]; apply (eq_trans (eq_sym C)) in E1.
  - inv E1. exact I2.
  - apply fire_keeps in E1; [|exact I2]. exact (proj1 E1).
Qed.
Lemma handle_flat rounds ending env w : sinv w -> xhandle h (flat bodies) inner rounds ending env w = slot_connections h bodies rounds ending env w.
Proof.
  intros I. unfold xhandle, slot_connections, st_bind. rewrite select_flat.
  destruct (bs_select _ _ _ _ w) as [o1 w1] eqn:E. apply (select_keeps _ _ _ _ _ _ I) in E. destruct o1 as [[]| | |]; [|reflexivity..].
  destruct w1 as [[[g m] s] x]. unfold xticks, slot_ticks.
  destruct a_fuel as [n F]. assert (X : Z.to_nat 65536 = n) by (rewrite <- F; apply Nat2Z.id). rewrite X. clear X F.
  unfold st_bind. now rewrite loop_flat by exact E.
Qed.
End Flat.

(** ** Callables that replace nothing *)
Section Lasting.
Context {S : Type} (h : heap) (bodies : view S -> nat -> nat -> larg -> list (xact S)) (s : slots).
Context (St : lasting bodies) (Ne : forall oid k, s oid k <> Empty).
Let L := xholding bodies s.
Section One.
Context (inner : list (sel_round dgram) -> sel_end -> tick_env -> st (svw (S := S)) unit)
        (dinner : list (sel_round dgram) -> sel_end -> tick_env -> st (view S) unit).
Context (IH0 : forall rounds ending env, follows s (inner rounds ending env) (dinner rounds ending env)).
Lemma lasts_perform oid k (acts : list (xact S)) : (forall d, In (XAct d) acts -> exists c, d = ACall c) -> forall gone,
  follows s (xperform h inner oid k gone acts) (dreact h dinner (ncalls_of acts)).
Proof.
  induction acts as [|a r IH]; intros Al gone; [apply follows_ret|].
  assert (Ar : forall d, In (XAct d) r -> exists c, d = ACall c) by (intros d J; apply Al; now right).
  destruct a as [a|r1 e1 v1].
  - destruct (Al a (or_introl eq_refl)) as [c ->]. cbn [xperform do_xact ncalls_of flat_map app dreact].
    intros v l. unfold st_bind, do_act. destruct (do_call h c v) as [[p|e|u|] v1]; cbn [omap fst snd]; [|exists l; reflexivity..].
    apply IH. exact Ar.
  - cbn [xperform do_xact ncalls_of flat_map app dreact]. intros v l. unfold st_bind. destruct (IH0 r1 e1 v1 v l) as [l1 E]. rewrite E.
    destruct (dinner r1 e1 v1 v) as [[p|e|u|] v2]; cbn [omap fst snd]; [|exists l1; reflexivity..]. apply IH. exact Ar.
Qed.
Lemma lasts_fire oid k a :
  follows s (xfire h bodies inner oid k a) (fun v => dreact h dinner (match s oid k with Holds f => ncalls_of (bodies v f oid a) | _ => [] end) v).
Proof.
  intros v l. unfold xfire. pose proof (Ne oid k) as X. destruct (s oid k) as [| |f]; [exists l; reflexivity|contradiction|].
  apply lasts_perform. apply St.
Qed.
Lemma lasts_hear d : follows s (xhear h bodies inner d) (dhear h L dinner d).
Proof.
  intros [[g m] x] l. unfold xhear, dhear. destruct (on_readable h d m) as [o m']. destruct o as [u|e|u|]; [|exists l; reflexivity..].
  destruct (skipn _ _) as [|[p hdr sq dt|p|p e dt] [|? ?]]; try (exists l; reflexivity).
  destruct (lasts_fire p ForData (GotData hdr sq dt) (g, m', x) l) as [l' E]. exists l'. exact E.
Qed.
Lemma lasts_entry env k c : follows s (xtick_entry h bodies inner env k c) (dtick_entry h L dinner env k c).
Proof.
  intros [[g m] x] l. unfold xtick_entry, dtick_entry. destruct (tick_begin _ c) as [[] c1].
  - refine (follows_bind s _ _ _ _ (lasts_fire (io_oid c) ForClose Closing) _ _ l).
    intros _ [[g2 m2] x2] l2. exists l2. reflexivity.
  - refine (follows_bind s _ _ _ _ (lasts_fire (io_oid c) ForSend (ToSend (io_out c1))) _ _ l).
    intros _ [[g2 m2] x2] l2. exists l2. destruct (still k _ m2) as [c2|]; [destruct (tick_send _ _)|]; reflexivity.
  - exists l. reflexivity.
Qed.
Lemma lasts_loop env n : forall j, follows s (xtick_loop h bodies inner env n j) (dtick_loop h L dinner env n j).
Proof.
  induction n as [|n IH]; intros j; [apply follows_ret|]. intros v l. cbn [xtick_loop dtick_loop fst].
  destruct (find _ _) as [[k c]|]; [|exists l; reflexivity].
  refine (follows_bind s _ _ _ _ (lasts_entry env k c) _ v l). intros b. apply follows_bind; [apply IH|]. intros ks. apply follows_ret.
Qed.
Lemma lasts_ticks env : follows s (xticks h bodies inner env) (dticks h L dinner env).
Proof.
  unfold xticks, dticks. destruct a_fuel as [n F]. assert (X : Z.to_nat 65536 = n) by (rewrite <- F; apply Nat2Z.id). rewrite X. clear X F.
  apply follows_bind; [apply lasts_loop|]. intros ks [[g m] x] l. exists l. reflexivity.
Qed.
Lemma lasts_dispatch ready : forall i n, follows s (dispatch (fun _ => xhear h bodies inner) i n ready) (dispatch (fun _ => dhear h L dinner) i n ready).
Proof.
  induction ready as [|[d|] r IH]; intros i n; destruct n; cbn [dispatch]; try apply follows_ret.
  - apply follows_bind; [apply lasts_hear|]. intros _. apply IH.
  - apply IH.
Qed.
Lemma lasts_select n rounds ending : follows s (bs_select (fun _ => xhear h bodies inner) n rounds ending) (bs_select (fun _ => dhear h L dinner) n rounds ending).
Proof.
  unfold bs_select. destruct n as [|n]; [intros v l; exists l; reflexivity|].
  induction rounds as [|r rs IH]; cbn [select_rounds].
  - destruct ending; intros v l; exists l; reflexivity.
  - apply follows_bind; [apply lasts_dispatch|]. intros _. exact IH.
Qed.
Lemma lasts_handle rounds ending env : follows s (xhandle h bodies inner rounds ending env) (dhandle h L dinner rounds ending env).
Proof.
  intros v l. unfold xhandle, dhandle. cbn [fst].
  refine (follows_bind s _ _ _ _ (lasts_select _ rounds ending) _ v l). intros _. apply lasts_ticks.
Qed.
End One.
Theorem nest_lasts n : forall rounds ending env, follows s (nest h bodies n rounds ending env) (deep h L n rounds ending env).
Proof.
  induction n as [|n IH]; intros rounds ending env; cbn [nest deep]; [intros v l; exists l; reflexivity|]. now apply lasts_handle.
Qed.
End Lasting.
