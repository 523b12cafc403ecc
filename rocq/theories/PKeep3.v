(** Connections that the application keeps: the properties. *)
From Verif Require Import Base MBuffer SBuffer PBase PBuffer MEip SEip PEip PRouter MSocket SSocket PSocket MConnReq SConnReq PConnReq MConn SConn PConnOpen PConnMap PIo
  PConnCall PConnCall2 PConnHist PIo2 PConnTop SLife PLife MMany PMany MKeep SKeep PKeep PKeep2.

(** ** Keeping changes nothing *)
Lemma same_run {S} h (cs : list (kcall S)) : forall w k, considerate h cs (w, k) ->
  plain_run h (calls_of cs) w = (results_of cs (fst (krun h cs (w, k))), fst (snd (krun h cs (w, k)))).
Proof.
  induction cs as [|c cs IH]; intros w k C; [reflexivity|]. destruct C as [C1 C]. cbn [krun].
  destruct w as [[g m] s]. destruct c as [op|oid|oid].
  - cbn [calls_of flat_map app]. fold (calls_of cs). cbn [plain_run].
    assert (E : call_kept h op k (g, m, s) = call_mgr h op (g, m, s)).
    { destruct op as [? ? ? ? ? ?|use8 si oid|? ? ?|? ?]; try reflexivity. cbn [call_kept call_mgr].
      replace (lock_kept oid m k) with (lock oid m); [reflexivity|]. unfold lock_kept, exists_still, is_open in *. cbn [fst snd] in C1.
      destruct (lock oid m) as [c|] eqn:L; [reflexivity|]. unfold lock_kept in C1. rewrite L in C1.
      destruct (find _ _); [|reflexivity]. exfalso. apply C1; [discriminate|reflexivity]. }
    cbn [kstep] in *. rewrite E in *. destruct (call_mgr h op (g, m, s)) as [o [[g1 m1] s1]]. cbn [snd] in C. specialize (IH _ _ C). rewrite IH.
    destruct (krun h cs _) as [os x1]. reflexivity.
  - cbn [calls_of flat_map app]. fold (calls_of cs). cbn [kstep] in *. destruct (lock_kept oid m k); cbn [snd] in C; specialize (IH _ _ C); rewrite IH;
      destruct (krun h cs _) as [os x1]; reflexivity.
  - cbn [calls_of flat_map app]. fold (calls_of cs). cbn [kstep snd] in *. specialize (IH _ _ C). rewrite IH. destruct (krun h cs _) as [os x1]. reflexivity.
Qed.

(** ** How long objects exist *)
Lemma krun_app {S} h (a b : list (kcall S)) : forall x, snd (krun h (a ++ b) x) = snd (krun h b (snd (krun h a x))).
Proof.
  induction a as [|c a IH]; intros x; [reflexivity|]. cbn [app krun]. destruct (kstep h c x) as [o x1]. specialize (IH x1).
  destruct (krun h (a ++ b) x1). destruct (krun h a x1). exact IH.
Qed.
Lemma krun_one {S} h (c : kcall S) x : snd (krun h [c] x) = snd (kstep h c x).
Proof. cbn [krun]. now destruct (kstep h c x). Qed.
Lemma exists_iff {S} oid (x : kstate S) : kinv x -> (exists_still oid x <-> is_open oid x \/ In oid (kp_held (snd x))).
Proof.
  intros V. unfold exists_still, is_open. split.
  - intros H. unfold lock_kept in H. destruct (lock oid _) as [c|]; [left; discriminate|right].
    destruct (find _ _) as [c|] eqn:F; [|contradiction]. apply find_some in F as [J E]. apply Nat.eqb_eq in E. subst oid. exact (proj1 (ki_gone _ V c J)).
  - intros [H|H]; [|exact (ki_held _ V oid H)]. unfold lock_kept. destruct (lock oid _); [discriminate|contradiction].
Qed.
Lemma peel {A} (l : list A) (x : A) before y after : l ++ [x] = before ++ y :: after ->
  (after = [] /\ before = l /\ x = y) \/ exists a, after = a ++ [x] /\ l = before ++ y :: a.
Proof.
  destruct after as [|z after] using rev_ind; intros E.
  - apply app_inj_tail in E as [-> ->]. auto.
  - clear IHafter. right. rewrite app_comm_cons, app_assoc in E. apply app_inj_tail in E as [E ->]. eauto.
Qed.
Lemma held_iff {S} h oid g inc (s : S) cs : In oid (kp_held (snd (snd (krun h cs (kstart g inc s))))) <-> keeps_it h oid cs (kstart g inc s).
Proof.
  induction cs as [|c cs IH] using rev_ind.
  - split; [intros []|]. intros (a & b & E & _). destruct a; discriminate.
  - pose proof (run_kinv h cs _ (start_kinv g inc s)) as V. set (x0 := kstart g inc s) in *.
    rewrite krun_app, krun_one. set (x := snd (krun h cs x0)) in *.
    assert (Old : forall q, ~ q = KDrop oid -> keeps_it h oid cs x0 -> keeps_it h oid (cs ++ [q]) x0).
    { intros q N (a & b & E & F & X). exists a, (b ++ [q]). rewrite E, <- app_assoc. split; [reflexivity|]. split; [|exact X].
      intros J. apply in_app_iff in J as [J|[J|[]]]; [contradiction|]. now apply N. }
    assert (New : forall q, q <> KKeep oid -> keeps_it h oid (cs ++ [q]) x0 -> keeps_it h oid cs x0).
    { intros q N (a & b & E & F & X). apply peel in E as [(_ & _ & E)|(b' & -> & E)]; [contradiction|]. exists a, b'. split; [exact E|]. split; [|exact X].
      intros J. apply F, in_app_iff. now left. }
    destruct x as [[[gx mx] sx] kx] eqn:Ex. destruct c as [op|q|q].
    + assert (H : kp_held (snd (snd (kstep h (KCall op) (gx, mx, sx, kx)))) = kp_held kx).
      { cbn [kstep]. destruct (call_kept h op kx (gx, mx, sx)) as [o [[g1 m1] s1]]. reflexivity. }
      rewrite H. cbn [snd] in IH. rewrite IH. split; [apply Old; discriminate|apply New; discriminate].
    + cbn [snd] in IH. destruct (Nat.eq_dec q oid) as [->|N].
      * assert (K : exists_still oid (gx, mx, sx, kx) <-> keeps_it h oid (cs ++ [KKeep oid]) x0).
        { split.
          - intros H. exists cs, []. split; [reflexivity|]. split; [intros []|]. fold x. now rewrite Ex.
          - intros (a & b & E & F & X). apply peel in E as [(_ & -> & _)|(b' & -> & E)].
            + fold x in X. now rewrite Ex in X.
            + apply exists_iff; [exact V|]. right. cbn [snd]. apply IH. exists a, b'. split; [exact E|]. split; [|exact X].
              intros J. apply F, in_app_iff. now left. }
        rewrite <- K. cbn [kstep]. unfold exists_still. cbn [fst snd]. destruct (lock_kept oid mx kx) eqn:L; cbn [snd kp_held In].
        -- split; [intros _; discriminate|auto].
        -- split; [|intros []; reflexivity]. intros J. pose proof (ki_held _ V oid J) as Z0. cbn [fst snd] in Z0. contradiction.
      * assert (Q : (In oid (kp_held (snd (snd (kstep h (KKeep q) (gx, mx, sx, kx)))))) <-> In oid (kp_held kx)).
        { cbn [kstep]. destruct (lock_kept q mx kx); cbn [snd kp_held In]; intuition congruence. }
        rewrite Q, IH. split; [apply Old; discriminate|apply New; congruence].
    + cbn [snd] in IH. cbn [kstep snd kp_held]. rewrite filter_In, IH. split.
      * intros [K N]. apply Old; [|exact K]. intros E. inv E. rewrite Nat.eqb_refl in N. discriminate.
      * intros K. split; [revert K; apply New; discriminate|]. destruct K as (a & b & E & F & X).
        apply peel in E as [(_ & _ & E)|(b' & -> & E)]; [discriminate|].
        destruct (Nat.eqb_spec oid q) as [->|]; [|reflexivity]. exfalso. apply F, in_app_iff. right. now left.
Qed.
Lemma exists_still_iff {S} h oid g inc (s : S) cs : let x := snd (krun h cs (kstart g inc s)) in
  exists_still oid x <-> is_open oid x \/ keeps_it h oid cs (kstart g inc s).
Proof. cbv zeta. rewrite <- held_iff. apply exists_iff, run_kinv, start_kinv. Qed.

(** A kept object stays the same. *)
Lemma step_stays {S} h (q : kcall S) x oid c : kinv x -> In oid (kp_held (snd x)) -> q <> KDrop oid ->
  lock_kept oid (snd (fst (fst x))) (snd x) = Some c ->
  In oid (kp_held (snd (snd (kstep h q x))))
  /\ exists c', lock_kept oid (snd (fst (fst (snd (kstep h q x))))) (snd (snd (kstep h q x))) = Some c' /\ io_static c' = io_static c.
Proof.
  destruct x as [[[g m] s] k]. cbn [fst snd]. intros V H N L. destruct q as [op|q|q].
  - destruct (kstep h (KCall op) (g, m, s, k)) as [o [[[g' m'] s'] k']] eqn:E. cbn [fst snd]. split.
    + cbn [kstep] in E. destruct (call_kept h op k (g, m, s)) as [o1 [[g1 m1] s1]]. inv E. exact H.
    + eapply step_object; eauto.
  - cbn [kstep]. destruct (lock_kept q m k) eqn:Lq; cbn [fst snd kp_held]; (split; [cbn [In]; auto|exists c; split; [exact L|reflexivity]]).
  - cbn [kstep fst snd kp_held]. assert (D : Nat.eqb oid q = false) by (apply Nat.eqb_neq; congruence). split.
    + apply filter_In. split; [exact H|]. now rewrite D.
    + exists c. split; [|reflexivity]. unfold lock_kept in *. cbn [kp_gone]. destruct (lock oid m); [exact L|].
      rewrite <- L. clear -D. induction (kp_gone k) as [|c0 l IH]; [reflexivity|]. cbn [filter find].
      destruct (Nat.eqb_spec (io_oid c0) q) as [E|E]; cbn [negb find].
      * destruct (Nat.eqb_spec (io_oid c0) oid) as [E2|]; [|exact IH]. apply Nat.eqb_neq in D. congruence.
      * destruct (Nat.eqb (io_oid c0) oid); [reflexivity|exact IH].
Qed.
Lemma run_stays {S} h oid (cs : list (kcall S)) : forall x c, kinv x -> In oid (kp_held (snd x)) -> ~ In (KDrop oid) cs ->
  lock_kept oid (snd (fst (fst x))) (snd x) = Some c ->
  exists c', lock_kept oid (snd (fst (fst (snd (krun h cs x))))) (snd (snd (krun h cs x))) = Some c' /\ io_static c' = io_static c.
Proof.
  induction cs as [|q cs IH]; intros x c V H N L; [exists c; auto|].
  destruct (step_stays h q x oid c V H ltac:(intros ->; apply N; now left) L) as (H1 & c1 & L1 & T1).
  pose proof (step_kinv h q x V) as V1. cbn [krun]. destruct (kstep h q x) as [o x1]. cbn [snd] in *.
  destruct (IH x1 c1 V1 H1 ltac:(intros J; apply N; now right) L1) as (c2 & L2 & T2). destruct (krun h cs x1) as [os x2]. cbn [snd] in *.
  exists c2. split; [exact L2|congruence].
Qed.

(** ** A connection that has ended *)
Lemma about_live oid ev (m : mgr) : lock oid m = None -> Forall (fun e => lock (ev_oid e) m <> None) ev -> about oid ev = [].
Proof.
  intros L F. induction F as [|e l E F IH]; [reflexivity|]. unfold about in *. cbn [filter].
  replace (match e with EvData o0 _ _ _ | EvClosed o0 | EvSent o0 _ _ => Nat.eqb o0 oid end) with (Nat.eqb (ev_oid e) oid) by (destruct e; reflexivity).
  destruct (Nat.eqb_spec (ev_oid e) oid); [congruence|exact IH].
Qed.
Lemma run_silent {S} h oid (cs : list (kcall S)) : forall x, kinv x -> ~ is_open oid x -> was_opened oid x ->
  ~ is_open oid (snd (krun h cs x)) /\ was_opened oid (snd (krun h cs x))
  /\ exists ev, m_log (snd (fst (fst (snd (krun h cs x))))) = m_log (snd (fst (fst x))) ++ ev /\ about oid ev = [].
Proof.
  induction cs as [|q cs IH]; intros x V N W.
  - split; [exact N|]. split; [exact W|]. exists []. split; [symmetry; apply app_nil_r|reflexivity].
  - pose proof (step_kinv h q x V) as V1. cbn [krun].
    assert (K : ~ is_open oid (snd (kstep h q x)) /\ was_opened oid (snd (kstep h q x))
      /\ exists ev, m_log (snd (fst (fst (snd (kstep h q x))))) = m_log (snd (fst (fst x))) ++ ev /\ about oid ev = []).
    { destruct x as [[[g m] s] k]. unfold is_open, was_opened in *. cbn [fst snd] in *. destruct q as [op|q|q].
      - cbn [kstep]. destruct (call_kept h op k (g, m, s)) as [o1 [[g1 m1] s1]] eqn:C. cbn [fst snd].
        pose proof (ki_mgr _ V) as I. cbn [fst snd] in I. destruct (kept_grown _ _ _ _ _ _ _ _ _ _ I C) as (G & I1 & Le).
        destruct (lock oid m) as [c|] eqn:L; [exfalso; apply N; discriminate|].
        split; [|split; [lia|]].
        + intros X. destruct (lock oid m1) as [c1|] eqn:L1; [|now apply X]. destruct (grown_lock _ _ _ _ _ _ I I1 G L1) as [B|(c0 & L0 & _)]; [lia|congruence].
        + destruct (kept_spoken _ _ _ _ _ _ _ _ _ _ I C) as (ev & E & F). exists ev. split; [exact E|]. eapply about_live; eauto.
      - cbn [kstep]. destruct (lock_kept q m k); cbn [fst snd]; (split; [exact N|]; split; [exact W|]; exists []; split; [symmetry; apply app_nil_r|reflexivity]).
      - cbn [kstep fst snd]. split; [exact N|]. split; [exact W|]. exists []. split; [symmetry; apply app_nil_r|reflexivity]. }
    destruct (kstep h q x) as [o x1]. cbn [snd] in *. destruct K as (N1 & W1 & ev1 & E1 & A1).
    destruct (IH x1 V1 N1 W1) as (N2 & W2 & ev2 & E2 & A2). destruct (krun h cs x1) as [os x2]. cbn [snd] in *.
    split; [exact N2|]. split; [exact W2|]. exists (ev1 ++ ev2). rewrite E2, E1, app_assoc. split; [reflexivity|].
    unfold about in *. now rewrite filter_app, A1, A2.
Qed.

(** Setting its data. *)
Lemma data_nothing {S} h oid d g m (s : S) k : lock oid m = None ->
  exists k', kstep h (KCall (CData oid d)) (g, m, s, k) = (Ok None, (g, m, s, k')).
Proof.
  intros L. cbn [kstep call_kept call_mgr]. eexists. f_equal. f_equal. f_equal. f_equal. unfold set_output.
  replace (map _ (m_map m)) with (m_map m); [now destruct m|]. apply lock_none in L. unfold oids in L.
  induction (m_map m) as [|[i c] l IH]; [reflexivity|]. cbn [map snd fst In] in *.
  destruct (Nat.eqb_spec (io_oid c) oid); [exfalso; apply L; now left|]. f_equal. apply IH. tauto.
Qed.

(** ** Closing it again *)
Lemma close_again {S} h use8 (si : session_if S) g m s k oid c resp s' : kinv (g, m, s, k) ->
  lock oid m = None -> lock_kept oid m k = Some c ->
  send_request h si use8 78 (epath2 6 1) (fc_pack (u16 (io_serial c)) (io_vendor c) (io_orig c) (io_path c)) [] s = (Ok resp, s') ->
  exists o m' k', kstep h (KCall (CClose use8 si oid)) (g, m, s, k) = (o, (g, m', s', k')) /\ m_log m' = m_log m
    /\ ((exists p c2, p <> oid /\ lock p m = Some c2 /\ io_t2oId c2 mod 65536 = io_t2oId c mod 65536
          /\ o = Ok None /\ forall q, lock q m' = if Nat.eqb q p then None else lock q m)
        \/ (forall p c2, lock p m = Some c2 -> io_t2oId c2 mod 65536 <> io_t2oId c mod 65536) /\ o = Abort /\ forall q, lock q m' = lock q m).
Proof.
  intros V L K Q. pose proof (ki_mgr _ V) as I. cbn [fst snd] in I. cbn [kstep call_kept]. rewrite K.
  unfold forward_close. change CM_PATH with (epath2 6 1). rewrite Q. cbv zeta.
  pose proof (sorted_nodup _ (mi_sorted g m I)) as Nd.
  destruct (map_find (u16 (io_t2oId c)) (m_map m)) as [c2|] eqn:F; cbn [omap bind].
  - do 3 eexists. split; [reflexivity|]. split; [reflexivity|]. left. apply (find_iff _ _ _ Nd) in F.
    pose proof (mi_key _ _ I _ _ F) as Ek. pose proof (lock_some _ _ _ _ I F) as L2. exists (io_oid c2), c2.
    split; [intros X; congruence|]. split; [exact L2|]. split; [unfold u16 in Ek; symmetry; exact Ek|]. split; [reflexivity|].
    intros q. rewrite Ek. now apply (erase_lock g).
  - do 3 eexists. split; [reflexivity|]. split; [reflexivity|]. right.
    split; [|split; [reflexivity|]].
    + intros p c2 Lp E. apply (lock_iff g) in Lp as [_ J]; [|exact I]. apply (find_iff _ _ _ Nd) in J. unfold u16 in *. rewrite E in J. congruence.
    + intros q. pose proof (inv_erase g m (u16 (io_t2oId c)) I) as I'. apply (lock_same g g); [exact I|exact I'|].
      intros i c' _. cbn [set_map m_map]. rewrite erase_in. cbn [fst]. split; [|tauto]. intros J. split; [exact J|]. intros ->.
      apply (find_iff _ _ _ Nd) in J. congruence.
Qed.
Lemma again_packet h use8 handle answer (m : mgr) log c : is_u32 handle ->
  is_u16 (io_serial c) -> is_u16 (io_vendor c) -> is_u32 (io_orig c) -> is_bytes (io_path c) -> zlen (io_path c) <= 60000 ->
  exists p request path, snd (snd (forward_close h use8 (recording handle answer) (Some c) (m, log))) = log ++ [p]
    /\ parse_rr (encaps_pack p) = Some (mkRR handle 0 [(0, []); (178, request)])
    /\ parse_request request = Some (78, path,
         fc_bytes (io_serial c) (io_vendor c) (io_orig c) ((zlen (io_path c) / 2) mod 256) (io_path c))
    /\ names_cm path = true.
Proof.
  intros H A B C D E. set (m0 := mkMgr 0 [(u16 (io_t2oId c), c)] [] []). set (g0 := mkGlobals 0 None None (Datatypes.S (io_oid c))).
  assert (I : mgr_inv g0 m0).
  { constructor; cbn.
    - repeat constructor.
    - intros k c' [X|[]]. now inv X.
    - repeat constructor. intros [].
    - intros k c' [X|[]]. inv X. lia. }
  assert (L : lock (io_oid c) m0 = Some c) by (unfold lock, m0; cbn [m_map find snd]; now rewrite Nat.eqb_refl).
  destruct (close_sends h use8 handle answer g0 m0 log (io_oid c) c I L H A B C D E) as (p & P1 & P2 & P3).
  eexists p, _, _. split; [|split; [exact P2|split; [exact P3|apply cm_named]]]. rewrite L in P1. rewrite <- P1. unfold forward_close.
  destruct (send_request _ _ _ _ _ _ _ _) as [[?|?|?|] ?]; reflexivity.
Qed.
