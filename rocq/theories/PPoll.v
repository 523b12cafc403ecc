(** How long handleConnections takes. *)
From Coq Require Sorting.Sorted.
From Verif Require Import Base MBuffer PBase MEip MSocket MConnReq MConn MPoll SPoll.

Lemma sel_wait_bounds stop c : 0 <= sel_wait stop c <= Z.max 0 (stop - c) /\ Z.max 0 (stop - c) < sel_wait stop c + 1000000.
Proof.
  unfold sel_wait, portable_interval. cbv zeta. destruct (Z.le_gt_cases 0 (stop - c)) as [L|L].
  - rewrite (Z.quot_div_nonneg (stop - c)) by lia. set (ms := (stop - c) / 1000000). assert (0 <= ms) by (apply Z.div_pos; lia).
    pose proof (Z.div_mod (stop - c) 1000000 ltac:(lia)) as D. fold ms in D. pose proof (Z.mod_pos_bound (stop - c) 1000000 ltac:(lia)).
    rewrite Z.quot_div_nonneg, Z.rem_mod_nonneg by lia. pose proof (Z.div_mod ms 1000 ltac:(lia)). pose proof (Z.mod_pos_bound ms 1000 ltac:(lia)).
    pose proof (Z.div_pos ms 1000 ltac:(lia) ltac:(lia)). lia.
  - assert (Q : Z.quot (stop - c) 1000000 <= 0).
    { pose proof (Z.quot_opp_l (stop - c) 1000000 ltac:(lia)). pose proof (Z.quot_pos (- (stop - c)) 1000000 ltac:(lia) ltac:(lia)). lia. }
    set (ms := Z.quot (stop - c) 1000000) in *. clearbody ms.
    pose proof (Z.quot_opp_l ms 1000 ltac:(lia)). pose proof (Z.rem_opp_l ms 1000 ltac:(lia)).
    pose proof (Z.quot_pos (- ms) 1000 ltac:(lia) ltac:(lia)). pose proof (Z.rem_nonneg (- ms) 1000 ltac:(lia) ltac:(lia)). lia.
Qed.

Lemma first_arrival_spec qs : match first_arrival qs with
  | Some a => (exists b d q, In ((b, d) :: q) qs /\ b = a) /\ forall b d q, In ((b, d) :: q) qs -> a <= b
  | None => Forall (fun q => q = []) qs
  end.
Proof.
  induction qs as [|[|[a d] q] r IH]; cbn [first_arrival].
  - constructor.
  - destruct (first_arrival r) as [x|].
    + destruct IH as [(b & d & q & I & E) M]. split; [exists b, d, q; split; [now right|exact E]|]. intros b' d' q' [X|X]; [discriminate|eauto].
    + constructor; [reflexivity|exact IH].
  - destruct (first_arrival r) as [x|].
    + destruct IH as [(b & e & q' & I & E) M]. split.
      * destruct (Z.min_spec a x) as [[_ ->]|[_ ->]]; [exists a, d, q; split; [now left|reflexivity]|exists b, e, q'; split; [now right|exact E]].
      * intros b' d' q'' [X|X]; [assert (b' = a) by congruence; lia|]. specialize (M _ _ _ X). lia.
    + split; [exists a, d, q; split; [now left|reflexivity]|]. intros b' d' q'' [X|X]; [assert (b' = a) by congruence; lia|].
      rewrite Forall_forall in IH. apply IH in X. discriminate.
Qed.
Lemma select_cases stop c qs ready t : select_call stop c qs = (ready, t) ->
  c <= t <= Z.max c stop
  /\ (ready = true -> exists a d q, In ((a, d) :: q) qs /\ a <= t)
  /\ (ready = false -> stop < t + 1000000 /\ empty_at t qs).
Proof.
  unfold select_call. pose proof (sel_wait_bounds stop c) as W. pose proof (first_arrival_spec qs) as F. destruct (first_arrival qs) as [a|].
  - destruct F as [(b & d & q & I & ->) M]. destruct (Z.leb_spec a (c + sel_wait stop c)); intros E; assert (X : ready = fst (ready, t) /\ t = snd (ready, t)) by (split; reflexivity); rewrite <- E in X; destruct X as [-> ->]; cbn [fst snd].
    + split; [lia|]. split; [|discriminate]. intros _. exists a, d, q. split; [exact I|lia].
    + split; [lia|]. split; [discriminate|]. intros _. split; [lia|]. apply Forall_forall. intros [|[b e] q'] X; [exact Logic.I|]. specialize (M _ _ _ X). lia.
  - intros E. assert (X : ready = fst (ready, t) /\ t = snd (ready, t)) by (split; reflexivity); rewrite <- E in X; destruct X as [-> ->]; cbn [fst snd].
    split; [lia|]. split; [discriminate|]. intros _. split; [lia|]. unfold empty_at. rewrite Forall_forall in *. intros q X. now rewrite (F q X).
Qed.

Section Poll.
Context (h : heap) (cost : dgram -> Z).
Notation hd := (fun _ : nat => on_readable h).

Lemma takes_load t qs ready qs' : takes t qs ready qs' -> forall lim, t <= lim ->
  load_all cost qs - load_all cost qs' = load_by cost lim qs - load_by cost lim qs'.
Proof.
  unfold load_all, load_by.
  assert (A : forall a b, load cost (a ++ b) = load cost a + load cost b) by (intros a b; induction a as [|x a IH]; cbn [app load fold_right]; [reflexivity|fold (load cost (a ++ b)); fold (load cost a); lia]).
  induction 1 as [|q qs ready qs' _ IH|a d q qs ready qs' L _ IH]; intros lim Hl; [reflexivity| |]; cbn [List.concat]; rewrite !filter_app, !A; specialize (IH lim Hl).
  - lia.
  - cbn [filter fst]. destruct (Z.leb_spec a lim); [|lia]. cbn [load fold_right]. fold (load cost q). fold (load cost (filter (fun e => fst e <=? lim) q)). cbn [app]. lia.
Qed.
Lemma takes_backlog t qs ready qs' : takes t qs ready qs' -> (backlog qs' <= backlog qs)%nat
  /\ ((exists d, In (Some d) ready) -> (backlog qs' < backlog qs)%nat).
Proof.
  unfold backlog. induction 1 as [|q qs ready qs' _ [A B]|a d q qs ready qs' L _ [A B]]; cbn [List.concat]; rewrite ?app_length; cbn [List.length].
  - split; [lia|]. intros (d & []).
  - split; [lia|]. intros (d & [X|X]); [discriminate|]. specialize (B (ex_intro _ d X)). lia.
  - split; [lia|]. intros _. lia.
Qed.
Lemma takes_nothing t qs : takes t qs (map (fun _ => None) qs) qs.
Proof. induction qs; cbn [map]; constructor; assumption. Qed.
Lemma dispatch_nothing {A} (l : list A) : forall i m, dispatch hd i (List.length l) (map (fun _ => None) l) m = (Ok tt, m).
Proof. induction l as [|x l IH]; intros i m; cbn [List.length map dispatch]; [reflexivity|apply IH]. Qed.

Lemma serve_takes t qs : forall m c o m' c' qs' i, serve h cost t qs m c = (o, m', c', qs') ->
  exists ready, takes t qs ready qs' /\ dispatch hd i (List.length qs) ready m = (o, m')
  /\ c' + load_all cost qs' = c + load_all cost qs
  /\ (o = Ok tt -> forall a d q, In ((a, d) :: q) qs -> a <= t -> In (Some d) ready)
  /\ (forall v, o <> Ok v -> exists d, In (Some d) ready).
Proof.
  unfold load_all.
  assert (A : forall a b, load cost (a ++ b) = load cost a + load cost b) by (intros a b; induction a as [|x a IH]; cbn [app load fold_right]; [reflexivity|fold (load cost (a ++ b)); fold (load cost a); lia]).
  induction qs as [|[|[a d] q] r IH]; intros m c o m' c' qs' i E; cbn [serve] in E.
  - exists []. assert (X : (Ok tt, m, c, []) = (o, m', c', qs')) by exact E. assert (o = Ok tt /\ m' = m /\ c' = c /\ qs' = []) as (-> & -> & -> & ->) by (repeat split; congruence).
    split; [constructor|]. split; [reflexivity|]. split; [reflexivity|]. split; [intros _ a d q []|]. intros [] N. now elim N.
  - destruct (serve h cost t r m c) as [[[o1 m1] c1] r1] eqn:S. assert (o1 = o /\ m1 = m' /\ c1 = c' /\ qs' = [] :: r1) as (-> & -> & -> & ->) by (repeat split; congruence).
    destruct (IH _ _ _ _ _ _ (Datatypes.S i) S) as (ready & T & D & L & K & N). exists (None :: ready). split; [constructor; exact T|]. split; [exact D|]. split; [exact L|]. split.
    + intros Ho b e q [X|X] Hb; [discriminate|]. right. eapply K; eauto.
    + intros v Hv. destruct (N v Hv) as [x X]. exists x. now right.
  - destruct (Z.leb_spec a t) as [Le|Le].
    + destruct (on_readable h d m) as [o1 m1] eqn:R. assert (D0 : o1 = Ok tt \/ (forall v, o1 <> Ok v)) by (destruct o1 as [[]| | |]; [now left|right; discriminate..]).
      destruct D0 as [->|D0].
      * destruct (serve h cost t r m1 (c + Z.max 0 (cost d))) as [[[o2 m2] c2] r1] eqn:S. assert (o2 = o /\ m2 = m' /\ c2 = c' /\ qs' = q :: r1) as (-> & -> & -> & ->) by (repeat split; congruence).
        destruct (IH _ _ _ _ _ _ (Datatypes.S i) S) as (ready & T & D & L & K & N). exists (Some d :: ready). split; [constructor; assumption|]. split.
        { cbn [List.length dispatch]. unfold st_bind. rewrite R. exact D. }
        split; [cbn [List.concat]; rewrite !A; cbn [load fold_right snd]; fold (load cost q); lia|]. split.
        -- intros Ho b e q' [X|X] Hb; [left; congruence|]. right. eapply K; eauto.
        -- intros v Hv. exists d. now left.
      * assert (E' : (o1, m1, c + Z.max 0 (cost d), q :: r) = (o, m', c', qs')) by (destruct o1 as [v| | |]; [now elim (D0 v)|exact E..]).
        assert (o1 = o /\ m1 = m' /\ c' = c + Z.max 0 (cost d) /\ qs' = q :: r) as (-> & -> & -> & ->) by (repeat split; congruence).
        exists (Some d :: map (fun _ => None) r). split; [constructor; [exact Le|apply takes_nothing]|]. split.
        { cbn [List.length dispatch]. unfold st_bind. rewrite R. destruct o as [v| | |]; [now elim (D0 v)|reflexivity..]. }
        split; [cbn [List.concat]; rewrite !A; cbn [load fold_right snd]; fold (load cost q); lia|]. split.
        -- intros Ho. now elim (D0 tt).
        -- intros v _. exists d. now left.
    + destruct (serve h cost t r m c) as [[[o1 m1] c1] r1] eqn:S. assert (o1 = o /\ m1 = m' /\ c1 = c' /\ qs' = ((a, d) :: q) :: r1) as (-> & -> & -> & ->) by (repeat split; congruence).
      destruct (IH _ _ _ _ _ _ (Datatypes.S i) S) as (ready & T & D & L & K & N). exists (None :: ready). split; [constructor; exact T|]. split; [exact D|].
      split; [cbn [List.concat]; rewrite !A; lia|]. split.
      * intros Ho b e q' [X|X] Hb; [assert (b = a) by congruence; lia|]. right. eapply K; eauto.
      * intros v Hv. destruct (N v Hv) as [x X]. exists x. now right.
Qed.
Lemma load_nonneg q : 0 <= load cost q.
Proof. induction q as [|x q IH]; cbn [load fold_right]; [lia|]. fold (load cost q). lia. Qed.
Lemma takes_shrinks t qs ready qs' : takes t qs ready qs' -> load_all cost qs' <= load_all cost qs.
Proof.
  unfold load_all.
  assert (A : forall a b, load cost (a ++ b) = load cost a + load cost b) by (intros a b; induction a as [|x a IH]; cbn [app load fold_right]; [reflexivity|fold (load cost (a ++ b)); fold (load cost a); lia]).
  induction 1 as [|q qs ready qs' _ IH|a d q qs ready qs' L _ IH]; cbn [List.concat]; rewrite ?A; [lia..|]. cbn [load fold_right]. fold (load cost q). lia.
Qed.
Lemma drained_mono lim lim' qs rs qs' : lim <= lim' -> drained lim qs rs qs' -> drained lim' qs rs qs'.
Proof. intros L. induction 1 as [qs|t r qs qs1 rs qs' A B C _ IH]; [constructor|]. apply (drained_round lim' t r qs qs1); [exact A|lia|exact C|exact IH]. Qed.
Lemma drained_load lim qs rs qs' : drained lim qs rs qs' -> load_all cost qs - load_all cost qs' = load_by cost lim qs - load_by cost lim qs'.
Proof.
  induction 1 as [qs|t r qs qs1 rs qs' A B C _ IH]; [lia|]. pose proof (takes_load t qs _ qs1 C lim ltac:(lia)). lia.
Qed.

Lemma takes_length t qs ready qs' : takes t qs ready qs' -> List.length qs' = List.length qs.
Proof. induction 1; cbn [List.length]; congruence. Qed.
Lemma poll_ends stop fuel : forall qs m c, (backlog qs < fuel)%nat -> exists o m' c' qs' rs,
  poll h cost fuel stop qs m c = Some (o, m', c', qs')
  /\ drained c' qs rs qs' /\ select_rounds hd (List.length qs) rs SelQuiet m = (o, m')
  /\ c <= c' /\ c' + load_all cost qs' <= Z.max c stop + load_all cost qs
  /\ (o = Ok tt -> empty_at c' qs' /\ stop < c' + 1000000)
  /\ Sorted.StronglySorted Z.le (map sr_now rs) /\ Forall (fun r => c <= sr_now r) rs.
Proof.
  induction fuel as [|fuel IH]; intros qs m c B; [lia|]. cbn [poll]. destruct (select_call stop c qs) as [ready t] eqn:S.
  apply select_cases in S as (T & Rt & Rf). destruct ready.
  - destruct (serve h cost t qs m t) as [[[o1 m1] c1] qs1] eqn:V. destruct (serve_takes _ _ _ _ _ _ _ _ 0 V) as (rd & Tk & D & L & K & N).
    pose proof (takes_shrinks _ _ _ _ Tk) as Sh. pose proof (takes_length _ _ _ _ Tk) as Len.
    assert (D0 : o1 = Ok tt \/ (forall v, o1 <> Ok v)) by (destruct o1 as [[]| | |]; [now left|right; discriminate..]). destruct D0 as [->|D0].
    + destruct (Rt eq_refl) as (a & d & q & I & Le). pose proof (K eq_refl a d q I Le) as Kd. pose proof (proj2 (takes_backlog _ _ _ _ Tk) (ex_intro _ d Kd)) as Bk.
      destruct (IH qs1 m1 c1 ltac:(lia)) as (o & m' & c' & qs' & rs & P & Dr & Se & Lc & Ld & Em & So & Fo).
      exists o, m', c', qs', (mkRound rd c1 :: rs). split; [exact P|]. split; [apply (drained_round c' t _ qs qs1); cbn [sr_now sr_ready]; [lia..|exact Tk|exact Dr]|].
      split; [cbn [select_rounds sr_ready]; unfold st_bind; rewrite D; rewrite Len in Se; exact Se|]. split; [lia|]. split; [lia|]. split; [exact Em|].
      cbn [map sr_now]. split; [constructor; [exact So|apply Forall_map; exact Fo]|]. constructor; [cbn [sr_now]; lia|]. apply Forall_forall. intros r X. rewrite Forall_forall in Fo. apply Fo in X. lia.
    + exists o1, m1, c1, qs1, [mkRound rd c1]. split; [destruct o1 as [v| | |]; [now elim (D0 v)|reflexivity..]|].
      split; [apply (drained_round c1 t _ qs qs1); cbn [sr_now sr_ready]; [lia..|exact Tk|constructor]|].
      split; [cbn [select_rounds sr_ready]; unfold st_bind; rewrite D; destruct o1 as [v| | |]; [now elim (D0 v)|reflexivity..]|].
      split; [lia|]. split; [lia|]. split; [intros X; now elim (D0 tt)|]. split; [cbn [map]; repeat constructor|]. repeat constructor. cbn [sr_now]. lia.
  - exists (Ok tt), m, t, qs, []. destruct (Rf eq_refl) as [A E]. split; [reflexivity|]. split; [constructor|]. split; [reflexivity|]. split; [lia|]. split; [lia|]. split; [auto|]. repeat constructor.
Qed.

Theorem handle_ends timeout env qs m c : List.length qs = List.length (m_socks m) -> m_socks m <> [] ->
  exists o m' c' qs' rs, handle_timed h cost timeout env qs m c = Some (o, m', c', qs')
  /\ handle_connections h rs SelQuiet (env c') m = (o, m')
  /\ drained c' qs rs qs' /\ Sorted.StronglySorted Z.le (map sr_now rs)
  /\ c <= c' /\ c' + load_all cost qs' <= c + Z.max 0 timeout * 1000000 + load_all cost qs
  /\ (o = Ok tt -> empty_at c' qs' /\ c + timeout * 1000000 < c' + 1000000).
Proof.
  intros Hq Hs. destruct (poll_ends (c + timeout * 1000000) (S (backlog qs)) qs m c ltac:(lia)) as (o & m1 & c' & qs' & rs & P & Dr & Se & Lc & Ld & Em & So & _).
  assert (B : bs_select hd (List.length (m_socks m)) rs SelQuiet m = (o, m1)).
  { rewrite <- Hq. unfold bs_select. destruct (List.length qs) eqn:X; [destruct (m_socks m); [now elim Hs|discriminate]|exact Se]. }
  assert (H0 : handle_timed h cost timeout env qs m c = match poll h cost (S (backlog qs)) (c + timeout * 1000000) qs m c with
    | Some (Ok _, m, c, qs) => let '(o, m) := run_ticks (env c) m in Some (o, m, c, qs) | r => r end) by (unfold handle_timed; destruct (m_socks m); [now elim Hs|reflexivity]).
  rewrite P in H0. assert (D0 : o = Ok tt \/ (forall v, o <> Ok v)) by (destruct o as [[]| | |]; [now left|right; discriminate..]).
  assert (Ld' : c' + load_all cost qs' <= c + Z.max 0 timeout * 1000000 + load_all cost qs) by lia.
  destruct D0 as [->|D0].
  - destruct (run_ticks (env c') m1) as [o2 m2] eqn:R. exists o2, m2, c', qs', rs. split; [rewrite H0; reflexivity|]. split; [unfold handle_connections, st_bind; rewrite B; exact R|].
    split; [exact Dr|]. split; [exact So|]. split; [exact Lc|]. split; [exact Ld'|]. intros _. auto.
  - exists o, m1, c', qs', rs. split; [rewrite H0; destruct o as [v| | |]; [now elim (D0 v)|reflexivity..]|].
    split; [unfold handle_connections, st_bind; rewrite B; destruct o as [v| | |]; [now elim (D0 v)|reflexivity..]|].
    split; [exact Dr|]. split; [exact So|]. split; [exact Lc|]. split; [exact Ld'|]. intros X. now elim (D0 tt).
Qed.
End Poll.
