(** Proofs: descriptors. *)
From Coq Require Import Permutation.
From Verif Require Import Base MBuffer SBuffer PBase MEip SEip MSocket MConnReq MConn SConn PConnOpen PIo PConnMap PConnCall PConnCall2 PConnHist PConnTop PLife MFd SFd.
Ltac Zify.zify_post_hook ::= Z.div_mod_to_equations.

(** ** The audit *)
Lemma audit_app a : forall b l, audit (a ++ b) l = match audit a l with Held l' => audit b l' | v => v end.
Proof.
  induction a as [|[fd|fd|fd] a IH]; intros b l; cbn [app audit]; [reflexivity|..]; destruct (in_dec Z.eq_dec fd l); auto.
Qed.
Lemma audit_uses l ds : (forall fd, In fd ds -> In fd l) -> audit (map FUse ds) l = Held l.
Proof.
  induction ds as [|d ds IH]; intros H; cbn [map audit]; [reflexivity|]. destruct (in_dec Z.eq_dec d l) as [_|N]; [|exfalso; apply N, H; now left].
  apply IH. intros fd I. apply H. now right.
Qed.
Lemma audit_destroy fd l : In fd l -> audit (fd_destroy fd) l = Held (List.remove Z.eq_dec fd l).
Proof. intros I. unfold fd_destroy. cbn [audit]. destruct (in_dec Z.eq_dec fd l); [reflexivity|contradiction]. Qed.
Lemma remove_iff x y l : In y (List.remove Z.eq_dec x l) <-> In y l /\ y <> x.
Proof. split; [apply in_remove|intros [A B]; now apply in_in_remove]. Qed.
Lemma remove_nodup x l : NoDup l -> NoDup (List.remove Z.eq_dec x l).
Proof.
  induction 1 as [|y l N D IH]; cbn [List.remove]; [constructor|]. destruct (Z.eq_dec x y); [assumption|]. constructor; [|assumption].
  rewrite remove_iff. tauto.
Qed.
Lemma audit_destroys ds : forall l, NoDup ds -> (forall fd, In fd ds -> In fd l) -> NoDup l ->
  exists l', audit (flat_map fd_destroy ds) l = Held l' /\ NoDup l' /\ forall fd, In fd l' <-> In fd l /\ ~ In fd ds.
Proof.
  induction ds as [|d ds IH]; intros l N H L; cbn [flat_map].
  - exists l. split; [reflexivity|]. split; [assumption|]. cbn [In]. tauto.
  - inv N. rewrite audit_app, audit_destroy by (apply H; now left).
    destruct (IH (List.remove Z.eq_dec d l)) as (l' & E & N' & I); try assumption.
    + intros fd J. apply remove_iff. split; [apply H; now right|]. intros ->. contradiction.
    + now apply remove_nodup.
    + exists l'. split; [assumption|]. split; [assumption|]. intros fd. rewrite I, remove_iff. cbn [In]. intuition congruence.
Qed.

(** ** Erasing the descriptors *)
Lemma rx_erase env ep f o f' ev : rx_socket env ep f = (o, f', ev) ->
  find_or_create_socket (v_bind (plain_env env)) ep (f_m f) = (o, f_m f').
Proof.
  unfold rx_socket, find_or_create_socket, plain_env; cbn [v_bind]. destruct (existsb _ _); [intros E; now inv E|].
  destruct (e_rx env) as [fd|e]; [|intros E; now inv E]. destruct (e_reuse env) as [e|]; [intros E; now inv E|].
  destruct (e_bind env) as [e|]; intros E; inv E; reflexivity.
Qed.
Lemma find_key k c l : map_find k l = Some c -> In k (keys l).
Proof.
  unfold map_find. destruct (find _ _) as [[k' c']|] eqn:F; [|discriminate]. intros _. apply find_some in F as [I E]. cbn [fst] in E.
  apply Z.eqb_eq in E. subst k'. now apply in_keys in I.
Qed.
Lemma answer_erase h env host large c resp g f o g' f' ev : sorted (m_map (f_m f)) ->
  fo_answer_fd h env host large c resp (g, f) = (o, (g', f'), ev) ->
  fo_answer h (plain_env env) host large c resp (g, f_m f) = (o, (g', f_m f')).
Proof.
  intros St E. unfold fo_answer_fd in E. unfold fo_answer. destruct (negb _); [now inv E|].
  change (v_aton (plain_env env)) with (e_aton env). change (v_now (plain_env env)) with (e_now env).
  destruct (fo_expand h (r_data resp)) as [r|?|?|]; cbn [bind] in *; [|now inv E..].
  destruct (fo_multiplier _) as [mult|?|?|]; cbn [bind] in *; [|now inv E..].
  destruct (fo_dest _ _ _ _) as [dest|?|?|]; cbn [bind] in *; [|now inv E..].
  unfold plain_env at 1; cbn [v_udp]. destruct (e_udp env) as [fd|e]; cbn [checked bind]; [|now inv E].
  destruct (rx_socket _ _ f) as [[o1 f1] ev1] eqn:R. pose proof R as R0. apply rx_erase in R0. rewrite R0.
  destruct o1 as [[]|?|?|]; [|now inv E..].
  destruct (map_find _ _) as [d|] eqn:F; inv E; [|reflexivity].
  assert (Em : m_map (f_m f') = m_map (f_m f)).
  { clear -R. unfold rx_socket in R. destruct (existsb _ _); [now inv R|]. destruct (e_rx env); [|now inv R]. destruct (e_reuse env); [now inv R|].
    destruct (e_bind env); now inv R. }
  rewrite insert_same; [now destruct (f_m f')|rewrite Em; assumption|eapply find_key; eauto].
Qed.
Lemma open_erase {S} h use8 (si : session_if S) host env large c g f s o g' f' s' ev : sorted (m_map (f_m f)) ->
  forward_open_fd h use8 si host env large c (g, f, s) = (o, (g', f', s'), ev) ->
  forward_open h use8 si host (plain_env env) large c (g, f_m f, s) = (o, (g', f_m f', s')).
Proof.
  intros St E. unfold forward_open_fd in E. unfold forward_open. destruct (fo_prepare _ _ _ _) as [[c1 g1]|?|?|]; [|now inv E..].
  destruct (fo_request _ _) as [data|?|?|]; [|now inv E..]. destruct (send_request _ _ _ _ _ _ _ _) as [[resp|?|?|] s1]; [|now inv E..].
  destruct (fo_answer_fd _ _ _ _ _ _ _) as [[o1 [g2 f2]] ev2] eqn:A. inv E. apply answer_erase in A; [|assumption]. now rewrite A.
Qed.
Lemma dispatch_erase h : forall rx ready m i, exists ev,
  dispatch_fd h rx ready m = (fst (dispatch (fun _ => on_readable h) i (List.length rx) ready m), snd (dispatch (fun _ => on_readable h) i (List.length rx) ready m), ev)
  /\ forall e, In e ev -> exists fd, e = FUse fd /\ In fd rx.
Proof.
  induction rx as [|fd rx IH]; intros ready m i; cbn [dispatch_fd dispatch List.length].
  - exists []. split; [reflexivity|intros e []].
  - destruct ready as [|[d|] r]; [exists []; split; [reflexivity|intros e []]| |].
    + unfold st_bind at 1 2. destruct (on_readable h d m) as [[[]|?|?|] m1]; cbn [fst snd];
        [|eexists; split; [reflexivity|]; intros ee [<-|[]]; exists fd; cbn; auto..].
      destruct (IH r m1 (Datatypes.S i)) as (ev & E & U). rewrite E. eexists. split; [reflexivity|].
      intros ee [<-|J]; [exists fd; cbn; auto|]. destruct (U ee J) as (x & -> & X). exists x. cbn; auto.
    + destruct (IH r m (Datatypes.S i)) as (ev & E & U). rewrite E. eexists. split; [reflexivity|].
      intros e J. destruct (U e J) as (x & -> & X). exists x. cbn; auto.
Qed.
Lemma select_erase h rx ending : forall rounds m, exists ev,
  select_fd h rx rounds ending m = (fst (select_rounds (fun _ => on_readable h) (List.length rx) rounds ending m),
                                    snd (select_rounds (fun _ => on_readable h) (List.length rx) rounds ending m), ev)
  /\ forall e, In e ev -> exists fd, e = FUse fd /\ In fd rx.
Proof.
  assert (M : forall e, In e (map FUse rx) -> exists fd, e = FUse fd /\ In fd rx).
  { intros e J. apply in_map_iff in J as (fd & <- & J). eauto. }
  induction rounds as [|r rs IH]; intros m; cbn [select_fd select_rounds].
  - destruct ending; eexists; split; try reflexivity; exact M.
  - destruct (dispatch_erase h rx (sr_ready r) m 0) as (ev & E & U). rewrite E. unfold st_bind.
    destruct (dispatch _ _ _ _ m) as [[[]|?|?|] m1]; cbn [fst snd];
      [|eexists; split; [reflexivity|]; intros ee J; apply in_app_or in J as [J|J]; auto..].
    destruct (IH m1) as (ev2 & E2 & U2). rewrite E2. eexists. split; [reflexivity|].
    intros e J. apply in_app_or in J as [J|J]; [auto|]. apply in_app_or in J as [J|J]; auto.
Qed.
Lemma handle_erase h rounds ending env f o f' ev : List.length (f_rx f) = List.length (m_socks (f_m f)) -> settable (f_rx f) = true ->
  handle_fd h rounds ending env f = (o, f', ev) -> handle_connections h rounds ending env (f_m f) = (o, f_m f').
Proof.
  intros L Se E. unfold handle_fd in E. unfold handle_connections, st_bind, bs_select. rewrite <- L.
  destruct (f_rx f) as [|fd rx] eqn:Er; [inv E; reflexivity|]. rewrite <- Er in *. rewrite Se in E. cbn [negb] in E.
  destruct (select_erase h (f_rx f) ending rounds (f_m f)) as (ev1 & E1 & _). rewrite E1 in E. clear E1.
  replace (match List.length (f_rx f) with 0%nat => _ | S _ => select_rounds (fun _ => on_readable h) (List.length (f_rx f)) rounds ending end)
    with (select_rounds (fun _ : nat => on_readable h) (List.length (f_rx f)) rounds ending) by (rewrite Er; reflexivity).
  destruct (select_rounds _ _ _ _ (f_m f)) as [[[]|?|?|] m1]; cbn [fst snd] in E; [|inv E; reflexivity..].
  destruct (run_ticks env m1) as [o2 m2]. destruct (ticks env (m_map m1)) as [[? ?] ?]. inv E. reflexivity.
Qed.

(** ** The descriptors of one manager *)
Definition fds (f : fmgr) : list Z := f_rx f ++ map (f_conn f) (oids (m_map (f_m f))).

Lemma partition_perm {A} (p : A -> bool) l : Permutation l (filter p l ++ filter (fun x => negb (p x)) l).
Proof.
  induction l as [|x l IH]; cbn [filter]; [constructor|]. destruct (p x); cbn [negb app]; [now constructor|].
  now apply Permutation_cons_app.
Qed.
Lemma map_filter_key {A B} (f : A -> B) (p : A -> bool) (q : B -> bool) l : (forall x, p x = q (f x)) -> map f (filter p l) = filter q (map f l).
Proof. intros H. induction l as [|x l IH]; cbn [filter map]; [reflexivity|]. rewrite H. destruct (q (f x)); cbn [map]; congruence. Qed.
Definition shrunk (l l' : list (Z * iocon)) : Prop := exists pk : Z -> bool, statics l' = filter (fun e => pk (fst e)) (statics l).
Lemma shrunk_perm l l' : shrunk l l' -> Permutation (oids l) (oids l' ++ oids (gone l l')).
Proof.
  intros [pk E].
  assert (F : statics l' = statics (filter (fun e => pk (fst e)) l)).
  { rewrite E. unfold statics. symmetry. now apply map_filter_key. }
  rewrite (statics_oids _ _ F). apply statics_keys in F.
  assert (G : gone l l' = filter (fun e => negb (pk (fst e))) l).
  { unfold gone. apply filter_ext_in. intros [k c] I. cbn [fst]. f_equal.
    assert (X : existsb (fun e' => fst e' =? k) l' = true <-> In k (keys l')).
    { rewrite existsb_exists. unfold keys. rewrite in_map_iff. split; intros (e & A & B); exists e; [apply Z.eqb_eq in B|]; auto. split; [assumption|]. now apply Z.eqb_eq. }
    rewrite F in X. destruct (pk k) eqn:P.
    - apply X. unfold keys. apply in_map_iff. exists (k, c). split; [reflexivity|]. apply filter_In. auto.
    - destruct (existsb _ _); [|reflexivity]. exfalso. pose proof (proj1 X eq_refl) as Y. unfold keys in Y. apply in_map_iff in Y as ([k1 c1] & E1 & Y).
      cbn [fst] in E1. subst k1. apply filter_In in Y as [_ Y]. cbn [fst] in Y. congruence. }
  rewrite G. unfold oids. rewrite <- map_app. apply Permutation_map, partition_perm.
Qed.
Lemma shrunk_same l l' : statics l' = statics l -> shrunk l l'.
Proof. intros E. exists (fun _ => true). rewrite E. clear E. induction (statics l) as [|e r IH]; cbn [filter]; congruence. Qed.
Lemma shrunk_erase l k : shrunk l (map_erase k l).
Proof. exists (fun x => negb (x =? k)). unfold statics, map_erase. now apply map_filter_key. Qed.
Lemma shrunk_fold ks : forall l, shrunk l (fold_left (fun l k => map_erase k l) ks l).
Proof.
  induction ks as [|k ks IH]; intros l; cbn [fold_left]; [now apply shrunk_same|].
  destruct (IH (map_erase k l)) as [pk E]. destruct (shrunk_erase l k) as [pk2 E2]. exists (fun x => pk2 x && pk x). rewrite E, E2.
  clear. induction (statics l) as [|[x y] r IH]; [reflexivity|]. cbn [filter fst]. destruct (pk2 x); cbn [andb filter fst]; [destruct (pk x)|]; congruence.
Qed.
Lemma shrunk_ticks env m : shrunk (m_map m) (m_map (snd (run_ticks env m))).
Proof.
  unfold run_ticks. pose proof (ticks_static env (m_map m)) as T. destruct (ticks env (m_map m)) as [[res l'] ev].
  destruct res as [ks|?|?|]; cbn [snd]; [|now apply shrunk_same..]. cbn [set_map add_log m_map].
  destruct (shrunk_fold ks l') as [pk E]. exists pk. now rewrite E, T.
Qed.
Lemma ticks_sent env : forall l oid d p, In (EvSent oid d p) (snd (ticks env l)) -> In oid (oids l).
Proof.
  induction l as [|[k c] l IH]; intros oid d p; cbn [ticks]; [intros []|]. cbv zeta.
  assert (T : forall o x y, In (EvSent o x y) (snd (io_tick (t_now env (io_oid c)) (t_hook env (io_oid c)) (t_send env (io_oid c)) c)) -> o = io_oid c).
  { intros o x y. unfold io_tick. cbv zeta. destruct (_ <? _); [intros [E|[]]; discriminate|]. destruct (_ <=? _); [|intros []].
    destruct (_ && _); [intros []|]. intros [E|[]]. now inv E. }
  destruct (io_tick _ _ _ _) as [[res c'] ev]; cbn [snd] in T. cbn [oids map snd In].
  destruct res as [b|?|?|]; cbn [snd]; [|intros J; left; symmetry; eapply T; exact J..].
  specialize (IH oid d p). destruct (ticks env l) as [[res' l'] ev']. cbn [snd] in *. intros J. apply in_app_or in J as [J|J]; [left; symmetry; eapply T; exact J|].
  right. now apply IH.
Qed.

Definition good (f : fmgr) (l : list Z) (f' : fmgr) (ev : list fdev) : Prop :=
  audit ev l = Reused \/ exists l', audit ev l = Held l' /\ NoDup l' /\ NoDup (fds f')
    /\ (forall fd, In fd l' <-> In fd (fds f') \/ In fd l /\ ~ In fd (fds f))
    /\ (forall fd, In fd (fds f') -> In fd l -> In fd (fds f)).
Lemma audit_only l ev : (forall e, In e ev -> exists fd, e = FUse fd /\ In fd l) -> audit ev l = Held l.
Proof.
  induction ev as [|e ev IH]; intros H; cbn [audit]; [reflexivity|]. destruct (H e (or_introl eq_refl)) as (fd & -> & I).
  destruct (in_dec Z.eq_dec fd l); [|contradiction]. apply IH. intros e J. apply H. now right.
Qed.
Lemma good_same f l f' ev : NoDup l -> NoDup (fds f) -> incl (fds f) l -> fds f' = fds f ->
  (forall e, In e ev -> exists fd, e = FUse fd /\ In fd (fds f)) -> good f l f' ev.
Proof.
  intros L N I E U. right. exists l. split; [|split; [assumption|split; [congruence|split]]].
  - apply audit_only. intros e J. destruct (U e J) as (fd & A & B). exists fd. auto.
  - intros fd. rewrite E. destruct (in_dec Z.eq_dec fd (fds f)) as [Y|Y]; [specialize (I fd Y)|]; tauto.
  - intros fd. rewrite E. auto.
Qed.
Lemma nodup_app_l {A} (a b : list A) : NoDup (a ++ b) -> NoDup a.
Proof. induction a as [|x a IH]; cbn [app]; intros N; [constructor|]. inv N. constructor; [|auto]. intros I. apply H1, in_or_app. auto. Qed.
Lemma nodup_app_r {A} (a b : list A) : NoDup (a ++ b) -> NoDup b.
Proof. induction a as [|x a IH]; cbn [app]; intros N; [assumption|]. inv N. auto. Qed.
Lemma nodup_app_not {A} (a b : list A) x : NoDup (a ++ b) -> In x a -> ~ In x b.
Proof. induction a as [|y a IH]; cbn [app]; intros N; [intros []|]. inv N. intros [->|I]; [|auto]. intros J. apply H1, in_or_app. auto. Qed.
Lemma good_shrunk f l f' l1 uses : NoDup l -> NoDup (fds f) -> incl (fds f) l ->
  f_rx f' = f_rx f -> f_conn f' = f_conn f -> statics l1 = statics (m_map (f_m f)) -> shrunk l1 (m_map (f_m f')) ->
  (forall e, In e uses -> exists fd, e = FUse fd /\ In fd (fds f)) ->
  good f l f' (uses ++ destroyed f (gone l1 (m_map (f_m f')))).
Proof.
  intros L N I Er Ec Es Sh U. apply shrunk_perm in Sh. rewrite (statics_oids _ _ Es) in Sh.
  set (D := map (f_conn f) (oids (gone l1 (m_map (f_m f'))))).
  assert (P : Permutation (fds f) (fds f' ++ D)).
  { unfold fds, D. rewrite Er, Ec, <- app_assoc, <- map_app. apply Permutation_app_head, Permutation_map. exact Sh. }
  assert (N2 : NoDup (fds f' ++ D)) by (eapply Permutation_NoDup; eauto).
  assert (Q : forall fd, In fd (fds f) <-> In fd (fds f') \/ In fd D).
  { intros fd. rewrite <- in_app_iff. split; apply Permutation_in; [|symmetry]; assumption. }
  right. rewrite audit_app, (audit_only l uses) by (intros e J; destruct (U e J) as (fd & A & B); exists fd; auto).
  replace (destroyed f (gone l1 (m_map (f_m f')))) with (flat_map fd_destroy D).
  2:{ unfold destroyed, D, oids. rewrite map_map. generalize (gone l1 (m_map (f_m f'))). intros q. induction q as [|e q IH]; cbn [map flat_map]; congruence. }
  destruct (audit_destroys D l) as (l' & A & B & C); [eapply nodup_app_r; eauto|intros fd J; apply I, Q; auto|assumption|].
  exists l'. split; [assumption|]. split; [assumption|]. split; [eapply nodup_app_l; eauto|]. split.
  - intros fd. rewrite C, Q. pose proof (nodup_app_not _ _ fd N2). specialize (I fd). rewrite Q in I. destruct (in_dec Z.eq_dec fd (fds f')); tauto.
  - intros fd J _. apply Q. auto.
Qed.

(** ** One call *)
Lemma handle_good h rounds ending env f o f' ev g l : mgr_inv g (f_m f) -> List.length (f_rx f) = List.length (m_socks (f_m f)) ->
  handle_fd h rounds ending env f = (o, f', ev) ->
  (NoDup l -> NoDup (fds f) -> incl (fds f) l -> good f l f' ev) /\ m_socks (f_m f') = m_socks (f_m f) /\ f_rx f' = f_rx f /\ mgr_inv g (f_m f').
Proof.
  intros Iv Le E. unfold handle_fd in E.
  assert (X : forall f' ev, f' = f -> ev = [] -> (NoDup l -> NoDup (fds f) -> incl (fds f) l -> good f l f' ev) /\ m_socks (f_m f') = m_socks (f_m f) /\ f_rx f' = f_rx f /\ mgr_inv g (f_m f')).
  { intros f1 ev1 -> ->. split; [intros L N I|auto]. apply good_same; auto. intros e []. }
  destruct (f_rx f) as [|fd0 rx] eqn:Er; [inv E; apply X; reflexivity|]. rewrite <- Er in *.
  destruct (negb (settable (f_rx f))); [inv E; apply X; reflexivity|]. clear X.
  destruct (select_erase h (f_rx f) ending rounds (f_m f)) as (ev1 & E1 & U). rewrite E1 in E. clear E1.
  pose proof (select_quiet g h rounds ending (f_m f) Iv) as Q. rewrite <- Le in Q. unfold bs_select in Q.
  replace (match List.length (f_rx f) with 0%nat => _ | S _ => select_rounds (fun _ => on_readable h) (List.length (f_rx f)) rounds ending end)
    with (select_rounds (fun _ : nat => on_readable h) (List.length (f_rx f)) rounds ending) in Q by (rewrite Er; reflexivity).
  assert (U' : forall e, In e ev1 -> exists fd, e = FUse fd /\ In fd (fds f)).
  { intros e J. destruct (U e J) as (fd & A & B). exists fd. split; [assumption|]. unfold fds. apply in_or_app. auto. }
  destruct (select_rounds _ _ _ _ (f_m f)) as [o1 m1]. cbn [fst snd] in *. destruct Q as (Qs & Qk & Qi & _).
  assert (I1 : mgr_inv g m1) by (eapply statics_inv; eauto).
  assert (X : (NoDup l -> NoDup (fds f) -> incl (fds f) l -> good f l (with_m f m1) ev1) /\ m_socks m1 = m_socks (f_m f) /\ f_rx (with_m f m1) = f_rx f /\ mgr_inv g m1).
  { split; [intros L N I|split; [exact Qk|split; [reflexivity|exact I1]]]. apply good_same; auto. unfold fds. cbn [with_m f_m f_conn f_rx]. now rewrite (statics_oids _ _ Qs). }
  destruct o1 as [[]|?|?|]; [|inv E; exact X..]. clear X.
  pose proof (shrunk_ticks env m1) as Sh. pose proof (run_ticks_inv g env m1 I1) as I2.
  assert (Sk : m_socks (snd (run_ticks env m1)) = m_socks m1).
  { unfold run_ticks. destruct (ticks env (m_map m1)) as [[[]]]; reflexivity. }
  destruct (run_ticks env m1) as [o2 m2]. cbn [snd] in *.
  pose proof (ticks_sent env (m_map m1)) as Se. destruct (ticks env (m_map m1)) as [[res lt] sent]. cbn [snd] in Se. inv E.
  split; [intros L N I|split; [cbn [with_m f_m]; congruence|split; [reflexivity|exact I2]]].
  rewrite app_assoc. apply (good_shrunk f l (with_m f m2) (m_map m1)); auto.
  intros e J. apply in_app_or in J as [J|J]; [auto|]. apply in_flat_map in J as (x & J1 & J2). destruct x as [?| |oid d p]; cbn [sending] in J2; try contradiction.
  destruct J2 as [<-|[]]. exists (f_conn f oid). split; [reflexivity|]. unfold fds. apply in_or_app. right. apply in_map.
  rewrite <- (statics_oids _ _ Qs). eapply Se; eauto.
Qed.
Lemma close_shrunk {S} h use8 (si : session_if S) p m (s : S) o m' s' : forward_close h use8 si p (m, s) = (o, (m', s')) ->
  shrunk (m_map m) (m_map m') /\ m_socks m' = m_socks m.
Proof.
  unfold forward_close. destruct p as [c|]; [|intros E; inv E; split; [now apply shrunk_same|reflexivity]].
  destruct (send_request _ _ _ _ _ _ _ _) as [[r|?|?|] s1]; intros E; inv E; (split; [|reflexivity]); [|now apply shrunk_same..].
  apply shrunk_erase.
Qed.
Lemma rx_good env ep f o f' ev have : NoDup have -> rx_socket env ep f = (o, f', ev) ->
  audit ev have = Reused \/ exists new, audit ev have = Held (new ++ have) /\ NoDup (new ++ have) /\ f_rx f' = f_rx f ++ new
    /\ f_conn f' = f_conn f /\ m_map (f_m f') = m_map (f_m f) /\ m_inc (f_m f') = m_inc (f_m f) /\ (List.length (m_socks (f_m f')) = List.length (m_socks (f_m f)) + List.length new)%nat.
Proof.
  intros N E. unfold rx_socket in E. cbv zeta in E.
  assert (X : forall f' ev, f' = f -> ev = [] -> audit ev have = Reused \/ exists new, audit ev have = Held (new ++ have) /\ NoDup (new ++ have) /\ f_rx f' = f_rx f ++ new
    /\ f_conn f' = f_conn f /\ m_map (f_m f') = m_map (f_m f) /\ m_inc (f_m f') = m_inc (f_m f) /\ (List.length (m_socks (f_m f')) = List.length (m_socks (f_m f)) + List.length new)%nat).
  { intros f1 ev1 -> ->. right. exists []. cbn [app audit List.length]. rewrite app_nil_r. repeat split; auto. }
  destruct (existsb _ _); [inv E; apply X; reflexivity|]. destruct (e_rx env) as [fd|e]; [|inv E; apply X; reflexivity]. clear X.
  destruct (in_dec Z.eq_dec fd have) as [J|J].
  { left. destruct (e_reuse env); [inv E|destruct (e_bind env); inv E]; cbn [audit]; destruct (in_dec Z.eq_dec fd have); tauto. }
  assert (Rm : List.remove Z.eq_dec fd (fd :: have) = have).
  { cbn [List.remove]. destruct (Z.eq_dec fd fd); [|congruence]. now apply notin_remove. }
  right. destruct (e_reuse env); [|destruct (e_bind env)]; inv E; cbn [fd_destroy audit];
    (destruct (in_dec Z.eq_dec fd have); [contradiction|]); (destruct (in_dec Z.eq_dec fd (fd :: have)) as [_|Y]; [|exfalso; apply Y; now left]).
  - rewrite Rm. exists []. rewrite app_nil_r. cbn. repeat split; auto.
  - rewrite Rm. exists []. rewrite app_nil_r. cbn. repeat split; auto.
  - exists [fd]. split; [reflexivity|]. split; [now constructor|]. split; [reflexivity|]. split; [reflexivity|]. split; [reflexivity|]. split; [reflexivity|].
    cbn [f_m m_socks]. now rewrite app_length.
Qed.
Lemma insert_oids k c l : ~ In k (keys l) -> Permutation (oids (map_insert k c l)) (io_oid c :: oids l).
Proof.
  induction l as [|[k' c'] l IH]; intros N; cbn [map_insert]; [reflexivity|]. destruct (k <? k'); [reflexivity|].
  destruct (Z.eqb_spec k k') as [->|]; [exfalso; apply N; now left|]. cbn [oids map snd]. fold (oids (map_insert k c l)) (oids l).
  rewrite IH by (intros J; apply N; now right). apply perm_swap.
Qed.
Lemma rx_len env ep f o f' ev : List.length (f_rx f) = List.length (m_socks (f_m f)) -> rx_socket env ep f = (o, f', ev) ->
  List.length (f_rx f') = List.length (m_socks (f_m f')).
Proof.
  intros Le R. unfold rx_socket in R. cbv zeta in R. destruct (existsb _ _); [now inv R|]. destruct (e_rx env); [|now inv R]. destruct (e_reuse env); [now inv R|].
      destruct (e_bind env); inv R; [assumption|]. cbn [f_rx f_m m_socks]. rewrite !app_length. cbn [List.length]. congruence.
Qed.
Lemma answer_len h env host large c resp g f o g' f' ev : List.length (f_rx f) = List.length (m_socks (f_m f)) ->
  fo_answer_fd h env host large c resp (g, f) = (o, (g', f'), ev) -> List.length (f_rx f') = List.length (m_socks (f_m f')).
Proof.
  intros Le E. unfold fo_answer_fd in E. destruct (negb _); [now inv E|].
  destruct (fo_expand h (r_data resp)) as [r|?|?|]; cbn [bind] in E; [|now inv E..].
  destruct (fo_multiplier _) as [mult|?|?|]; cbn [bind] in E; [|now inv E..].
  destruct (fo_dest _ _ _ _) as [dest|?|?|]; cbn [bind] in E; [|now inv E..].
  destruct (e_udp env) as [fd|e]; [|now inv E]. cbv zeta in E.
  destruct (rx_socket _ _ f) as [[o1 f1] ev1] eqn:R. apply rx_len in R; [|assumption].
  destruct o1 as [[]|?|?|]; [destruct (map_find _ _)|..]; now inv E.
Qed.
Lemma answer_good h env host large c resp g f o g' f' ev l : mgr_inv g (f_m f) -> List.length (f_rx f) = List.length (m_socks (f_m f)) ->
  NoDup l -> NoDup (fds f) -> incl (fds f) l -> fo_answer_fd h env host large c resp (g, f) = (o, (g', f'), ev) ->
  good f l f' ev /\ List.length (f_rx f') = List.length (m_socks (f_m f')).
Proof.
  intros Iv Le L N I E. unfold fo_answer_fd in E.
  assert (X : forall f' ev, f' = f -> ev = [] -> good f l f' ev /\ List.length (f_rx f') = List.length (m_socks (f_m f'))).
  { intros f1 ev1 -> ->. split; [|auto]. apply good_same; auto. intros e []. }
  destruct (negb _); [inv E; apply X; reflexivity|].
  destruct (fo_expand h (r_data resp)) as [r|?|?|]; cbn [bind] in E; [|inv E; apply X; reflexivity..].
  destruct (fo_multiplier _) as [mult|?|?|]; cbn [bind] in E; [|inv E; apply X; reflexivity..].
  destruct (fo_dest _ _ _ _) as [dest|?|?|]; cbn [bind] in E; [|inv E; apply X; reflexivity..].
  destruct (e_udp env) as [fd|e]; [|inv E; apply X; reflexivity]. cbv zeta in E. clear X.
  destruct (rx_socket _ _ f) as [[o1 f1] ev1] eqn:R.
  destruct (in_dec Z.eq_dec fd l) as [J|J].
  { assert (Y : forall r, audit (FOpen fd :: r) l = Reused) by (intros; cbn [audit]; destruct (in_dec Z.eq_dec fd l); tauto).
    assert (LL : List.length (f_rx f1) = List.length (m_socks (f_m f1))).
    { eapply rx_len; eauto. }
    destruct o1 as [[]|?|?|]; [destruct (map_find _ _)|..]; inv E; (split; [left; apply Y|exact LL]). }
  assert (F : forall r, audit (FOpen fd :: r) l = audit r (fd :: l)) by (intros; cbn [audit]; destruct (in_dec Z.eq_dec fd l); tauto).
  assert (N1 : NoDup (fd :: l)) by now constructor.
  destruct (rx_good _ _ _ _ _ _ (fd :: l) N1 R) as [B|(new & B & Nn & Rx & Co & Mm & _ & Ls)].
  { assert (LL : List.length (f_rx f1) = List.length (m_socks (f_m f1))).
    { eapply rx_len; eauto. }
    destruct o1 as [[]|?|?|]; [destruct (map_find _ _)|..]; inv E; (split; [left; rewrite F, ?audit_app, B; reflexivity|exact LL]). }
  assert (LL : List.length (f_rx f1) = List.length (m_socks (f_m f1))) by (rewrite Rx, app_length; lia).
  assert (Fr : forall x, In x new -> ~ In x l /\ x <> fd).
  { intros x Jx. pose proof (nodup_app_not _ _ x Nn Jx) as Y. cbn [In] in Y. intuition congruence. }
  assert (P1 : Permutation (fds f1) (new ++ fds f)).
  { unfold fds. rewrite Rx, Co, Mm. rewrite (Permutation_app_comm (f_rx f) new), <- app_assoc. reflexivity. }
  assert (Nf : NoDup (new ++ fds f)).
  { apply nodup_app; [eapply nodup_app_l; eauto|assumption|]. intros x Jx Jy. exact (proj1 (Fr x Jx) (I x Jy)). }
  assert (Destroyed : good f l f1 (FOpen fd :: ev1 ++ fd_destroy fd)).
  { right. rewrite F, audit_app, B, audit_destroy by (apply in_or_app; right; now left).
    exists (List.remove Z.eq_dec fd (new ++ fd :: l)). split; [reflexivity|]. split; [now apply remove_nodup|].
    split; [eapply Permutation_NoDup; [symmetry; exact P1|exact Nf]|].
    assert (Q : forall x, In x (fds f1) <-> In x new \/ In x (fds f)) by (intros x; rewrite <- in_app_iff; split; apply Permutation_in; [|symmetry]; assumption).
    split.
    - intros x. rewrite remove_iff, in_app_iff, Q. cbn [In]. specialize (Fr x). specialize (I x). destruct (in_dec Z.eq_dec x (fds f)); intuition congruence.
    - intros x Jx Jl. apply Q in Jx as [Jx|Jx]; [exfalso; exact (proj1 (Fr x Jx) Jl)|assumption]. }
  destruct o1 as [[]|?|?|]; [|inv E; split; [exact Destroyed|exact LL]..].
  destruct (map_find _ _) as [d|] eqn:Mf; inv E; (split; [|exact LL]); [exact Destroyed|]. clear Destroyed.
  set (io := fo_connection _ _ _ _ _ _ _). set (k := u16 _) in *.
  assert (P2 : Permutation (fds (mkFm (set_map (f_m f1) (map_insert k io (m_map (f_m f1)))) (update (f_conn f1) (g_oid g) fd) (f_rx f1))) (fd :: fds f1)).
  { unfold fds. cbn [f_rx f_conn f_m set_map m_map].
    rewrite (Permutation_map (update (f_conn f1) (g_oid g) fd) (insert_oids k io (m_map (f_m f1)) ltac:(rewrite <- find_none; exact Mf))).
    cbn [map]. change (io_oid io) with (g_oid g). unfold update at 1. rewrite Nat.eqb_refl. rewrite <- Permutation_middle. apply perm_skip, Permutation_app_head.
    apply Permutation_refl'. apply map_ext_in. intros oid Jo. unfold update. destruct (Nat.eqb_spec oid (g_oid g)) as [->|]; [|reflexivity]. exfalso.
    rewrite Mm in Jo. unfold oids in Jo. apply in_map_iff in Jo as ([k1 c1] & E1 & Jo). cbn [snd] in E1. apply (mi_fresh _ _ Iv) in Jo. lia. }
  set (f2 := mkFm _ _ _) in *.
  assert (P3 : Permutation (fds f2) (fd :: new ++ fds f)) by (rewrite P2; now apply perm_skip).
  assert (Q : forall x, In x (fds f2) <-> x = fd \/ In x new \/ In x (fds f)).
  { intros x. rewrite <- in_app_iff. split; intros Jx; [apply (Permutation_in _ P3) in Jx; destruct Jx; auto|]. apply (Permutation_in _ (Permutation_sym P3)). destruct Jx; [left|right]; auto. }
  right. rewrite F, B. exists (new ++ fd :: l). split; [reflexivity|]. split; [assumption|]. split.
  { eapply Permutation_NoDup; [symmetry; exact P3|]. constructor; [|assumption]. intros Jx. apply in_app_or in Jx as [Jx|Jx]; [exact (proj2 (Fr fd Jx) eq_refl)|]. exact (J (I fd Jx)). }
  split.
  - intros x. rewrite in_app_iff, Q. cbn [In]. specialize (I x). destruct (in_dec Z.eq_dec x (fds f)); intuition congruence.
  - intros x Jx Jl. apply Q in Jx as [->|[Jx|Jx]]; [contradiction|exfalso; exact (proj1 (Fr x Jx) Jl)|assumption].
Qed.

Definition basic (g : globals) (f : fmgr) : Prop := mgr_inv g (f_m f) /\ List.length (f_rx f) = List.length (m_socks (f_m f)).
Lemma call_basic {S} h (op : fcall S) g f s o g' f' s' ev : basic g f -> call_fd h op (g, f, s) = (o, (g', f', s'), ev) ->
  basic g' f' /\ (g_oid g <= g_oid g')%nat.
Proof.
  intros [Iv Le] E. destruct op as [use8 si host env large c|use8 si oid|rounds ending env|oid d|inc]; cbn [call_fd] in E.
  - pose proof E as E0. apply open_erase in E0; [|exact (mi_sorted _ _ Iv)]. apply (open_inv _ _ _ _ _ _ _ _ _ _ _ _ _ _ Iv) in E0 as [I' Lo].
    split; [|assumption]. split; [assumption|]. unfold forward_open_fd in E.
    destruct (fo_prepare _ _ _ _) as [[c1 g1]|?|?|]; [|now inv E..].
    destruct (fo_request _ _) as [data|?|?|]; [|now inv E..]. destruct (send_request _ _ _ _ _ _ _ _) as [[resp|?|?|] s1]; [|now inv E..].
    destruct (fo_answer_fd _ _ _ _ _ _ _) as [[o1 [g2 f2]] ev2] eqn:A. inv E. eapply answer_len; eauto.
  - destruct (forward_close h use8 si (lock oid (f_m f)) (f_m f, s)) as [o1 [m1 s1]] eqn:F. inv E. cbn [with_m f_m f_rx].
    assert (C : call_mgr h (CClose use8 si oid) (g', f_m f, s) = (omap (fun _ => None) o1, (g', m1, s'))) by (cbn [call_mgr]; now rewrite F).
    apply call_inv in C as [I' Lo]; [|assumption]. apply close_shrunk in F as [_ F]. split; [|assumption]. split; [assumption|]. cbn [with_m f_m f_rx]. now rewrite F.
  - destruct (handle_fd h rounds ending env f) as [[o1 f1] ev1] eqn:F. inv E. destruct (handle_good h rounds ending env f _ _ _ g' [] Iv Le F) as (_ & A & B & C).
    split; [|lia]. split; [assumption|congruence].
  - inv E. split; [|lia]. split; [|exact Le]. cbn [with_m f_m]. eapply statics_inv; [exact Iv|]. unfold set_output. cbn [set_map m_map]. apply output_statics.
  - inv E. split; [|lia]. split; [apply inv_new|reflexivity].
Qed.
Lemma prepare_oid large inc c g c' g' : fo_prepare large inc c g = Ok (c', g') -> (g_oid g <= g_oid g')%nat.
Proof.
  unfold fo_prepare. intros E. apply bind_Ok in E as ([serial g1] & A & E).
  assert (H1 : g_oid g1 = g_oid g) by (unfold next_serial in A; destruct (_ =? _) in A; [discriminate|]; inv A; reflexivity).
  destruct (_ =? MULTICAST); [destruct (next_o2t inc g1) as [a g2] eqn:B|];
    [assert (H2 : g_oid g2 = g_oid g1) by (unfold next_o2t in B; inv B; reflexivity)|];
    (destruct (_ =? P2P); [match type of E with context [next_t2o inc ?x] => destruct (next_t2o inc x) as [b g3] eqn:C end;
      match type of C with next_t2o inc ?x = _ => assert (H3 : g_oid g3 = g_oid x) by (unfold next_t2o in C; inv C; reflexivity) end|]); cbv zeta in E; inv E; lia.
Qed.
Lemma call_good {S} h (op : fcall S) g f s o g' f' s' ev l : basic g f -> NoDup l -> NoDup (fds f) -> incl (fds f) l ->
  call_fd h op (g, f, s) = (o, (g', f', s'), ev) -> good f l f' ev.
Proof.
  intros [Iv Le] L N I E. destruct op as [use8 si host env large c|use8 si oid|rounds ending env|oid d|inc]; cbn [call_fd] in E.
  - assert (X : forall f' ev, f' = f -> ev = [] -> good f l f' ev).
    { intros f1 ev1 -> ->. apply good_same; auto. intros e []. }
    unfold forward_open_fd in E.
    destruct (fo_prepare _ _ _ _) as [[c1 g1]|?|?|] eqn:Pr; [|inv E; apply X; reflexivity..].
    destruct (fo_request _ _) as [data|?|?|]; [|inv E; apply X; reflexivity..].
    destruct (send_request _ _ _ _ _ _ _ _) as [[resp|?|?|] s1]; [|inv E; apply X; reflexivity..].
    destruct (fo_answer_fd _ _ _ _ _ _ _) as [[o1 [g2 f2]] ev2] eqn:A. inv E.
    assert (I1 : mgr_inv g1 (f_m f)).
    { eapply inv_later; [exact Iv|]. eapply prepare_oid; eauto. }
    eapply answer_good; eauto.
  - destruct (forward_close h use8 si (lock oid (f_m f)) (f_m f, s)) as [o1 [m1 s1]] eqn:F. inv E. apply close_shrunk in F as [F _].
    apply (good_shrunk f l (with_m f m1) (m_map (f_m f)) []); auto. intros e [].
  - destruct (handle_fd h rounds ending env f) as [[o1 f1] ev1] eqn:F. inv E. destruct (handle_good h rounds ending env f _ _ _ g' l Iv Le F) as (A & _). auto.
  - inv E. apply good_same; auto; [|intros e []]. unfold fds. cbn [with_m f_m f_conn f_rx]. f_equal. f_equal. apply statics_oids. unfold set_output. cbn [set_map m_map]. apply output_statics.
  - inv E. right. replace (flat_map fd_destroy (f_rx f) ++ destroyed f (m_map (f_m f))) with (flat_map fd_destroy (fds f)).
    2:{ unfold fds. rewrite flat_map_app. f_equal. unfold destroyed, oids. generalize (m_map (f_m f)). intros q. induction q as [|e q IH]; cbn [map flat_map]; congruence. }
    destruct (audit_destroys (fds f) l) as (l' & A & B & C); auto. exists l'. split; [assumption|]. split; [assumption|]. split; [constructor|].
    split; [|intros fd []]. intros fd. rewrite C. cbn. tauto.
Qed.

(** ** Histories *)
Definition sound {S} (w : fworld S) (l : list Z) : Prop :=
  NoDup l /\ (forall i, NoDup (fds (v_f w i))) /\ (forall fd, In fd l <-> exists i, In fd (fds (v_f w i)))
  /\ (forall i j fd, In fd (fds (v_f w i)) -> In fd (fds (v_f w j)) -> i = j).
Definition fine {S} (w : fworld S) : Prop :=
  (forall i, basic (v_g w) (v_f w i)) /\ (audit (v_ev w) [] = Reused \/ exists l, audit (v_ev w) [] = Held l /\ sound w l).
Lemma step_fine {S} h i (op : fcall S) w : fine w -> fine (snd (call_fw h i op w)).
Proof.
  intros [Ba So]. unfold call_fw. destruct (call_fd h op (v_g w, v_f w i, v_s w)) as [[o [[g f] s]] ev] eqn:E. cbn [snd].
  destruct (call_basic _ _ _ _ _ _ _ _ _ _ (Ba i) E) as [Bf Lo]. split; cbn [v_g v_f v_ev].
  { intros j. unfold update. destruct (Nat.eqb_spec j i); [assumption|]. destruct (Ba j) as [A B]. split; [|assumption]. eapply inv_later; eauto. }
  rewrite audit_app. destruct So as [->|(l & -> & N & Nf & Al & Ij)]; [left; reflexivity|].
  assert (Il : incl (fds (v_f w i)) l) by (intros fd J; apply Al; eauto).
  destruct (call_good _ _ _ _ _ _ _ _ _ _ l (Ba i) N (Nf i) Il E) as [->|(l' & -> & N' & Nf' & Al' & New)]; [left; reflexivity|].
  right. exists l'. split; [reflexivity|]. split; [assumption|]. cbn [v_f].
  assert (U : forall j, update (v_f w) i f j = if Nat.eqb j i then f else v_f w j) by reflexivity.
  split; [|split].
  - intros j. rewrite U. destruct (Nat.eqb j i); auto.
  - intros fd. rewrite Al', Al. split.
    + intros [J|[(j & J) K]]; [exists i; now rewrite U, Nat.eqb_refl|]. exists j. rewrite U. destruct (Nat.eqb_spec j i) as [->|]; [contradiction|assumption].
    + intros (j & J). rewrite U in J. destruct (Nat.eqb_spec j i) as [Ej|Ne]; [left; exact J|]. right. split; [eauto|]. intros K. apply Ne. eapply Ij; eauto.
  - intros j k fd. rewrite !U. destruct (Nat.eqb_spec j i) as [Ej|Nj]; destruct (Nat.eqb_spec k i) as [Ek|Nk]; try subst j; try subst k; intros A B; auto; try (eapply Ij; eauto; fail).
    + exfalso. apply Nk. symmetry. eapply Ij; [|exact B]. apply New; [assumption|]. apply Al. eauto.
    + exfalso. apply Nj. eapply Ij; [exact A|]. apply New; [assumption|]. apply Al. eauto.
Qed.
Lemma start_fine {S} inc (s : S) : fine (start_fw inc s).
Proof.
  split; [intros i; split; [apply inv_new|reflexivity]|]. right. exists []. cbn. split; [reflexivity|]. split; [constructor|]. split; [constructor|]. split; [|intros i j fd []].
  intros fd. split; [intros []|intros (i & [])].
Qed.
Lemma run_fine {S} h (ops : list (nat * fcall S)) : forall w, fine w -> fine (run_fw h ops w).
Proof. induction ops as [|[i op] ops IH]; intros w F; cbn [run_fw]; [assumption|]. now apply IH, step_fine. Qed.

Lemma in_oids g m oid : mgr_inv g m -> In oid (oids (m_map m)) <-> lock oid m <> None.
Proof.
  intros I. rewrite lock_none. destruct (in_dec Nat.eq_dec oid (oids (m_map m))); tauto.
Qed.
Lemma fds_holds g f fd : basic g f -> In fd (fds f) <-> exists x, holds f x fd.
Proof.
  intros [Iv _]. unfold fds. rewrite in_app_iff, in_map_iff. split.
  - intros [J|(oid & E & J)].
    + apply In_nth_error in J as [n J]. exists (Rx n). exact J.
    + exists (Conn oid). split; [|assumption]. now apply (in_oids g).
  - intros [[oid|n] H]; cbn [holds] in H.
    + destruct H as [L E]. right. exists oid. split; [assumption|]. now apply (in_oids g).
    + left. eapply nth_error_In; eauto.
Qed.
Lemma nodup_map_inj {A B} (k : A -> B) l x y : NoDup (map k l) -> In x l -> In y l -> k x = k y -> x = y.
Proof.
  induction l as [|a l IH]; cbn [map In]; intros N; [intros []|]. inv N. intros [->|I] [->|J] E; auto.
  - exfalso. apply H1. rewrite E. now apply in_map.
  - exfalso. apply H1. rewrite <- E. now apply in_map.
Qed.
Lemma holds_unique g f x y fd : basic g f -> NoDup (fds f) -> holds f x fd -> holds f y fd -> x = y.
Proof.
  intros [Iv _] N. unfold fds in N. pose proof (nodup_app_l _ _ N) as N1. pose proof (nodup_app_r _ _ N) as N2. pose proof (fun z => nodup_app_not _ _ z N) as N3.
  destruct x as [o1|n1], y as [o2|n2]; cbn [holds].
  - intros [A B] [C D]. f_equal. apply (in_oids g _ _ Iv) in A. apply (in_oids g _ _ Iv) in C. eapply nodup_map_inj; eauto. congruence.
  - intros [A B] C. exfalso. apply nth_error_In in C. apply (N3 fd C). subst fd. apply in_map. now apply (in_oids g).
  - intros C [A B]. exfalso. apply nth_error_In in C. apply (N3 fd C). subst fd. apply in_map. now apply (in_oids g).
  - intros A B. f_equal. eapply NoDup_nth_error; [exact N1| |congruence]. apply nth_error_Some. congruence.
Qed.

Lemma audit_history {S} h (ops : list (nat * fcall S)) inc (s : S) :
  let w := run_fw h ops (start_fw inc s) in
  audit (v_ev w) [] = Reused
  \/ exists l, audit (v_ev w) [] = Held l /\ NoDup l
     /\ (forall fd, In fd l <-> exists i x, holds (v_f w i) x fd)
     /\ (forall i j x y fd, holds (v_f w i) x fd -> holds (v_f w j) y fd -> i = j /\ x = y).
Proof.
  intros w. destruct (run_fine h ops _ (start_fine inc s)) as [Ba [R|(l & A & N & Nf & Al & Ij)]]; [left; exact R|]. fold w in Ba, A, Nf, Al, Ij.
  right. exists l. split; [assumption|]. split; [assumption|]. split.
  - intros fd. rewrite Al. split; intros (i & J); exists i; now apply (fds_holds _ _ _ (Ba i)).
  - intros i j x y fd A1 A2. assert (i = j) as <-.
    { eapply Ij; apply (fds_holds _ _ fd (Ba _)); eauto. }
    split; [reflexivity|]. eapply holds_unique; eauto.
Qed.

Lemma run_fw_app {S} h (a b : list (nat * fcall S)) : forall w, run_fw h (a ++ b) w = run_fw h b (run_fw h a w).
Proof. induction a as [|[i op] a IH]; intros w; cbn [app run_fw]; auto. Qed.
Lemma untouched {S} h (ops : list (nat * fcall S)) i : forall w, ~ In i (map fst ops) -> v_f (run_fw h ops w) i = v_f w i.
Proof.
  induction ops as [|[j op] ops IH]; intros w N; cbn [run_fw]; [reflexivity|]. cbn [map fst In] in N. rewrite IH by tauto.
  unfold call_fw. destruct (call_fd _ _ _) as [[o [[g f] s]] ev]. cbn [snd v_f]. unfold update. destruct (Nat.eqb_spec i j); [exfalso; apply N; auto|reflexivity].
Qed.
Definition no_fds (f : fmgr) : Prop := m_map (f_m f) = [] /\ f_rx f = [].
Lemma destroys_none {S} h inc (ids : list nat) i : forall w : fworld S, no_fds (v_f w i) \/ In i ids ->
  no_fds (v_f (run_fw h (map (fun j => (j, FCDestroy (inc j))) ids) w) i).
Proof.
  induction ids as [|j ids IH]; intros w H; cbn [map run_fw].
  - destruct H as [H|[]]. exact H.
  - apply IH. unfold call_fw. cbn [call_fd snd v_f]. unfold update. destruct (Nat.eqb_spec i j) as [->|Ne]; [left; split; reflexivity|].
    destruct H as [H|[H|H]]; [left; exact H|congruence|right; exact H].
Qed.
Lemma all_released {S} h (ops : list (nat * fcall S)) inc inc' (s : S) ids : incl (map fst ops) ids ->
  let w := run_fw h (ops ++ map (fun j => (j, FCDestroy (inc' j))) ids) (start_fw inc s) in
  audit (v_ev w) [] = Reused \/ audit (v_ev w) [] = Held [].
Proof.
  intros Inc w. destruct (run_fine h (ops ++ map (fun j => (j, FCDestroy (inc' j))) ids) _ (start_fine inc s)) as [Ba [R|(l & A & N & Nf & Al & Ij)]]; [left; exact R|].
  fold w in Ba, A, Nf, Al, Ij. right. rewrite A. f_equal. destruct l as [|fd l]; [reflexivity|]. exfalso. destruct (proj1 (Al fd) (or_introl eq_refl)) as (i & J).
  assert (Z : no_fds (v_f w i)).
  { unfold w. rewrite run_fw_app. apply destroys_none. destruct (in_dec Nat.eq_dec i ids) as [Y|Y]; [right; exact Y|left].
    rewrite untouched by (intros X; apply Y, Inc, X). split; reflexivity. }
  destruct Z as [Z1 Z2]. unfold fds in J. rewrite Z1, Z2 in J. exact J.
Qed.

Lemma call_erase {S} h (op : fcall S) p g f s o g' f' s' ev : basic g f -> settable (f_rx f) = true -> plain op = Some p ->
  call_fd h op (g, f, s) = (o, (g', f', s'), ev) -> call_mgr h p (g, f_m f, s) = (o, (g', f_m f', s')).
Proof.
  intros [Iv Le] Se P E. destruct op as [use8 si host env large c|use8 si oid|rounds ending env|oid d|inc]; cbn [plain] in P; inv P; cbn [call_fd] in E; cbn [call_mgr].
  - eapply open_erase; [exact (mi_sorted _ _ Iv)|exact E].
  - destruct (forward_close h use8 si (lock oid (f_m f)) (f_m f, s)) as [o1 [m1 s1]]. now inv E.
  - destruct (handle_fd h rounds ending env f) as [[o1 f1] ev1] eqn:F. inv E. apply handle_erase in F; [|assumption..]. now rewrite F.
  - now inv E.
Qed.
Lemma settable_iff rx : settable rx = true <-> forall fd, In fd rx -> fd < 1024.
Proof. unfold settable, FD_SETSIZE. rewrite forallb_forall. split; intros H fd J; specialize (H fd J); lia. Qed.
Lemma same_history {S} h (ops : list (nat * fcall S)) inc (s : S) i op p :
  let w := run_fw h ops (start_fw inc s) in
  (forall fd, In fd (f_rx (v_f w i)) -> fd < 1024) -> plain op = Some p ->
  let w' := snd (call_fw h i op w) in
  call_mgr h p (v_g w, f_m (v_f w i), v_s w) = (fst (call_fw h i op w), (v_g w', f_m (v_f w' i), v_s w')).
Proof.
  intros w Se P. destruct (run_fine h ops _ (start_fine inc s)) as [Ba _]. fold w in Ba. apply settable_iff in Se.
  unfold call_fw. destruct (call_fd h op (v_g w, v_f w i, v_s w)) as [[o [[g f] s1]] ev] eqn:E. cbn [fst snd v_g v_f v_s].
  unfold update. rewrite Nat.eqb_refl. eapply call_erase; eauto.
Qed.
Lemma too_many {S} h (w : fworld S) i rounds ending env : (exists fd, In fd (f_rx (v_f w i)) /\ 1024 <= fd) ->
  fst (call_fw h i (FCHandle rounds ending env) w) = Undef UbOobWrite.
Proof.
  intros (fd & J & L). unfold call_fw. cbn [call_fd]. unfold handle_fd. destruct (f_rx (v_f w i)) as [|fd0 rx] eqn:E; [destruct J|]. rewrite <- E in *.
  assert (X : settable (f_rx (v_f w i)) = false).
  { destruct (settable _) eqn:Y; [|reflexivity]. exfalso. apply (proj1 (settable_iff _) Y fd) in J. lia. }
  now rewrite X.
Qed.

(** ** Instances *)
Definition env_fd (udp rx now : Z) : fd_env := mkFdEnv (inl udp) (inl rx) None None now (fun _ => Some 0x0100007F).
Definition open_fd (id udp rx : Z) : fcall (list encaps) := FCOpen false (recording 1 (accepts id 10000 10000)) "10.0.0.1" (env_fd udp rx 0) false (class1 1 0).
Definition close_fd (oid : nat) : fcall (list encaps) := FCClose false (recording 1 refuses) oid.
(** Two managers; a time-out, an address with the same low 16 bits, a closed
    connection, a bind() that fails; descriptors are used again. *)
Definition some_calls : list (nat * fcall (list encaps)) :=
  [(0%nat, open_fd 0x10007 5 6); (1%nat, open_fd 0x10009 7 8); (0%nat, open_fd 0x20007 9 0); (0%nat, FCHandle [] SelQuiet (at_ms 10));
   (1%nat, close_fd 1); (0%nat, FCHandle [] SelQuiet (at_ms 9000)); (1%nat, open_fd 0x10009 7 0);
   (2%nat, FCOpen false (recording 1 (accepts 3 10000 10000)) "10.0.0.1" (mkFdEnv (inl 5) (inl 9) None (Some 98) 0 (fun _ => Some 0x0100007F)) false (class1 1 0))].
Definition many_calls : list (nat * fcall (list encaps)) := [(0%nat, open_fd 0x10007 5 1024)].
Lemma some_calls_audit : audit (v_ev (run_fw strict some_calls (start_fw inc0 []))) [] = Held [7; 8; 6].
Proof. vm_compute. reflexivity. Qed.
Lemma some_calls_end : audit (v_ev (run_fw strict (some_calls ++ map (fun j => (j, FCDestroy (inc0 j))) [0; 1; 2]%nat) (start_fw inc0 []))) [] = Held [].
Proof. vm_compute. reflexivity. Qed.
Lemma overflow_refuted : exists ops : list (nat * fcall (list encaps)), let w := run_fw strict ops (start_fw inc0 []) in
  audit (v_ev w) [] <> Reused /\ audit (v_ev w) [] <> Fault /\ lock 0 (f_m (v_f w 0%nat)) <> None
  /\ fst (call_fw strict 0 (FCHandle [] SelQuiet (at_ms 1)) w) = Undef UbOobWrite
  /\ fst (call_mgr strict (CHandle [] SelQuiet (at_ms 1)) (v_g w, f_m (v_f w 0%nat), v_s w)) = Ok None.
Proof. exists many_calls. vm_compute. repeat split; discriminate. Qed.
Lemma connect_small fd k : fd < 1024 -> tcp_connect_fd fd k = tcp_connect k.
Proof.
  intros L. unfold tcp_connect_fd, FD_SETSIZE. destruct (k_socket k), (k_getfl1 k), (k_setfl1 k), (k_connect k); try reflexivity.
  destruct (Z.leb_spec 1024 fd); [lia|]. now rewrite andb_false_r.
Qed.
Lemma connect_quick fd k : k_connect k <> Some EINPROGRESS -> tcp_connect_fd fd k = tcp_connect k.
Proof.
  intros N. unfold tcp_connect_fd. destruct (k_socket k), (k_getfl1 k), (k_setfl1 k), (k_connect k) as [e|]; try reflexivity.
  destruct (Z.eqb_spec e EINPROGRESS) as [->|]; [contradiction|reflexivity].
Qed.
Lemma connect_wait fd k : k_socket k = None -> k_getfl1 k = None -> k_setfl1 k = None -> k_connect k = Some EINPROGRESS -> 1024 <= fd ->
  fst (tcp_connect_fd fd k) = Undef UbOobWrite.
Proof.
  intros A B C D L. unfold tcp_connect_fd. rewrite A, B, C, D. change (EINPROGRESS =? EINPROGRESS) with true. unfold FD_SETSIZE.
  destruct (Z.leb_spec 1024 fd); [reflexivity|lia].
Qed.
