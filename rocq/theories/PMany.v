(** Proofs about several connection managers. *)
From Verif Require Import Base MBuffer SBuffer PBase PBuffer MEip SEip PEip PRouter MSocket SSocket PSocket MConnReq SConnReq PConnReq
  MConn SConn PConnOpen PConnMap PIo PConnCall PConnCall2 PConnHist PIo2 PConnTop MMany SMany.
Ltac Zify.zify_post_hook ::= Z.div_mod_to_equations.

Lemma upd_same {A} (f : nat -> A) i a : update f i a i = a.
Proof. unfold update. now rewrite Nat.eqb_refl. Qed.
Lemma upd_other {A} (f : nat -> A) i j a : j <> i -> update f i a j = f j.
Proof. intros N. unfold update. destruct (Nat.eqb_spec j i); [contradiction|reflexivity]. Qed.

(** ** Objects *)
Lemma stored_other l : forall f o, ~ In o (oids l) -> stored l f o = f o.
Proof.
  induction l as [|[k c] l IH]; intros f o N; [reflexivity|]. cbn [stored fold_left snd]. fold (stored l (update f (io_oid c) c)).
  rewrite IH; [|intros I; apply N; now right]. apply upd_other. intros ->. apply N. now left.
Qed.
Lemma stored_in l : forall f k c, NoDup (oids l) -> In (k, c) l -> stored l f (io_oid c) = c.
Proof.
  induction l as [|[k' c'] l IH]; intros f k c N I; [contradiction|]. cbn [oids map snd] in N. inversion N as [|? ? N1 N2]; subst.
  cbn [stored fold_left snd]. fold (stored l (update f (io_oid c') c')). destruct I as [E|I].
  - inv E. rewrite stored_other by exact N1. apply upd_same.
  - eapply IH; eauto.
Qed.

(** How a call may change the manager it is made on. *)
Definition grown (g : globals) (m m' : mgr) : Prop :=
  (forall k c, In (k, c) (m_map m') -> (g_oid g <= io_oid c)%nat \/ exists c0, In (k, c0) (m_map m) /\ io_static c = io_static c0)
  /\ exists new, m_socks m' = m_socks m ++ new.
Lemma grown_refl g m : grown g m m.
Proof. split; [eauto|]. exists []. now rewrite app_nil_r. Qed.
Lemma grown_statics g m m' : statics (m_map m') = statics (m_map m) -> m_socks m' = m_socks m -> grown g m m'.
Proof.
  intros E K. split; [|exists []; now rewrite app_nil_r]. intros k c I. right. eapply statics_t2o; eauto.
Qed.
Lemma socket_grown b ep m o m' : find_or_create_socket b ep m = (o, m') -> m_map m' = m_map m /\ exists new, m_socks m' = m_socks m ++ new.
Proof.
  unfold find_or_create_socket. destruct (existsb _ _); [intros E; inv E; split; [reflexivity|exists []; now rewrite app_nil_r]|].
  destruct b; intros E; inv E; split; try reflexivity; [exists []; now rewrite app_nil_r|]. now exists [ep].
Qed.
Lemma answer_grown h env host large c resp g m o g' m' : fo_answer h env host large c resp (g, m) = (o, (g', m')) -> grown g m m'.
Proof.
  unfold fo_answer. destruct (negb (r_status resp =? 0)); [intros E; inv E; apply grown_refl|].
  destruct (bind (fo_expand h (r_data resp)) _) as [[r io]|e|u|] eqn:B; try (intros E; inv E; apply grown_refl).
  assert (O : io_oid io = g_oid g).
  { apply bind_Ok in B as (r1 & _ & B). apply bind_Ok in B as (mu & _ & B). apply bind_Ok in B as (d & _ & B).
    apply bind_Ok in B as (u & _ & B). inv B. reflexivity. }
  cbv zeta. destruct (find_or_create_socket _ _ _) as [o1 m1] eqn:F. apply socket_grown in F as [M K].
  assert (G1 : grown g m m1) by (split; [rewrite M; eauto|exact K]).
  destruct o1; intros E; inv E; try exact G1. split; [|exact K]. cbn [set_map m_map]. intros k cc I.
  apply insert_oid_in in I as [I|I]; [inv I; left; lia|]. rewrite M in I. eauto.
Qed.
Lemma open_grown {S} h use8 (si : session_if S) host env large c g m (s : S) o g' m' s' :
  forward_open h use8 si host env large c (g, m, s) = (o, (g', m', s')) -> grown g m m'.
Proof.
  intros E. destruct (Z.eq_dec (g_serial g) 2147483647) as [G|G].
  - unfold forward_open in E. rewrite (prepare_overflow large (m_inc m) c g G) in E. inv E. apply grown_refl.
  - destruct (open_request h use8 si host env large c g m s G) as (g1 & c' & O & F). rewrite F in E. clear F.
    destruct (send_request _ _ _ _ _ _ _ _) as [[resp|?|?|] s1]; [|inv E; apply grown_refl..].
    destruct (fo_answer _ _ _ _ _ _ _) as [o1 [g2 m2]] eqn:A. inv E. apply answer_grown in A. unfold grown in *. now rewrite <- O.
Qed.
Lemma close_grown {S} h use8 (si : session_if S) ptr g m (s : S) o m' s' :
  forward_close h use8 si ptr (m, s) = (o, (m', s')) -> grown g m m'.
Proof.
  unfold forward_close. destruct ptr as [c|]; [|intros E; inv E; apply grown_refl].
  destruct (send_request _ _ _ _ _ _ _ _) as [[resp|?|?|] s1]; intros E; inv E; try apply grown_refl.
  split; [|exists []; cbn; now rewrite app_nil_r]. cbn [set_map m_map]. intros k c1 I. apply erase_in in I as [I _]. eauto.
Qed.
Lemma close_inv {S} h use8 (si : session_if S) ptr g m (s : S) o m' s' : mgr_inv g m ->
  forward_close h use8 si ptr (m, s) = (o, (m', s')) -> mgr_inv g m'.
Proof.
  intros I. unfold forward_close. destruct ptr as [c|]; [|intros E; inv E; exact I].
  destruct (send_request _ _ _ _ _ _ _ _) as [[resp|?|?|] s1]; intros E; inv E; try exact I. now apply inv_erase.
Qed.

(** ** What holds after every program *)
Record good {S} (q : many S) : Prop := {
  gd_mgr : forall i x, q_mgr q i = Some x -> mgr_inv (q_g q) (seen q i x);
  gd_name : forall i x k o, q_mgr q i = Some x -> In (k, o) (cm_map x) -> io_oid (q_con q o) = o;
  gd_next : forall i x, q_mgr q i = Some x -> (i < q_next q)%nat;
  gd_made : forall i x e n, q_mgr q i = Some x -> In (e, n) (cm_socks x) -> (n < List.length (q_made q))%nat;
  gd_log : forall i, (q_next q <= i)%nat -> q_log q i = [] }.

Section S.
Context {S : Type}.
Implicit Types q : many S.

Lemma seen_oids q i x : good q -> q_mgr q i = Some x -> oids (m_map (seen q i x)) = map snd (cm_map x).
Proof.
  intros G E. unfold oids. cbn [seen m_map]. rewrite map_map. apply map_ext_in. intros [k o] I. cbn [snd]. eapply gd_name; eauto.
Qed.
Lemma seen_in q i x k c : good q -> q_mgr q i = Some x -> In (k, c) (m_map (seen q i x)) -> In (k, io_oid c) (cm_map x) /\ q_con q (io_oid c) = c.
Proof.
  intros G E I. cbn [seen m_map] in I. apply in_map_iff in I as ([k1 o] & F & I). cbn [fst snd] in F. inv F.
  rewrite (gd_name q G i x k o E I). auto.
Qed.
Lemma in_seen q i x k o : In (k, o) (cm_map x) -> In (k, q_con q o) (m_map (seen q i x)).
Proof. intros I. cbn [seen m_map]. apply in_map_iff. exists (k, o). auto. Qed.
Lemma held_fresh q i x k o : good q -> q_mgr q i = Some x -> In (k, o) (cm_map x) -> (o < g_oid (q_g q))%nat.
Proof.
  intros G E I. pose proof (mi_fresh _ _ (gd_mgr q G i x E) k (q_con q o) (in_seen q i x k o I)) as F.
  now rewrite (gd_name q G i x k o E I) in F.
Qed.

(** The sockets of a manager after a call. *)
Definition put_socks q (x : cm) (m : mgr) : list (endpoint * nat) :=
  let new := skipn (List.length (cm_socks x)) (m_socks m) in
  cm_socks x ++ combine new (seq (List.length (q_made q)) (List.length new)).
Definition put_cm q (x : cm) (m : mgr) : cm :=
  mkCm (m_inc m) (map (fun e => (fst e, io_oid (snd e))) (m_map m)) (put_socks q x m).
Lemma put_mgr q i x m : q_mgr q i = Some x -> q_mgr (put i m q) i = Some (put_cm q x m).
Proof. intros E. unfold put. rewrite E. cbn [q_mgr]. apply upd_same. Qed.
Lemma put_mgr_other q i j m : j <> i -> q_mgr (put i m q) j = q_mgr q j.
Proof. intros N. unfold put. destruct (q_mgr q i); [|reflexivity]. cbn [q_mgr]. now apply upd_other. Qed.
Lemma put_con q i x m : q_mgr q i = Some x -> q_con (put i m q) = stored (m_map m) (q_con q).
Proof. intros E. unfold put. now rewrite E. Qed.
Lemma put_log q i x m : q_mgr q i = Some x -> q_log (put i m q) = update (q_log q) i (m_log m).
Proof. intros E. unfold put. now rewrite E. Qed.
Lemma put_next q i m : q_next (put i m q) = q_next q.
Proof. unfold put. now destruct (q_mgr q i). Qed.
Lemma put_g q i m : q_g (put i m q) = q_g q.
Proof. unfold put. now destruct (q_mgr q i). Qed.
Lemma put_s q i m : q_s (put i m q) = q_s q.
Proof. unfold put. now destruct (q_mgr q i). Qed.
Lemma put_made q i m : exists n, q_made (put i m q) = q_made q ++ repeat i n.
Proof. unfold put. destruct (q_mgr q i); [cbn [q_made]; eauto|]. exists 0%nat. cbn. now rewrite app_nil_r. Qed.
Lemma combine_fst {A B} (a : list A) : forall (b : list B), List.length b = List.length a -> map fst (combine a b) = a.
Proof. induction a as [|x a IH]; intros [|y b] L; try discriminate; [reflexivity|]. cbn. f_equal. apply IH. now inv L. Qed.
Lemma put_socks_fst q i x m new : q_mgr q i = Some x -> m_socks m = m_socks (seen q i x) ++ new -> map fst (put_socks q x m) = m_socks m.
Proof.
  intros E K. unfold put_socks. cbv zeta. rewrite map_app, combine_fst by now rewrite seq_length.
  rewrite K. cbn [seen m_socks]. f_equal. rewrite <- (map_length fst (cm_socks x)). now rewrite skipn_app, skipn_all, Nat.sub_diag.
Qed.
Lemma put_seen g q i x m : q_mgr q i = Some x -> grown g (seen q i x) m -> NoDup (oids (m_map m)) ->
  seen (put i m q) i (put_cm q x m) = m.
Proof.
  intros E [_ [new K]] N. unfold seen. rewrite (put_con q i x m E), (put_log q i x m E), upd_same. cbn [put_cm cm_inc cm_map cm_socks].
  rewrite (put_socks_fst q i x m new E K), map_map.
  replace (map _ (m_map m)) with (m_map m); [now destruct m|]. symmetry. rewrite <- (map_id (m_map m)) at 2. apply map_ext_in.
  intros [k c] I. cbn [fst snd]. f_equal. eapply stored_in; eauto.
Qed.

(** What happens to the object of a connection that was there. *)
Lemma put_static q i x m o : good q -> q_mgr q i = Some x -> grown (q_g q) (seen q i x) m -> NoDup (oids (m_map m)) ->
  (o < g_oid (q_g q))%nat -> io_static (q_con (put i m q) o) = io_static (q_con q o).
Proof.
  intros G E [Gr _] N L. rewrite (put_con q i x m E). destruct (in_dec Nat.eq_dec o (oids (m_map m))) as [I|I].
  - apply in_map_iff in I as ([k c] & F & I). cbn [snd] in F. subst o. rewrite (stored_in _ _ k c N I).
    destruct (Gr k c I) as [B|(c0 & I0 & St)]; [lia|]. apply (seen_in q i x k c0 G E) in I0 as [_ C].
    rewrite (static_oid _ _ St), C. exact St.
  - now rewrite stored_other.
Qed.
Lemma put_others q i x m j y : good q -> q_mgr q i = Some x -> grown (q_g q) (seen q i x) m -> NoDup (oids (m_map m)) ->
  j <> i -> q_mgr q j = Some y -> statics (m_map (seen (put i m q) j y)) = statics (m_map (seen q j y)).
Proof.
  intros G E Gr N J F. unfold statics. cbn [seen m_map]. rewrite !map_map. apply map_ext_in. intros [k o] I. cbn [fst snd].
  f_equal. apply (put_static q i x); auto. eapply held_fresh; eauto.
Qed.
Lemma with_gs_seen q i x g s : seen (with_gs g s q) i x = seen q i x.
Proof. reflexivity. Qed.
Lemma with_gs_good q g s : good q -> (g_oid (q_g q) <= g_oid g)%nat -> good (with_gs g s q).
Proof.
  intros G L. constructor; try apply G. intros i x E. rewrite with_gs_seen. apply (inv_later (q_g q)); [|exact L]. now apply (gd_mgr q G).
Qed.
(** The same when the call has made new objects. *)
Lemma put_new q i x m g s : good q -> q_mgr q i = Some x -> grown (q_g q) (seen q i x) m -> mgr_inv g m ->
  (g_oid (q_g q) <= g_oid g)%nat -> good (with_gs g s (put i m q)).
Proof.
  intros G E Gr I L. pose proof (mi_oids _ _ I) as N. pose proof (put_seen _ q i x m E Gr N) as PS.
  assert (G1 : good (with_gs g (q_s q) q)) by now apply with_gs_good.
  constructor.
  - intros j y F. rewrite with_gs_seen. cbn [with_gs q_g q_mgr] in *. destruct (Nat.eq_dec j i) as [->|J].
    + rewrite (put_mgr q i x m E) in F. inv F. rewrite PS. exact I.
    + rewrite put_mgr_other in F by assumption. apply (inv_later (q_g q)); [|exact L].
      eapply statics_inv; [exact (gd_mgr q G j y F)|]. eapply put_others; eauto.
  - cbn [with_gs q_mgr q_con]. intros j y k o F K. destruct (Nat.eq_dec j i) as [->|J].
    + rewrite (put_mgr q i x m E) in F. inv F. cbn [put_cm cm_map] in K. apply in_map_iff in K as ([k1 c] & Q & K). cbn [fst snd] in Q. inv Q.
      rewrite (put_con q i x m E), (stored_in _ _ k c N K). reflexivity.
    + rewrite put_mgr_other in F by assumption. rewrite <- (gd_name q G j y k o F K) at 2. apply static_oid.
      eapply put_static; eauto. eapply held_fresh; eauto.
  - cbn [with_gs q_mgr q_next]. intros j y F. rewrite put_next. destruct (Nat.eq_dec j i) as [->|J]; [eapply gd_next; eauto|].
    rewrite put_mgr_other in F by assumption. eapply gd_next; eauto.
  - cbn [with_gs q_mgr q_made]. intros j y e n F K. destruct (Nat.eq_dec j i) as [->|J].
    + rewrite (put_mgr q i x m E) in F. inv F. cbn [put_cm cm_socks] in K. unfold put_socks in K. cbv zeta in K.
      unfold put. rewrite E. cbn [q_made]. rewrite app_length, repeat_length. apply in_app_or in K as [K|K].
      * pose proof (gd_made q G i x e n E K). lia.
      * apply in_combine_r in K. apply in_seq in K. lia.
    + rewrite put_mgr_other in F by assumption. destruct (put_made q i m) as [nn ->]. rewrite app_length.
      pose proof (gd_made q G j y e n F K). lia.
  - cbn [with_gs q_next q_log]. intros j Lj. rewrite put_next in Lj. rewrite (put_log q i x m E), upd_other; [now apply (gd_log q G)|].
    intros ->. pose proof (gd_next q G i x E). lia.
Qed.
Lemma put_good q i x m : good q -> q_mgr q i = Some x -> grown (q_g q) (seen q i x) m -> mgr_inv (q_g q) m -> good (put i m q).
Proof.
  intros G E Gr I. pose proof (put_new q i x m (q_g q) (q_s q) G E Gr I (le_n _)) as P.
  replace (put i m q) with (with_gs (q_g q) (q_s q) (put i m q)); [exact P|].
  unfold with_gs. rewrite <- (put_g q i m), <- (put_s q i m) at 1. now destruct (put i m q).
Qed.

(** ** handleConnections *)
Lemma put_cm_same q i x m : good q -> q_mgr q i = Some x -> statics (m_map m) = statics (m_map (seen q i x)) ->
  m_socks m = m_socks (seen q i x) -> m_inc m = cm_inc x -> put_cm q x m = x.
Proof.
  intros G E St K I. unfold put_cm, put_socks. cbv zeta. rewrite K, I. cbn [seen m_socks].
  rewrite <- (map_length fst (cm_socks x)), skipn_all. cbn [combine]. rewrite app_nil_r.
  replace (map _ (m_map m)) with (cm_map x); [now destruct x|].
  replace (map (fun e : Z * iocon => (fst e, io_oid (snd e))) (m_map m))
    with (combine (keys (m_map m)) (oids (m_map m))).
  - rewrite (statics_keys _ _ St), (statics_oids _ _ St), (seen_oids q i x G E). unfold keys. cbn [seen m_map]. rewrite map_map.
    cbn [fst]. clear. induction (cm_map x) as [|[k o] l IH]; [reflexivity|]. cbn. now f_equal.
  - unfold keys, oids. clear. induction (m_map m) as [|[k o] l IH]; [reflexivity|]. cbn. now f_equal.
Qed.
Lemma readable_same g h d m : mgr_inv g m -> quiet m (snd (on_readable h d m)).
Proof. intros I. eapply readable_quiet; [exact I|apply quiet_refl]. Qed.
Lemma quiet_grown g m m' : quiet m m' -> grown g m m'.
Proof. intros (St & K & _). now apply grown_statics. Qed.

(** Reading keeps the tables of all managers. *)
Definition unmoved q0 q : Prop :=
  good q /\ (forall i, q_mgr q i = q_mgr q0 i) /\ q_next q = q_next q0 /\ q_made q = q_made q0 /\ q_g q = q_g q0 /\ q_s q = q_s q0.
Lemma unmoved_refl q : good q -> unmoved q q.
Proof. intros G. split; [exact G|]. split; [reflexivity|]. split; [reflexivity|]. split; [reflexivity|]. split; reflexivity. Qed.
Lemma unmoved_trans a b c : unmoved a b -> unmoved b c -> unmoved a c.
Proof.
  intros (_ & A1 & A2 & A3 & A4 & A5) (G & B1 & B2 & B3 & B4 & B5). split; [exact G|].
  split; [intros i; now rewrite B1|]. split; [congruence|]. split; [congruence|]. split; congruence.
Qed.
Lemma put_unmoved q i x m : good q -> q_mgr q i = Some x -> statics (m_map m) = statics (m_map (seen q i x)) ->
  m_socks m = m_socks (seen q i x) -> m_inc m = cm_inc x -> unmoved q (put i m q).
Proof.
  intros G E St K I. pose proof (put_cm_same q i x m G E St K I) as P. split; [|split].
  - eapply put_good; eauto; [now apply grown_statics|]. eapply statics_inv; [exact (gd_mgr q G i x E)|exact St].
  - intros j. destruct (Nat.eq_dec j i) as [->|N]; [|now apply put_mgr_other]. now rewrite (put_mgr q i x m E), P, E.
  - split; [apply put_next|]. split; [|split; [apply put_g|apply put_s]].
    unfold put. rewrite E. cbn [q_made]. rewrite K. cbn [seen m_socks]. rewrite <- (map_length fst (cm_socks x)), skipn_all. cbn. apply app_nil_r.
Qed.
Lemma readable_unmoved h socks k d q : good q -> unmoved q (snd (readable_many h socks k d q)).
Proof.
  intros G. unfold readable_many. destruct (nth_error socks k) as [[e n]|]; [|now apply unmoved_refl].
  cbv zeta. destruct (q_mgr q _) as [y|] eqn:E; [|now apply unmoved_refl].
  pose proof (readable_same _ h d _ (gd_mgr q G _ y E)) as (St & K & I & _).
  destruct (on_readable h d _) as [o m]. cbn [snd] in *. now apply (put_unmoved q _ y).
Qed.
Lemma select_unmoved h socks n rounds ending q : good q -> unmoved q (snd (bs_select (readable_many h socks) n rounds ending q)).
Proof.
  intros G. apply select_keeps; [|now apply unmoved_refl]. intros i a w U. eapply unmoved_trans; [exact U|]. apply readable_unmoved. apply U.
Qed.
(** Removing connections from one manager. *)
Lemma fewer_good q i x f : good q -> q_mgr q i = Some x ->
  good (set_mgr q i (Some (mkCm (cm_inc x) (filter f (cm_map x)) (cm_socks x)))).
Proof.
  intros G E. constructor; cbn [set_mgr q_mgr q_g q_con q_next q_made q_log].
  - intros j y F. destruct (Nat.eq_dec j i) as [->|N]; [|rewrite upd_other in F by assumption; now apply (gd_mgr q G)].
    rewrite upd_same in F. inv F. destruct (gd_mgr q G i x E) as [A B C D].
    assert (X : m_map (seen (set_mgr q i (Some (mkCm (cm_inc x) (filter f (cm_map x)) (cm_socks x)))) i
                  (mkCm (cm_inc x) (filter f (cm_map x)) (cm_socks x)))
                = map (fun e => (fst e, q_con q (snd e))) (filter f (cm_map x))) by reflexivity.
    assert (Sub : forall k c, In (k, c) (map (fun e => (fst e, q_con q (snd e))) (filter f (cm_map x))) -> In (k, c) (m_map (seen q i x))).
    { intros k c I. apply in_map_iff in I as ([k1 o] & Q & I). apply filter_In in I as [I _]. cbn [fst snd] in Q. inv Q. now apply in_seen. }
    constructor; rewrite X.
    + unfold sorted, keys in *. cbn [seen m_map] in A. rewrite map_map in *. cbn [fst] in *. clear -A.
      induction (cm_map x) as [|[k o] l IH]; [constructor|]. cbn [map fst filter] in *. inversion A as [|? ? A1 F]; subst.
      destruct (f (k, o)); [|auto]. cbn [map fst]. constructor; [auto|]. rewrite Forall_forall in *. intros z I.
      apply F. apply in_map_iff in I as ([k1 o1] & Q & I). apply filter_In in I as [I _]. cbn [fst] in Q. subst.
      apply in_map_iff. exists (z, o1). auto.
    + intros k c I. apply B. auto.
    + unfold oids in *. cbn [seen m_map] in C. rewrite map_map in *. now apply nodup_filter.
    + intros k c I. apply (D k c). auto.
  - intros j y k o F I. destruct (Nat.eq_dec j i) as [->|N]; [|rewrite upd_other in F by assumption; eapply gd_name; eauto].
    rewrite upd_same in F. inv F. cbn [cm_map] in I. apply filter_In in I as [I _]. eapply gd_name; eauto.
  - intros j y F. destruct (Nat.eq_dec j i) as [->|N]; [eapply gd_next; eauto|]. rewrite upd_other in F by assumption. eapply gd_next; eauto.
  - intros j y e n F I. destruct (Nat.eq_dec j i) as [->|N]; [|rewrite upd_other in F by assumption; eapply gd_made; eauto].
    rewrite upd_same in F. inv F. cbn [cm_socks] in I. eapply gd_made; eauto.
  - apply G.
Qed.
(** The ticks: everything is as after [put], but for the connections that are removed. *)
Lemma ticks_put env i x q : good q -> q_mgr q i = Some x ->
  let '(res, l, ev) := ticks env (m_map (seen q i x)) in
  let q1 := put i (add_log (set_map (seen q i x) l) ev) q in
  unmoved q q1 /\ ticks_many env i q =
    match res with
    | Ok ks => (Ok tt, set_mgr q1 i (Some (mkCm (cm_inc x) (filter (fun e => negb (existsb (Z.eqb (fst e)) ks)) (cm_map x)) (cm_socks x))))
    | Throw e => (Throw e, q1) | Undef u => (Undef u, q1) | Abort => (Abort, q1)
    end.
Proof.
  intros G E. pose proof (ticks_static env (m_map (seen q i x))) as T. unfold ticks_many. rewrite E.
  destruct (ticks env _) as [[res l] ev]. cbv zeta. split; [now apply (put_unmoved q i x)|]. now destruct res.
Qed.
Lemma ticks_good env i q : good q -> good (snd (ticks_many env i q)).
Proof.
  intros G. destruct (q_mgr q i) as [x|] eqn:E; [|unfold ticks_many; rewrite E; exact G].
  pose proof (ticks_put env i x q G E) as P. destruct (ticks env _) as [[res l] ev]. cbv zeta in P. destruct P as [U P]. rewrite P.
  destruct U as (G1 & U1 & _). destruct res; try exact G1. cbn [snd]. apply fewer_good; [exact G1|]. now rewrite U1.
Qed.

(** ** All programs *)
Lemma many0_good (s : S) : good (many0 s).
Proof. constructor; cbn; try discriminate. auto. Qed.
Lemma new_good q x : good q -> (exists i, q_mgr q i = Some x) \/ (cm_map x = [] /\ cm_socks x = []) -> good (new_mgr q x).
Proof.
  intros G H.
  assert (P : forall i y, q_mgr (new_mgr q x) i = Some y -> (i = q_next q /\ y = x) \/ q_mgr q i = Some y).
  { intros i y F. cbn [new_mgr q_mgr] in F. destruct (Nat.eq_dec i (q_next q)) as [->|N]; [rewrite upd_same in F; inv F; auto|].
    rewrite upd_other in F by assumption. auto. }
  constructor.
  - intros i y F. apply P in F as [[-> ->]|F].
    + destruct H as [[j E]|[E1 E2]].
      * destruct (gd_mgr q G j x E) as [A B C D]. constructor; assumption.
      * constructor; cbn [seen m_map new_mgr q_con q_g]; rewrite E1; cbn; [constructor|contradiction|constructor|contradiction].
    + exact (gd_mgr q G i y F).
  - intros i y k o F I. apply P in F as [[-> ->]|F]; [|exact (gd_name q G i y k o F I)].
    destruct H as [[j E]|[E1 _]]; [exact (gd_name q G j x k o E I)|rewrite E1 in I; contradiction].
  - intros i y F. apply P in F as [[-> ->]|F]; cbn [new_mgr q_next]; [lia|]. pose proof (gd_next q G i y F). lia.
  - intros i y e n F I. apply P in F as [[-> ->]|F]; [|exact (gd_made q G i y e n F I)].
    destruct H as [[j E]|[_ E2]]; [exact (gd_made q G j x e n E I)|rewrite E2 in I; contradiction].
  - intros i L. cbn [new_mgr q_next q_log] in *. apply (gd_log q G). lia.
Qed.
Lemma set_good q i x : good q -> (x = None \/ exists j, q_mgr q j = x) -> (i < q_next q \/ x = None)%nat -> good (set_mgr q i x).
Proof.
  intros G H L.
  assert (P : forall k y, q_mgr (set_mgr q i x) k = Some y -> exists j, q_mgr q j = Some y).
  { intros k y F. cbn [set_mgr q_mgr] in F. destruct (Nat.eq_dec k i) as [->|N]; [rewrite upd_same in F; subst x|rewrite upd_other in F by assumption; eauto].
    destruct H as [H|H]; [discriminate|exact H]. }
  constructor.
  - intros k y F. destruct (P k y F) as [j E]. destruct (gd_mgr q G j y E) as [A B C D]. constructor; assumption.
  - intros k y k1 o F I. destruct (P k y F) as [j E]. exact (gd_name q G j y k1 o E I).
  - intros k y F. cbn [set_mgr q_mgr q_next] in *. destruct (Nat.eq_dec k i) as [->|N].
    + rewrite upd_same in F. subst x. destruct L as [L|L]; [exact L|discriminate].
    + rewrite upd_other in F by assumption. exact (gd_next q G k y F).
  - intros k y e n F I. destruct (P k y F) as [j E]. exact (gd_made q G j y e n E I).
  - apply G.
Qed.
Lemma lock_any_iff q o c : good q -> (lock_any o q = Some c <-> c = q_con q o /\ exists i, keeper q i o).
Proof.
  intros G. unfold lock_any. destruct (existsb _ _) eqn:X.
  - apply existsb_exists in X as (i & _ & X). unfold owned_by in X. destruct (q_mgr q i) as [x|] eqn:E; [|discriminate].
    apply existsb_exists in X as ([k o'] & I & Q). cbn [snd] in Q. apply Nat.eqb_eq in Q. subst o'.
    split; [intros F; inv F; split; [reflexivity|]; exists i, k, x; auto|]. intros [-> _]. reflexivity.
  - split; [discriminate|]. intros (_ & i & k & x & E & I). exfalso. rewrite <- Bool.not_true_iff_false in X. apply X.
    apply existsb_exists. exists i. split; [apply in_seq; pose proof (gd_next q G i x E); lia|]. unfold owned_by. rewrite E.
    apply existsb_exists. exists (k, o). cbn [snd]. rewrite Nat.eqb_refl. auto.
Qed.
Lemma data_good q o d : good q -> io_oid (q_con q o) = o ->
  good (mkMany (q_g q) (update (q_con q) o (io_set_output (q_con q o) d)) (q_mgr q) (q_next q) (q_made q) (q_log q) (q_s q)).
Proof.
  intros G N. set (q' := mkMany _ _ _ _ _ _ _).
  assert (P : forall o', io_static (q_con q' o') = io_static (q_con q o')).
  { intros o'. cbn [q' q_con]. destruct (Nat.eq_dec o' o) as [->|Q]; [rewrite upd_same; apply output_static|now rewrite upd_other]. }
  constructor; try apply G.
  - intros i x E. apply (statics_inv _ (seen q i x)); [exact (gd_mgr q G i x E)|]. unfold statics. cbn [seen m_map]. rewrite !map_map.
    apply map_ext. intros [k o']. cbn [fst snd]. now rewrite P.
  - intros i x k o' E I. rewrite <- (gd_name q G i x k o' E I) at 2. apply static_oid, P.
Qed.
Lemma handle_good h i rounds ending env x q : good q ->
  good (snd (st_bind (bs_select (readable_many h (cm_socks x)) (List.length (cm_socks x)) rounds ending) (fun _ => ticks_many env i) q)).
Proof.
  intros G. unfold st_bind. pose proof (select_unmoved h (cm_socks x) (List.length (cm_socks x)) rounds ending q G) as [G1 _].
  destruct (bs_select _ _ _ _ _) as [[[]|e|u|] q1]; try exact G1. now apply ticks_good.
Qed.
Lemma qstep_good h c q : good q -> good (snd (qstep h c q)).
Proof.
  intros G. destruct c as [inc|i|i j|i|i use8 si host env large c|i use8 si o|i rounds ending env|o d]; cbn [qstep].
  - apply new_good; [exact G|]. right. auto.
  - destruct (q_mgr q i) as [x|] eqn:E; [|exact G]. apply new_good; [exact G|]. eauto.
  - destruct (q_mgr q i) as [x|] eqn:E; [|exact G]. destruct (q_mgr q j) as [y|] eqn:F; [|exact G].
    apply set_good; [exact G|eauto|]. left. eapply gd_next; eauto.
  - apply set_good; auto.
  - destruct (q_mgr q i) as [x|] eqn:E; [|exact G]. destruct (forward_open _ _ _ _ _ _ _ _) as [r [[g m] s]] eqn:F. cbn [snd].
    destruct (open_inv _ _ _ _ _ _ _ _ _ _ _ _ _ _ (gd_mgr q G i x E) F). eapply put_new; eauto. eapply open_grown; eauto.
  - destruct (q_mgr q i) as [x|] eqn:E; [|exact G]. destruct (forward_close _ _ _ _ _) as [r [m s]] eqn:F. cbn [snd].
    eapply put_new; eauto; [eapply close_grown; eauto|eapply close_inv; eauto; exact (gd_mgr q G i x E)].
  - destruct (q_mgr q i) as [x|] eqn:E; [|exact G]. pose proof (handle_good h i rounds ending env x q G) as H.
    destruct (st_bind _ _ _) as [r q1]. exact H.
  - destruct (lock_any o q) as [c|] eqn:L; [|exact G]. apply lock_any_iff in L as (-> & i & k & x & E & I); [|exact G].
    cbn [snd]. apply data_good; [exact G|]. eapply gd_name; eauto.
Qed.
Lemma qrun_good h cs : forall q, good q -> good (qrun h cs q).
Proof. induction cs as [|c cs IH]; intros q G; [exact G|]. cbn [qrun fold_left]. apply IH. now apply qstep_good. Qed.
End S.
