(** Managers that are kept apart behave as if they were alone. *)
From Verif Require Import Base MBuffer SBuffer PBase PBuffer MEip SEip PEip PRouter MSocket SSocket PSocket MConnReq SConnReq PConnReq
  MConn SConn PConnOpen PConnMap PIo PConnCall PConnCall2 PConnHist PIo2 PConnTop MMany SMany PMany.
Ltac Zify.zify_post_hook ::= Z.div_mod_to_equations.

(** Two selects with handlers that do the same. *)
Lemma dispatch_same {U W A} (P : U -> W -> Prop) (f : nat -> A -> st U unit) (g : nat -> A -> st W unit) (N : nat) :
  (forall k a u w, (k < N)%nat -> P u w -> fst (f k a u) = fst (g k a w) /\ P (snd (f k a u)) (snd (g k a w))) ->
  forall n ready i u w, (i + n <= N)%nat -> P u w ->
  fst (dispatch f i n ready u) = fst (dispatch g i n ready w) /\ P (snd (dispatch f i n ready u)) (snd (dispatch g i n ready w)).
Proof.
  intros H. induction n as [|n IH]; intros ready i u w L Puw; [split; [reflexivity|exact Puw]|].
  destruct ready as [|[a|] r]; cbn [dispatch]; [split; [reflexivity|exact Puw]| |apply IH; [lia|exact Puw]].
  unfold st_bind. destruct (H i a u w ltac:(lia) Puw) as [E P1]. destruct (f i a u) as [o1 u1], (g i a w) as [o2 w1]. cbn [fst snd] in *. subst o2.
  destruct o1 as [[]|e|b|]; cbn [fst snd]; auto. apply IH; [lia|exact P1].
Qed.
Lemma select_same {U W A} (P : U -> W -> Prop) (f : nat -> A -> st U unit) (g : nat -> A -> st W unit) (N : nat) rounds ending :
  (forall k a u w, (k < N)%nat -> P u w -> fst (f k a u) = fst (g k a w) /\ P (snd (f k a u)) (snd (g k a w))) ->
  forall u w, P u w -> fst (bs_select f N rounds ending u) = fst (bs_select g N rounds ending w)
    /\ P (snd (bs_select f N rounds ending u)) (snd (bs_select g N rounds ending w)).
Proof.
  intros H u w Puw. unfold bs_select. destruct N as [|N]; [split; [reflexivity|exact Puw]|]. revert u w Puw.
  induction rounds as [|r rs IH]; intros u w Puw; cbn [select_rounds].
  - destruct ending; split; try reflexivity; exact Puw.
  - unfold st_bind. destruct (dispatch_same P f g (Datatypes.S N) H (Datatypes.S N) (sr_ready r) 0 u w ltac:(lia) Puw) as [E P1].
    destruct (dispatch f _ _ _ u) as [o1 u1], (dispatch g _ _ _ w) as [o2 w1]. cbn [fst snd] in *. subst o2.
    destruct o1 as [[]|e|b|]; cbn [fst snd]; auto.
Qed.

Section S.
Context {S : Type}.
Implicit Types q : many S.

(** The state of the program and the managers, each alone. *)
Definition lone q : Prop := forall i j o, keeper q i o -> keeper q j o -> i = j.
Definition ownears q : Prop := forall i j, hears q i j -> j = i.
Record alike q (w : world S) : Prop := {
  al_good : good q;
  al_g : q_g q = w_g w;
  al_s : q_s q = w_s w;
  al_seen : forall i x, q_mgr q i = Some x -> w_m w i = seen q i x;
  al_lone : lone q;
  al_ears : ownears q }.

Lemma put_alike q w i x m g s : alike q w -> q_mgr q i = Some x -> grown (q_g q) (seen q i x) m -> mgr_inv g m ->
  (g_oid (q_g q) <= g_oid g)%nat -> alike (with_gs g s (put i m q)) (mkWorld g (update (w_m w) i m) s).
Proof.
  intros [G Eg Es Al Lo Ea] E Gr I L. pose proof (mi_oids _ _ I) as N.
  pose proof (put_seen _ q i x m E Gr N) as PS.
  assert (Far : forall j y k o, j <> i -> q_mgr q j = Some y -> In (k, o) (cm_map y) -> ~ In o (oids (m_map m))).
  { intros j y k o J F K X. apply in_map_iff in X as ([k1 c] & Q & X). cbn [snd] in Q. subst o.
    pose proof (held_fresh q j y k (io_oid c) G F K). destruct (proj1 Gr k1 c X) as [B|(c0 & X0 & St)]; [lia|].
    apply (seen_in q i x k1 c0 G E) in X0 as [X0 _]. rewrite <- (static_oid _ _ St) in X0. apply J.
    apply (Lo j i (io_oid c)); [exists k, y; auto|exists k1, x; auto]. }
  assert (Kp : forall j o, keeper (with_gs g s (put i m q)) j o -> (j = i /\ In o (oids (m_map m))) \/ j <> i /\ keeper q j o).
  { intros j o (k & y & F & K). cbn [with_gs q_mgr] in F. destruct (Nat.eq_dec j i) as [->|J].
    - left. split; [reflexivity|]. rewrite (put_mgr q i x m E) in F. inv F. cbn [put_cm cm_map] in K. apply in_map_iff in K as ([k1 c] & Q & K).
      cbn [fst snd] in Q. inv Q. apply in_map_iff. exists (k, c). auto.
    - right. split; [exact J|]. rewrite put_mgr_other in F by assumption. exists k, y. auto. }
  constructor.
  - now apply (put_new q i x).
  - reflexivity.
  - reflexivity.
  - intros j y F. cbn [w_m with_gs q_mgr] in *. destruct (Nat.eq_dec j i) as [->|J].
    + rewrite upd_same. rewrite (put_mgr q i x m E) in F. inv F. now rewrite with_gs_seen, PS.
    + rewrite upd_other by assumption. rewrite put_mgr_other in F by assumption. rewrite (Al j y F), with_gs_seen. unfold seen.
      rewrite (put_con q i x m E), (put_log q i x m E), upd_other by assumption. f_equal. apply map_ext_in. intros [k o] K. cbn [fst snd].
      rewrite stored_other; [reflexivity|]. eapply Far; eauto.
  - intros j1 j2 o K1 K2. apply Kp in K1 as [[-> K1]|[J1 K1]]; apply Kp in K2 as [[-> K2]|[J2 K2]]; try reflexivity.
    + exfalso. destruct K2 as (k & y & F & K). exact (Far j2 y k o J2 F K K1).
    + exfalso. destruct K1 as (k & y & F & K). exact (Far j1 y k o J1 F K K2).
    + eapply Lo; eauto.
  - intros j1 j2 (y & e & n & F & K & M). cbn [with_gs q_mgr q_made] in *. destruct (Nat.eq_dec j1 i) as [->|J].
    + rewrite (put_mgr q i x m E) in F. inv F. cbn [put_cm cm_socks] in K. unfold put_socks in K. cbv zeta in K.
      apply in_app_or in K as [K|K].
      * pose proof (gd_made q G i x e n E K) as Ln. destruct (put_made q i m) as [nn Q]. rewrite Q, nth_error_app1 in M by exact Ln.
        apply (Ea i j2). exists x, e, n. auto.
      * apply in_combine_r, in_seq in K. destruct (put_made q i m) as [nn Q]. rewrite Q, nth_error_app2 in M by lia.
        apply nth_error_In, repeat_spec in M. exact M.
    + rewrite put_mgr_other in F by assumption. pose proof (gd_made q G j1 y e n F K) as Ln. destruct (put_made q i m) as [nn Q].
      rewrite Q, nth_error_app1 in M by exact Ln. apply (Ea j1 j2). exists y, e, n. auto.
Qed.
Lemma gs_same q i m : with_gs (q_g q) (q_s q) (put i m q) = put i m q.
Proof. unfold with_gs. rewrite <- (put_g q i m), <- (put_s q i m) at 1. now destruct (put i m q). Qed.

(** lock through the manager that has the connection *)
Lemma lock_alike q w i x o : alike q w -> q_mgr q i = Some x -> (forall j, keeper q j o -> j = i) -> lock_any o q = lock o (seen q i x).
Proof.
  intros [G Eg Es Al Lo Ea] E O. pose proof (gd_mgr q G i x E) as I. destruct (lock_any o q) as [c|] eqn:L.
  - apply lock_any_iff in L as (-> & j & K); [|exact G]. pose proof (O j K) as ->. destruct K as (k & y & F & K).
    rewrite E in F. inv F. symmetry. rewrite <- (gd_name q G i y k o E K) at 1. eapply lock_some; [exact I|]. apply in_seen. exact K.
  - destruct (lock o (seen q i x)) as [c|] eqn:L2; [|reflexivity]. exfalso. apply lock_in in L2 as (Q & k & K).
    apply (seen_in q i x k c G E) in K as [K C]. rewrite Q in *. assert (X : lock_any o q = Some (q_con q o)); [|congruence].
    apply lock_any_iff; [exact G|]. split; [reflexivity|]. exists i, k, x. auto.
Qed.

Lemma readable_alike h q w i x k d : alike q w -> q_mgr q i = Some x -> (k < List.length (cm_socks x))%nat ->
  fst (readable_many h (cm_socks x) k d q) = fst (on_readable h d (w_m w i))
  /\ alike (snd (readable_many h (cm_socks x) k d q)) (mkWorld (w_g w) (update (w_m w) i (snd (on_readable h d (w_m w i)))) (w_s w)).
Proof.
  intros A E L. pose proof A as [G Eg Es Al Lo Ea]. unfold readable_many. destruct (nth_error (cm_socks x) k) as [[e n]|] eqn:N.
  2:{ apply nth_error_None in N. lia. }
  cbv zeta. apply nth_error_In in N. assert (M : nth n (q_made q) 0%nat = i).
  { pose proof (gd_made q G i x e n E N) as Ln. apply (Ea i). exists x, e, n. split; [exact E|]. split; [exact N|]. now apply nth_error_nth'. }
  rewrite M, E, (Al i x E). pose proof (readable_same _ h d _ (gd_mgr q G i x E)) as Q.
  destruct (on_readable h d (seen q i x)) as [o m]. cbn [fst snd] in *. split; [reflexivity|].
  rewrite <- gs_same, Es, Eg. apply (put_alike q w i x); auto.
  - now apply quiet_grown.
  - rewrite <- Eg. eapply statics_inv; [exact (gd_mgr q G i x E)|apply Q].
  - rewrite Eg. lia.
Qed.

Lemma erase_filter ks : forall (l : list (Z * iocon)),
  fold_left (fun l k => map_erase k l) ks l = filter (fun e => negb (existsb (Z.eqb (fst e)) ks)) l.
Proof.
  induction ks as [|k ks IH]; intros l; cbn [fold_left existsb].
  - induction l as [|e l IHl]; [reflexivity|]. cbn. now f_equal.
  - rewrite IH. unfold map_erase. clear IH. induction l as [|e l IHl]; [reflexivity|]. cbn [filter].
    destruct (fst e =? k); cbn [negb orb]; [exact IHl|]. cbn [filter]. destruct (negb _); now rewrite IHl.
Qed.
Lemma filter_map {A B} (f : A -> B) (p : B -> bool) l : filter p (map f l) = map f (filter (fun a => p (f a)) l).
Proof. induction l as [|a l IH]; [reflexivity|]. cbn. destruct (p (f a)); cbn; now rewrite IH. Qed.
Lemma alike_ext q w w' : alike q w -> w_g w' = w_g w -> w_s w' = w_s w -> (forall j, w_m w' j = w_m w j) -> alike q w'.
Proof. intros [G Eg Es Al Lo Ea] A B C. constructor; try assumption; try congruence. intros i x E. rewrite C. now apply Al. Qed.
Lemma fewer_alike q w i x f : alike q w -> q_mgr q i = Some x ->
  alike (set_mgr q i (Some (mkCm (cm_inc x) (filter f (cm_map x)) (cm_socks x))))
    (mkWorld (w_g w) (update (w_m w) i (set_map (w_m w i) (map (fun e => (fst e, q_con q (snd e))) (filter f (cm_map x))))) (w_s w)).
Proof.
  intros [G Eg Es Al Lo Ea] E. constructor; try assumption.
  - now apply fewer_good.
  - intros j y F. cbn [set_mgr q_mgr w_m] in *. destruct (Nat.eq_dec j i) as [->|J].
    + rewrite upd_same in F. injection F as <-. rewrite upd_same, (Al i x E). reflexivity.
    + rewrite upd_other in F by assumption. rewrite upd_other by assumption. rewrite (Al j y F). reflexivity.
  - assert (K : forall j o, keeper (set_mgr q i (Some (mkCm (cm_inc x) (filter f (cm_map x)) (cm_socks x)))) j o -> keeper q j o).
    { intros j o (k & y & F & K). cbn [set_mgr q_mgr] in F. destruct (Nat.eq_dec j i) as [->|J].
      - rewrite upd_same in F. inv F. cbn [cm_map] in K. apply filter_In in K as [K _]. exists k, x. auto.
      - rewrite upd_other in F by assumption. exists k, y. auto. }
    intros j1 j2 o K1 K2. eapply Lo; eauto.
  - intros j1 j2 (y & e & n & F & K & M). cbn [set_mgr q_mgr q_made] in *. destruct (Nat.eq_dec j1 i) as [->|J].
    + rewrite upd_same in F. inv F. apply (Ea i j2). exists x, e, n. auto.
    + rewrite upd_other in F by assumption. apply (Ea j1 j2). exists y, e, n. auto.
Qed.
Lemma ticks_alike env q w i x : alike q w -> q_mgr q i = Some x ->
  fst (ticks_many env i q) = fst (run_ticks env (w_m w i))
  /\ alike (snd (ticks_many env i q)) (mkWorld (w_g w) (update (w_m w) i (snd (run_ticks env (w_m w i)))) (w_s w)).
Proof.
  intros A E. pose proof A as [G Eg Es Al Lo Ea]. pose proof (ticks_put env i x q G E) as T. rewrite (Al i x E). unfold run_ticks.
  pose proof (ticks_static env (m_map (seen q i x))) as St. destruct (ticks env _) as [[res l] ev]. cbv zeta in T. destruct T as [U T]. rewrite T.
  set (m1 := add_log (set_map (seen q i x) l) ev) in *.
  assert (A1 : alike (put i m1 q) (mkWorld (w_g w) (update (w_m w) i m1) (w_s w))).
  { rewrite <- gs_same, Es, Eg. apply (put_alike q w i x); auto.
    - now apply grown_statics.
    - rewrite <- Eg. eapply statics_inv; [exact (gd_mgr q G i x E)|exact St].
    - rewrite Eg. lia. }
  destruct res as [ks|e|u|]; [|split; [reflexivity|exact A1]..]. split; [reflexivity|]. cbn [fst snd].
  destruct U as (G1 & U & _). pose proof (fewer_alike _ _ i x (fun e => negb (existsb (Z.eqb (fst e)) ks)) A1 ltac:(now rewrite U)) as A2.
  eapply alike_ext; [exact A2|reflexivity|reflexivity|]. cbn [w_m]. intros j. destruct (Nat.eq_dec j i) as [->|J].
  - rewrite !upd_same. f_equal. rewrite erase_filter.
    assert (Q : l = map (fun e => (fst e, q_con (put i m1 q) (snd e))) (cm_map x)).
    { pose proof (al_seen _ _ A1 i x ltac:(now rewrite U)) as X. cbn [w_m] in X. rewrite upd_same in X.
      apply (f_equal m_map) in X. exact X. }
    rewrite Q at 1. rewrite filter_map. reflexivity.
  - now rewrite !upd_other.
Qed.
Lemma handle_alike h rounds ending env q w i x : alike q w -> q_mgr q i = Some x ->
  let r := st_bind (bs_select (readable_many h (cm_socks x)) (List.length (cm_socks x)) rounds ending) (fun _ => ticks_many env i) q in
  let r' := handle_connections h rounds ending env (w_m w i) in
  fst r = fst r' /\ alike (snd r) (mkWorld (w_g w) (update (w_m w) i (snd r')) (w_s w)).
Proof.
  intros A E. cbv zeta. unfold handle_connections, st_bind.
  replace (List.length (m_socks (w_m w i))) with (List.length (cm_socks x)) by (rewrite (al_seen q w A i x E); cbn [seen m_socks]; now rewrite map_length).
  destruct (select_same (fun (u : many S) (m : mgr) => alike u (mkWorld (w_g w) (update (w_m w) i m) (w_s w)) /\ unmoved q u)
    (readable_many h (cm_socks x)) (fun _ => on_readable h) (List.length (cm_socks x)) rounds ending) with (u := q) (w := w_m w i) as [O [A1 U]].
  - intros k d u m L [A1 U]. destruct U as (G1 & U & Ur). pose proof (readable_alike h u _ i x k d A1 ltac:(now rewrite U) L) as [O A2].
    cbn [w_m w_g w_s] in *. rewrite !upd_same in *. split; [exact O|]. split.
    + eapply alike_ext; [exact A2|reflexivity|reflexivity|]. intros j. cbn [w_m]. destruct (Nat.eq_dec j i) as [->|J]; [now rewrite !upd_same|now rewrite !upd_other].
    + eapply unmoved_trans; [split; [exact G1|split; [exact U|exact Ur]]|]. now apply readable_unmoved.
  - split; [|apply unmoved_refl; exact (al_good q w A)]. eapply alike_ext; [exact A|reflexivity|reflexivity|]. intros j. cbn [w_m].
    destruct (Nat.eq_dec j i) as [->|J]; [now rewrite upd_same|now rewrite upd_other].
  - destruct (bs_select _ _ _ _ q) as [o1 u], (bs_select _ _ _ _ (w_m w i)) as [o2 m]. cbn [fst snd] in *. subst o2.
    destruct o1 as [[]|e|b|]; [|split; [reflexivity|exact A1]..].
    destruct U as (G1 & U & _). destruct (ticks_alike env u _ i x A1 ltac:(now rewrite U)) as [O2 A2]. cbn [w_m w_g w_s] in *.
    rewrite upd_same in *. split; [exact O2|]. eapply alike_ext; [exact A2|reflexivity|reflexivity|]. intros j. cbn [w_m].
    destruct (Nat.eq_dec j i) as [->|J]; [now rewrite !upd_same|now rewrite !upd_other].
Qed.
Lemma data_alike q w i x o d : alike q w -> q_mgr q i = Some x -> (forall j, keeper q j o -> j = i) ->
  alike (snd (qstep strict (QData o d) q)) (mkWorld (w_g w) (update (w_m w) i (set_output o d (w_m w i))) (w_s w)).
Proof.
  intros A E O. pose proof A as [G Eg Es Al Lo Ea]. cbn [qstep]. destruct (lock_any o q) as [c|] eqn:L.
  - apply lock_any_iff in L as (-> & j & K); [|exact G]. pose proof (O j K) as ->. destruct K as (k & y & F & K).
    assert (y = x) by congruence. subst y. pose proof (gd_name q G i x k o E K) as N. cbn [snd].
    set (q' := mkMany _ _ _ _ _ _ _). assert (G' : good q') by now apply data_good.
    constructor; try assumption.
    intros j y F'. change (q_mgr q j = Some y) in F'. cbn [w_m]. destruct (Nat.eq_dec j i) as [->|J].
    + assert (y = x) by congruence. subst y. rewrite upd_same, (Al i x E). unfold set_output, set_map, seen. cbn [m_inc m_map m_socks m_log q' q_con q_log].
      f_equal. rewrite map_map. apply map_ext_in. intros [k1 o1] I. cbn [fst snd]. rewrite (gd_name q G i x k1 o1 E I). unfold update.
      destruct (Nat.eqb_spec o1 o) as [->|]; reflexivity.
    + rewrite upd_other by assumption. rewrite (Al j y F'). unfold seen. cbn [q' q_con q_log]. f_equal. apply map_ext_in. intros [k1 o1] I.
      cbn [fst snd]. rewrite upd_other; [reflexivity|]. intros ->. apply J, O. exists k1, y. auto.
  - cbn [snd]. eapply alike_ext; [exact A|reflexivity|reflexivity|]. intros j. cbn [w_m]. destruct (Nat.eq_dec j i) as [->|J]; [|now rewrite upd_other].
    rewrite upd_same. unfold set_output. rewrite (Al i x E). unfold set_map, seen. cbn [m_inc m_map m_socks m_log]. f_equal.
    rewrite map_map. apply map_ext_in. intros [k1 o1] I. cbn [fst snd]. rewrite (gd_name q G i x k1 o1 E I).
    destruct (Nat.eqb_spec o1 o) as [->|]; [|reflexivity]. exfalso.
    assert (X : lock_any o q = Some (q_con q o)); [|congruence]. apply lock_any_iff; [exact G|]. split; [reflexivity|]. exists i, k1, x. auto.
Qed.
Lemma step_alike h q w i x (op : call S) : alike q w -> q_mgr q i = Some x -> own_call q i op ->
  fst (qstep h (on_mgr i op) q) = fst (call_world h i op w) /\ alike (snd (qstep h (on_mgr i op) q)) (snd (call_world h i op w)).
Proof.
  intros A E O. pose proof A as [G Eg Es Al Lo Ea]. unfold call_world. rewrite (Al i x E), <- Eg, <- Es.
  destruct op as [use8 si host env large c|use8 si o|rounds ending env|o d]; cbn [on_mgr own_call call_mgr] in *.
  - cbn [qstep]. rewrite E. destruct (forward_open _ _ _ _ _ _ _ _) as [r [[g m] s]] eqn:F. cbn [fst snd]. split; [reflexivity|].
    destruct (open_inv _ _ _ _ _ _ _ _ _ _ _ _ _ _ (gd_mgr q G i x E) F). eapply put_alike; eauto. eapply open_grown; eauto.
  - cbn [qstep]. rewrite E, (lock_alike q w i x o A E O). destruct (forward_close _ _ _ _ _) as [r [m s]] eqn:F. cbn [fst snd]. split; [reflexivity|].
    eapply put_alike; eauto; [eapply close_grown; eauto|eapply close_inv; eauto; exact (gd_mgr q G i x E)].
  - cbn [qstep]. rewrite E. pose proof (handle_alike h rounds ending env q w i x A E) as H. cbv zeta in H. rewrite (Al i x E) in H.
    destruct (st_bind _ _ _) as [r q1]. destruct (handle_connections _ _ _ _ _) as [r' m']. cbn [fst snd] in *. destruct H as [-> H].
    split; [reflexivity|]. rewrite Eg, Es. exact H.
  - split; [cbn [qstep]; destruct (lock_any o q); reflexivity|]. cbn [snd]. rewrite Eg, Es, <- (Al i x E).
    pose proof (data_alike q w i x o d A E O) as H. exact H.
Qed.
End S.
