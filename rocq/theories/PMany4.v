(** Connections and sockets that managers share. *)
From Verif Require Import Base MBuffer SBuffer PBase PBuffer MEip SEip PEip PRouter MSocket SSocket PSocket MConnReq SConnReq PConnReq
  MConn SConn PConnOpen PConnMap PIo PConnCall PConnCall2 PConnHist PIo2 PConnTop MMany SMany PMany PMany2 PSlot PMany3.
Ltac Zify.zify_post_hook ::= Z.div_mod_to_equations.
Section S.
Context {S : Type}.
Implicit Types q : many S.

Theorem copied h i x q : good q -> q_mgr q i = Some x ->
  let '(o, q') := qstep h (QCopy i) q in
  o = Ok None /\ q_con q' = q_con q /\ (forall j, (j < q_next q)%nat -> q_mgr q' j = q_mgr q j) /\ q_next q' = Datatypes.S (q_next q)
  /\ (forall k c, keeps q' (q_next q) k c <-> keeps q i k c) /\ (forall j, hears q' (q_next q) j <-> hears q i j)
  /\ q_mgr q (q_next q) = None /\ (forall y, q_mgr q' (q_next q) = Some y -> cm_inc y = cm_inc x).
Proof.
  intros G E. cbn [qstep]. rewrite E. split; [reflexivity|]. split; [reflexivity|]. split.
  { intros j L. cbn [new_mgr q_mgr]. apply upd_other. lia. }
  split; [reflexivity|]. unfold keeps, hears. cbn [new_mgr q_mgr q_made]. rewrite upd_same, E.
  split; [reflexivity|]. split; [reflexivity|]. split; [|congruence]. destruct (q_mgr q (q_next q)) as [y|] eqn:F; [|reflexivity].
  pose proof (gd_next q G _ y F). lia.
Qed.
Theorem assigned h i j x y q : q_mgr q i = Some x -> q_mgr q j = Some y ->
  let '(o, q') := qstep h (QAssign i j) q in
  o = Ok None /\ q_con q' = q_con q /\ (forall n, n <> i -> q_mgr q' n = q_mgr q n) /\ q_next q' = q_next q
  /\ (forall k c, keeps q' i k c <-> keeps q j k c) /\ (forall n, hears q' i n <-> hears q j n)
  /\ (forall z, q_mgr q' i = Some z -> cm_inc z = cm_inc y).
Proof.
  intros E F. cbn [qstep]. rewrite E, F. split; [reflexivity|]. split; [reflexivity|]. split.
  { intros n L. cbn [set_mgr q_mgr]. now apply upd_other. }
  split; [reflexivity|]. unfold keeps, hears. cbn [set_mgr q_mgr q_made]. rewrite upd_same, F. split; [reflexivity|]. split; [reflexivity|congruence].
Qed.
Theorem destroyed h i q :
  let '(o, q') := qstep h (QDestroy i) q in
  o = Ok None /\ q_con q' = q_con q /\ (forall n, n <> i -> q_mgr q' n = q_mgr q n) /\ q_mgr q' i = None /\ q_next q' = q_next q.
Proof.
  cbn [qstep]. split; [reflexivity|]. split; [reflexivity|]. split; [intros n N; cbn [set_mgr q_mgr]; now apply upd_other|].
  split; [cbn [set_mgr q_mgr]; apply upd_same|reflexivity].
Qed.
Theorem fed h o d q : good q ->
  let '(r, q') := qstep h (QData o d) q in
  r = Ok None /\ q_mgr q' = q_mgr q
  /\ ((exists i, keeper q i o) -> q_con q' o = io_set_output (q_con q o) d)
  /\ (forall o', o' <> o \/ (forall i, ~ keeper q i o) -> q_con q' o' = q_con q o').
Proof.
  intros G. cbn [qstep]. destruct (lock_any o q) as [c|] eqn:L.
  - apply lock_any_iff in L as (-> & K); [|exact G]. split; [reflexivity|]. split; [reflexivity|]. cbn [q_con]. rewrite upd_same. split; [auto|].
    intros o' [N|N]; [now apply upd_other|]. destruct K as [i K]. now destruct (N i).
  - split; [reflexivity|]. split; [reflexivity|]. split; [|auto]. intros K. exfalso.
    assert (X : lock_any o q = Some (q_con q o)); [|congruence]. apply lock_any_iff; auto.
Qed.

(** A poll without datagrams. *)
Theorem polled h i x env q : good q -> q_mgr q i = Some x -> cm_socks x <> [] -> sends_all env ->
  let '(r, q') := qstep h (QHandle i [] SelQuiet env) q in
  r = Ok None
  /\ (forall j, j <> i -> q_mgr q' j = q_mgr q j)
  /\ (forall k o, keeps q i k o ->
       let '(alive, c, _) := io_tick (t_now env o) (t_hook env o) (t_send env o) (q_con q o) in
       q_con q' o = c /\ (keeps q' i k o <-> alive = Ok true))
  /\ (forall k o, keeps q' i k o -> keeps q i k o)
  /\ (forall o, ~ keeper q i o -> q_con q' o = q_con q o)
  /\ (forall j, hears q' i j <-> hears q i j).
Proof.
  intros G E Ne W. cbn [qstep]. rewrite E. unfold st_bind, bs_select. destruct (List.length (cm_socks x)) as [|N] eqn:Ln.
  { destruct (cm_socks x); [congruence|discriminate]. }
  cbn [select_rounds]. unfold st_ret. pose proof (ticks_put env i x q G E) as T.
  pose proof (gd_mgr q G i x E) as I. pose proof (ticks_static env (m_map (seen q i x))) as St.
  destruct (ticks_whole env (m_map (seen q i x)) W) as (l & ev & Q & _ & L). rewrite Q in T, St. cbv zeta in T. destruct T as [U ->].
  set (m1 := add_log (set_map (seen q i x) l) ev) in *. set (ks := keys _) in *. cbn [omap bind].
  assert (I1 : mgr_inv (q_g q) m1) by (eapply statics_inv; [exact I|exact St]).
  destruct U as (G1 & U & Un & Ud & _).
  assert (Kk : forall k, In k ks <-> exists o, In (k, o) (cm_map x) /\ timed_out env (q_con q o) = true).
  { intros k. unfold ks, keys. rewrite in_map_iff. split.
    - intros ([k1 c] & <- & In1). apply filter_In in In1 as [In1 To]. cbn [snd fst] in *.
      apply (seen_in q i x k1 c G E) in In1 as [In1 C]. exists (io_oid c). rewrite C. auto.
    - intros (o & In1 & To). exists (k, q_con q o). split; [reflexivity|]. apply filter_In. split; [now apply in_seen|exact To]. }
  pose proof (sorted_nodup _ (mi_sorted _ _ I)) as Nd.
  assert (Uq : forall k o o', In (k, o) (cm_map x) -> In (k, o') (cm_map x) -> o' = o).
  { intros k o o' A B. rewrite <- (gd_name q G i x k o E A), <- (gd_name q G i x k o' E B). f_equal.
    apply (in_seen q i x) in A. apply (in_seen q i x) in B. apply (find_iff _ _ _ Nd) in A. apply (find_iff _ _ _ Nd) in B. congruence. }
  assert (Kp : forall k o, keeps (set_mgr (put i m1 q) i (Some (mkCm (cm_inc x) (filter (fun e => negb (existsb (Z.eqb (fst e)) ks)) (cm_map x)) (cm_socks x)))) i k o
     <-> In (k, o) (cm_map x) /\ ~ In k ks).
  { intros k o. unfold keeps. cbn [set_mgr q_mgr]. rewrite upd_same. split.
    - intros (x' & F & In1). injection F as <-. cbn [cm_map] in In1. apply filter_In in In1 as [In1 Nx]. split; [exact In1|].
      cbn [fst] in Nx. intros In2. apply negb_true_iff in Nx. rewrite <- Bool.not_true_iff_false in Nx. apply Nx. apply existsb_exists.
      exists k. rewrite Z.eqb_refl. auto.
    - intros [In1 Nx]. eexists. split; [reflexivity|]. cbn [cm_map]. apply filter_In. split; [exact In1|]. cbn [fst]. apply negb_true_iff.
      apply Bool.not_true_iff_false. intros X. apply existsb_exists in X as (k' & In2 & Ek). apply Z.eqb_eq in Ek. subst k'. contradiction. }
  split; [reflexivity|]. split.
  { intros j J. cbn [set_mgr q_mgr]. rewrite upd_other by assumption. apply U. }
  split; [|split; [|split]].
  - intros k o (x' & F & In1). rewrite E in F. injection F as <-. pose proof (gd_name q G i x k o E In1) as Nm.
    pose proof (whole_ok env (q_con q o) W) as [b Hb].
    assert (To : timed_out env (q_con q o) = negb b) by (unfold timed_out; rewrite Hb; destruct b; reflexivity).
    assert (Con : q_con (put i m1 q) o = snd (fst (ticked env (q_con q o)))).
    { rewrite (put_con q i x m1 E). assert (In2 : In (k, snd (fst (ticked env (q_con q o)))) (m_map m1)).
      { unfold m1. cbn [add_log set_map m_map]. rewrite L. apply in_map_iff. exists (k, q_con q o). split; [reflexivity|]. now apply in_seen. }
      assert (Od : io_oid (snd (fst (ticked env (q_con q o)))) = o).
      { rewrite <- Nm at 2. apply static_oid, tick_static. }
      rewrite <- Od at 1. eapply stored_in; [exact (mi_oids _ _ I1)|exact In2]. }
    unfold ticked in Hb, Con. rewrite Nm in Hb, Con. destruct (io_tick _ _ _ _) as [[al c] ev1]. cbn [fst snd] in *. subst al.
    split; [exact Con|]. rewrite Kp, Kk. split.
    + intros [_ Nx]. destruct b; [reflexivity|]. exfalso. apply Nx. exists o. auto.
    + intros B. injection B as ->. split; [exact In1|]. intros (o' & In2 & T'). rewrite (Uq k o o' In1 In2) in T'. rewrite T' in To. discriminate To.
  - intros k o K. apply Kp in K as [In1 _]. exists x. auto.
  - intros o Nk. cbn [set_mgr q_con]. rewrite (put_con q i x m1 E). apply stored_other. intros In1. apply in_map_iff in In1 as ([k c] & Ec & In1).
    cbn [snd] in Ec. subst o. destruct (statics_t2o _ _ k c St In1) as (c0 & In0 & Sc). apply (seen_in q i x k c0 G E) in In0 as [In0 _].
    rewrite <- (static_oid _ _ Sc) in In0. apply Nk. exists k, x. auto.
  - intros j. unfold hears. cbn [set_mgr q_mgr q_made]. rewrite upd_same, E, Ud. split.
    + intros (x' & e & n & F & In1 & M). injection F as <-. exists x, e, n. auto.
    + intros (x' & e & n & F & In1 & M). injection F as <-. eexists _, e, n. split; [reflexivity|]. auto.
Qed.

(** One datagram at a socket that manager [j] has made. *)
Lemma filter_data_nil l : (forall e, In e l -> forall o hd sq d, e <> EvData o hd sq d) -> filter is_data l = [].
Proof.
  induction l as [|e l IH]; intros H; [reflexivity|]. cbn [filter]. destruct e; cbn [is_data]; try (apply IH; intros; apply H; now right).
  exfalso. eapply (H (EvData oid header seq data)); [now left|reflexivity].
Qed.
Theorem received h i k e n j y d now env x q : good q -> q_mgr q i = Some x -> nth_error (cm_socks x) k = Some (e, n) ->
  nth_error (q_made q) n = Some j -> q_mgr q j = Some y ->
  let '(r, m) := on_readable h d (seen q j y) in
  let '(r', q') := qstep h (QHandle i [mkRound (repeat None k ++ [Some d]) now] SelQuiet env) q in
  (r <> Ok tt -> r' = omap (fun _ => None) r)
  /\ filter is_data (q_log q' j) = filter is_data (m_log m)
  /\ forall j', j' <> j -> filter is_data (q_log q' j') = filter is_data (q_log q j').
Proof.
  intros G E Nk Mk F. cbn [qstep]. rewrite E.
  assert (Lk : (k < List.length (cm_socks x))%nat) by (apply nth_error_Some; congruence).
  assert (Rd : readable_many h (cm_socks x) k d q = let '(o, m) := on_readable h d (seen q j y) in (o, put j m q)).
  { unfold readable_many. rewrite Nk. cbv zeta. rewrite (nth_error_nth (q_made q) n 0%nat Mk), F. reflexivity. }
  assert (Ur : unmoved q (snd (readable_many h (cm_socks x) k d q))) by now apply readable_unmoved.
  unfold st_bind, bs_select. destruct (List.length (cm_socks x)) as [|N] eqn:Q; [lia|]. cbn [select_rounds sr_ready]. unfold st_bind.
  replace (Datatypes.S N) with (k + Datatypes.S (N - k))%nat by lia. rewrite dispatch_nones. unfold st_bind. cbn [Nat.add]. rewrite Rd in *.
  destruct (on_readable h d (seen q j y)) as [r m]. cbn [snd] in Ur.
  assert (Lg : filter is_data (q_log (put j m q) j) = filter is_data (m_log m)
     /\ forall j', j' <> j -> filter is_data (q_log (put j m q) j') = filter is_data (q_log q j')).
  { rewrite (put_log q j y m F). rewrite upd_same. split; [reflexivity|]. intros j' J. now rewrite upd_other. }
  destruct r as [[]|ex|u|]; try (cbn [omap bind]; split; [auto|exact Lg]).
  assert (Dn : dispatch (readable_many (S := S) h (cm_socks x)) (Datatypes.S k) (N - k) [] (put j m q) = (Ok tt, put j m q)).
  { destruct (N - k)%nat; reflexivity. }
  rewrite Dn. unfold st_ret. destruct Ur as (G1 & U & _).
  pose proof (ticks_put env i x (put j m q) G1 ltac:(now rewrite U)) as T. pose proof (ticks_about env (m_map (seen (put j m q) i x))) as Ta.
  destruct (ticks _ _) as [[res l] ev]. cbn [snd] in Ta. cbv zeta in T. destruct T as [_ ->].
  set (q2 := put i _ (put j m q)).
  assert (Lg2 : forall n', filter is_data (q_log q2 n') = filter is_data (q_log (put j m q) n')).
  { intros n'. unfold q2. rewrite (put_log (put j m q) i x _ ltac:(now rewrite U)). destruct (Nat.eq_dec n' i) as [->|J]; [|now rewrite upd_other].
    rewrite upd_same. cbn [add_log set_map m_log seen]. rewrite filter_app, (filter_data_nil ev Ta). apply app_nil_r. }
  destruct Lg as [La Lb]. destruct res; cbn [omap bind set_mgr q_log]; (split; [congruence|]); (split; [now rewrite Lg2|intros j' J; now rewrite Lg2, Lb]).
Qed.
End S.
