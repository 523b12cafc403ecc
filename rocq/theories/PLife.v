(** Histories of a manager, seen from one connection. *)
From Verif Require Import Base MBuffer SBuffer PBase PBuffer PReader MEip SEip PPathT PEip PRouter
  MSocket SSocket PSocket MConnReq SConnReq PConnReq MConn SConn PConnOpen PConnMap PIo PConnCall PConnCall2 PConnHist PIo2 PConnTop PIoTop SLife.
Ltac Zify.zify_post_hook ::= Z.div_mod_to_equations.
Local Open Scope outcome_scope.

Lemma about_app o a b : about o (a ++ b) = about o a ++ about o b.
Proof. unfold about. apply filter_app. Qed.
Definition ev_oid (e : event) : nat := match e with EvData o _ _ _ | EvClosed o | EvSent o _ _ => o end.
Lemma about_all o ev : Forall (fun e => ev_oid e = o) ev -> about o ev = ev.
Proof.
  induction 1 as [|e l E F IH]; [reflexivity|]. unfold about in *. cbn [filter].
  replace (match e with EvData o0 _ _ _ | EvClosed o0 | EvSent o0 _ _ => Nat.eqb o0 o end) with true
    by (destruct e; cbn in E; subst; symmetry; apply Nat.eqb_refl). now rewrite IH.
Qed.
Lemma about_none o p ev : Forall (fun e => ev_oid e = p) ev -> p <> o -> about o ev = [].
Proof.
  intros F N. induction F as [|e l E F IH]; [reflexivity|]. unfold about in *. cbn [filter].
  replace (match e with EvData o0 _ _ _ | EvClosed o0 | EvSent o0 _ _ => Nat.eqb o0 o end) with false; [assumption|].
  symmetry. destruct e; cbn in E; subst; now apply Nat.eqb_neq.
Qed.
Lemma receive_about h c d c' ev : io_receive h c d = Ok (c', ev) -> Forall (fun e => ev_oid e = io_oid c) ev.
Proof.
  unfold io_receive. intros E. cbv zeta in E. apply bind_Ok in E as ([hd b1] & _ & E).
  apply bind_Ok in E as ([sq b2] & _ & E). destruct (negb (buf_valid b2)); [discriminate|].
  destruct (_ && _); inv E; repeat constructor.
Qed.
Lemma tick_about now hook sr c : Forall (fun e => ev_oid e = io_oid c) (snd (io_tick now hook sr c)).
Proof.
  unfold io_tick. cbv zeta. destruct (_ <? _); [repeat constructor|]. destruct (_ <=? _); [|constructor].
  destruct (_ && _); repeat constructor.
Qed.

(** ** One datagram *)
Lemma le4_inj X Y a b : is_u32 X -> is_u32 Y -> le 4 X ++ a = le 4 Y ++ b -> X = Y.
Proof.
  intros U V E. apply (f_equal (firstn 4)) in E.
  pose proof (firstn_app_exact (le 4 X) a) as P. pose proof (firstn_app_exact (le 4 Y) b) as Q. rewrite le_length in P, Q.
  rewrite P, Q in E. apply (f_equal le_val) in E. now rewrite !le_val4 in E by assumption.
Qed.
Lemma brings_fun l id a b : is_bytes l -> brings l id a -> brings l id b -> a = b.
Proof.
  intros B (i0 & i1 & it & X & r & C & _ & _ & _ & <-) (j0 & j1 & jt & Y & q & D & _ & _ & _ & <-).
  pose proof (carries_fun l _ _ B C D) as E. now inv E.
Qed.

(** Seen from connection [oid]: it got the data, or nothing happened to it, or
    the call failed and nothing happened at all. *)
Definition untouched (oid : nat) (m m' : mgr) : Prop :=
  lock oid m' = lock oid m /\ about oid (m_log m') = about oid (m_log m).
Lemma untouched_refl oid m : untouched oid m m.
Proof. split; reflexivity. Qed.

Lemma readable_one g m oid c d : mgr_inv g m -> lock oid m = Some c ->
  match d with Dgram l => is_bytes l | DErr _ => True end ->
  let '(o, m') := on_readable strict d m in
  match o with
  | Ok _ => exists l, d = Dgram l /\
     ((exists dt c' ev, brings l (io_t2oId c) dt /\ io_receive strict c dt = Ok (c', ev)
         /\ lock oid m' = Some c' /\ about oid (m_log m') = about oid (m_log m) ++ ev)
      \/ (forall dt, ~ brings l (io_t2oId c) dt) /\ untouched oid m m')
  | _ => m' = m
  end.
Proof.
  intros I L B. destruct d as [l|e]; [|reflexivity].
  pose proof (readable_ok_iff g l m I B) as RO. pose proof (sorted_nodup _ (mi_sorted g m I)) as Nd.
  destruct (on_readable strict (Dgram l) m) as [o m'] eqn:E. cbn [fst] in RO.
  destruct o as [[]|e|u|].
  2-4: unfold on_readable in E; destruct (fst _) as [?|?|?|]; [|now inv E..];
       match type of E with match ?x with _ => _ end = _ => destruct x as [?|?|?|] end; now inv E.
  exists l. split; [reflexivity|]. apply proj1 in RO. specialize (RO eq_refl).
  destruct RO as (i0 & items & X & rest & C & V & E0 & H).
  rewrite (readable_items strict l m i0 items X rest B C V E0) in E.
  destruct (Z.eq_dec (u16 X) (u16 (io_t2oId c))) as [K|K].
  - left. pose proof L as L0. apply (lock_iff g) in L as [Eo J]; [|assumption]. apply (find_iff _ _ _ Nd) in J. rewrite K, J in E.
    destruct (H oid c L0 (eq_sym K)) as (i1 & items' & -> & _).
    destruct (io_receive strict c (it_data i1)) as [[c' ev]|?|?|] eqn:R; inv E.
    exists (it_data i1), c', ev. split; [|split; [exact R|]].
    { exists i0, i1, items', X, rest. split; [assumption|]. split; [assumption|]. split; [assumption|]. split; [exact K|reflexivity]. }
    pose proof (receive_static _ _ _ _ _ R) as St. split.
    + rewrite (update_lock g m _ c c' _ I J St). now rewrite Nat.eqb_refl.
    + cbn [add_log m_log set_map]. rewrite about_app. f_equal. apply about_all. eapply receive_about; eauto.
  - right. split.
    { intros dt (j0 & j1 & jt & Y & r & D & W & E1 & Q & _).
      pose proof (carries_fun l _ _ B C D) as F. inv F. apply K. unfold u16.
      assert (Y = X); [|congruence]. rewrite E0 in E1. symmetry. eapply le4_inj; eauto. }
    destruct (map_find (u16 X) (m_map m)) as [c1|] eqn:F; [|inv E; apply untouched_refl].
    pose proof (find_in _ _ _ F) as J1. pose proof (mi_key g m I _ _ J1) as K1.
    assert (N : io_oid c1 <> oid).
    { intros Q. pose proof (lock_some g m _ _ I J1) as L1. rewrite Q, L in L1. inv L1. congruence. }
    destruct items as [|i1 items]; [inv E|].
    destruct (io_receive strict c1 (it_data i1)) as [[c' ev]|?|?|] eqn:R; inv E.
    pose proof (receive_static _ _ _ _ _ R) as St. split.
    + rewrite (update_lock g m _ c1 c' _ I F St). destruct (Nat.eqb_spec oid (io_oid c1)); [congruence|reflexivity].
    + cbn [add_log m_log set_map]. rewrite about_app, (about_none oid (io_oid c1) ev); [apply app_nil_r|eapply receive_about; eauto|assumption].
Qed.

(** The same for a connection that is not there. *)
Lemma readable_dead g m oid d : mgr_inv g m -> lock oid m = None -> untouched oid m (snd (on_readable strict d m)).
Proof.
  intros I L. unfold on_readable. destruct (fst _) as [data|e|u|]; [|apply untouched_refl..].
  match goal with |- context [match ?x with Ok _ => _ | Throw _ => _ | Undef _ => _ | Abort => _ end] => destruct x as [m1|e|u|] eqn:E end;
    [|apply untouched_refl..].
  cbn [snd]. apply bind_Ok in E as (items & _ & E). destruct (nth_error items 0) as [i0|]; [|discriminate].
  apply bind_Ok in E as ([id b] & _ & E). cbv zeta in E. destruct (map_find _ _) as [c|] eqn:F; [|inv E; apply untouched_refl].
  destruct (nth_error items 1) as [i1|]; [|discriminate]. apply bind_Ok in E as ([c' ev] & R & E). inv E.
  pose proof (lock_some g m _ _ I (find_in _ _ _ F)) as L1.
  assert (N : io_oid c <> oid) by (intros Q; rewrite Q in L1; congruence).
  pose proof (receive_static _ _ _ _ _ R) as St. split.
  - rewrite (update_lock g m _ c c' _ I F St). destruct (Nat.eqb_spec oid (io_oid c)); [congruence|reflexivity].
  - cbn [add_log m_log set_map]. rewrite about_app, (about_none oid (io_oid c) ev); [apply app_nil_r|eapply receive_about; eauto|assumption].
Qed.

(** ** Sequences of datagrams *)
Fixpoint handle_seq (ds : list dgram) (m : mgr) : outcome unit * mgr :=
  match ds with
  | [] => (Ok tt, m)
  | d :: r => match on_readable strict d m with
              | (Ok _, m') => handle_seq r m'
              | (o, m') => (o, m')
              end
  end.
Lemma handle_seq_app a : forall b m, handle_seq (a ++ b) m
  = match handle_seq a m with (Ok _, m') => handle_seq b m' | (o, m') => (o, m') end.
Proof.
  induction a as [|d a IH]; intros b m; cbn [app handle_seq]; [reflexivity|].
  destruct (on_readable strict d m) as [[[]|?|?|] m']; try reflexivity. apply IH.
Qed.
Definition present (ready : list (option dgram)) : list dgram := flat_map (fun x => match x with Some d => [d] | None => [] end) ready.
Lemma dispatch_seq ready : forall i n m, dispatch (fun _ => on_readable strict) i n ready m = handle_seq (present (firstn n ready)) m.
Proof.
  unfold present. induction ready as [|[d|] r IH]; intros i n m; destruct n; cbn [dispatch firstn flat_map app]; try reflexivity.
  - cbn [handle_seq]. unfold st_bind. destruct (on_readable strict d m) as [[[]|?|?|] m']; try reflexivity. apply IH.
  - apply IH.
Qed.
Lemma select_seq n rounds ending m : n <> 0%nat ->
  bs_select (fun _ : nat => on_readable strict) n rounds ending m
  = match handle_seq (arriving n rounds) m with
    | (Ok _, m') => (match ending with SelQuiet => Ok tt | SelFail e => Throw (SystemError e) end, m')
    | (o, m') => (o, m')
    end.
Proof.
  intros N. unfold bs_select. destruct n as [|n]; [contradiction|]. clear N. revert m.
  unfold arriving. induction rounds as [|r rs IH]; intros m; cbn [select_rounds flat_map].
  - destruct ending; reflexivity.
  - unfold st_bind. rewrite dispatch_seq, handle_seq_app. unfold present.
    destruct (handle_seq _ m) as [[[]|?|?|] m']; try reflexivity. apply IH.
Qed.

Lemma seq_quiet g ds : forall m0 m, mgr_inv g m0 -> quiet m0 m -> quiet m0 (snd (handle_seq ds m)).
Proof.
  induction ds as [|d ds IH]; intros m0 m I Q; cbn [handle_seq]; [exact Q|].
  pose proof (readable_quiet g strict d m0 m I Q) as Q1. destruct (on_readable strict d m) as [[[]|?|?|] m']; cbn [snd] in *; auto.
Qed.
Lemma seq_inv g ds m : mgr_inv g m -> mgr_inv g (snd (handle_seq ds m)).
Proof. intros I. destruct (seq_quiet g ds m m I (quiet_refl m)) as (S & _). eapply statics_inv; eauto. Qed.
Lemma seq_dead g oid ds : forall m, mgr_inv g m -> lock oid m = None -> untouched oid m (snd (handle_seq ds m)).
Proof.
  induction ds as [|d ds IH]; intros m I L; cbn [handle_seq]; [apply untouched_refl|].
  pose proof (readable_dead g m oid d I L) as U. pose proof (readable_quiet g strict d m m I (quiet_refl m)) as (S & _).
  destruct (on_readable strict d m) as [[[]|?|?|] m']; cbn [snd] in *; auto.
  destruct U as [U1 U2]. destruct (IH m') as [V1 V2]; [eapply statics_inv; eauto|congruence|]. split; congruence.
Qed.

Definition gram_ok (d : dgram) : Prop := match d with Dgram l => is_bytes l | DErr _ => True end.
Lemma seq_one g oid ds : forall m c, mgr_inv g m -> lock oid m = Some c -> Forall gram_ok ds ->
  let '(o, m') := handle_seq ds m in
  exists k dts c' ev, deliveries (io_t2oId c) (firstn k ds) dts
    /\ io_run strict (map (Recv 0) dts) c = (Open c', ev)
    /\ lock oid m' = Some c' /\ about oid (m_log m') = about oid (m_log m) ++ ev
    /\ io_static c' = io_static c
    /\ match o with Ok _ => firstn k ds = ds | _ => True end.
Proof.
  induction ds as [|d ds IH]; intros m c I L F; cbn [handle_seq].
  - exists 0%nat, [], c, []. cbn [firstn map io_run]. rewrite app_nil_r. repeat split; auto. constructor.
  - apply Forall_cons_iff in F as [F1 F]. pose proof (readable_one g m oid c d I L F1) as R.
    pose proof (readable_quiet g strict d m m I (quiet_refl m)) as (S & _).
    destruct (on_readable strict d m) as [o m1]. cbn [snd] in S.
    assert (ST : m1 = m -> exists k dts c' ev, deliveries (io_t2oId c) (firstn k (d :: ds)) dts
      /\ io_run strict (map (Recv 0) dts) c = (Open c', ev)
      /\ lock oid m1 = Some c' /\ about oid (m_log m1) = about oid (m_log m) ++ ev
      /\ io_static c' = io_static c /\ True).
    { intros ->. exists 0%nat, [], c, []. cbn [firstn map io_run]. rewrite app_nil_r. repeat split; auto. constructor. }
    destruct o as [[]|?|?|]; [|now apply ST..]. clear ST.
    assert (I1 : mgr_inv g m1) by (eapply statics_inv; eauto).
    destruct R as (l & -> & [(dt & c1 & ev1 & Br & Rc & L1 & A1)|[Nb [U1 U2]]]).
    + pose proof (receive_static _ _ _ _ _ Rc) as St. specialize (IH m1 c1 I1 L1 F). destruct (handle_seq ds m1) as [o m'].
      destruct IH as (k & dts & c' & ev & D & X & L' & A' & St' & O').
      exists (Datatypes.S k), (dt :: dts), c', (ev1 ++ ev). cbn [firstn map io_run]. rewrite Rc, X.
      rewrite (static_t2o _ _ St) in D. split; [now constructor|]. split; [reflexivity|]. split; [assumption|].
      split; [rewrite A', A1; symmetry; apply app_assoc|]. split; [congruence|]. destruct o; auto. congruence.
    + specialize (IH m1 c I1 ltac:(congruence) F). destruct (handle_seq ds m1) as [o m'].
      destruct IH as (k & dts & c' & ev & D & X & L' & A' & St' & O').
      exists (Datatypes.S k), dts, c', ev. cbn [firstn]. split; [now constructor|]. split; [assumption|]. split; [assumption|].
      split; [congruence|]. split; [congruence|]. destruct o; auto. congruence.
Qed.

(** ** Ticks *)
Lemma ticks_about env l oid : whole env -> NoDup (oids l) ->
  about oid (snd (ticks env l)) = match find (fun e => Nat.eqb (io_oid (snd e)) oid) l with
                                  | Some e => snd (ticked env (snd e))
                                  | None => []
                                  end.
Proof.
  intros W. induction l as [|[k c] l IH]; intros N; [reflexivity|]. cbn [oids map snd] in N. inversion N as [|? ? N1 N2]; subst.
  specialize (IH N2). cbn [ticks find snd]. cbv zeta. fold (ticked env c).
  pose proof (tick_about (t_now env (io_oid c)) (t_hook env (io_oid c)) (t_send env (io_oid c)) c) as T. fold (ticked env c) in T.
  destruct (whole_ok env c W) as [b Tb].
  destruct (ticked env c) as [[o c'] evc] eqn:Tk. cbn [fst snd] in *. subst o.
  destruct (ticks env l) as [[res l'] ev]. cbn [snd] in *. rewrite about_app, IH.
  destruct (Nat.eqb_spec (io_oid c) oid) as [Q|Q].
  - cbn [snd]. rewrite Tk. cbn [snd]. rewrite about_all by (now rewrite <- Q). 
    destruct (find _ l) as [[k1 c1]|] eqn:F; [|apply app_nil_r]. exfalso. apply find_some in F as [F1 F2].
    apply N1. unfold oids. apply in_map_iff. exists (k1, c1). cbn [snd] in *. apply Nat.eqb_eq in F2. split; [congruence|assumption].
  - rewrite (about_none _ _ _ T Q). reflexivity.
Qed.
Lemma run_ticks_one g env m oid : mgr_inv g m -> whole env ->
  exists m', run_ticks env m = (Ok tt, m') /\
  match lock oid m with
  | Some c => lock oid m' = (if timed_out env c then None else Some (snd (fst (ticked env c))))
              /\ about oid (m_log m') = about oid (m_log m) ++ snd (ticked env c)
  | None => untouched oid m m'
  end.
Proof.
  intros I W. destruct (run_ticks_whole g env m I W) as (m' & ev & E & LG & _ & _ & _ & LK). exists m'. split; [assumption|].
  assert (V : about oid ev = match find (fun e => Nat.eqb (io_oid (snd e)) oid) (m_map m) with
                                  | Some e => snd (ticked env (snd e))
                                  | None => []
                                  end).
  { rewrite <- (ticks_about env (m_map m) oid W (mi_oids g m I)). f_equal. unfold run_ticks in E.
    destruct (ticks_whole env (m_map m) W) as (l' & ev' & E' & _). rewrite E' in *. inv E. cbn [set_map m_log add_log] in LG.
    apply app_inv_head in LG. now subst. }
  specialize (LK oid). unfold lock in LK at 2. unfold untouched, lock at 1.
  destruct (find _ (m_map m)) as [[k c]|] eqn:F; cbn [option_map snd] in *.
  - split; [assumption|]. rewrite LG, about_app, V. reflexivity.
  - split; [|rewrite LG, about_app, V; apply app_nil_r]. rewrite LK. unfold lock. now rewrite F.
Qed.

(** ** One call *)
Lemma run_tick_single env c oid : io_oid c = oid -> whole env ->
  io_run strict [Tick (t_now env oid) (t_hook env oid) (t_send env oid)] c
  = (if timed_out env c then Closed else Open (snd (fst (ticked env c))), snd (ticked env c)).
Proof.
  intros <- W. cbn [io_run]. unfold timed_out. fold (ticked env c). destruct (whole_ok env c W) as [b Tb].
  destruct (ticked env c) as [[o c'] ev]. cbn [fst snd] in *. subst o. destruct b; [now rewrite app_nil_r|reflexivity].
Qed.

Lemma arriving_ok {S} n rounds ending env : byte_grams (CHandle (S := S) rounds ending env) -> Forall gram_ok (arriving n rounds).
Proof.
  cbn [byte_grams]. intros F. unfold arriving. induction F as [|r rs F1 F IH]; cbn [flat_map]; [constructor|].
  apply Forall_app. split; [|exact IH]. clear - F1. revert n. induction F1 as [|x l X F1 IH]; intros [|n]; cbn [firstn flat_map]; try constructor.
  apply Forall_app. split; [|apply IH]. destruct x as [[]|]; repeat constructor; assumption.
Qed.

Lemma call_live {S} (op : call S) g m s oid c o g' m' s' : mgr_inv g m -> lock oid m = Some c -> sends_whole op -> byte_grams op ->
  call_mgr strict op (g, m, s) = (o, (g', m', s')) ->
  exists xs, feeds (List.length (m_socks m)) oid (io_t2oId c) op o xs
    /\ about oid (m_log m') = about oid (m_log m) ++ snd (io_run strict xs c)
    /\ match fst (io_run strict xs c) with
       | Open c' => lock oid m' = Some c' /\ io_static c' = io_static c
                    \/ lock oid m' = None /\ exists use8 si, op = CClose use8 si oid
       | Closed => lock oid m' = None
       | Broken => False
       end.
Proof.
  intros I L W B E. destruct op as [use8 si host env large cp|use8 si p|rounds ending env|p d].
  - exists []. split; [constructor|]. cbn [io_run fst snd]. rewrite app_nil_r. cbn [call_mgr] in E.
    assert (Lm : lock oid m' = lock oid m /\ m_log m' = m_log m).
    { assert (D : (exists q, o = Ok (Some q)) \/ forall q, o <> Ok (Some q)).
      { destruct o as [[q|]|?|?|]; [left; eauto|right; intros; discriminate..]. }
      destruct D as [[q ->]|D].
      - destruct (open_returns _ _ _ _ _ _ _ _ _ _ _ _ _ _ I E) as
          (Dq & LG & resp & r & mult & dest & data & s1 & _ & _ & _ & _ & _ & _ & F1 & F2).
        split; [|assumption].
        destruct (map_find (u16 (f_t2oId r)) (m_map m)) as [c1|] eqn:F.
        + apply F2. exists (u16 (f_t2oId r)), c1. pose proof (find_in _ _ _ F) as J. split; [assumption|]. symmetry. exact (mi_key g m I _ _ J).
        + assert (oid <> q) by (intros ->; congruence).
          rewrite F1; [destruct (Nat.eqb_spec oid q); [contradiction|reflexivity]|].
          intros k c' J Q. apply find_none in F. apply F. rewrite <- Q, <- (mi_key g m I _ _ J). eapply in_keys; eauto.
      - destruct (open_fails _ _ _ _ _ _ _ _ _ _ _ _ _ _ E D) as [D1 D2]. split; [|assumption]. unfold lock. now rewrite D1. }
    destruct Lm as [-> ->]. split; [reflexivity|]. left. auto.
  - exists []. split; [constructor|]. cbn [io_run fst snd]. rewrite app_nil_r. cbn [call_mgr] in E.
    destruct (lock p m) as [c1|] eqn:Lp.
    2:{ cbn [forward_close omap bind] in E. inv E. split; [reflexivity|]. left. auto. }
    destruct (send_request strict si use8 78 CM_PATH (fc_pack (u16 (io_serial c1)) (io_vendor c1) (io_orig c1) (io_path c1)) [] s) as [o1 s1] eqn:R.
    assert (D : (exists resp, o1 = Ok resp) \/ forall resp, o1 <> Ok resp).
    { destruct o1; [left; eauto|right; intros; discriminate..]. }
    destruct D as [[resp ->]|D].
    + destruct (close_ok strict use8 si g m s p c1 resp s1 I Lp R) as (m1 & E1 & LG & LK). rewrite Lp in E1. rewrite E1 in E. inv E.
      rewrite LG. split; [reflexivity|]. rewrite LK. destruct (Nat.eqb_spec oid p) as [<-|N]; [right|left; auto].
      split; [reflexivity|]. eauto.
    + destruct (close_fails strict use8 si m s p c1 o1 s1 Lp R D) as [E1 E2]. rewrite Lp in E1.
      destruct (forward_close strict use8 si (Some c1) (m, s)) as [o2 w2]. cbn [snd] in E1. subst w2. inv E. split; [reflexivity|]. left; auto.
  - cbn [call_mgr] in E. unfold handle_connections, st_bind in E.
    assert (Eo : io_oid c = oid) by (now apply lock_in in L).
    destruct (List.length (m_socks m)) as [|n] eqn:Ln.
    { cbn [bs_select omap bind] in E. inv E. exists (map (Recv 0) []). split; [|cbn [map io_run snd fst]; rewrite app_nil_r; auto].
      apply (fd_failed _ _ _ _ _ _ _ 0%nat); [discriminate|constructor]. }
    rewrite (select_seq (Datatypes.S n)) in E by lia.
    pose proof (seq_one g oid (arriving (Datatypes.S n) rounds) m c I L (arriving_ok (S := S) _ rounds ending env B)) as Q.
    pose proof (seq_inv g (arriving (Datatypes.S n) rounds) m I) as I1.
    destruct (handle_seq (arriving (Datatypes.S n) rounds) m) as [o1 m1]. cbn [snd] in I1.
    destruct Q as (k & dts & c1 & ev & D & X & L1 & A1 & St & Ok1).
    assert (Fail : forall r, o = r -> (forall x, r <> Ok x) -> m1 = m' -> exists xs, feeds (Datatypes.S n) oid (io_t2oId c) (CHandle (S := S) rounds ending env) o xs
        /\ about oid (m_log m') = about oid (m_log m) ++ snd (io_run strict xs c)
        /\ match fst (io_run strict xs c) with
           | Open c' => lock oid m' = Some c' /\ io_static c' = io_static c
                    \/ lock oid m' = None /\ exists use8 si, CHandle (S := S) rounds ending env = CClose use8 si oid
           | Closed => lock oid m' = None
           | Broken => False
           end).
    { intros r -> N ->. exists (map (Recv 0) dts). split; [now apply (fd_failed _ _ _ _ _ _ _ k)|]. rewrite X. cbn [fst snd]. auto. }
    destruct o1 as [[]|e|u|]; [|cbn [omap bind] in E; inv E; (eapply Fail; [reflexivity|discriminate|reflexivity])..].
    rewrite Ok1 in D. destruct ending as [|e]; [|cbn [omap bind] in E; inv E; (eapply Fail; [reflexivity|discriminate|reflexivity])].
    destruct (run_ticks_one g env m1 oid I1 W) as (m2 & E2 & T). rewrite E2 in E. cbn [omap bind] in E. inv E. rewrite L1 in T. destruct T as [T1 T2].
    exists (map (Recv 0) dts ++ [Tick (t_now env (io_oid c)) (t_hook env (io_oid c)) (t_send env (io_oid c))]).
    split; [now constructor|]. rewrite run_app, X.
    rewrite run_tick_single by (assumption || now apply static_oid).
    cbn [fst snd]. rewrite T2, A1, <- app_assoc. split; [reflexivity|].
    destruct (timed_out env c1); [assumption|]. left. split; [assumption|]. rewrite <- St. apply tick_static.
  - cbn [call_mgr] in E. inv E. cbn [set_output set_map m_log]. destruct (Nat.eq_dec p oid) as [->|N].
    + exists [SetOut d]. split; [constructor|]. cbn [io_run fst snd]. rewrite app_nil_r. split; [reflexivity|]. left. split; [|reflexivity].
      unfold lock, set_output in *. cbn [m_map set_map]. clear - L. induction (m_map m) as [|[k c1] l IH]; cbn [find map snd option_map fst] in *; [discriminate|].
      destruct (Nat.eqb_spec (io_oid c1) oid) as [Q|Q]; cbn [snd io_oid io_set_output].
      * subst. rewrite Nat.eqb_refl. cbn [option_map snd] in *. now inv L.
      * destruct (Nat.eqb_spec (io_oid c1) oid); [contradiction|]. now apply IH.
    + exists []. split; [now constructor|]. cbn [io_run fst snd]. rewrite app_nil_r. split; [reflexivity|]. left. split; [|reflexivity].
      unfold lock, set_output in *. cbn [m_map set_map]. rewrite <- L. clear - N. induction (m_map m) as [|[k c1] l IH]; cbn [find map snd option_map fst] in *; [reflexivity|].
      destruct (Nat.eqb_spec (io_oid c1) p) as [Q|Q]; cbn [snd io_oid io_set_output].
      * destruct (Nat.eqb_spec (io_oid c1) oid); [congruence|]. exact IH.
      * destruct (Nat.eqb_spec (io_oid c1) oid); [reflexivity|]. exact IH.
Qed.

Lemma call_about {S} (op : call S) g m s oid o g' m' s' : mgr_inv g m -> lock oid m = None -> sends_whole op ->
  call_mgr strict op (g, m, s) = (o, (g', m', s')) -> about oid (m_log m') = about oid (m_log m).
Proof.
  intros I L W E.
  destruct op as [use8 si host env large cp|use8 si p|rounds ending env|p d]; cbn [call_mgr] in E.
  - assert (D : (exists q, o = Ok (Some q)) \/ forall q, o <> Ok (Some q)).
    { destruct o as [[q|]|?|?|]; [left; eauto|right; intros; discriminate..]. }
    destruct D as [[q ->]|D].
    + destruct (open_returns _ _ _ _ _ _ _ _ _ _ _ _ _ _ I E) as (_ & -> & _). reflexivity.
    + destruct (open_fails _ _ _ _ _ _ _ _ _ _ _ _ _ _ E D) as [_ ->]. reflexivity.
  - destruct (lock p m) as [c1|]; [|inv E; reflexivity]. unfold forward_close in E.
    destruct (send_request _ _ _ _ _ _ _ _) as [[?|?|?|] s1]; inv E; reflexivity.
  - unfold handle_connections, st_bind in E. destruct (List.length (m_socks m)) as [|n]; [cbn in E; now inv E|].
    rewrite (select_seq (Datatypes.S n)) in E by lia.
    pose proof (seq_dead g oid (arriving (Datatypes.S n) rounds) m I L) as [U1 U2].
    pose proof (seq_inv g (arriving (Datatypes.S n) rounds) m I) as I1.
    destruct (handle_seq (arriving (Datatypes.S n) rounds) m) as [[[]|?|?|] m1]; cbn [snd] in *; [|cbn [omap bind] in E; inv E; assumption..].
    destruct ending; [|cbn [omap bind] in E; inv E; assumption].
    destruct (run_ticks_one g env m1 oid I1 W) as (m2 & E2 & T). rewrite E2 in E. cbn [omap bind] in E. inv E.
    rewrite U1, L in T. destruct T as [_ ->]. assumption.
  - inv E. reflexivity.
Qed.

Lemma call_dead {S} (op : call S) g m s oid o g' m' s' : mgr_inv g m -> lock oid m = None -> (oid < g_oid g)%nat -> sends_whole op ->
  call_mgr strict op (g, m, s) = (o, (g', m', s')) -> untouched oid m m'.
Proof.
  intros I L O W E. 
  assert (A : lock oid m' = None).
  { pose proof (call_step strict op _ _ _ _ _ _ _ I W E) as St. destruct (lock oid m') as [c|] eqn:Q; [|reflexivity]. exfalso.
    assert (Al : alive oid m') by (unfold alive; congruence). apply (st_alive _ _ _ _ _ _ St) in Al as [[Al _]|Op]; [now apply Al|].
    apply (st_new _ _ _ _ _ _ St) in Op. lia. }
  split; [congruence|]. eapply call_about; eauto.
Qed.

(** ** Histories *)
Lemma world_step {S} (op : call S) j w o w' : call_world strict j op w = (o, w') ->
  exists g' m' s', call_mgr strict op (w_g w, w_m w j, w_s w) = (o, (g', m', s')) /\ w_g w' = g' /\ w_m w' j = m'
    /\ forall k, k <> j -> w_m w' k = w_m w k.
Proof.
  unfold call_world. destruct (call_mgr strict op _) as [o1 [[g' m'] s']]. intros E. inv E. exists g', m', s'. cbn [w_g w_m]. unfold update.
  rewrite Nat.eqb_refl. repeat split; auto. intros k N. destruct (Nat.eqb_spec k j); [contradiction|reflexivity].
Qed.

Lemma history_dead {S} i oid (ops : list (nat * call S)) : forall w, (forall j, mgr_inv (w_g w) (w_m w j)) ->
  lock oid (w_m w i) = None -> (oid < g_oid (w_g w))%nat -> Forall (fun x => sends_whole (snd x)) ops ->
  untouched oid (w_m w i) (w_m (run_calls strict ops w) i).
Proof.
  induction ops as [|[j op] ops IH]; intros w I L O W; cbn [run_calls]; [apply untouched_refl|].
  apply Forall_cons_iff in W as [W1 W]. cbn [snd] in W1.
  destruct (call_world strict j op w) as [o w'] eqn:E. cbn [snd].
  destruct (world_step op j w o w' E) as (g' & m' & s' & C & Eg & Em & En).
  destruct (call_inv strict op _ _ _ _ _ _ _ (I j) C) as [I1 G1].
  assert (I' : forall k, mgr_inv (w_g w') (w_m w' k)).
  { intros k. rewrite Eg. destruct (Nat.eq_dec k j) as [->|N]; [now rewrite Em|]. rewrite (En k N). eapply inv_later; eauto. }
  assert (U : untouched oid (w_m w i) (w_m w' i)).
  { destruct (Nat.eq_dec i j) as [->|N]; [|rewrite (En i N); apply untouched_refl]. rewrite Em. eapply call_dead; eauto. }
  destruct U as [U1 U2]. destruct (IH w' I' ltac:(congruence) ltac:(rewrite Eg; lia) W) as [V1 V2]. split; congruence.
Qed.

Lemma history_life {S} i oid (ops : list (nat * call S)) : forall w c, (forall j, mgr_inv (w_g w) (w_m w j)) ->
  lock oid (w_m w i) = Some c -> Forall (fun x => sends_whole (snd x)) ops -> Forall (fun x => byte_grams (snd x)) ops ->
  let m' := w_m (run_calls strict ops w) i in
  exists xs, life strict i oid (io_t2oId c) ops w xs
    /\ about oid (m_log m') = about oid (m_log (w_m w i)) ++ snd (io_run strict xs c)
    /\ match fst (io_run strict xs c) with
       | Open c' => lock oid m' = Some c'
                    \/ lock oid m' = None /\ exists use8 si, In (i, CClose use8 si oid) ops
       | Closed => lock oid m' = None
       | Broken => False
       end.
Proof.
  induction ops as [|[j op] ops IH]; intros w c I L W B; cbv zeta; cbn [run_calls].
  - exists []. split; [constructor|]. cbn [io_run fst snd]. rewrite app_nil_r. auto.
  - apply Forall_cons_iff in W as [W1 W]. apply Forall_cons_iff in B as [B1 B]. cbn [snd] in W1, B1.
    destruct (call_world strict j op w) as [o w'] eqn:E. cbn [snd].
    destruct (world_step op j w o w' E) as (g' & m' & s' & C & Eg & Em & En).
    destruct (call_inv strict op _ _ _ _ _ _ _ (I j) C) as [I1 G1].
    assert (I' : forall k, mgr_inv (w_g w') (w_m w' k)).
    { intros k. rewrite Eg. destruct (Nat.eq_dec k j) as [->|N]; [now rewrite Em|]. rewrite (En k N). eapply inv_later; eauto. }
    destruct (Nat.eq_dec j i) as [->|N].
    + destruct (call_live op _ _ _ oid c _ _ _ _ (I i) L W1 B1 C) as (xs & F & A & R). rewrite <- Em in A, R.
      assert (Old : (oid < g_oid (w_g w'))%nat).
      { rewrite Eg. apply lock_in in L as [<- [k J]]. pose proof (mi_fresh _ _ (I i) _ _ J). lia. }
      assert (Gone : forall ev, lock oid (w_m w' i) = None -> snd (io_run strict (xs ++ []) c) = ev -> about oid (m_log (w_m w' i)) = about oid (m_log (w_m w i)) ++ ev ->
         life strict i oid (io_t2oId c) ((i, op) :: ops) w (xs ++ [])
         /\ about oid (m_log (w_m (run_calls strict ops w') i)) = about oid (m_log (w_m w i)) ++ snd (io_run strict (xs ++ []) c)
         /\ lock oid (w_m (run_calls strict ops w') i) = None).
      { intros ev G Q Ev. destruct (history_dead i oid ops w' I' G Old W) as [H1 H2]. split; [|split].
        - eapply lf_call; [congruence|exact E|rewrite Nat.eqb_refl; exact F|now apply lf_gone].
        - rewrite Q. congruence.
        - congruence. }
      rewrite app_nil_r in Gone.
      destruct (io_run strict xs c) as [[c'| |] ev] eqn:X; cbn [fst snd] in *; [|destruct (Gone ev R eq_refl A) as (G1' & G2 & G3); exists xs; rewrite X; auto|contradiction].
      destruct R as [[R St]|[R (use8 & si & ->)]].
      * destruct (IH w' c' I' R W B) as (ys & LF & Ay & Ry). exists (xs ++ ys). rewrite (static_t2o _ _ St) in LF. split; [|split].
        -- eapply lf_call; [congruence|exact E|rewrite Nat.eqb_refl; exact F|exact LF].
        -- rewrite run_app, X. destruct (io_run strict ys c') as [e ev']. cbn [snd] in *. rewrite Ay, A. symmetry; apply app_assoc.
        -- rewrite run_app, X. destruct (io_run strict ys c') as [e ev']. cbn [fst] in *. destruct e as [c2| |]; auto.
           destruct Ry as [Ry|[Ry (u8 & si & J)]]; [auto|]. right. split; [assumption|]. exists u8, si. now right.
      * destruct (Gone ev R eq_refl A) as (G1' & G2 & G3). exists xs. rewrite X. split; [assumption|]. split; [assumption|]. right.
        split; [assumption|]. exists use8, si. now left.
    + rewrite <- (En i ltac:(congruence)) in L |- *.
      destruct (IH w' c I' L W B) as (ys & LF & Ay & Ry). exists ([] ++ ys). split; [|split; [exact Ay|]].
      * eapply lf_call; [rewrite <- (En i ltac:(congruence)); congruence|exact E| |exact LF].
        destruct (Nat.eqb_spec j i); [contradiction|reflexivity].
      * cbn [app]. destruct (fst (io_run strict ys c)); auto.
        destruct Ry as [Ry|[Ry (u8 & si & J)]]; [auto|]. right. split; [assumption|]. exists u8, si. now right.
Qed.

(** ** From the open on *)
Lemma log_old {S} (ops : list (nat * call S)) : forall w, (forall j, mgr_inv (w_g w) (w_m w j)) ->
  (forall j oid, (g_oid (w_g w) <= oid)%nat -> about oid (m_log (w_m w j)) = []) -> Forall (fun x => sends_whole (snd x)) ops ->
  let w' := run_calls strict ops w in
  (forall j, mgr_inv (w_g w') (w_m w' j)) /\ forall j oid, (g_oid (w_g w') <= oid)%nat -> about oid (m_log (w_m w' j)) = [].
Proof.
  induction ops as [|[i op] ops IH]; intros w I A W; cbv zeta; cbn [run_calls]; [auto|].
  apply Forall_cons_iff in W as [W1 W]. cbn [snd] in W1.
  destruct (call_world strict i op w) as [o w'] eqn:E. cbn [snd].
  destruct (world_step op i w o w' E) as (g' & m' & s' & C & Eg & Em & En).
  destruct (call_inv strict op _ _ _ _ _ _ _ (I i) C) as [I1 G1]. apply IH; [| |assumption].
  - intros k. rewrite Eg. destruct (Nat.eq_dec k i) as [->|N]; [now rewrite Em|]. rewrite (En k N). eapply inv_later; eauto.
  - intros k oid O. rewrite Eg in O. destruct (Nat.eq_dec k i) as [->|N]; [|rewrite (En k N); apply A; lia]. rewrite Em.
    rewrite (call_about op _ _ _ oid _ _ _ _ (I i)) with (3 := C); [apply A; lia| |assumption].
    apply lock_none. intros J. apply in_map_iff in J as ([k c] & Eo & J). pose proof (mi_fresh _ _ (I i) _ _ J). cbn [snd] in Eo. lia.
Qed.

Lemma get_u32_range h b v b' : get_u32 h b = Ok (v, b') -> is_u32 v.
Proof.
  unfold get_u32. intros E. repeat (apply bind_Ok in E as ([? ?] & _ & E); cbv zeta in E). inv E. apply u32_range.
Qed.
Lemma connection_wf h data r large c mult oid now dest : fo_expand h data = Ok r -> fo_multiplier (c_multiplier c) = Ok mult ->
  io_wf (fo_connection large c r mult oid now dest) /\ fresh_io (fo_connection large c r mult oid now dest)
  /\ io_out (fo_connection large c r mult oid now dest) = [] /\ io_oid (fo_connection large c r mult oid now dest) = oid.
Proof.
  intros E M. split; [|repeat split]. unfold fo_expand in E.
  apply bind_Ok in E as ([a1 b1] & E1 & E). apply bind_Ok in E as ([a2 b2] & E2 & E). apply bind_Ok in E as ([a3 b3] & E3 & E).
  apply bind_Ok in E as ([a4 b4] & E4 & E). apply bind_Ok in E as ([a5 b5] & E5 & E). apply bind_Ok in E as ([a6 b6] & E6 & E).
  apply bind_Ok in E as ([a7 b7] & E7 & E). apply bind_Ok in E as ([a8 b8] & E8 & E). apply bind_Ok in E as ([a9 b9] & E9 & E).
  apply bind_Ok in E as ([a0 b0] & E0 & E). inv E.
  unfold io_wf, fo_connection; cbn [io_o2tId io_o2tAPI io_t2oAPI io_mult f_o2tId f_o2tApi f_t2oApi].
  repeat match goal with |- _ /\ _ => split end; try (eapply get_u32_range; eassumption).
  unfold fo_multiplier in M. destruct (_ <=? _); [discriminate|]. inv M. apply u8_range.
Qed.

Lemma opened_fresh {S} i (before : list (nat * call S)) use8 si host env large cp w0 oid w1 c :
  new_world w0 -> Forall (fun x => sends_whole (snd x)) before ->
  call_world strict i (COpen use8 si host env large cp) (run_calls strict before w0) = (Ok (Some oid), w1) ->
  lock oid (w_m w1 i) = Some c -> io_wf c /\ fresh_io c /\ io_out c = [].
Proof.
  intros N W1 E L.
  destruct (log_old before w0) as [I A]; [intros j; destruct (N j) as [inc ->]; apply inv_new| |assumption|].
  { intros j o _. destruct (N j) as [inc ->]. reflexivity. }
  set (w := run_calls strict before w0) in *.
  destruct (world_step _ _ _ _ _ E) as (g' & m' & s' & C & Eg & Em & En).
  cbn [call_mgr] in C.
  destruct (open_returns _ _ _ _ _ _ _ _ _ _ _ _ _ _ (I i) C) as
    (Dq & LG & resp & r & mult & dest & data & s1 & _ & _ & _ & X & M & _ & F1 & F2).
  destruct (connection_wf strict (r_data resp) r large cp mult oid (v_now env) dest X M) as (Q1 & Q2 & Q3 & Q4).
  assert (c = fo_connection large cp r mult oid (v_now env) dest); [|subst c; auto].
  rewrite Em in L. destruct (map_find (u16 (f_t2oId r)) (m_map (w_m w i))) as [c1|] eqn:F.
  - rewrite F2 in L; [congruence|]. exists (u16 (f_t2oId r)), c1. pose proof (find_in _ _ _ F) as J. split; [assumption|]. symmetry. exact (mi_key _ _ (I i) _ _ J).
  - rewrite F1 in L; [rewrite Nat.eqb_refl in L; now inv L|]. intros k c' J Q. apply find_none in F. apply F. rewrite <- Q, <- (mi_key _ _ (I i) _ _ J). eapply in_keys; eauto.
Qed.

Lemma whole_life {S} i (before after : list (nat * call S)) use8 si host env large cp w0 oid w1 c :
  new_world w0 -> Forall (fun x => sends_whole (snd x)) (before ++ after) -> Forall (fun x => byte_grams (snd x)) after ->
  call_world strict i (COpen use8 si host env large cp) (run_calls strict before w0) = (Ok (Some oid), w1) ->
  lock oid (w_m w1 i) = Some c ->
  let m' := w_m (run_calls strict after w1) i in
  exists xs, life strict i oid (io_t2oId c) after w1 xs
    /\ about oid (m_log m') = snd (io_run strict xs c)
    /\ match fst (io_run strict xs c) with
       | Open c' => lock oid m' = Some c' \/ lock oid m' = None /\ exists use8 si, In (i, CClose use8 si oid) after
       | Closed => lock oid m' = None
       | Broken => False
       end
    /\ (sane (spec_of c) (io_last c) xs -> about oid (m_log m') = snd (spec_run (spec_of c) xs (clock0 c))).
Proof.
  intros N W B E L. cbv zeta. apply Forall_app in W as [W1 W2].
  destruct (log_old before w0) as [I A]; [intros j; destruct (N j) as [inc ->]; apply inv_new| |assumption|].
  { intros j o _. destruct (N j) as [inc ->]. reflexivity. }
  set (w := run_calls strict before w0) in *.
  destruct (world_step _ _ _ _ _ E) as (g' & m' & s' & C & Eg & Em & En).
  destruct (call_inv strict _ _ _ _ _ _ _ _ (I i) C) as [I1 G1].
  assert (I' : forall k, mgr_inv (w_g w1) (w_m w1 k)).
  { intros k. rewrite Eg. destruct (Nat.eq_dec k i) as [->|Nk]; [now rewrite Em|]. rewrite (En k Nk). eapply inv_later; eauto. }
  cbn [call_mgr] in C.
  destruct (open_returns _ _ _ _ _ _ _ _ _ _ _ _ _ _ (I i) C) as
    (Dq & LG & resp & r & mult & dest & data & s1 & _ & _ & _ & X & M & _ & F1 & F2).
  assert (Ao : about oid (m_log (w_m w1 i)) = []).
  { rewrite Em, LG. apply A. assert (St : step_ok (COpen use8 si host env large cp) (Ok (Some oid)) (w_g w) g' (w_m w i) m').
    { eapply (call_step strict (COpen use8 si host env large cp)); [apply I|exact Logic.I|exact C]. }
    assert (O : In (Opened oid) (happened (COpen use8 si host env large cp) (Ok (Some oid)) (w_m w i) m')).
    { cbn [happened]. rewrite <- Em, L. now left. }
    apply (st_new _ _ _ _ _ _ St) in O. lia. }
  pose proof (opened_fresh i before use8 si host env large cp w0 oid w1 c N W1 E L) as Wf.
  destruct (history_life i oid after w1 c I' L W2 B) as (xs & LF & Ax & R). rewrite Ao in Ax. cbn [app] in Ax.
  exists xs. split; [assumption|]. split; [assumption|]. split; [assumption|]. intros Sn. rewrite Ax.
  destruct Wf as (Wf & Fr & Ou). pose proof (fresh_run strict xs c Wf Fr ltac:(rewrite Ou, zlen_nil; lia) Sn) as Q.
  destruct (io_run strict xs c) as [[c'| |] ev], (spec_run (spec_of c) xs (clock0 c)) as [[k'|] ev']; cbn [snd]; try contradiction; [now destruct Q|exact Q].
Qed.

Lemma whole_numbers {S} i (before after : list (nat * call S)) use8 si host env large cp w0 oid w1 c :
  new_world w0 -> Forall (fun x => sends_whole (snd x)) (before ++ after) -> Forall (fun x => byte_grams (snd x)) after ->
  call_world strict i (COpen use8 si host env large cp) (run_calls strict before w0) = (Ok (Some oid), w1) ->
  lock oid (w_m w1 i) = Some c ->
  let m' := w_m (run_calls strict after w1) i in
  exists xs, life strict i oid (io_t2oId c) after w1 xs /\ (sane (spec_of c) (io_last c) xs ->
    exists slots outs,
    sent_data (about oid (m_log m')) = map (fun p => io_packet (spec_of c) (fst p) (snd p)) (combine slots outs)
    /\ List.length slots = List.length outs
    /\ Sorted.StronglySorted Z.lt slots /\ Forall (fun n => 0 < n) slots
    /\ (io_o2tFixed c = false -> forall i n, nth_error slots i = Some n -> n = 1 + Z.of_nat i)
    /\ (io_o2tFixed c = true -> Forall (fun o => zlen o = io_o2tSize c) outs)).
Proof.
  intros N W B E L. cbv zeta. destruct (whole_life i before after use8 si host env large cp w0 oid w1 c N W B E L) as (xs & LF & _ & _ & Sp).
  exists xs. split; [assumption|]. intros Sn. rewrite (Sp Sn).
  destruct (spec_numbers (spec_of c) xs (clock0 c)) as (sl & os & A1 & A2 & A3 & A4 & A5 & A6 & _). exists sl, os.
  cbn [clock0 k_slots] in *. split; [exact A1|]. split; [exact A2|]. split; [exact A3|]. split; [exact A4|]. split.
  - intros Nf k n X. apply A5; [|exact X]. cbn [spec_of sp_o2tSize]. now rewrite Nf.
  - intros Nf. apply A6. cbn [spec_of sp_o2tSize]. now rewrite Nf.
Qed.

(** ** Example *)
Definition at_ms (t : Z) : tick_env := mkTick (fun _ => 1000000 * t) (fun _ => same_out) (fun _ => all_sent).
Definition life_ops : list (nat * call (list encaps)) :=
  [(0%nat, CData 0 [5; 6]); (1%nat, open_call 0x10007 10000 10000 (class1 1 0));
   (0%nat, CHandle [mkRound [Some (Dgram (gram 0x10008 [1; 0; 9])); None] 0; mkRound [Some (Dgram (gram 0x10007 [1; 0; 9]))] 0] SelQuiet (at_ms 20));
   (0%nat, CHandle [] (SelFail 4) (at_ms 70)); (0%nat, CHandle [] SelQuiet (at_ms 70))].
Lemma gram_brings X d id : is_u32 X -> is_bytes d -> X mod 65536 = id mod 65536 ->
  cp_expand strict (seen (gram X d)) = ([mkItem 32770 8 (le 4 X ++ le 4 1); mkItem 177 (zlen d) d], Ok tt) -> brings (gram X d) id d.
Proof.
  intros U B E C. assert (BG : is_bytes (gram X d)).
  { unfold gram. rewrite !is_bytes_app. repeat split; try apply le_bytes; assumption. }
  apply (carries_iff strict _ _ BG) in C. eexists _, _, [], X, (le 4 1). split; [exact C|]. repeat split; auto; apply U.
Qed.
Lemma gram_other X d id : is_u32 X -> is_bytes d -> X mod 65536 <> id mod 65536 ->
  cp_expand strict (seen (gram X d)) = ([mkItem 32770 8 (le 4 X ++ le 4 1); mkItem 177 (zlen d) d], Ok tt) -> forall dt, ~ brings (gram X d) id dt.
Proof.
  intros U B E C dt (i0 & i1 & items & Y & rest & C' & V & E0 & Q & _). assert (BG : is_bytes (gram X d)).
  { unfold gram. rewrite !is_bytes_app. repeat split; try apply le_bytes; assumption. }
  apply (carries_iff strict _ _ BG) in C'. rewrite C in C'. inv C'. cbn [it_data] in E0. apply E. rewrite <- Q. f_equal.
  exact (le4_inj X Y (le 4 1) rest U V E0).
Qed.
Lemma life_example :
  life strict 0 0 (io_t2oId con1) life_ops after1
    [SetOut [5; 6]; Recv 0 [1; 0; 9]; Tick 20000000 same_out all_sent; Tick 70000000 same_out all_sent]
  /\ about 0 (m_log (w_m (run_calls strict life_ops after1) 0%nat))
     = [EvData 0 0 1 [9]; EvSent 0 (io_dest con1) (io_packet (spec_of con1) 1 [5; 6]); EvClosed 0].
Proof.
  split; [|vm_compute; reflexivity]. unfold life_ops.
  destruct (call_world strict 0 (CData 0 [5; 6]) after1) as [o1 w1] eqn:E1.
  assert (A1 : o1 = Ok None /\ lock 0 (w_m w1 0%nat) <> None) by (vm_compute in E1; inv E1; split; [reflexivity|vm_compute; discriminate]). destruct A1 as [-> A1].
  apply (lf_call strict 0 0 (io_t2oId con1) 0 (CData 0 [5; 6]) _ after1 (Ok None) w1 [SetOut [5; 6]]); [vm_compute; discriminate|exact E1|constructor|].
  destruct (call_world strict 1 (open_call 0x10007 10000 10000 (class1 1 0)) w1) as [o2 w2] eqn:E2.
  assert (A2 : lock 0 (w_m w2 0%nat) <> None /\ List.length (m_socks (w_m w2 0%nat)) = 1%nat)
    by (vm_compute in E1; inv E1; vm_compute in E2; inv E2; split; [vm_compute; discriminate|reflexivity]). destruct A2 as [A2 N2].
  apply (lf_call strict 0 0 (io_t2oId con1) 1 _ _ w1 o2 w2 []); [exact A1|exact E2|reflexivity|].
  match goal with |- life _ _ _ _ ((0%nat, ?op) :: _) _ _ => destruct (call_world strict 0 op w2) as [o3 w3] eqn:E3 end.
  assert (A3 : o3 = Ok None /\ lock 0 (w_m w3 0%nat) <> None /\ List.length (m_socks (w_m w3 0%nat)) = 1%nat)
    by (vm_compute in E1; inv E1; vm_compute in E2; inv E2; vm_compute in E3; inv E3; split; [reflexivity|split; [vm_compute; discriminate|reflexivity]]).
  destruct A3 as (-> & A3 & N3).
  eapply (lf_call strict 0 0 (io_t2oId con1) 0 _ _ w2 (Ok None) w3 (map (Recv 0) [[1; 0; 9]] ++ [Tick 20000000 same_out all_sent])); [exact A2|exact E3| |].
  { rewrite Nat.eqb_refl, N2. apply (fd_handled 1 0 (io_t2oId con1) _ SelQuiet (at_ms 20)). apply dl_other; [|apply dl_mine; [|constructor]].
    - apply gram_other; [unfold is_u32; lia|repeat constructor; cbn; lia|vm_compute; discriminate|vm_compute; reflexivity].
    - apply gram_brings; [unfold is_u32; lia|repeat constructor; cbn; lia|vm_compute; reflexivity|vm_compute; reflexivity]. }
  match goal with |- life _ _ _ _ ((0%nat, ?op) :: _) _ _ => destruct (call_world strict 0 op w3) as [o4 w4] eqn:E4 end.
  assert (A4 : o4 = Throw (SystemError 4) /\ lock 0 (w_m w4 0%nat) <> None /\ List.length (m_socks (w_m w4 0%nat)) = 1%nat).
  { vm_compute in E1; inv E1; vm_compute in E2; inv E2; vm_compute in E3; inv E3; vm_compute in E4; inv E4; split; [reflexivity|split; [vm_compute; discriminate|reflexivity]]. }
  destruct A4 as (-> & A4 & N4).
  eapply (lf_call strict 0 0 (io_t2oId con1) 0 _ _ w3 _ w4 (map (Recv 0) [])); [exact A3|exact E4| |].
  { rewrite Nat.eqb_refl, N3. apply (fd_failed 1 0 (io_t2oId con1) _ _ _ _ 0%nat); [discriminate|constructor]. }
  match goal with |- life _ _ _ _ ((0%nat, ?op) :: _) _ _ => destruct (call_world strict 0 op w4) as [o5 w5] eqn:E5 end.
  assert (A5 : o5 = Ok None).
  { vm_compute in E1; inv E1; vm_compute in E2; inv E2; vm_compute in E3; inv E3; vm_compute in E4; inv E4; vm_compute in E5; inv E5; reflexivity. }
  subst o5.
  eapply (lf_call strict 0 0 (io_t2oId con1) 0 _ _ w4 _ w5 (map (Recv 0) [] ++ [Tick 70000000 same_out all_sent]) []); [exact A4|exact E5| |constructor].
  rewrite Nat.eqb_refl, N4. apply (fd_handled 1 0 (io_t2oId con1) _ SelQuiet (at_ms 70)). constructor.
Qed.
