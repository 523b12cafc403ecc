(** Histories: which connections are open, close notifications. *)
From Verif Require Import Base MBuffer SBuffer PBase PBuffer PReader PBufferT MEip SEip PEip PRouter
  MSocket SSocket PSocket MConnReq SConnReq PConnReq MConn SConn PConnOpen PConnMap PIo PConnCall PConnCall2.
Ltac Zify.zify_post_hook ::= Z.div_mod_to_equations.
Local Open Scope outcome_scope.

Definition statics (l : list (Z * iocon)) := map (fun e => (fst e, io_static (snd e))) l.
Lemma statics_keys l l' : statics l' = statics l -> keys l' = keys l.
Proof. intros E. apply (f_equal (map fst)) in E. unfold statics in E. rewrite !map_map in E. exact E. Qed.
Lemma statics_oids l l' : statics l' = statics l -> oids l' = oids l.
Proof.
  revert l'. induction l as [|[k c] l IH]; intros [|[k' c'] l'] E; try discriminate; [reflexivity|].
  cbn [statics map fst snd] in E. inversion E as [[E1 E2 E3]]. cbn [oids map snd]. f_equal; [|now apply IH].
  apply static_oid. unfold io_static. congruence.
Qed.
Lemma statics_t2o l l' k c' : statics l' = statics l -> In (k, c') l' -> exists c, In (k, c) l /\ io_static c' = io_static c.
Proof.
  intros E I. assert (J : In (k, io_static c') (statics l)).
  { rewrite <- E. unfold statics. apply in_map_iff. exists (k, c'). auto. }
  unfold statics in J. apply in_map_iff in J as ([k1 c1] & E1 & J). cbn [fst snd] in E1. injection E1 as -> E1.
  exists c1. split; [assumption|]. unfold io_static. congruence.
Qed.
Lemma statics_inv g m m' : mgr_inv g m -> statics (m_map m') = statics (m_map m) -> mgr_inv g m'.
Proof.
  intros [A B C D] E. constructor.
  - unfold sorted. now rewrite (statics_keys _ _ E).
  - intros k c' I. destruct (statics_t2o _ _ _ _ E I) as (c & J & St). rewrite (static_t2o _ _ St). auto.
  - now rewrite (statics_oids _ _ E).
  - intros k c' I. destruct (statics_t2o _ _ _ _ E I) as (c & J & St). rewrite (static_oid _ _ St). eauto.
Qed.

Lemma update_statics k c c' l : NoDup (keys l) -> map_find k l = Some c -> io_static c' = io_static c ->
  statics (map_update k c' l) = statics l.
Proof.
  intros N F St. unfold statics, map_update. rewrite map_map. apply map_ext_in. intros [k1 c1] I. cbn [fst snd].
  destruct (Z.eqb_spec k1 k) as [->|]; [|reflexivity]. cbn [fst snd]. apply (find_iff _ _ _ N) in I.
  assert (c1 = c) by congruence. subst. now rewrite St.
Qed.

Lemma closings_app a b : closings (a ++ b) = closings a ++ closings b.
Proof. unfold closings. apply flat_map_app. Qed.

(** Receiving changes no connection's identity and closes none. *)
Lemma receive_events h c data c' ev : io_receive h c data = Ok (c', ev) -> closings ev = [].
Proof.
  unfold io_receive. intros E. cbv zeta in E. apply bind_Ok in E as ([hd b1] & _ & E).
  apply bind_Ok in E as ([sq b2] & _ & E). destruct (negb (buf_valid b2)); [discriminate|].
  destruct (_ && _); inv E; reflexivity.
Qed.
Definition quiet (m0 m : mgr) : Prop :=
  statics (m_map m) = statics (m_map m0) /\ m_socks m = m_socks m0 /\ m_inc m = m_inc m0
  /\ exists ev, m_log m = m_log m0 ++ ev /\ closings ev = [].
Lemma quiet_refl m : quiet m m.
Proof. repeat split. exists []. split; [now rewrite app_nil_r|reflexivity]. Qed.
Lemma readable_quiet g h d m0 m : mgr_inv g m0 -> quiet m0 m -> quiet m0 (snd (on_readable h d m)).
Proof.
  intros I0 Q. pose proof Q as (Qs & Qk & Qi & ev0 & Ql & Qc).
  assert (I : mgr_inv g m) by (eapply statics_inv; eauto).
  unfold on_readable. destruct (fst _) as [data|e|u|]; [|exact Q..].
  match goal with |- context [match ?x with Ok _ => _ | Throw _ => _ | Undef _ => _ | Abort => _ end] => destruct x as [m1|e|u|] eqn:E end; [|exact Q..].
  cbn [snd]. apply bind_Ok in E as (items & _ & E). destruct (nth_error items 0) as [i0|]; [|discriminate].
  apply bind_Ok in E as ([id b] & _ & E). cbv zeta in E. destruct (map_find _ _) as [c|] eqn:F; [|inv E; exact Q].
  destruct (nth_error items 1) as [i1|]; [|discriminate]. apply bind_Ok in E as ([c' ev] & R & E). inv E.
  split; [|split; [exact Qk|split; [exact Qi|]]].
  - cbn [add_log set_map m_map]. rewrite (update_statics _ c); [exact Qs| |assumption|eapply receive_static; eauto].
    apply sorted_nodup. exact (mi_sorted g m I).
  - exists (ev0 ++ ev). cbn [add_log set_map m_log]. rewrite Ql, app_assoc. split; [reflexivity|].
    rewrite closings_app, Qc, (receive_events _ _ _ _ _ R). reflexivity.
Qed.
Lemma select_quiet g h rounds ending m : mgr_inv g m ->
  quiet m (snd (bs_select (fun _ : nat => on_readable h) (List.length (m_socks m)) rounds ending m)).
Proof.
  intros I. apply select_keeps; [|apply quiet_refl]. intros _ d w Q. now apply (readable_quiet g).
Qed.

(** ** Ticks *)
Definition ticked (env : tick_env) (c : iocon) : outcome bool * iocon * list event :=
  io_tick (t_now env (io_oid c)) (t_hook env (io_oid c)) (t_send env (io_oid c)) c.
Definition timed_out (env : tick_env) (c : iocon) : bool :=
  match fst (fst (ticked env c)) with Ok false => true | _ => false end.

Lemma tick_closings env c : closings (snd (ticked env c)) = if timed_out env c then [io_oid c] else [].
Proof.
  unfold timed_out, ticked, io_tick. cbv zeta. destruct (_ <? _); [reflexivity|]. destruct (_ <=? _); [|reflexivity].
  destruct (_ && _); [reflexivity|]. cbn [fst snd]. unfold send_check. destruct (_ <? _); reflexivity.
Qed.
Definition whole (env : tick_env) : Prop :=
  forall o n, s_count (t_send env o n) = n \/ s_count (t_send env o n) = -1 /\ n < 2 ^ 63.
Lemma whole_ok env c : whole env -> exists b, fst (fst (ticked env c)) = Ok b.
Proof.
  intros W. unfold ticked, io_tick. cbv zeta. destruct (_ <? _); [eexists; reflexivity|].
  destruct (_ <=? _); [|eexists; reflexivity]. destruct (_ && _); [eexists; reflexivity|]. cbn [fst].
  set (p := cp_pack _). unfold send_check.
  pose proof (zlen_nonneg p) as Np. destruct (W (io_oid c) (zlen p)) as [E|[E L]]; rewrite E.
  - destruct (Z.ltb_spec (zlen p) 0); [lia|]. destruct (Z.ltb_spec (zlen p) (zlen p)); [lia|]. eexists; reflexivity.
  - change (-1 <? 0) with true. cbv iota. destruct (Z.ltb_spec (2 ^ 64 + -1) (zlen p)); [lia|]. eexists; reflexivity.
Qed.

Lemma ticks_static env l : let '(_, l', _) := ticks env l in statics l' = statics l.
Proof.
  induction l as [|[k c] l IH]; [reflexivity|]. cbn [ticks]. cbv zeta.
  pose proof (tick_static (t_now env (io_oid c)) (t_hook env (io_oid c)) (t_send env (io_oid c)) c) as T.
  destruct (io_tick _ _ _ _) as [[[b|?|?|] c'] ev]; cbn [fst snd] in T; [|cbn [statics map fst snd]; now rewrite T..].
  destruct (ticks env l) as [[res l'] ev']. cbn [statics map fst snd]. rewrite T. now f_equal.
Qed.

Lemma ticks_whole env l : whole env -> exists l' ev,
  ticks env l = (Ok (keys (filter (fun e => timed_out env (snd e)) l)), l', ev)
  /\ closings ev = oids (filter (fun e => timed_out env (snd e)) l)
  /\ l' = map (fun e => (fst e, snd (fst (ticked env (snd e))))) l.
Proof.
  intros W. induction l as [|[k c] l IH]; [exists [], []; repeat split|].
  destruct IH as (l' & ev & E & C & L). cbn [ticks]. cbv zeta. fold (ticked env c).
  pose proof (tick_closings env c) as Tc. destruct (whole_ok env c W) as [b Tb].
  assert (To : timed_out env c = negb b) by (unfold timed_out; rewrite Tb; destruct b; reflexivity).
  cbn [filter snd map fst]. rewrite To in *.
  destruct (ticked env c) as [[o c'] evc]. cbn [fst snd] in *. subst o. rewrite E.
  exists ((k, c') :: l'), (evc ++ ev). split; [|split].
  - unfold omap; cbn [bind]. destruct b; reflexivity.
  - rewrite closings_app, Tc, C. destruct b; reflexivity.
  - now rewrite L.
Qed.

Lemma fold_erase_in ks : forall l e, In e (fold_left (fun l k => map_erase k l) ks l) <-> In e l /\ ~ In (fst e) ks.
Proof.
  induction ks as [|k ks IH]; intros l e; cbn [fold_left In]; [tauto|]. rewrite IH, erase_in. intuition congruence.
Qed.
Lemma fold_erase_inv g ks : forall m, mgr_inv g m -> mgr_inv g (set_map m (fold_left (fun l k => map_erase k l) ks (m_map m))).
Proof.
  induction ks as [|k ks IH]; intros m I; cbn [fold_left].
  - destruct I as [A B C D]. constructor; assumption.
  - pose proof (inv_erase g m k I) as I'. apply IH in I'. cbn [set_map m_map] in I'. destruct I' as [A B C D]. constructor; assumption.
Qed.

Lemma run_ticks_inv g env m : mgr_inv g m -> mgr_inv g (snd (run_ticks env m)).
Proof.
  intros I. unfold run_ticks. pose proof (ticks_static env (m_map m)) as T. destruct (ticks env (m_map m)) as [[res l'] ev].
  assert (I' : mgr_inv g (add_log (set_map m l') ev)) by (eapply statics_inv; eauto).
  destruct res as [ks|?|?|]; cbn [snd]; [|exact I'..].
  exact (fold_erase_inv g ks _ I').
Qed.

(** A loop without short sends: exactly the connections whose time is up are
    reported and removed. *)
Lemma run_ticks_whole g env m : mgr_inv g m -> whole env ->
  exists m' ev, run_ticks env m = (Ok tt, m') /\ m_log m' = m_log m ++ ev /\ m_socks m' = m_socks m
  /\ (forall oid, In oid (closings ev) <-> exists c, lock oid m = Some c /\ timed_out env c = true)
  /\ NoDup (closings ev)
  /\ (forall oid, lock oid m' = match lock oid m with
                               | Some c => if timed_out env c then None else Some (snd (fst (ticked env c)))
                               | None => None
                               end).
Proof.
  intros I W. pose proof (run_ticks_inv g env m I) as I'. unfold run_ticks in *.
  destruct (ticks_whole env (m_map m) W) as (l' & ev & E & C & L). rewrite E in *. cbn [snd] in I'.
  set (bad := filter (fun e => timed_out env (snd e)) (m_map m)) in *.
  set (m' := set_map (add_log (set_map m l') ev) (fold_left (fun l k => map_erase k l) (keys bad) l')) in *.
  exists m', ev. split; [reflexivity|]. split; [reflexivity|]. split; [reflexivity|].
  assert (Bad : forall k c, In (k, c) bad <-> In (k, c) (m_map m) /\ timed_out env c = true).
  { intros k c. unfold bad. rewrite filter_In. reflexivity. }
  assert (St : forall c, io_static (snd (fst (ticked env c))) = io_static c) by (intros c; apply tick_static).
  pose proof (sorted_nodup _ (mi_sorted g m I)) as Nd.
  split; [|split].
  - intros oid. rewrite C. unfold oids. rewrite in_map_iff. split.
    + intros ([k c] & Eo & J). cbn [snd] in Eo. subst oid. apply Bad in J as [J T]. exists c. split; [|assumption].
      eapply lock_some; eauto.
    + intros (c & K & T). apply (lock_iff g) in K as [Eo K]; [|assumption]. exists (u16 (io_t2oId c), c). split; [assumption|].
      apply Bad. auto.
  - rewrite C. unfold oids, bad. apply nodup_filter. exact (mi_oids g m I).
  - intros oid.
    assert (Mem : forall k c', In (k, c') (m_map m') <-> exists c, In (k, c) (m_map m) /\ c' = snd (fst (ticked env c)) /\ timed_out env c = false).
    { intros k c'. unfold m'. cbn [set_map m_map]. rewrite fold_erase_in. cbn [fst]. rewrite L, in_map_iff. split.
      - intros [([k1 c] & E1 & J) NK]. cbn [fst snd] in E1. injection E1 as -> <-. exists c. split; [assumption|]. split; [reflexivity|].
        destruct (timed_out env c) eqn:T; [|reflexivity]. exfalso. apply NK. apply (in_keys k c). apply Bad. auto.
      - intros (c & J & -> & T). split; [exists (k, c); auto|]. intros K. apply in_map_iff in K as ([k1 c1] & E1 & K).
        cbn [fst] in E1. subst k1. apply Bad in K as [K T1]. apply (find_iff _ _ _ Nd) in K. apply (find_iff _ _ _ Nd) in J. congruence. }
    destruct (lock oid m) as [c|] eqn:Lk.
    + apply (lock_iff g) in Lk as [Eo J]; [|assumption]. destruct (timed_out env c) eqn:T.
      * apply lock_none. intros K. apply in_map_iff in K as ([k c'] & Eo' & K). cbn [snd] in Eo'.
        apply Mem in K as (c1 & K & -> & T1). rewrite (static_oid _ _ (St c1)) in Eo'.
        pose proof (lock_some g m _ _ I K) as L1. pose proof (lock_some g m _ _ I J) as L2. congruence.
      * apply (lock_iff g _ _ _ I'). rewrite (static_oid _ _ (St c)), (static_t2o _ _ (St c)). split; [assumption|].
        apply Mem. eauto.
    + apply lock_none. intros K. apply in_map_iff in K as ([k c'] & Eo' & K). cbn [snd] in Eo'.
      apply Mem in K as (c1 & K & -> & T1). rewrite (static_oid _ _ (St c1)) in Eo'.
      pose proof (lock_some g m _ _ I K) as L1. congruence.
Qed.

(** ** One call *)
Definition alive (oid : nat) (m : mgr) : Prop := lock oid m <> None.

Lemma output_statics oid d l :
  statics (map (fun e => if Nat.eqb (io_oid (snd e)) oid then (fst e, io_set_output (snd e) d) else e) l) = statics l.
Proof.
  unfold statics. rewrite map_map. apply map_ext. intros [k c]. cbn [fst snd]. destruct (Nat.eqb _ _); reflexivity.
Qed.

Lemma statics_alive m m' oid : statics (m_map m') = statics (m_map m) -> (alive oid m' <-> alive oid m).
Proof.
  intros E. unfold alive. rewrite !lock_none. now rewrite (statics_oids _ _ E).
Qed.

Lemma skip_log {A} (a b : list A) : skipn (List.length a) (a ++ b) = b.
Proof. apply skipn_app_exact. Qed.

Record step_ok {S} (op : call S) o (g g' : globals) (m m' : mgr) : Prop := {
  st_inv : mgr_inv g' m';
  st_oid : (g_oid g <= g_oid g')%nat;
  st_alive : forall oid, alive oid m' <->
     (alive oid m /\ ~ In (ClosedBy oid) (happened op o m m') /\ ~ In (TimedOut oid) (happened op o m m'))
     \/ In (Opened oid) (happened op o m m');
  st_new : forall oid, In (Opened oid) (happened op o m m') -> (g_oid g <= oid < g_oid g')%nat;
  st_was : forall oid, In (ClosedBy oid) (happened op o m m') \/ In (TimedOut oid) (happened op o m m') -> alive oid m;
  st_nodup : NoDup (happened op o m m');
  st_excl : forall oid, ~ (In (ClosedBy oid) (happened op o m m') /\ In (TimedOut oid) (happened op o m m')) }.

Lemma step_nothing {S} (op : call S) o g g' m m' : mgr_inv g m -> mgr_inv g' m' -> (g_oid g <= g_oid g')%nat ->
  (forall oid, alive oid m' <-> alive oid m) -> happened op o m m' = [] -> step_ok op o g g' m m'.
Proof.
  intros I I' L A H. constructor; try assumption; rewrite ?H; cbn [In].
  - intros oid. rewrite ?H. cbn [In]. rewrite A. tauto.
  - intros oid. rewrite ?H. contradiction.
  - intros oid. rewrite ?H. cbn [In]. tauto.
  - constructor.
  - intros oid. rewrite ?H. cbn [In]. tauto.
Qed.

Lemma in_timedout oid l : In (TimedOut oid) (map TimedOut l) <-> In oid l.
Proof. rewrite in_map_iff. split; [intros (x & E & I); inv E; exact I|intros I; exists oid; auto]. Qed.
Lemma in_timedout_other x l : In x (map TimedOut l) -> exists o, x = TimedOut o.
Proof. rewrite in_map_iff. intros (o & E & _). eauto. Qed.

Lemma call_step {S} h (op : call S) g m s o g' m' s' : mgr_inv g m -> sends_whole op ->
  call_mgr h op (g, m, s) = (o, (g', m', s')) -> step_ok op o g g' m m'.
Proof.
  intros I W E. destruct op as [use8 si host env large c|use8 si oid|rounds ending env|oid d]; cbn [call_mgr] in E.
  - destruct (open_inv _ _ _ _ _ _ _ _ _ _ _ _ _ _ I E) as [I' L].
    assert (D : (exists oid, o = Ok (Some oid)) \/ forall oid, o <> Ok (Some oid)).
    { destruct o as [[oid|]|?|?|]; [left; eauto|right; congruence..]. }
    destruct D as [[oid ->]|N].
    + pose proof E as E0. apply (open_returns h use8 si host env large c g m s oid g' m' s' I) in E0
        as (Dead & _ & resp & r & mult & dest & data & s1 & _ & _ & _ & _ & _ & _ & New & Old). cbv zeta in *.
      assert (Oid : (g_oid g <= oid)%nat /\ (oid < g_oid g')%nat).
      { clear -E. destruct (Z.eq_dec (g_serial g) 2147483647) as [G|G].
        { unfold forward_open in E. rewrite (prepare_overflow large (m_inc m) c g G) in E. discriminate. }
        destruct (open_request h use8 si host env large c g m s G) as (g1 & c' & O & F). rewrite F in E. clear F.
        destruct (send_request _ _ _ _ _ _ _ _) as [[rp|?|?|] s1]; [|discriminate..].
        destruct (fo_answer _ _ _ _ _ _ _) as [o1 [g2 m2]] eqn:A. inv E.
        apply answer_some in A as (? & ? & ? & ? & _ & _ & _ & _ & -> & -> & _). cbn [g_oid]. lia. }
      assert (Dec : (exists k c', In (k, c') (m_map m) /\ u16 (io_t2oId c') = u16 (f_t2oId r))
                    \/ (forall k c', In (k, c') (m_map m) -> u16 (io_t2oId c') <> u16 (f_t2oId r))).
      { destruct (existsb (fun e => u16 (io_t2oId (snd e)) =? u16 (f_t2oId r)) (m_map m)) eqn:X.
        - left. apply existsb_exists in X as ([k c'] & J & X). cbn [snd] in X. exists k, c'. split; [assumption|lia].
        - right. intros k c' J K. assert (Y : existsb (fun e => u16 (io_t2oId (snd e)) =? u16 (f_t2oId r)) (m_map m) = true).
          { apply existsb_exists. exists (k, c'). split; [assumption|]. cbn [snd]. lia. }
          congruence. }
      destruct Dec as [Dec|Dec].
      * specialize (Old Dec). apply step_nothing; try assumption.
        -- intros o. unfold alive. now rewrite Old.
        -- cbn [happened]. rewrite Old, Dead. reflexivity.
      * specialize (New Dec).
        assert (H : happened (COpen use8 si host env large c) (Ok (Some oid)) m m' = [Opened oid]).
        { cbn [happened]. rewrite New, Nat.eqb_refl. reflexivity. }
        constructor; try assumption; rewrite ?H.
        -- intros o. rewrite ?H. unfold alive. rewrite New. cbn [In]. destruct (Nat.eqb_spec o oid) as [->|Ne].
           ++ split; [intros _; right; left; reflexivity|congruence].
           ++ split; [intros A; left; repeat split; [exact A|intuition congruence|intuition congruence]|].
              intros [[A _]|[A|[]]]; [exact A|congruence].
        -- intros o. rewrite ?H. intros [A|[]]. inv A. lia.
        -- intros o. rewrite ?H. cbn [In]. intuition congruence.
        -- repeat constructor. intros [].
        -- intros o. rewrite ?H. cbn [In]. intuition congruence.
    + destruct (open_fails _ _ _ _ _ _ _ _ _ _ _ _ _ _ E N) as [M Lg].
      apply step_nothing; try assumption.
      * intros o1. unfold alive, lock. now rewrite M.
      * destruct o as [[oid|]|?|?|]; try reflexivity. exfalso. now apply (N oid).
  - destruct (forward_close h use8 si (lock oid m) (m, s)) as [o1 [m1 s1]] eqn:F. inv E.
    destruct (lock oid m) as [c|] eqn:Lk.
    + destruct (send_request h si use8 78 CM_PATH (fc_pack (u16 (io_serial c)) (io_vendor c) (io_orig c) (io_path c)) [] s) as [q s2] eqn:Q.
      assert (D : (exists resp, q = Ok resp) \/ forall resp, q <> Ok resp) by (destruct q; [left; eauto|right; congruence..]).
      destruct D as [[resp ->]|N].
      * destruct (close_ok h use8 si g' m s oid c resp s2 I Lk Q) as (m2 & F2 & _ & Al). rewrite Lk, F in F2. inv F2.
        assert (H : happened (CClose use8 si oid) (omap (fun _ : unit => @None nat) (Ok tt)) m m2 = [ClosedBy oid]).
        { cbn [happened omap bind]. rewrite Lk. reflexivity. }
        constructor; rewrite ?H; try lia.
        -- pose proof (close_frame _ _ _ _ _ _ _ _ _ F) as _.
           unfold forward_close in F. rewrite Q in F. inv F. now apply inv_erase.
        -- intros o. rewrite ?H. unfold alive. rewrite Al. cbn [In]. destruct (Nat.eqb_spec o oid) as [->|Ne].
           ++ split; [congruence|]. intros [[_ [A _]]|[A|[]]]; [exfalso; apply A; auto|congruence].
           ++ split; [intros A; left; repeat split; [exact A|intuition congruence|intuition congruence]|].
              intros [[A _]|[A|[]]]; [exact A|congruence].
        -- intros o. rewrite ?H. intros [A|[]]. congruence.
        -- intros o. rewrite ?H. cbn [In]. unfold alive. intros [[A|[]]|[A|[]]]; [inv A; congruence|congruence].
        -- repeat constructor. intros [].
        -- intros o. rewrite ?H. cbn [In]. intuition congruence.
      * destruct (close_fails h use8 si m s oid c q s2 Lk Q N) as [F2 F3]. rewrite Lk, F in F2, F3. cbn [fst snd] in *. inv F2.
        apply step_nothing; try assumption; try lia; [tauto|]. destruct o1 as [[]|?|?|]; [contradiction|reflexivity..].
    + cbn [forward_close] in F. inv F. apply step_nothing; try assumption; try lia; [tauto|]. cbn [happened omap bind]. now rewrite Lk.
  - destruct (handle_connections h rounds ending env m) as [o1 m1] eqn:F. inv E.
    unfold handle_connections, st_bind in F. pose proof (select_quiet g' h rounds ending m I) as Q.
    destruct (bs_select _ _ _ _ _) as [o2 m2]. cbn [snd] in Q. destruct Q as (Qs & Qk & Qi & ev & Ql & Qc).
    assert (I2 : mgr_inv g' m2) by (eapply statics_inv; eauto).
    assert (Quiet : forall ox, step_ok (CHandle rounds ending env : call S) ox g' g' m m2).
    { intros ox. apply step_nothing; try assumption; try lia.
      - intros oid. now apply statics_alive.
      - cbn [happened]. rewrite Ql, skip_log, Qc. reflexivity. }
    destruct o2 as [[]|?|?|]; [|inv F; apply Quiet..].
    destruct (run_ticks_whole g' env m2 I2 W) as (m3 & ev3 & R & Lg & _ & Cl & Nd & Al). rewrite R in F. inv F.
    assert (H : forall ox, happened (CHandle rounds ending env : call S) ox m m' = map TimedOut (closings ev3)).
    { intros ox. cbn [happened]. rewrite Lg, Ql, <- app_assoc, skip_log, closings_app, Qc. reflexivity. }
    constructor; try lia.
    + pose proof (run_ticks_inv g' env m2 I2) as X. rewrite R in X. exact X.
    + intros oid. rewrite ?H. rewrite in_timedout, Cl. rewrite <- (statics_alive m m2 oid Qs). unfold alive. rewrite Al.
      destruct (lock oid m2) as [c|]; [|split; [congruence|]].
      * destruct (timed_out env c) eqn:T.
        -- split; [congruence|]. intros [[_ [_ A]]|A]; [exfalso; apply A; eauto|].
           apply in_timedout_other in A as [x A]. congruence.
        -- split; [|congruence]. intros _. left. split; [congruence|]. split.
           ++ intros A. apply in_timedout_other in A as [x A]. congruence.
           ++ intros (c' & E1 & E2). congruence.
      * intros [[A _]|A]; [congruence|]. apply in_timedout_other in A as [x A]. congruence.
    + intros oid. rewrite ?H. intros A. apply in_timedout_other in A as [x A]. congruence.
    + intros oid. rewrite ?H. intros [A|A]; [apply in_timedout_other in A as [x A]; congruence|].
      apply in_timedout, Cl in A as (c & A & _). apply (statics_alive m m2 oid Qs). unfold alive. congruence.
    + rewrite ?H. clear -Nd. induction Nd as [|x l N _ IH]; cbn [map]; constructor; [|assumption]. now rewrite in_timedout.
    + intros oid. rewrite ?H. intros [A _]. apply in_timedout_other in A as [x A]. congruence.
  - inv E. apply step_nothing; try assumption; try lia; [| |reflexivity].
    + eapply statics_inv; [exact I|]. unfold set_output. cbn [set_map m_map]. apply output_statics.
    + intros o. apply statics_alive. unfold set_output. cbn [set_map m_map]. apply output_statics.
Qed.

(** ** Histories *)
Record told (i : nat) {S} (hs : list happening) (w : world S) : Prop := {
  td_inv : forall j, mgr_inv (w_g w) (w_m w j);
  td_alive : forall oid, alive oid (w_m w i) <->
    In (Opened oid) hs /\ ~ In (ClosedBy oid) hs /\ ~ In (TimedOut oid) hs;
  td_old : forall oid, In (Opened oid) hs -> (oid < g_oid (w_g w))%nat;
  td_was : forall oid, In (ClosedBy oid) hs \/ In (TimedOut oid) hs -> In (Opened oid) hs;
  td_nodup : NoDup hs;
  td_excl : forall oid, ~ (In (ClosedBy oid) hs /\ In (TimedOut oid) hs) }.

Lemma told_start {S} i (w : world S) : (forall j, exists inc, w_m w j = mgr0 inc) -> told i [] w.
Proof.
  intros H. constructor; cbn [In].
  - intros j. destruct (H j) as [inc ->]. apply inv_new.
  - intros oid. destruct (H i) as [inc ->]. unfold alive. cbn. intuition congruence.
  - contradiction.
  - tauto.
  - constructor.
  - tauto.
Qed.

Lemma nodup_app {A} (a b : list A) : NoDup a -> NoDup b -> (forall x, In x a -> In x b -> False) -> NoDup (a ++ b).
Proof.
  induction a as [|x a IH]; intros Na Nb D; [exact Nb|]. inversion Na as [|? ? N1 N2]; subst. cbn [app]. constructor.
  - rewrite in_app_iff. intros [J|J]; [auto|]. apply (D x); [now left|assumption].
  - apply IH; [assumption..|]. intros y J1 J2. apply (D y); [now right|assumption].
Qed.

Lemma told_step {S} h i j (op : call S) hs (w : world S) o w' : told i hs w -> sends_whole op ->
  call_world h j op w = (o, w') ->
  told i (hs ++ if Nat.eqb j i then happened op o (w_m w j) (w_m w' j) else []) w'.
Proof.
  intros T W E. unfold call_world in E. destruct (call_mgr h op (w_g w, w_m w j, w_s w)) as [o1 [[g' m'] s']] eqn:C. inv E.
  pose proof (call_step h op _ _ _ _ _ _ _ (td_inv i hs w T j) W C) as St. cbn [w_m w_g].
  assert (U : update (w_m w) j m' j = m') by (unfold update; now rewrite Nat.eqb_refl). 
  assert (Inv : forall k, mgr_inv g' (update (w_m w) j m' k)).
  { intros k. unfold update. destruct (Nat.eqb_spec k j) as [->|]; [exact (st_inv _ _ _ _ _ _ St)|].
    eapply inv_later; [exact (td_inv i hs w T k)|exact (st_oid _ _ _ _ _ _ St)]. }
  destruct (Nat.eqb_spec j i) as [->|N].
  - rewrite U. set (hs' := happened op o (w_m w i) m') in *. destruct T as [T1 T2 T3 T4 T5 T6]. destruct St as [S1 S2 S3 S4 S5 S6 S7].
    fold hs' in S3, S4, S5, S6, S7.
    constructor; cbn [w_m w_g].
    + exact Inv.
    + intros oid. rewrite U. rewrite S3, T2, !in_app_iff. split.
      * intros [[[A [B C0]] [D E]]|A]; [tauto|]. pose proof (S4 oid A) as [Fr _].
        split; [auto|]. split.
        -- intros [B|B]; [assert (In (Opened oid) hs) by auto; specialize (T3 oid H); lia|].
           assert (AL : alive oid (w_m w i)) by auto. apply T2 in AL as [AL _]. specialize (T3 oid AL). lia.
        -- intros [B|B]; [assert (In (Opened oid) hs) by auto; specialize (T3 oid H); lia|].
           assert (AL : alive oid (w_m w i)) by auto. apply T2 in AL as [AL _]. specialize (T3 oid AL). lia.
      * intros [[A|A] [B C0]]; [left; tauto|right; exact A].
    + intros oid. rewrite in_app_iff. intros [A|A]; [specialize (T3 oid A); lia|specialize (S4 oid A); lia].
    + intros oid. rewrite !in_app_iff. intros [[A|A]|[A|A]]; try (left; apply T4; auto; fail);
        left; (assert (AL : alive oid (w_m w i)) by auto); apply T2 in AL; tauto.
    + apply nodup_app; [assumption..|]. intros x A B. destruct x as [oid|oid|oid].
      * specialize (T3 oid A). specialize (S4 oid B). lia.
      * assert (AL : alive oid (w_m w i)) by auto. apply T2 in AL. tauto.
      * assert (AL : alive oid (w_m w i)) by auto. apply T2 in AL. tauto.
    + intros oid. rewrite !in_app_iff. intros [[A|A] [B|B]].
      * apply (T6 oid). auto.
      * assert (AL : alive oid (w_m w i)) by auto. apply T2 in AL. tauto.
      * assert (AL : alive oid (w_m w i)) by auto. apply T2 in AL. tauto.
      * apply (S7 oid). auto.
  - rewrite app_nil_r. destruct T as [T1 T2 T3 T4 T5 T6]. constructor; cbn [w_m w_g]; try assumption.
    + intros oid. unfold update. destruct (Nat.eqb_spec i j); [congruence|]. apply T2.
    + intros oid A. specialize (T3 oid A). pose proof (st_oid _ _ _ _ _ _ St). lia.
Qed.

Lemma told_history {S} h i (ops : list (nat * call S)) : forall hs w, told i hs w ->
  Forall (fun x => sends_whole (snd x)) ops ->
  let '(hs', w') := happenings h i ops w in told i (hs ++ hs') w'.
Proof.
  induction ops as [|[j op] ops IH]; intros hs w T F; cbn [happenings].
  - now rewrite app_nil_r.
  - apply Forall_cons_iff in F as [F1 F]. cbn [snd] in F1. destruct (call_world h j op w) as [o w1] eqn:C.
    pose proof (told_step h i j op hs w o w1 T F1 C) as T1. specialize (IH _ _ T1 F).
    destruct (happenings h i ops w1) as [hs' w']. now rewrite app_assoc.
Qed.

Lemma has_open_iff m : has_open m = true <-> exists oid, alive oid m.
Proof.
  unfold has_open, alive. destruct (m_map m) as [|[k c] l] eqn:E; cbn [negb].
  - split; [discriminate|]. intros [oid A]. exfalso. apply A. unfold lock. rewrite E. reflexivity.
  - split; [|reflexivity]. intros _. exists (io_oid c). unfold lock. rewrite E. cbn [find snd]. rewrite Nat.eqb_refl. cbn. discriminate.
Qed.

(** All histories, short sends included. *)
Lemma call_inv {S} h (op : call S) g m s o g' m' s' : mgr_inv g m ->
  call_mgr h op (g, m, s) = (o, (g', m', s')) -> mgr_inv g' m' /\ (g_oid g <= g_oid g')%nat.
Proof.
  intros I E. destruct op as [use8 si host env large c|use8 si oid|rounds ending env|oid d].
  - exact (open_inv _ _ _ _ _ _ _ _ _ _ _ _ _ _ I E).
  - apply (call_step h (CClose use8 si oid) _ _ _ _ _ _ _ I Logic.I) in E as [A B _ _ _ _ _]. auto.
  - cbn [call_mgr] in E. destruct (handle_connections h rounds ending env m) as [o1 m1] eqn:F. inv E. split; [|lia].
    unfold handle_connections, st_bind in F. pose proof (select_quiet g' h rounds ending m I) as Q.
    destruct (bs_select _ _ _ _ _) as [o2 m2]. cbn [snd] in Q. destruct Q as (Qs & _).
    assert (I2 : mgr_inv g' m2) by (eapply statics_inv; eauto).
    destruct o2 as [[]|?|?|]; [|inv F; assumption..]. pose proof (run_ticks_inv g' env m2 I2) as X. now rewrite F in X.
  - apply (call_step h (CData oid d) _ _ _ _ _ _ _ I Logic.I) in E as [A B _ _ _ _ _]. auto.
Qed.
