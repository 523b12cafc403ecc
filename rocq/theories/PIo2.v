(** More about single connections, end point ordering, the polling loop. *)
From Coq Require Import Ascii String.
From Verif Require Import Base MBuffer SBuffer PBase PBuffer PReader PBufferT MEip SEip PPathT PEip PRouter
  MSocket SSocket PSocket MConnReq SConnReq PConnReq MConn SConn PConnOpen PConnMap PIo PConnCall PConnCall2 PConnHist.
Ltac Zify.zify_post_hook ::= Z.div_mod_to_equations.
Local Open Scope outcome_scope.

(** ** Receiving *)
Lemma receive_wire h c hdr seq data : is_u32 hdr -> is_u16 seq ->
  io_t2oRTF c = false \/ io_trigger c mod 4 = 0 ->
  io_t2oFixed c = false \/ zlen data = io_t2oSize c ->
  io_receive h c (wire_data (negb (io_trigger c mod 4 =? 0)) (io_t2oRTF c) seq hdr data)
  = Ok (io_set_tcount c 0, [EvData (io_oid c) (if io_t2oRTF c then hdr else 0)
                                   (if io_trigger c mod 4 =? 0 then 0 else seq) data]).
Proof.
  intros H S N F. pose proof (receive_order h c hdr seq data H S) as R. cbv zeta in R. rewrite has_seq_mod in R.
  assert (Fx : io_t2oFixed c && negb (zlen data =? io_t2oSize c) = false).
  { destruct F as [->| ->]; [reflexivity|]. rewrite Z.eqb_refl. apply andb_false_r. }
  rewrite Fx in R. unfold wire_data. destruct (Z.eqb_spec (io_trigger c mod 4) 0); cbn [negb] in *.
  - exact R.
  - destruct N as [N|N]; [|contradiction]. rewrite N in *. exact R.
Qed.

Lemma size_gate h c hdr seq data : is_u32 hdr -> is_u16 seq ->
  io_t2oFixed c = true ->
  let d := (if io_t2oRTF c then le 4 hdr else []) ++ (if has_seq (io_trigger c) then le 2 seq else []) ++ data in
  io_receive h c d = if zlen data =? io_t2oSize c
                     then Ok (io_set_tcount c 0, [EvData (io_oid c) (if io_t2oRTF c then hdr else 0)
                                (if has_seq (io_trigger c) then seq else 0) data])
                     else Ok (c, []).
Proof.
  intros H S F. cbv zeta. rewrite receive_order by assumption. rewrite F. cbn [andb]. destruct (_ =? _); reflexivity.
Qed.

(** ** Sending *)
Lemma tick_sends now hook sr c o d p : In (EvSent o d p) (snd (io_tick now hook sr c)) ->
  o = io_oid c /\ d = io_dest c /\ (io_o2tFixed c = true -> zlen (hook (io_out c)) = io_o2tSize c)
  /\ io_out (snd (fst (io_tick now hook sr c))) = hook (io_out c).
Proof.
  unfold io_tick. cbv zeta. destruct (_ <? _); [intros [E|[]]; congruence|]. destruct (_ <=? _); [|intros []].
  destruct (io_o2tFixed c) eqn:F; cbn [andb].
  - destruct (Z.eqb_spec (zlen (hook (io_out c))) (io_o2tSize c)); cbn [negb]; [|intros []].
    intros [E|[]]. inv E. auto.
  - intros [E|[]]. inv E. repeat split; auto. discriminate.
Qed.

Fixpoint forward (last : Z) (ops : list io_op) : Prop :=
  match ops with
  | [] => True
  | Tick now _ _ :: r => last <= now /\ forward now r
  | _ :: r => forward last r
  end.

(** The interval timer never runs ahead of the clock. *)
Definition behind (t : Z) (c : iocon) : Prop := 0 <= io_o2tTimer c /\ 1000 * io_o2tTimer c <= io_last c - t.
Lemma timer_add c now : 0 <= io_o2tTimer c -> io_last c <= now ->
  0 <= u32 (io_o2tTimer c + Z.quot (now - io_last c) 1000000 * 1000)
  /\ 1000 * u32 (io_o2tTimer c + Z.quot (now - io_last c) 1000000 * 1000) <= 1000 * io_o2tTimer c + (now - io_last c).
Proof. intros T L. rewrite Z.quot_div_nonneg by lia. unfold u32. lia. Qed.
Lemma tick_behind now hook sr c t : behind t c -> t <= io_last c -> io_last c <= now ->
  match io_tick now hook sr c with
  | (Ok false, _, _) => True
  | (_, c', ev) => behind t c' /\ io_last c' = now
      /\ (forall o d p, In (EvSent o d p) ev -> 1000 * io_o2tAPI c <= now - t)
  end.
Proof.
  intros [B1 B2] L0 L. pose proof (timer_add c now B1 L) as [T1 T2]. unfold io_tick. cbv zeta.
  destruct (_ <? _); [exact Logic.I|]. destruct (Z.leb_spec (io_o2tAPI c) (u32 (io_o2tTimer c + Z.quot (now - io_last c) 1000000 * 1000))) as [S|S].
  - assert (G : 1000 * io_o2tAPI c <= now - t) by lia. 
    destruct (_ && _); [repeat split; cbn; try lia; intros ? ? ? []|].
    destruct (omap _ _) as [[]|?|?|]; repeat split; cbn; try lia; intros; exact G.
  - unfold behind; cbn [io_o2tTimer io_last io_set_tick]. split; [lia|]. split; [reflexivity|]. intros ? ? ? [].
Qed.
Lemma run_behind h ops : forall c c' ev t, behind t c -> t <= io_last c -> forward (io_last c) ops ->
  io_run h ops c = (Open c', ev) -> behind t c' /\ t <= io_last c' /\ io_o2tAPI c' = io_o2tAPI c.
Proof.
  induction ops as [|[now hook sr|at_ d|d] ops IH]; intros c c' ev t B L F E; cbn [io_run] in E.
  - inv E. auto.
  - destruct F as [F1 F]. pose proof (tick_behind now hook sr c t B L F1) as T.
    pose proof (tick_static now hook sr c) as St.
    destruct (io_tick now hook sr c) as [[r c1] ev1]. cbn [fst snd] in St.
    assert (A1 : io_o2tAPI c1 = io_o2tAPI c) by (unfold io_static in St; congruence).
    assert (X : exists e', io_run h ops c1 = (Open c', e') /\ behind t c1 /\ io_last c1 = now).
    { destruct r as [[]|?|?|]; try discriminate; (destruct (io_run h ops c1) as [e1 ev2]; inv E; eexists; split; [reflexivity|tauto]). }
    destruct X as (e' & X & B1 & L1). rewrite <- A1. eapply IH; try exact X; [assumption|lia|]. now rewrite L1.
  - cbn [forward] in F. destruct (io_receive h c d) as [[c1 ev1]|?|?|] eqn:R; try discriminate.
    pose proof (receive_static _ _ _ _ _ R) as St.
    assert (A1 : io_o2tAPI c1 = io_o2tAPI c) by (unfold io_static in St; congruence).
    assert (Sm : io_last c1 = io_last c /\ io_o2tTimer c1 = io_o2tTimer c).
    { unfold io_receive in R. cbv zeta in R. apply bind_Ok in R as ([? ?] & _ & R). apply bind_Ok in R as ([? ?] & _ & R).
      destruct (negb _); [discriminate|]. destruct (_ && _); inv R; auto. }
    destruct Sm as [S1 S2]. destruct (io_run h ops c1) as [e1 ev2] eqn:X. inv E.
    rewrite <- A1. eapply IH; try exact X; [unfold behind in *; now rewrite S1, S2|lia|now rewrite S1].
  - cbn [forward] in F. change (io_o2tAPI c) with (io_o2tAPI (io_set_output c d)).
    eapply IH; try exact E; [exact B|exact L|exact F].
Qed.

(** Two transmissions are at least the interval apart. *)
Lemma spacing h c0 t1 hook1 sr1 c1 ev1 mid c2 ev2 t2 hook2 sr2 c3 ev3 o d p o' d' p' :
  io_run h [Tick t1 hook1 sr1] c0 = (Open c1, ev1) -> In (EvSent o d p) ev1 ->
  forward t1 mid -> io_run h mid c1 = (Open c2, ev2) -> io_last c2 <= t2 ->
  io_run h [Tick t2 hook2 sr2] c2 = (Open c3, ev3) -> In (EvSent o' d' p') ev3 ->
  1000 * io_o2tAPI c0 <= t2 - t1.
Proof.
  intros E1 S1 F E2 L E3 S3. cbn [io_run] in E1, E3.
  assert (A : behind t1 c1 /\ io_last c1 = t1 /\ io_o2tAPI c1 = io_o2tAPI c0).
  { pose proof (tick_static t1 hook1 sr1 c0) as St. unfold io_tick in *. cbv zeta in *.
    destruct (_ <? _); [inv E1|]. destruct (_ <=? _).
    - destruct (_ && _); [inv E1; destruct S1|].
      destruct (omap _ _) as [[]|?|?|]; inv E1; unfold behind; cbn; repeat split; lia.
    - inv E1. destruct S1. }
  destruct A as (B & L1 & A1).
  destruct (run_behind h mid c1 c2 ev2 t1 B ltac:(lia) ltac:(now rewrite L1) E2) as (B2 & L2 & A2).
  pose proof (tick_behind t2 hook2 sr2 c2 t1 B2 L2 L) as T. rewrite A2, A1 in T.
  destruct (io_tick t2 hook2 sr2 c2) as [[r c3'] ev3']. rewrite app_nil_r in E3.
  destruct r as [[]|?|?|]; inv E3; destruct T as (_ & _ & T); eapply T; eauto.
Qed.

(** Ticks less than a millisecond apart count no time at all. *)
Fixpoint hectic (last : Z) (ops : list io_op) : Prop :=
  match ops with
  | [] => True
  | Tick now _ _ :: r => last <= now < last + 1000000 /\ hectic now r
  | _ :: _ => False
  end.
Lemma hectic_idle h ops : forall c, hectic (io_last c) ops ->
  is_u32 (io_tcount c) -> is_u32 (io_o2tTimer c) ->
  io_tcount c <= u32 (io_mult c * io_t2oAPI c) -> io_o2tTimer c < io_o2tAPI c ->
  exists c', io_run h ops c = (Open c', []) /\ io_o2tSeq c' = io_o2tSeq c.
Proof.
  induction ops as [|[now hook sr|? ?|?] ops IH]; intros c F U1 U2 T S; cbn [io_run hectic] in *; try contradiction; [eauto|].
  destruct F as [F1 F]. unfold io_tick. cbv zeta. rewrite Z.quot_div_nonneg by lia.
  replace ((now - io_last c) / 1000000) with 0 by lia. change (0 * 1000) with 0. rewrite !Z.add_0_r, (u32_small (io_tcount c)), (u32_small (io_o2tTimer c)) by assumption.
  destruct (Z.ltb_spec (u32 (io_mult c * io_t2oAPI c)) (io_tcount c)); [lia|].
  destruct (Z.leb_spec (io_o2tAPI c) (io_o2tTimer c)); [lia|].
  set (c1 := io_set_tick c _ _ _ _ _ _).
  destruct (IH c1) as (c' & E & Q); try assumption. rewrite E. exists c'. split; [reflexivity|exact Q].
Qed.

(** ** End points *)
Lemma ltb_irrefl s : String.ltb s s = false.
Proof. unfold String.ltb. pose proof (String.compare_antisym s s) as A. destruct (String.compare s s); cbn in A; congruence. Qed.
Lemma ltb_trans a : forall b c, String.ltb a b = true -> String.ltb b c = true -> String.ltb a c = true.
Proof.
  unfold String.ltb. induction a as [|x a IH]; intros [|y b] [|z c]; cbn [String.compare]; try discriminate; try reflexivity.
  unfold Ascii.compare. intros E1 E2.
  destruct (N.compare_spec (N_of_ascii x) (N_of_ascii y)) as [Q1|Q1|Q1]; try discriminate;
  destruct (N.compare_spec (N_of_ascii y) (N_of_ascii z)) as [Q2|Q2|Q2]; try discriminate;
  destruct (N.compare_spec (N_of_ascii x) (N_of_ascii z)) as [Q3|Q3|Q3]; try reflexivity; try lia.
  eapply IH; eauto.
Qed.
Lemma ep_irrefl a : ep_ltb a a = false.
Proof. unfold ep_ltb. now rewrite ltb_irrefl. Qed.
Lemma ep_trans a b c : ep_ltb a b = true -> ep_ltb b c = true -> ep_ltb a c = true.
Proof.
  unfold ep_ltb. rewrite !andb_true_iff. intros [A1 A2] [B1 B2]. split; [eapply ltb_trans; eauto|lia].
Qed.
Lemma ep_asym a b : ep_ltb a b = true -> ep_ltb b a = false.
Proof.
  intros E. destruct (ep_ltb b a) eqn:F; [|reflexivity]. pose proof (ep_trans _ _ _ E F). rewrite ep_irrefl in H. discriminate.
Qed.
Lemma ep_same_port a b : ep_port a = ep_port b -> same_key a b = true.
Proof. intros E. unfold same_key, ep_ltb. rewrite ?E, Z.ltb_irrefl, !andb_false_r. reflexivity. Qed.

(** All receive sockets have port 2222, so there is at most one. *)
Definition one_socket (m : mgr) : Prop := (List.length (m_socks m) <= 1)%nat /\ Forall (fun e => ep_port e = 2222) (m_socks m).
Lemma find_socket_one b aton host m : one_socket m ->
  one_socket (snd (find_or_create_socket b (ep_of_host aton host EIP_DEFAULT_IMPLICIT_PORT) m)).
Proof.
  intros [L F]. unfold find_or_create_socket. destruct (m_socks m) as [|e l] eqn:E.
  - cbn [existsb]. destruct b; cbn [snd]; [split; rewrite ?E; assumption|]. split; cbn [m_socks app List.length]; [lia|]. rewrite ?E. repeat constructor.
  - apply Forall_cons_iff in F as [F1 F]. cbn [existsb]. rewrite ep_same_port by (cbn [ep_port ep_of_host]; now rewrite F1).
    cbn [orb snd]. split; rewrite ?E; [assumption|constructor; assumption].
Qed.
Lemma answer_one h env host large c resp g m : one_socket m -> one_socket (snd (snd (fo_answer h env host large c resp (g, m)))).
Proof.
  intros O. unfold fo_answer. destruct (negb _); [exact O|]. destruct (bind _ _) as [[r io]|?|?|]; [|exact O..]. cbv zeta.
  pose proof (find_socket_one (v_bind env) (v_aton env) host m O) as O'.
  destruct (find_or_create_socket _ _ _) as [[[]|?|?|] m1]; exact O'.
Qed.
Lemma call_one {S} h (op : call S) g m s o g' m' s' : call_mgr h op (g, m, s) = (o, (g', m', s')) -> one_socket m -> one_socket m'.
Proof.
  intros E O. destruct op as [use8 si host env large c|use8 si oid|rounds ending env|oid d].
  2-4: apply other_frame in E as (_ & _ & E); [|exact Logic.I]; unfold one_socket; now rewrite E.
  cbn [call_mgr] in E. destruct (Z.eq_dec (g_serial g) 2147483647) as [G|G].
  { unfold forward_open in E. rewrite (prepare_overflow large (m_inc m) c g G) in E. inv E. exact O. }
  destruct (open_request h use8 si host env large c g m s G) as (g1 & c' & _ & F). rewrite F in E. clear F.
  destruct (send_request _ _ _ _ _ _ _ _) as [[rp|?|?|] s1]; [|inv E; exact O..].
  pose proof (answer_one h env host large c rp g1 m O) as A. destruct (fo_answer _ _ _ _ _ _ _) as [o1 [g2 m2]]. inv E. exact A.
Qed.
Lemma sockets_one {S} h (ops : list (nat * call S)) : forall w, (forall j, one_socket (w_m w j)) ->
  forall j, one_socket (w_m (run_calls h ops w) j).
Proof.
  induction ops as [|[i op] ops IH]; intros w O j; cbn [run_calls]; [apply O|]. apply IH. intros k. unfold call_world.
  destruct (call_mgr h op (w_g w, w_m w i, w_s w)) as [o [[g' m'] s']] eqn:E. cbn [snd w_m]. unfold update.
  destruct (Nat.eqb k i); [|apply O]. eapply call_one; eauto.
Qed.

(** ** select *)
Fixpoint ready_calls {A} (i n : nat) (ready : list (option A)) : list (nat * A) :=
  match n, ready with
  | O, _ | _, [] => []
  | S n', None :: r => ready_calls (S i) n' r
  | S n', Some a :: r => (i, a) :: ready_calls (S i) n' r
  end.
Lemma ready_in {A} (ready : list (option A)) : forall i n k a,
  In (k, a) (ready_calls i n ready) <-> (i <= k < i + n)%nat /\ nth_error ready (k - i) = Some (Some a).
Proof.
  induction ready as [|x r IH]; intros i n k a; destruct n as [|n]; cbn [ready_calls].
  - split; [contradiction|lia].
  - split; [contradiction|]. intros [_ E]. destruct (k - i)%nat; discriminate.
  - split; [contradiction|lia].
  - assert (Q : In (k, a) (ready_calls (S i) n r) <-> (S i <= k < i + S n)%nat /\ nth_error (x :: r) (k - i) = Some (Some a)).
    { rewrite IH. split; intros [L E]; (split; [lia|]); replace (k - i)%nat with (S (k - S i)) in * by lia; exact E. }
    destruct x as [b|]; [cbn [In]|]; rewrite Q; clear Q IH.
    + split.
      * intros [E|[L E]]; [inv E; split; [lia|]; rewrite Nat.sub_diag; reflexivity|split; [lia|assumption]].
      * intros [L E]. destruct (Nat.eq_dec k i) as [->|N]; [rewrite Nat.sub_diag in E; left; cbn in E; congruence|right; split; [lia|assumption]].
    + split; [intros [L E]; split; [lia|assumption]|]. intros [L E]. destruct (Nat.eq_dec k i) as [->|N]; [rewrite Nat.sub_diag in E; discriminate|split; [lia|assumption]].
Qed.
Lemma ready_sorted {A} (ready : list (option A)) : forall i n,
  Sorted.StronglySorted lt (map fst (ready_calls i n ready)) /\ Forall (Peano.le i) (map fst (ready_calls i n ready)).
Proof.
  induction ready as [|x r IH]; intros i n; destruct n as [|n]; cbn [ready_calls map]; try (split; constructor; fail).
  destruct (IH (S i) n) as [S1 S2]. destruct x as [a|]; cbn [map fst].
  - split; (constructor; [assumption || lia|]); eapply Forall_impl; try exact S2; cbn; lia.
  - split; [assumption|]. eapply Forall_impl; [|exact S2]. cbn. lia.
Qed.

Definition run_handlers {W A} (f : nat -> A -> W -> W) (l : list (nat * A)) (w : W) : W :=
  fold_left (fun w e => f (fst e) (snd e) w) l w.
Lemma dispatch_all {W A} (handler : nat -> A -> st W unit) f : (forall i a w, handler i a w = (Ok tt, f i a w)) ->
  forall ready i n w, dispatch handler i n ready w = (Ok tt, run_handlers f (ready_calls i n ready) w).
Proof.
  intros H. induction ready as [|[a|] r IH]; intros i n w; destruct n; cbn [dispatch ready_calls]; try reflexivity.
  - unfold st_bind. rewrite H, IH. reflexivity.
  - apply IH.
Qed.
Lemma select_all {W A} (handler : nat -> A -> st W unit) f : (forall i a w, handler i a w = (Ok tt, f i a w)) ->
  forall n rounds ending w, n <> 0%nat -> bs_select handler n rounds ending w
  = (match ending with SelQuiet => Ok tt | SelFail e => Throw (SystemError e) end,
     run_handlers f (flat_map (fun r => ready_calls 0 n (sr_ready r)) rounds) w).
Proof.
  intros H n rounds ending w N. unfold bs_select. destruct n as [|n]; [contradiction|]. clear N. revert w.
  induction rounds as [|r rs IH]; intros w; cbn [select_rounds flat_map].
  - destruct ending; reflexivity.
  - unfold st_bind. rewrite (dispatch_all handler f H), IH. unfold run_handlers. now rewrite fold_left_app.
Qed.
(** A failing handler ends the call at once. *)
Lemma select_throws {W A} (handler : nat -> A -> st W unit) n rounds ending w e w' :
  fst (bs_select handler n rounds ending w) = Throw e ->
  snd (bs_select handler n rounds ending w) = w' ->
  ending = SelFail (match e with SystemError x => x | _ => 0 end) \/ (exists i a w1, handler i a w1 = (Throw e, w')).
Proof.
  unfold bs_select. destruct n as [|n]; [discriminate|]. generalize (S n). clear n. intros n.
  revert w. induction rounds as [|r rs IH]; intros w; cbn [select_rounds].
  - destruct ending; [discriminate|]. cbn. intros E _. inv E. auto.
  - unfold st_bind.
    assert (D : forall ready i n w, fst (dispatch handler i n ready w) = Throw e ->
              exists j a w1, handler j a w1 = (Throw e, snd (dispatch handler i n ready w))).
    { clear. induction ready as [|[a|] r IH]; intros i n w; destruct n; cbn [dispatch]; try discriminate.
      - unfold st_bind. destruct (handler i a w) as [[[]|?|?|] w1] eqn:H; cbn [fst snd]; try discriminate; [apply IH|].
        intros E. inv E. now exists i, a, w.
      - apply IH. }
    specialize (D (sr_ready r) 0%nat n w). destruct (dispatch handler 0 n (sr_ready r) w) as [[[]|?|?|] w1]; cbn [fst snd] in *; try discriminate.
    + apply IH.
    + intros E1 E2. subst. right. apply D. exact E1.
Qed.

Lemma timeouts_ok {A} timeout start (rounds : list (sel_round A)) s us : In (s, us) (select_timeouts timeout start rounds) ->
  0 <= s /\ 0 <= us < 1000000 /\ exists t, In t (start :: map sr_now rounds)
    /\ 1000000000 * s + 1000 * us <= Z.max 0 (start + timeout * 1000000 - t).
Proof.
  unfold select_timeouts. rewrite in_map_iff. intros (t & E & I). rewrite interval_ok in E.
  destruct (Z.ltb_spec (Z.quot (start + timeout * 1000000 - t) 1000000) 0) as [L|L]; inv E.
  - split; [lia|]. split; [lia|]. exists t. split; [assumption|lia].
  - split; [lia|]. split; [lia|]. exists t. split; [assumption|].
    destruct (Z_lt_le_dec (start + timeout * 1000000 - t) 0) as [Q|Q].
    + assert (Z.quot (start + timeout * 1000000 - t) 1000000 = 0).
      { pose proof (Z.quot_le_mono (start + timeout * 1000000 - t) 0 1000000 ltac:(lia) ltac:(lia)). rewrite Z.quot_0_l in H by lia. lia. }
      rewrite H in *. lia.
    + rewrite Z.quot_div_nonneg in * by lia. lia.
Qed.

(** Handlers keep running after the deadline as long as data keeps arriving. *)
Lemma select_late : forall k : nat, exists rounds : list (sel_round unit),
  Forall (fun r => 1000000 < sr_now r) rounds
  /\ Forall (fun t => t = (0, 0)) (skipn 1 (select_timeouts 1 0 rounds))
  /\ bs_select (fun _ _ w => (Ok tt, S w)) 1 rounds SelQuiet 0%nat = (Ok tt, k).
Proof.
  intros k. exists (repeat (mkRound [Some tt] 3000000) k). split; [|split].
  - apply Forall_forall. intros r I. apply repeat_spec in I. subst. cbn. lia.
  - unfold select_timeouts. cbn [map skipn]. apply Forall_forall. intros t I. apply in_map_iff in I as (x & <- & I).
    apply in_map_iff in I as (r & <- & I). apply repeat_spec in I. subst. reflexivity.
  - rewrite (select_all _ (fun _ _ w => S w)) by (reflexivity || lia).
    f_equal.
    assert (G : forall a, run_handlers (fun (_ : nat) (_ : unit) (w : nat) => S w)
      (flat_map (fun r : sel_round unit => ready_calls 0 1 (sr_ready r)) (repeat (mkRound [Some tt] 3000000) k)) a = (a + k)%nat).
    { induction k as [|k IH]; intros a; cbn; [lia|]. unfold run_handlers in IH. rewrite IH. lia. }
    apply G.
Qed.
