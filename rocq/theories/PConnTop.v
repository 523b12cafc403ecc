(** Statements about reachable managers and refutations. *)
From Verif Require Import Base MBuffer SBuffer PBase PBuffer MEip SEip PEip PRouter MSocket SSocket PSocket MConnReq SConnReq PConnReq MConn SConn PConnOpen PConnMap PIo PConnCall PConnCall2 PConnHist PIo2.
Ltac Zify.zify_post_hook ::= Z.div_mod_to_equations.

Lemma new_told {S} i (w : world S) : new_world w -> told i [] w.
Proof. apply told_start. Qed.

Lemma world_inv {S} h (ops : list (nat * call S)) : forall w, (forall j, mgr_inv (w_g w) (w_m w j)) ->
  forall j, mgr_inv (w_g (run_calls h ops w)) (w_m (run_calls h ops w) j).
Proof.
  induction ops as [|[i op] ops IH]; intros w I j; cbn [run_calls]; [apply I|]. apply IH. intros k. unfold call_world.
  destruct (call_mgr h op (w_g w, w_m w i, w_s w)) as [o [[g' m'] s']] eqn:E. cbn [snd w_m w_g].
  destruct (call_inv h op _ _ _ _ _ _ _ (I i) E) as [I' L]. unfold update.
  destruct (Nat.eqb k i); [assumption|]. eapply inv_later; eauto.
Qed.
Lemma reach_inv S g m : reachable S g m -> mgr_inv g m.
Proof.
  intros (h & ops & w & i & N & -> & ->). apply world_inv. intros j. destruct (N j) as [inc ->]. apply inv_new.
Qed.
Lemma reach_one S g m : reachable S g m -> (List.length (m_socks m) <= 1)%nat.
Proof.
  intros (h & ops & w & i & N & -> & ->). apply (sockets_one h ops w). intros j. destruct (N j) as [inc ->]. split; cbn; [lia|constructor].
Qed.

(** ** Opening *)
Lemma zero_iff a : (a =? 0) = true <-> a = 0.
Proof. apply Z.eqb_eq. Qed.
Lemma nonzero_iff a : nonzero a = true <-> a <> 0.
Proof. unfold nonzero. rewrite negb_true_iff. apply Z.eqb_neq. Qed.
Lemma connection_agreed large c r mult oid now dest : fo_multiplier (c_multiplier c) = Ok mult -> 0 <= c_multiplier c ->
  agreed large c r (fo_connection large c r mult oid now dest).
Proof.
  intros M P. assert (Q : mult = (4 * 2 ^ c_multiplier c) mod 256).
  { destruct (Z_lt_le_dec (c_multiplier c) 32) as [L|L].
    - rewrite multiplier_ok in M by lia. now inv M.
    - unfold fo_multiplier in M. destruct (Z.leb_spec 32 (c_multiplier c)); [discriminate|lia]. }
  pose proof (getter_part large FSize) as GS. pose proof (getter_part large FVar) as GV. cbn [getter] in GS, GV.
  unfold agreed, fo_connection, fresh_io; cbn [io_o2tId io_t2oId io_o2tAPI io_t2oAPI io_serial io_o2tSize io_t2oSize
    io_o2tFixed io_t2oFixed io_mult io_trigger io_o2tRTF io_t2oRTF io_path io_vendor io_orig io_out io_tcount io_o2tTimer io_o2tSeq io_seqCount].
  rewrite !GS, !GV, !zero_iff, !nonzero_iff. repeat split; assumption || (intros; assumption).
Qed.

Lemma has_open_lock m oid c : lock oid m = Some c -> has_open m = true.
Proof. intros L. apply has_open_iff. exists oid. unfold alive. now rewrite L. Qed.

Lemma open_registers S h use8 (si : session_if S) host env large c g m s oid g' m' s' :
  reachable S g m -> 0 <= c_multiplier c ->
  forward_open h use8 si host env large c (g, m, s) = (Ok (Some oid), (g', m', s')) ->
  lock oid m = None /\ exists resp r data io,
    send_request h si use8 (if large then 91 else 84) (epath2 6 1) data [] s = (Ok resp, s')
    /\ r_status resp = 0 /\ fo_expand h (r_data resp) = Ok r
    /\ fo_dest h (v_aton env) host (r_items resp) = Ok (io_dest io) /\ io_last io = v_now env
    /\ io_oid io = oid /\ agreed large c r io
    /\ ((forall o c', lock o m = Some c' -> io_t2oId c' mod 65536 <> f_t2oId r mod 65536) ->
        has_open m' = true /\ forall o, lock o m' = if Nat.eqb o oid then Some io else lock o m)
    /\ ((exists o c', lock o m = Some c' /\ io_t2oId c' mod 65536 = f_t2oId r mod 65536) ->
        forall o, lock o m' = lock o m).
Proof.
  intros R P E. apply reach_inv in R. destruct (open_returns _ _ _ _ _ _ _ _ _ _ _ _ _ _ R E) as
    (D & _ & resp & r & mult & dest & data & s1 & SR & -> & ST & EX & M & DE & F1 & F2).
  split; [assumption|]. exists resp, r, data, (fo_connection large c r mult oid (v_now env) dest).
  split; [exact SR|]. split; [assumption|]. split; [assumption|]. split; [exact DE|]. split; [reflexivity|]. split; [reflexivity|].
  split; [now apply connection_agreed|]. split.
  - intros N. assert (L : forall o, lock o m' = if Nat.eqb o oid then Some (fo_connection large c r mult oid (v_now env) dest) else lock o m).
    { apply F1. intros k c' I. apply (N (io_oid c')). eapply lock_some; eauto. }
    split; [|exact L]. eapply (has_open_lock _ oid). rewrite L, Nat.eqb_refl. reflexivity.
  - intros (o & c' & L & Q). apply F2. apply lock_in in L as [_ [k I]]. exists k, c'. split; [assumption|exact Q].
Qed.

(** A target for examples: it accepts with the given T2O id. *)
Definition reply_with (data : bytes) : encaps :=
  let r := le 2 0 ++ le 2 0 ++ le 2 178 ++ le 2 (zlen data) ++ data in
  mkEncaps 111 (zlen r + 8) 1 0 (zeros 8) 0 (zeros 6 ++ le 2 2 ++ r).
Definition accepts (t2o o2tApi t2oApi : Z) : list encaps -> encaps -> outcome encaps :=
  fun _ _ => Ok (reply_with ([212; 0; 0; 0] ++ fo_reply_bytes (mkFoResp 0x0A0B0C0D t2o 5 342 0x12345678 o2tApi t2oApi 0 []) 0 [])).
Definition refuses : list encaps -> encaps -> outcome encaps :=
  fun _ _ => Ok (reply_with ([212; 0; 1; 1] ++ le 2 0x0106)).
Definition env_ok (now : Z) : fo_env := mkFoEnv None None now (fun _ => Some 0x0100007F).
Definition class1 (trigger mult : Z) : cparams :=
  mkCParams 0 0 0 0 0 342 0x12345678 mult 10000 0x4204 10000 0x4204 trigger 0 0 0 [32; 4; 36; 151; 44; 150; 44; 100].
Definition open_call (t2o o2tApi t2oApi : Z) (c : cparams) : call (list encaps) :=
  COpen false (recording 1 (accepts t2o o2tApi t2oApi)) "10.0.0.1" (env_ok 0) false c.
Definition close_call (oid : nat) : call (list encaps) := CClose false (recording 1 refuses) oid.
Definition inc0 : nat -> Z := fun _ => 1.
Definition start0 : world (list encaps) := start inc0.
Lemma start_new inc : new_world (start inc).
Proof. intros j. now exists (inc j). Qed.

(** A second connection whose id has the same low 16 bits: the pointer is dead. *)
Definition after1 := run_calls strict [(0%nat, open_call 0x10007 10000 10000 (class1 1 0))] start0.
Lemma after1_reach : reachable (list encaps) (w_g after1) (w_m after1 0).
Proof. exists strict, [(0%nat, open_call 0x10007 10000 10000 (class1 1 0))], start0, 0%nat. split; [apply start_new|]. split; reflexivity. Qed.
Definition collides_target := recording 1 (accepts 0x20007 10000 10000).
Lemma open_collides_refuted : exists oid g' m' s',
  forward_open strict false collides_target "10.0.0.1" (env_ok 0) false (class1 1 0) (w_g after1, w_m after1 0%nat, w_s after1)
  = (Ok (Some oid), (g', m', s')) /\ lock oid m' = None.
Proof.
  exists 1%nat. eexists. eexists. eexists. split.
  - vm_compute. reflexivity.
  - vm_compute. reflexivity.
Qed.

(** Serial numbers: the counter overflows after 2^31 - 1 opens. *)
Definition refused_call : call (list encaps) :=
  COpen false (recording 1 refuses) "10.0.0.1" (env_ok 0) false (class1 1 0).
Lemma class1_ok t m : is_u8 t -> is_u8 m -> open_ok (class1 t m).
Proof.
  intros T M. unfold open_ok, cparams_wf, class1, is_bytes; cbn [c_priorityTimeTick c_timeoutTicks c_o2tId c_t2oId c_serial
    c_vendor c_origSerial c_multiplier c_o2tRPI c_o2tParams c_t2oRPI c_t2oParams c_trigger c_pathSize c_path].
  unfold is_u8, is_u16, is_u32 in *. repeat match goal with |- _ /\ _ => split end; try lia; try (cbn; lia). repeat constructor; cbn; lia.
Qed.
Lemma refused_recorded : recorded refused_call.
Proof.
  cbn. split; [unfold is_u32; lia|]. split; [apply class1_ok; unfold is_u8; lia|]. now exists refuses.
Qed.
Lemma many_opens h n : Z.of_nat n <= 2147483647 ->
  exists before, zlen before = Z.of_nat n /\ counters before (w_g (run_calls h (repeat (0%nat, refused_call) n) start0)).
Proof.
  assert (G : forall n w before, zlen before + Z.of_nat n <= 2147483647 -> counters before (w_g w) ->
    exists before', zlen before' = zlen before + Z.of_nat n /\ counters before' (w_g (run_calls h (repeat (0%nat, refused_call) n) w))).
  { clear n. induction n as [|n IH]; intros w before L C; cbn [repeat run_calls]; [exists before; split; [lia|assumption]|].
    unfold call_world, refused_call at 2. cbn [call_mgr].
    assert (Q : zlen before < 2147483647) by lia.
    pose proof (open_step h false 1 refuses "10.0.0.1" (env_ok 0) false (class1 1 0) (w_g w) (w_m w 0%nat) (w_s w) before
      ltac:(unfold is_u32; lia) ltac:(apply class1_ok; unfold is_u8; lia) C Q) as O.
    cbv zeta in O. destruct (forward_open _ _ _ _ _ _ _ _) as [o [[g' m'] s']]. destruct O as (C' & _).
    destruct (IH (mkWorld g' (update (w_m w) 0%nat m') s') (before ++ [mkAnOpen (m_inc (w_m w 0%nat)) false (class1 1 0)])) as (b & Z1 & C2).
    - rewrite zlen_app, zlen_cons, zlen_nil. lia.
    - exact C'.
    - exists b. split; [rewrite Z1, zlen_app, zlen_cons, zlen_nil; lia|exact C2]. }
  intros L. apply (G n start0 []); [rewrite zlen_nil; lia|apply start_counters].
Qed.
Lemma serial_overflow : exists ops : list (nat * call (list encaps)),
  Forall (fun x => recorded (snd x)) ops /\ zlen ops = 2147483647
  /\ forall h, fst (call_world h 0 refused_call (run_calls h ops start0)) = Undef UbSignedOverflow.
Proof.
  exists (repeat (0%nat, refused_call) (Z.to_nat 2147483647)).
  split; [|split].
  - apply Forall_forall. intros x I. apply repeat_spec in I. subst. apply refused_recorded.
  - unfold zlen. rewrite repeat_length. lia.
  - intros h. destruct (many_opens h (Z.to_nat 2147483647) ltac:(lia)) as (b & Z1 & (Q & _)).
    rewrite Z1 in Q. remember (run_calls _ _ _) as W eqn:EW. clear EW.
    unfold call_world, refused_call. cbn [call_mgr]. unfold forward_open.
    rewrite prepare_overflow by (rewrite Q; lia). reflexivity.
Qed.

(** ** Closing *)
Lemma close_removes S h use8 (si : session_if S) g m s oid c resp s' : reachable S g m -> lock oid m = Some c ->
  send_request h si use8 78 (epath2 6 1) (fc_pack (u16 (io_serial c)) (io_vendor c) (io_orig c) (io_path c)) [] s = (Ok resp, s') ->
  exists m', forward_close h use8 si (lock oid m) (m, s) = (Ok tt, (m', s'))
    /\ m_log m' = m_log m /\ forall o, lock o m' = if Nat.eqb o oid then None else lock o m.
Proof. intros R. apply reach_inv in R. now apply (close_ok h use8 si g). Qed.

(** The packet of a close, as a target reads it. *)
Lemma close_packet S h use8 handle answer g m log oid c : reachable S g m -> lock oid m = Some c -> is_u32 handle ->
  is_u16 (io_serial c) -> is_u16 (io_vendor c) -> is_u32 (io_orig c) -> is_bytes (io_path c) -> zlen (io_path c) <= 60000 ->
  exists p request path, snd (snd (forward_close h use8 (recording handle answer) (lock oid m) (m, log))) = log ++ [p]
    /\ parse_rr (encaps_pack p) = Some (mkRR handle 0 [(0, []); (178, request)])
    /\ parse_request request = Some (78, path,
         fc_bytes (io_serial c) (io_vendor c) (io_orig c) ((zlen (io_path c) / 2) mod 256) (io_path c))
    /\ names_cm path = true.
Proof.
  intros R L H A B C D E. apply reach_inv in R.
  destruct (close_sends h use8 handle answer g m log oid c R L H A B C D E) as (p & P1 & P2 & P3).
  eexists p, _, _. split; [exact P1|]. split; [exact P2|]. split; [exact P3|]. apply cm_named.
Qed.

Definition con1 : iocon := match lock 0 (w_m after1 0%nat) with Some c => c | None => mkIo 0 0 0 0 0 0 0 false false 0 0 0 0 0 0 false false 0 [] 0 0 [] (mkEP "" 0 (mkAddr 0 0 0)) 0 end.
Definition after2 := run_calls strict [(0%nat, close_call 0)] after1.
Definition after3 := run_calls strict [(0%nat, open_call 0x20007 10000 10000 (class1 1 0))] after2.
(** A pointer kept alive by the application: closing it again aborts, or removes
    another connection. *)
Lemma close_held_refuted :
  lock 0 (w_m after1 0%nat) = Some con1 /\ lock 0 (w_m after2 0%nat) = None
  /\ (exists p, forward_close strict false (recording 1 refuses) (Some con1) (w_m after2 0%nat, w_s after2)
       = (Abort, (w_m after2 0%nat, w_s after2 ++ [p])))
  /\ lock 0 (w_m after3 0%nat) = None /\ lock 1 (w_m after3 0%nat) <> None
  /\ (exists m' s', forward_close strict false (recording 1 refuses) (Some con1) (w_m after3 0%nat, w_s after3) = (Ok tt, (m', s'))
       /\ lock 1 m' = None).
Proof.
  split; [vm_compute; reflexivity|]. split; [vm_compute; reflexivity|]. split; [eexists; vm_compute; reflexivity|].
  split; [vm_compute; reflexivity|]. split; [vm_compute; discriminate|]. eexists. eexists. split; vm_compute; reflexivity.
Qed.
Lemma run_calls_app {S} h (a : list (nat * call S)) : forall b w, run_calls h (a ++ b) w = run_calls h b (run_calls h a w).
Proof. induction a as [|[j op] a IH]; intros b w; [reflexivity|]. cbn [app run_calls]. apply IH. Qed.
Lemma after3_reach : reachable (list encaps) (w_g after3) (w_m after3 0).
Proof.
  exists strict, ([(0%nat, open_call 0x10007 10000 10000 (class1 1 0))] ++ [(0%nat, close_call 0)] ++ [(0%nat, open_call 0x20007 10000 10000 (class1 1 0))]), start0, 0%nat.
  split; [apply start_new|]. rewrite !run_calls_app. split; reflexivity.
Qed.

(** ** Datagrams *)
Lemma delivered S g h l m i0 i1 items X rest : reachable S g m -> is_bytes l -> carries l (i0 :: i1 :: items) -> is_u32 X ->
  it_data i0 = le 4 X ++ rest ->
  (forall o c, lock o m = Some c -> io_t2oId c mod 65536 = X mod 65536 -> io_t2oId c = X) ->
  (forall o c, lock o m = Some c -> io_t2oId c <> X) /\ on_readable h (Dgram l) m = (Ok tt, m)
  \/ exists c, io_t2oId c = X /\ lock (io_oid c) m = Some c
     /\ (forall o c', lock o m = Some c' -> io_t2oId c' = X -> o = io_oid c)
     /\ (front c <= zlen (it_data i1) ->
          exists c' ev m', io_receive h c (it_data i1) = Ok (c', ev) /\ on_readable h (Dgram l) m = (Ok tt, m') /\ m_log m' = m_log m ++ ev
            /\ forall o, lock o m' = if Nat.eqb o (io_oid c) then Some c' else lock o m).
Proof.
  intros R B C U D N. apply reach_inv in R. destruct (delivery g h l m i0 i1 items X rest R B C U D) as [[F E]|(c & Q & L & F & E)].
  - left. split; [|assumption]. intros o c L Q. apply (F o c L). now rewrite Q.
  - right. exists c. split; [eapply N; [exact L|exact Q]|]. split; [assumption|]. split.
    + intros o c' L' Q'. specialize (F o c' L'). rewrite Q' in F. specialize (F eq_refl). subst c'.
      apply lock_in in L' as [L' _]. congruence.
    + intros LE. rewrite <- front_len in LE. 
      assert (BD : is_bytes (it_data i1)).
      { destruct C as (cnt & rs & _ & WF & _). apply Forall_cons_iff in WF as [_ WF]. apply Forall_cons_iff in WF as [WF _]. apply WF. }
      pose proof (receive_total h c (it_data i1) BD) as T. unfold zlen in LE.
      destruct (Nat.ltb_spec (List.length (it_data i1)) (head_len c)) as [Q1|Q1]; [lia|].
      destruct (io_t2oFixed c && _).
      * rewrite T in E. destruct E as (m' & E1 & E2 & E3). exists c, [], m'. repeat split; auto.
      * destruct T as (hdr & sq & T). rewrite T in E. destruct E as (m' & E1 & E2 & E3). eexists. eexists. exists m'. repeat split; eauto.
Qed.
Definition gram (X : Z) (payload : bytes) : bytes :=
  le 2 2 ++ (le 2 32770 ++ le 2 8 ++ le 4 X ++ le 4 1) ++ (le 2 177 ++ le 2 (zlen payload) ++ payload).
Lemma alias_refuted : io_t2oId con1 = 0x10007 /\ lock 0 (w_m after1 0%nat) = Some con1
  /\ exists m', on_readable strict (Dgram (gram 0x00007 [1; 0; 9; 9])) (w_m after1 0%nat) = (Ok tt, m')
     /\ m_log m' = [EvData 0 0 1 [9; 9]].
Proof.
  split; [vm_compute; reflexivity|]. split; [vm_compute; reflexivity|]. eexists. split; vm_compute; reflexivity.
Qed.

(** ** Sizes *)
Section Sizes.
Variables (h : heap) (inc : nat -> Z) (ops : list (nat * call (list encaps))).
Hypothesis R : Forall (fun x => recorded (snd x)) ops.
Hypothesis N : zlen (opens_of inc ops) <= 2147483647.
Lemma open_exact k o p : nth_error (opens_of inc ops) k = Some o ->
  nth_error (sent_opens h ops (start inc)) k = Some p -> p = Some (expected_open (firstn k (opens_of inc ops)) o).
Proof. intros O P. destruct (sent_open h inc ops R N k p P) as (o' & O' & Q). congruence. Qed.
Lemma opens_ok k o : nth_error (opens_of inc ops) k = Some o -> open_ok (ao_params o).
Proof.
  intros E. apply nth_error_In in E. unfold opens_of in E. apply in_flat_map in E as ([i op] & I & J).
  pose proof (proj1 (Forall_forall _ _) R _ I) as Q. cbn [snd] in Q. destruct op; try contradiction. destruct J as [<-|[]].
  destruct Q as (_ & Q & _). exact Q.
Qed.
Lemma sizes_added k o s c : nth_error (opens_of inc ops) k = Some o ->
  nth_error (sent_opens h ops (start inc)) k = Some (Some (s, c)) ->
  let a := ao_params o in
  s = (if ao_large o then 91 else 84) /\ c_path c = c_path a
  /\ (zlen (c_path a) mod 2 = 0 -> zlen (c_path a) <= 510 -> 2 * c_pathSize c = zlen (c_path a))
  /\ (part (ao_large o) FSize (c_o2tParams a) + overhead (c_trigger a) (c_o2tRTF a) < 2 ^ width (ao_large o) FSize ->
      part (ao_large o) FSize (c_o2tParams c) = part (ao_large o) FSize (c_o2tParams a) + overhead (c_trigger a) (c_o2tRTF a)
      /\ forall f, f <> FSize -> part (ao_large o) f (c_o2tParams c) = part (ao_large o) f (c_o2tParams a))
  /\ (part (ao_large o) FSize (c_t2oParams a) + overhead (c_trigger a) (c_t2oRTF a) < 2 ^ width (ao_large o) FSize ->
      part (ao_large o) FSize (c_t2oParams c) = part (ao_large o) FSize (c_t2oParams a) + overhead (c_trigger a) (c_t2oRTF a)
      /\ forall f, f <> FSize -> part (ao_large o) f (c_t2oParams c) = part (ao_large o) f (c_t2oParams a)).
Proof.
  intros O P. pose proof (opens_ok k o O) as [(_ & _ & _ & _ & _ & _ & _ & _ & _ & W1 & _ & W2 & _) _].
  apply (open_exact k o _ O) in P. unfold expected_open in P. cbv zeta in P. inv P. cbv zeta.
  cbn [c_path c_pathSize c_o2tParams c_t2oParams].
  split; [reflexivity|]. split; [reflexivity|]. split; [intros E1 E2; pose proof (zlen_nonneg (c_path (ao_params o))); lia|].
  pose proof (overhead_range (c_trigger (ao_params o)) (c_o2tRTF (ao_params o))).
  pose proof (overhead_range (c_trigger (ao_params o)) (c_t2oRTF (ao_params o))).
  split; intros L; apply (size_added (ao_large o)) in L; auto; destruct (ao_large o); exact L.
Qed.
End Sizes.
(** 510 bytes of class 1 data: the sum leaves the 9-bit field *)
Definition params510 : cparams :=
  mkCParams 0 0 0 0 0 342 0x12345678 0 10000 (0x4000 + 510) 10000 0x4004 1 0 0 0 [32; 4; 36; 151].
Definition call510 : call (list encaps) := COpen false (recording 1 refuses) "10.0.0.1" (env_ok 0) false params510.
Lemma carry_refuted : exists s c, sent_opens strict [(0%nat, call510)] start0 = [Some (s, c)]
  /\ part false FSize (c_o2tParams params510) = 510 /\ part false FVar (c_o2tParams params510) = 0
  /\ part false FSize (c_o2tParams c) = 0 /\ part false FVar (c_o2tParams c) = 1.
Proof. eexists. eexists. split; [vm_compute; reflexivity|]. vm_compute. auto. Qed.
(** a path of 256 words *)
Lemma words_refuted : exists path : bytes, is_bytes path /\ zlen path mod 2 = 0 /\ ((zlen path + 1) / 2) mod 256 = 0 /\ zlen path = 512.
Proof.
  exists (zeros (Z.to_nat 512)). assert (L : zlen (zeros (Z.to_nat 512)) = 512) by (vm_compute; reflexivity).
  rewrite L. split; [apply zeros_bytes|]. repeat split; reflexivity.
Qed.
Definition call_odd : call (list encaps) :=
  COpen false (recording 1 refuses) "10.0.0.1" (env_ok 0) false
    (mkCParams 0 0 0 0 0 342 0x12345678 0 10000 0x4004 10000 0x4004 1 0 0 0 (zeros (Z.to_nat 512))).
Lemma path_refuted : exists s c, sent_opens strict [(0%nat, call_odd)] start0 = [Some (s, c)]
  /\ zlen (c_path c) = 512 /\ c_pathSize c = 0.
Proof. eexists. eexists. split; [vm_compute; reflexivity|]. vm_compute. auto. Qed.

(** multicast ids do not start from the incarnation id *)
Definition multicast_call : call (list encaps) :=
  COpen false (recording 1 refuses) "10.0.0.1" (env_ok 0) false
    (mkCParams 0 0 0 0 0 342 0x12345678 0 10000 0x2004 10000 0x4004 1 0 0 0 [32; 4; 36; 151]).
Lemma multicast_refuted : exists s c, sent_opens strict [(0%nat, multicast_call)] start0 = [Some (s, c)]
  /\ m_inc (w_m start0 0%nat) = 1 /\ c_t2oId c = 0x10001 /\ c_o2tId c = 1.
Proof. eexists. eexists. split; [vm_compute; reflexivity|]. vm_compute. auto. Qed.

(** ** Close notification with a short sendto *)
Definition env_at (now : Z) (count : Z -> Z) : tick_env :=
  mkTick (fun _ => now) (fun _ d => d) (fun _ n => mkSend (count n) 0).
Definition short_history : list (nat * call (list encaps)) :=
  [(0%nat, open_call 1 10000 1000 (class1 1 0)); (0%nat, open_call 2 10000 1000000 (class1 1 0));
   (0%nat, CHandle [] SelQuiet (env_at 20000000 (fun _ => 0)));
   (0%nat, CHandle [] SelQuiet (env_at 40000000 (fun n => n)))].
Lemma short_send : fst (happenings strict 0 short_history start0)
  = [Opened 0; Opened 1; TimedOut 0; TimedOut 0].
Proof. vm_compute. reflexivity. Qed.

(** ** handleConnections before the first open *)
Lemma no_socket h rounds ending env inc : handle_connections h rounds ending env (mgr0 inc) = (Undef UbDerefEnd, mgr0 inc).
Proof. reflexivity. Qed.
Lemma no_socket_iff {S} h g m rounds env : reachable S g m ->
  Forall (fun r => Forall (fun x => x = None) (sr_ready r)) rounds ->
  (forall o n, s_count (t_send env o n) = n \/ s_count (t_send env o n) = -1 /\ n < 2 ^ 63) ->
  (fst (handle_connections h rounds SelQuiet env m) = Ok tt <-> m_socks m <> []).
Proof.
  intros R Q W. apply reach_inv in R. unfold handle_connections, st_bind. destruct (m_socks m) as [|e l] eqn:E.
  - cbn [List.length bs_select]. cbn. split; [discriminate|congruence].
  - assert (D : forall r i n w, Forall (fun x => x = None) r -> dispatch (fun _ : nat => on_readable h) i n r w = (Ok tt, w)).
    { induction r as [|x r IH]; intros i n w F; destruct n; try reflexivity. apply Forall_cons_iff in F as [-> F]. cbn [dispatch]. now apply IH. }
    assert (SR : forall n, select_rounds (fun _ : nat => on_readable h) n rounds SelQuiet m = (Ok tt, m)).
    { intros n. induction rounds as [|r rs IH]; cbn [select_rounds]; [reflexivity|]. apply Forall_cons_iff in Q as [Q1 Q2].
      unfold st_bind. rewrite D by assumption. now apply IH. }
    cbn [List.length bs_select]. rewrite SR.
    destruct (run_ticks_whole g env m R W) as (m' & ev & T & _). rewrite T. cbn [fst]. split; [congruence|reflexivity].
Qed.
(** After one successful open there is a socket, forever. *)
Lemma socks_grow {S} h (op : call S) g m s o g' m' s' : call_mgr h op (g, m, s) = (o, (g', m', s')) -> m_socks m <> [] -> m_socks m' <> [].
Proof.
  intros E O. destruct op as [use8 si host env large c|use8 si oid|rounds ending env|oid d].
  2-4: apply other_frame in E as (_ & _ & E); [|exact Logic.I]; now rewrite E.
  cbn [call_mgr] in E. destruct (Z.eq_dec (g_serial g) 2147483647) as [G|G].
  { unfold forward_open in E. rewrite (prepare_overflow large (m_inc m) c g G) in E. inv E. exact O. }
  destruct (open_request h use8 si host env large c g m s G) as (g1 & c' & _ & F). rewrite F in E. clear F.
  destruct (send_request _ _ _ _ _ _ _ _) as [[rp|?|?|] s1]; [|inv E; exact O..].
  assert (A : m_socks (snd (snd (fo_answer h env host large c rp (g1, m)))) <> []).
  { unfold fo_answer. destruct (negb _); [exact O|]. destruct (bind _ _) as [[r io]|?|?|]; [|exact O..]. cbv zeta.
    unfold find_or_create_socket. destruct (existsb _ _); [exact O|]. destruct (v_bind env); [exact O|]. cbn. intros X. apply app_eq_nil in X. now destruct X. }
  destruct (fo_answer _ _ _ _ _ _ _) as [o1 [g2 m2]]. inv E. exact A.
Qed.
Lemma open_socket {S} h use8 (si : session_if S) host env large c g m s oid g' m' s' :
  forward_open h use8 si host env large c (g, m, s) = (Ok (Some oid), (g', m', s')) -> m_socks m' <> [].
Proof.
  intros E. destruct (Z.eq_dec (g_serial g) 2147483647) as [G|G].
  { unfold forward_open in E. rewrite (prepare_overflow large (m_inc m) c g G) in E. inv E. }
  destruct (open_request h use8 si host env large c g m s G) as (g1 & c' & _ & F). rewrite F in E. clear F.
  destruct (send_request _ _ _ _ _ _ _ _) as [[rp|?|?|] s1]; [|inv E..].
  unfold fo_answer in E. destruct (negb _); [inv E|]. destruct (bind _ _) as [[r io]|?|?|]; [|inv E..]. cbv zeta in E.
  unfold find_or_create_socket in E. destruct (existsb _ _) eqn:X; [inv E; cbn [set_map m_socks]; now destruct (m_socks m)|].
  destruct (v_bind env); inv E. cbn. intros Y. apply app_eq_nil in Y. now destruct Y.
Qed.
Lemma multiplier_agreed large c r io : agreed large c r io -> 0 <= c_multiplier c <= 5 -> io_mult io = 4 * 2 ^ c_multiplier c.
Proof.
  intros (_ & _ & _ & _ & _ & _ & _ & _ & _ & M & _) L. rewrite M. apply Z.mod_small.
  assert (c_multiplier c = 0 \/ c_multiplier c = 1 \/ c_multiplier c = 2 \/ c_multiplier c = 3 \/ c_multiplier c = 4 \/ c_multiplier c = 5) as D by lia.
  repeat destruct D as [D|D]; rewrite D; cbn; lia.
Qed.
Lemma multiplier_refuted m : m = 6 \/ m = 7 ->
  option_map io_mult (lock 0 (w_m (run_calls strict [(0%nat, open_call 7 1 1 (class1 1 m))] start0) 0%nat)) = Some 0.
Proof. intros [->| ->]; vm_compute; reflexivity. Qed.

Lemma history_told S h i (ops : list (nat * call S)) w : new_world w -> Forall (fun x => sends_whole (snd x)) ops ->
  let '(hs, w') := happenings h i ops w in
  NoDup hs
  /\ (forall oid, ~ (In (ClosedBy oid) hs /\ In (TimedOut oid) hs))
  /\ (forall oid, In (ClosedBy oid) hs \/ In (TimedOut oid) hs -> In (Opened oid) hs)
  /\ (forall oid, lock oid (w_m w' i) <> None <-> In (Opened oid) hs /\ ~ In (ClosedBy oid) hs /\ ~ In (TimedOut oid) hs).
Proof.
  intros N F. pose proof (told_history h i ops [] w (new_told i w N) F) as T. destruct (happenings h i ops w) as [hs w'].
  cbn [app] in T. destruct T as [_ A _ B C D]. auto.
Qed.
Lemma history_open S h i (ops : list (nat * call S)) w : new_world w -> Forall (fun x => sends_whole (snd x)) ops ->
  let '(hs, w') := happenings h i ops w in
  has_open (w_m w' i) = true <-> exists oid, In (Opened oid) hs /\ ~ In (ClosedBy oid) hs /\ ~ In (TimedOut oid) hs.
Proof.
  intros N F. pose proof (history_told S h i ops w N F) as T. destruct (happenings h i ops w) as [hs w'].
  destruct T as (_ & _ & _ & A). rewrite has_open_iff. unfold alive. split; intros [oid H]; exists oid; now apply A.
Qed.
