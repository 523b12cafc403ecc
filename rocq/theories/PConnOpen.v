From Verif Require Import Base MBuffer SBuffer PBase PBuffer PReader MEip SEip PPath PPathT PEip PRouter
  MSocket MConnReq SConnReq PConnReq MConn SConn.
Ltac Zify.zify_post_hook ::= Z.div_mod_to_equations.
Local Open Scope outcome_scope.

Lemma has_seq_mod t : has_seq t = negb (t mod 4 =? 0).
Proof.
  unfold has_seq. change 3 with (Z.ones 2). change 1 with (Z.ones 1) at 1.
  rewrite !Z.land_ones by lia. change (2 ^ 1) with 2; change (2 ^ 2) with 4.
  destruct (Z.ltb_spec 0 (t mod 2)), (Z.ltb_spec 0 (t mod 4)), (Z.eqb_spec (t mod 4) 0); cbn; try reflexivity; lia.
Qed.

Lemma prepare_params p trig rtf : is_u32 p ->
  (let p := if has_seq trig then u32 (p + 2) else p in if nonzero rtf then u32 (p + 4) else p)
  = (p + overhead trig rtf) mod 2 ^ 32.
Proof.
  intros P. cbv zeta. rewrite has_seq_mod. unfold overhead, nonzero, u32. unfold is_u32 in P.
  change (2 ^ 32) with 4294967296.
  destruct (trig mod 4 =? 0), (rtf =? 0); cbn [negb]; lia.
Qed.

Lemma half_up (n : Z) : n / 2 + n mod 2 = (n + 1) / 2.
Proof. lia. Qed.

(** What fo_prepare does, in closed form. *)
Lemma prepare_ok large inc c g : g_serial g <> 2147483647 -> is_u32 (c_o2tParams c) -> is_u32 (c_t2oParams c) ->
  exists g', fo_prepare large inc c g
  = Ok (mkCParams (c_priorityTimeTick c) (c_timeoutTicks c)
          (if part large FType (c_o2tParams c) =? 1
           then u16 ((match g_o2t g with Some v => v | None => 0 end) + 1) else c_o2tId c)
          (if part large FType (c_t2oParams c) =? 2
           then u32 ((match g_t2o g with Some v => v | None => u32 (65536 * inc) end) + 1) else c_t2oId c)
          (u16 (g_serial g + 1)) (c_vendor c) (c_origSerial c) (c_multiplier c)
          (c_o2tRPI c) ((c_o2tParams c + overhead (c_trigger c) (c_o2tRTF c)) mod 2 ^ 32)
          (c_t2oRPI c) ((c_t2oParams c + overhead (c_trigger c) (c_t2oRTF c)) mod 2 ^ 32)
          (c_trigger c) (((zlen (c_path c) + 1) / 2) mod 256) (c_o2tRTF c) (c_t2oRTF c) (c_path c), g')
   /\ g_serial g' = g_serial g + 1 /\ g_oid g' = g_oid g
   /\ g_o2t g' = (if part large FType (c_o2tParams c) =? 1
                  then Some (u16 ((match g_o2t g with Some v => v | None => 0 end) + 1)) else g_o2t g)
   /\ g_t2o g' = (if part large FType (c_t2oParams c) =? 2
                  then Some (u32 ((match g_t2o g with Some v => v | None => u32 (65536 * inc) end) + 1)) else g_t2o g).
Proof.
  intros N P1 P2. unfold fo_prepare, next_serial.
  destruct (Z.eqb_spec (g_serial g) 2147483647) as [|_]; [contradiction|]. cbn [bind].
  rewrite (getter_part large FType (c_o2tParams c) : ncp_conn_type _ _ = _).
  rewrite (getter_part large FType (c_t2oParams c) : ncp_conn_type _ _ = _).
  unfold MULTICAST, P2P, next_o2t, next_t2o; cbn [g_serial g_o2t g_t2o g_oid]. cbv zeta.
  rewrite half_up. unfold u8 at 1.
  replace (u16 (Z.shiftl inc 16)) with 0 by (rewrite shl16; unfold u16; lia).
  rewrite shl16.
  pose proof (prepare_params _ (c_trigger c) (c_o2tRTF c) P1) as E1.
  pose proof (prepare_params _ (c_trigger c) (c_t2oRTF c) P2) as E2. cbv zeta in E1, E2.
  rewrite <- E1, <- E2.
  destruct (part large FType (c_o2tParams c) =? 1), (part large FType (c_t2oParams c) =? 2);
    cbn [g_serial g_o2t g_t2o g_oid]; eexists; (split; [reflexivity|]); cbn [g_serial g_o2t g_t2o g_oid]; auto.
Qed.

Lemma prepare_overflow large inc c g : g_serial g = 2147483647 -> fo_prepare large inc c g = Undef UbSignedOverflow.
Proof. intros E. unfold fo_prepare, next_serial. now rewrite E. Qed.

(** ** The packet *)
Lemma fo_bytes_len n c : zlen (fo_bytes n c) = 32 + 2 * Z.of_nat n + zlen (c_path c).
Proof.
  unfold fo_bytes. rewrite !zlen_app. unfold zlen. rewrite !le_length. cbn [List.length]. lia.
Qed.
Lemma fo_bytes_bytes n c : cparams_wf c -> is_bytes (fo_bytes n c).
Proof.
  intros (W1 & W2 & W3 & W4 & W5 & W6 & W7 & W8 & W9 & W10 & W11 & W12 & W13 & W14 & W15).
  assert (Z0 : is_u8 0) by (unfold is_u8; lia).
  unfold fo_bytes. rewrite !is_bytes_app, !is_bytes_cons.
  repeat match goal with |- _ /\ _ => split end; try apply le_bytes; try apply is_bytes_nil; assumption.
Qed.

Lemma request_items_len use8 service i data : zlen (cpf_bytes (request_items use8 service i data [])) <= 10 + zlen (request_pack use8 service (build i) data).
Proof.
  rewrite cpf_length. unfold request_items. cbn [app fold_right item_null item_unconnected item_of it_data].
  unfold zlen at 1; cbn [List.length Z.of_nat]. lia.
Qed.

Lemma cm_packet use8 service data handle : is_u32 handle -> is_u8 service -> is_bytes data -> zlen data <= 65000 ->
  parse_rr (encaps_pack (request_packet handle use8 service CM_PATH data []))
  = Some (mkRR handle 0 [(0, []); (178, request_pack use8 service CM_PATH data)])
  /\ parse_request (request_pack use8 service CM_PATH data) = Some (service, path_bytes (segments use8 (Ids2 6 1)), data).
Proof.
  intros H S B L. change CM_PATH with (build (Ids2 6 1)).
  destruct (request_on_wire use8 service (Ids2 6 1) data [] handle) as [E1 E2]; try assumption.
  - discriminate.
  - unfold ids_wf; cbn [ids_list]. apply Forall2'; cbn [snd]; unfold is_u16; lia.
  - constructor.
  - pose proof (request_items_len use8 service (Ids2 6 1) data) as R.
    rewrite (proj1 (request_recover use8 service (Ids2 6 1) data ltac:(discriminate))) in R.
    unfold request_bytes in R. rewrite !zlen_app in R.
    assert (P : zlen (path_bytes (segments use8 (Ids2 6 1))) <= 8) by (destruct use8; vm_compute; discriminate).
    rewrite !zlen_cons, !zlen_nil in R. lia.
  - split; [exact E1|exact E2].
Qed.

Lemma cm_named use8 : names_cm (path_bytes (segments use8 (Ids2 6 1))) = true.
Proof. destruct use8; reflexivity. Qed.

Definition fo_width (large : bool) : nat := if large then 4 else 2.
Lemma fo_request_ok large c : fo_request large c = Ok (fo_bytes (fo_width large) c).
Proof. destruct large; [apply lfo_pack_bytes|apply fo_pack_bytes]. Qed.

Lemma prepared_wf c c' : cparams_wf c ->
  c_priorityTimeTick c' = c_priorityTimeTick c -> c_timeoutTicks c' = c_timeoutTicks c ->
  is_u32 (c_o2tId c') -> is_u32 (c_t2oId c') -> is_u16 (c_serial c') -> c_vendor c' = c_vendor c ->
  c_origSerial c' = c_origSerial c -> c_multiplier c' = c_multiplier c -> c_o2tRPI c' = c_o2tRPI c ->
  is_u32 (c_o2tParams c') -> c_t2oRPI c' = c_t2oRPI c -> is_u32 (c_t2oParams c') -> c_trigger c' = c_trigger c ->
  is_u8 (c_pathSize c') -> c_path c' = c_path c -> cparams_wf c'.
Proof.
  intros (W1 & W2 & W3 & W4 & W5 & W6 & W7 & W8 & W9 & W10 & W11 & W12 & W13 & W14 & W15).
  unfold cparams_wf. intros -> -> A B C -> -> -> -> D -> E -> F ->.
  do 14 (split; [assumption|]). assumption.
Qed.

(** The packet of a forward open carries the prepared parameters. *)
Lemma open_packet large use8 handle c' : is_u32 handle -> cparams_wf c' -> zlen (c_path c') <= 60000 ->
  wire_open (request_packet handle use8 (fo_service large) CM_PATH (fo_bytes (fo_width large) c') [])
  = Some (fo_service large, narrow (fo_width large) c').
Proof.
  intros H W L. unfold wire_open.
  destruct (cm_packet use8 (fo_service large) (fo_bytes (fo_width large) c') handle) as [E1 E2].
  - assumption.
  - destruct large; unfold is_u8; cbn; lia.
  - now apply fo_bytes_bytes.
  - rewrite fo_bytes_len. destruct large; cbn [fo_width]; lia.
  - rewrite E1, E2, cm_named.
    replace (if fo_service large =? 91 then 4%nat else 2%nat) with (fo_width large) by (destruct large; reflexivity).
    rewrite parse_fo_ok by assumption. reflexivity.
Qed.

(** ** What the calls leave alone *)
Lemma socket_frame b ep m o m' : find_or_create_socket b ep m = (o, m') ->
  m_inc m' = m_inc m /\ m_map m' = m_map m /\ m_log m' = m_log m /\ (o = Ok tt \/ exists e, b = Some e /\ o = Throw (SystemError e) /\ m' = m).
Proof.
  unfold find_or_create_socket. destruct (existsb _ _).
  - intros E; inv E. auto.
  - destruct b as [e|]; intros E; inv E; cbn [m_inc m_map m_log]; repeat split; eauto.
Qed.

Lemma answer_frame h env host large c resp g m o g' m' : fo_answer h env host large c resp (g, m) = (o, (g', m')) ->
  g_serial g' = g_serial g /\ g_o2t g' = g_o2t g /\ g_t2o g' = g_t2o g /\ (g_oid g <= g_oid g')%nat
  /\ m_inc m' = m_inc m /\ m_log m' = m_log m.
Proof.
  unfold fo_answer. destruct (negb (r_status resp =? 0)); [intros E; inv E; auto 6|].
  destruct (bind (fo_expand h (r_data resp)) _) as [[r io]|e|u|]; try (intros E; inv E; auto 6; fail).
  cbv zeta. destruct (find_or_create_socket _ _ _) as [o1 m1] eqn:F.
  apply socket_frame in F as (I & _ & L & _).
  destruct o1; intros E; inv E; cbn [g_serial g_o2t g_t2o g_oid set_map m_inc m_log]; repeat split; auto.
Qed.

Lemma close_frame {S} h use8 (si : session_if S) ptr m s o m' s' : forward_close h use8 si ptr (m, s) = (o, (m', s')) ->
  m_inc m' = m_inc m /\ m_log m' = m_log m /\ m_socks m' = m_socks m.
Proof.
  unfold forward_close. destruct ptr as [c|]; [|intros E; inv E; auto].
  destruct (send_request _ _ _ _ _ _ _ _) as [o1 s1]. destruct o1; intros E; inv E; auto.
Qed.

Lemma readable_frame h d m : let m' := snd (on_readable h d m) in
  m_inc m' = m_inc m /\ m_socks m' = m_socks m.
Proof.
  cbv zeta. unfold on_readable. destruct (fst _) as [data|e|u|]; [|auto..].
  match goal with |- context [match ?x with Ok _ => _ | Throw _ => _ | Undef _ => _ | Abort => _ end] => destruct x as [m1|e|u|] eqn:E end; [|auto..].
  cbn [snd]. apply bind_Ok in E as (items & _ & E). destruct (nth_error items 0) as [i0|]; [|discriminate].
  apply bind_Ok in E as ([id b] & _ & E). cbv zeta in E. destruct (map_find _ _) as [c|]; [|inv E; auto].
  destruct (nth_error items 1) as [i1|]; [|discriminate]. apply bind_Ok in E as ([c' ev] & _ & E). inv E. auto.
Qed.

(** A property of the state that the handlers keep is kept by select. *)
Lemma dispatch_keeps {W A} (P : W -> Prop) (handler : nat -> A -> st W unit) :
  (forall i a w, P w -> P (snd (handler i a w))) ->
  forall ready i n w, P w -> P (snd (dispatch handler i n ready w)).
Proof.
  intros H. induction ready as [|[a|] r IH]; intros i n w Pw; destruct n; cbn [dispatch]; try exact Pw.
  - unfold st_bind. pose proof (H i a w Pw) as K. destruct (handler i a w) as [[] w1]; cbn [snd] in *; auto.
  - apply IH, Pw.
Qed.
Lemma rounds_keep {W A} (P : W -> Prop) (handler : nat -> A -> st W unit) n ending :
  (forall i a w, P w -> P (snd (handler i a w))) ->
  forall rounds w, P w -> P (snd (select_rounds handler n rounds ending w)).
Proof.
  intros H. induction rounds as [|r rs IH]; intros w Pw; cbn [select_rounds].
  - destruct ending; exact Pw.
  - unfold st_bind. pose proof (dispatch_keeps P handler H (sr_ready r) 0 n w Pw) as K.
    destruct (dispatch _ _ _ _ _) as [[] w1]; cbn [snd] in *; auto.
Qed.
Lemma select_keeps {W A} (P : W -> Prop) (handler : nat -> A -> st W unit) n rounds ending w :
  (forall i a w, P w -> P (snd (handler i a w))) -> P w -> P (snd (bs_select handler n rounds ending w)).
Proof. intros H Pw. unfold bs_select. destruct n; [exact Pw|]. now apply rounds_keep. Qed.

Lemma ticks_run_frame env m : let m' := snd (run_ticks env m) in m_inc m' = m_inc m /\ m_socks m' = m_socks m.
Proof. cbv zeta. unfold run_ticks. destruct (ticks _ _) as [[[] l] ev]; auto. Qed.

Lemma handle_frame h rounds ending env m : let m' := snd (handle_connections h rounds ending env m) in
  m_inc m' = m_inc m /\ m_socks m' = m_socks m.
Proof.
  cbv zeta. unfold handle_connections, st_bind.
  pose proof (select_keeps (fun w => m_inc w = m_inc m /\ m_socks w = m_socks m) (fun _ => on_readable h)
    (List.length (m_socks m)) rounds ending m) as K.
  destruct (bs_select _ _ _ _ _) as [o m1]. cbn [snd] in K.
  assert (E : m_inc m1 = m_inc m /\ m_socks m1 = m_socks m).
  { apply K; [|auto]. intros _ a w [A B]. destruct (readable_frame h a w) as [C D]. now rewrite C, D. }
  destruct o; [|exact E..]. destruct E as [A B]. destruct (ticks_run_frame env m1) as [C D]. now rewrite C, D.
Qed.

Lemma other_frame {S} h (op : call S) g m s o g' m' s' :
  match op with COpen _ _ _ _ _ _ => False | _ => True end ->
  call_mgr h op (g, m, s) = (o, (g', m', s')) -> g' = g /\ m_inc m' = m_inc m /\ m_socks m' = m_socks m.
Proof.
  intros N E. destruct op as [? ? ? ? ? ?|use8 si oid|rounds ending env|oid d]; [contradiction|..]; cbn [call_mgr] in E.
  - destruct (forward_close _ _ _ _ _) as [o1 [m1 s1]] eqn:F. apply close_frame in F. inv E. tauto.
  - pose proof (handle_frame h rounds ending env m) as F. destruct (handle_connections _ _ _ _ _) as [o1 m1]. inv E.
    split; [reflexivity|exact F].
  - inv E. auto.
Qed.

(** ** Histories *)
Definition counters (before : list an_open) (g : globals) : Prop :=
  g_serial g = zlen before
  /\ g_o2t g = (if count_of is_multicast before =? 0 then None else Some (count_of is_multicast before mod 65536))
  /\ g_t2o g = match filter is_p2p before with
               | [] => None
               | f :: _ => Some ((65536 * ao_inc f + count_of is_p2p before) mod 2 ^ 32)
               end.

Lemma count_snoc f l o : count_of f (l ++ [o]) = count_of f l + (if f o then 1 else 0).
Proof.
  unfold count_of. rewrite filter_app, zlen_app. cbn [filter]. destruct (f o); reflexivity.
Qed.

Lemma open_step h use8 handle answer host env large c g m log before :
  is_u32 handle -> open_ok c -> counters before g -> zlen before < 2147483647 ->
  let o := mkAnOpen (m_inc m) large c in
  match forward_open h use8 (recording handle answer) host env large c (g, m, log) with
  | (_, (g', m', log')) => counters (before ++ [o]) g' /\ m_inc m' = m_inc m
      /\ exists p, log' = log ++ [p] /\ wire_open p = Some (expected_open before o)
  end.
Proof.
  intros H [W L] (C1 & C2 & C3) N. cbv zeta. unfold forward_open.
  pose proof W as (W1 & W2 & W3 & W4 & W5 & W6 & W7 & W8 & W9 & W10 & W11 & W12 & W13 & W14 & W15).
  destruct (prepare_ok large (m_inc m) c g) as (g1 & E & G1 & G2 & G3 & G4); [lia|assumption|assumption|].
  rewrite E. clear E.
  set (c' := mkCParams _ _ _ _ _ _ _ _ _ _ _ _ _ _ _ _ _).
  rewrite fo_request_ok, send_recorded. cbv zeta.
  set (p := request_packet _ _ _ _ _ _).
  assert (Wc : cparams_wf c').
  { apply (prepared_wf c c' W); try reflexivity; cbn [c' c_o2tId c_t2oId c_serial c_o2tParams c_t2oParams c_pathSize].
    - destruct (_ =? 1); [|assumption]. match goal with |- is_u32 (u16 ?x) => pose proof (u16_range x) as R; unfold is_u16, is_u32 in *; lia end.
    - destruct (_ =? 2); [apply u32_range|assumption].
    - apply u16_range.
    - unfold is_u32. apply Z.mod_pos_bound. reflexivity.
    - unfold is_u32. apply Z.mod_pos_bound. reflexivity.
    - unfold is_u8. apply Z.mod_pos_bound. reflexivity. }
  assert (P : wire_open p = Some (expected_open before (mkAnOpen (m_inc m) large c))).
  { unfold p. rewrite open_packet by assumption. f_equal. unfold expected_open. cbv zeta. unfold fo_service. cbn [ao_large ao_params].
    apply (f_equal (pair (if large then 91 else 84))). unfold narrow, c'; cbn [c_priorityTimeTick c_timeoutTicks c_o2tId c_t2oId c_serial c_vendor c_origSerial c_multiplier c_o2tRPI c_o2tParams c_t2oRPI c_t2oParams c_trigger c_pathSize c_path ao_params ao_large].
    unfold is_multicast, is_p2p, count_of; cbn [ao_large ao_params]. fold is_multicast. fold is_p2p.
    change (fun o => part (ao_large o) FType (c_o2tParams (ao_params o)) =? 1) with is_multicast.
    change (fun o => part (ao_large o) FType (c_t2oParams (ao_params o)) =? 2) with is_p2p.
    change (zlen (filter is_multicast before)) with (count_of is_multicast before).
    change (zlen (filter is_p2p before)) with (count_of is_p2p before).
    f_equal.
    - destruct (part large FType (c_o2tParams c) =? 1); [|reflexivity]. rewrite C2.
      destruct (Z.eqb_spec (count_of is_multicast before) 0) as [Z|Z]; [rewrite Z; reflexivity|].
      unfold u16. pose proof (Z.mod_pos_bound (count_of is_multicast before) 65536). lia.
    - destruct (part large FType (c_t2oParams c) =? 2) eqn:T; [|reflexivity]. rewrite C3.
      unfold first_inc. rewrite filter_app. unfold count_of.
      destruct (filter is_p2p before) as [|f r].
      + cbn [app filter]. unfold is_p2p at 1; cbn [ao_large ao_params]. rewrite T. cbn [hd ao_inc]. rewrite zlen_nil.
        unfold u32. change (2 ^ 32) with 4294967296. lia.
      + cbn [app hd]. unfold u32. change (2 ^ 32) with 4294967296. lia.
    - rewrite C1. unfold u16. f_equal. lia.
    - destruct large; reflexivity.
    - destruct large; reflexivity. }
  assert (C' : counters (before ++ [mkAnOpen (m_inc m) large c]) g1).
  { split; [|split].
    - rewrite G1, C1, zlen_app. reflexivity.
    - rewrite G3, count_snoc. change (is_multicast (mkAnOpen (m_inc m) large c)) with (part large FType (c_o2tParams c) =? 1).
      pose proof (zlen_nonneg (filter is_multicast before)) as P0. fold (count_of is_multicast before) in P0.
      destruct (part large FType (c_o2tParams c) =? 1).
      + destruct (Z.eqb_spec (count_of is_multicast before + 1) 0); [lia|]. rewrite C2. f_equal.
        destruct (Z.eqb_spec (count_of is_multicast before) 0) as [Z|Z]; [rewrite Z; reflexivity|].
        unfold u16. pose proof (Z.mod_pos_bound (count_of is_multicast before) 65536). lia.
      + rewrite Z.add_0_r. exact C2.
    - rewrite G4, count_snoc, filter_app, C3. cbn [filter]. change (is_p2p (mkAnOpen (m_inc m) large c)) with (part large FType (c_t2oParams c) =? 2).
      destruct (part large FType (c_t2oParams c) =? 2) eqn:T.
      + unfold count_of. destruct (filter is_p2p before) as [|f r]; cbn [app].
        * cbn [ao_inc]. rewrite zlen_nil. f_equal. unfold u32. change (2 ^ 32) with 4294967296. lia.
        * f_equal. unfold u32. change (2 ^ 32) with 4294967296. lia.
      + rewrite app_nil_r.
        destruct (filter is_p2p before); [reflexivity|]. rewrite Z.add_0_r. reflexivity. }
  assert (Fin : forall g', g_serial g' = g_serial g1 -> g_o2t g' = g_o2t g1 -> g_t2o g' = g_t2o g1 ->
    counters (before ++ [mkAnOpen (m_inc m) large c]) g').
  { intros g' A B C. unfold counters in *. rewrite A, B, C. exact C'. }
  destruct (bind (answer log p) _) as [resp|e|u|]; [|eauto 6..].
  destruct (fo_answer _ _ _ _ _ _ _) as [o [g2 m2]] eqn:A.
  apply answer_frame in A as (A1 & A2 & A3 & _ & A4 & _). eauto 6.
Qed.

Lemma history_opens h inc ops : forall w before,
  Forall (fun x => recorded (snd x)) ops -> counters before (w_g w) -> (forall i, m_inc (w_m w i) = inc i) ->
  zlen (before ++ opens_of inc ops) <= 2147483647 ->
  forall k o, nth_error (opens_of inc ops) k = Some o ->
  nth_error (sent_opens h ops w) k = Some (Some (expected_open (before ++ firstn k (opens_of inc ops)) o)).
Proof.
  induction ops as [|[i op] ops IH]; intros w before R C I N k o E; [destruct k; discriminate|].
  apply Forall_cons_iff in R as [R1 R]. cbn [snd] in R1.
  unfold opens_of in N, E |- *. cbn [flat_map] in N, E |- *. fold (opens_of inc ops) in N, E |- *.
  destruct op as [use8 si host env large c|use8 si oid|rounds ending env|oid d] eqn:Eop; cbn [app sent_opens] in *.
  1:{ destruct R1 as (H & Ok & answer & Esi).
      assert (N1 : zlen before < 2147483647).
      { rewrite zlen_app, zlen_cons in N. pose proof (zlen_nonneg (opens_of inc ops)). lia. }
      pose proof (open_step h use8 (si_handle si) answer host env large c (w_g w) (w_m w i) (w_s w) before H Ok C N1) as S.
      cbv zeta in S. rewrite <- Esi in S. unfold call_world; cbn [call_mgr].
      destruct (forward_open _ _ _ _ _ _ _ _) as [o1 [[g' m'] log']]. destruct S as (C' & M & p & Ep & Wp).
      cbn [snd w_s]. rewrite (I i) in *. destruct k as [|k].
      - cbn [nth_error firstn] in E |- *. injection E as <-. rewrite app_nil_r, Ep, last_last. now rewrite Wp.
      - cbn [nth_error firstn] in E |- *.
        replace (before ++ _ :: firstn k (opens_of inc ops)) with ((before ++ [mkAnOpen (inc i) large c]) ++ firstn k (opens_of inc ops))
          by (rewrite <- app_assoc; reflexivity).
        apply IH; [assumption|exact C'| |rewrite <- app_assoc; exact N|exact E].
        intros j. cbn [w_m]. unfold update. destruct (Nat.eqb_spec j i) as [->|]; [exact M|apply I]. }
  all: cbn [app] in *; unfold call_world;
    match goal with |- context [call_mgr ?hh ?op ?a] => destruct (call_mgr hh op a) as [o1 [[g' m'] s']] eqn:F end;
    apply other_frame in F as (-> & M & _); [|exact Logic.I];
    apply IH; try assumption; intros j; cbn [snd w_m]; unfold update;
    destruct (Nat.eqb_spec j i) as [->|]; [rewrite M; apply I|apply I].
Qed.

Lemma history_length h inc ops : forall w, List.length (sent_opens h ops w) = List.length (opens_of inc ops).
Proof.
  induction ops as [|[i op] ops IH]; intros w; [reflexivity|].
  unfold opens_of; cbn [flat_map sent_opens]. fold (opens_of inc ops).
  destruct op; cbn [app List.length]; now rewrite IH.
Qed.

Lemma start_counters : counters [] globals0.
Proof. repeat split. Qed.

Lemma history_from_start h inc ops : Forall (fun x => recorded (snd x)) ops ->
  zlen (opens_of inc ops) <= 2147483647 ->
  forall k o, nth_error (opens_of inc ops) k = Some o ->
  nth_error (sent_opens h ops (start inc)) k = Some (Some (expected_open (firstn k (opens_of inc ops)) o)).
Proof. intros R N k o E. apply (history_opens h inc ops (start inc) []); auto. apply start_counters. Qed.
