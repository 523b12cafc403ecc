(** Proofs about originator and target together. *)
From Verif Require Import Base MBuffer SBuffer PBase PBuffer MEip SEip PEip PRouter MSocket MConnReq SConnReq PConnReq MConn SConn
  PConnOpen PConnMap PIo PConnCall PConnCall2 PConnHist PConnTop PLife SObj PObj STarget.
Ltac Zify.zify_post_hook ::= Z.div_mod_to_equations.

Lemma name_eqb_iff a b : name_eqb a b = true <-> a = b.
Proof.
  destruct a as [[x y] z], b as [[x' y'] z']. cbn [name_eqb]. rewrite !andb_true_iff, !Z.eqb_eq.
  split; [intros [[-> ->] ->]; reflexivity|]. intros E. now inv E.
Qed.
Lemma named_iff n T : named_by n T = true <-> In n (map tc_name T).
Proof.
  unfold named_by. rewrite existsb_exists, in_map_iff. split; intros (t & A & B); exists t; [apply name_eqb_iff in B|subst n; rewrite name_eqb_iff]; auto.
Qed.

(** ** Requests as the target reads them *)
Lemma parse_fc_ok serial vendor orig path : is_u16 serial -> is_u16 vendor -> is_u32 orig -> zlen path mod 2 = 0 -> zlen path <= 510 ->
  parse_fc (fc_pack serial vendor orig path) = Some (serial, vendor, orig, path).
Proof.
  intros A B C E L. rewrite fc_pack_bytes. unfold parse_fc, fc_bytes. cbn [app].
  pose proof (zlen_nonneg path) as N.
  change (0 :: 0 :: ?x) with (le 2 0 ++ x). rewrite take2 by (unfold is_u16; lia). cbn [app].
  rewrite take2, take2, take4 by assumption. cbn [app]. rewrite take1 by (unfold is_u8; lia). rewrite take1 by (unfold is_u8; lia).
  destruct (Z.eqb_spec (2 * ((zlen path / 2) mod 256)) (zlen path)); [reflexivity|lia].
Qed.
Lemma fc_pack_good serial vendor orig path : is_bytes path -> zlen path <= 60000 ->
  is_bytes (fc_pack serial vendor orig path) /\ zlen (fc_pack serial vendor orig path) <= 60012.
Proof.
  intros B L. rewrite fc_pack_bytes. unfold fc_bytes. split.
  - rewrite !is_bytes_app, !is_bytes_cons. assert (is_u8 0) by (unfold is_u8; lia).
    repeat match goal with |- _ /\ _ => split end; try apply le_bytes; try apply is_bytes_nil; try assumption. unfold is_u8. lia.
  - rewrite !zlen_app. unfold zlen in *. rewrite !le_length. cbn [List.length]. lia.
Qed.

Definition tconn_wf (t : tconn) : Prop :=
  is_u16 (tc_serial t) /\ is_u16 (tc_vendor t) /\ is_u32 (tc_orig t) /\ is_u32 (tc_o2t t) /\ is_u32 (tc_t2o t)
  /\ is_bytes (tc_path t) /\ zlen (tc_path t) mod 2 = 0 /\ zlen (tc_path t) <= 510.

Lemma granted_good t g : tconn_wf t -> grant_wf g ->
  answer_wf (done (granted_reply t g)) /\ exists r, (forall h, fo_expand h (granted_reply t g) = Ok r)
    /\ f_serial r = tc_serial t /\ f_o2tId r = tc_o2t t /\ f_t2oId r = tc_t2o t.
Proof.
  intros (A & B & C & D & E & _) (G1 & G2 & G3 & G4 & G5 & G6 & G7). pose proof (zlen_nonneg (gr_reply g)) as N.
  assert (W : fo_response_wf (mkFoResp (tc_o2t t) (tc_t2o t) (tc_serial t) (tc_vendor t) (tc_orig t) (gr_o2tApi g) (gr_t2oApi g)
                    (zlen (gr_reply g) / 2) (gr_reply g))).
  { unfold fo_response_wf; cbn [f_o2tId f_t2oId f_serial f_vendor f_origSerial f_o2tApi f_t2oApi f_replySize f_reply].
    repeat match goal with |- _ /\ _ => split end; try assumption; [unfold is_u8; lia|lia]. }
  split.
  - unfold answer_wf, done; cbn [a_status a_addl a_data]. split; [unfold is_u8; lia|]. split; [constructor|]. split; [rewrite zlen_nil; lia|].
    unfold granted_reply, fo_reply_bytes; cbn [f_o2tId f_t2oId f_serial f_vendor f_origSerial f_o2tApi f_t2oApi f_replySize f_reply]. split.
    + rewrite !is_bytes_app, !is_bytes_cons. assert (is_u8 0) by (unfold is_u8; lia). assert (is_u8 (zlen (gr_reply g) / 2)) by (unfold is_u8; lia).
      repeat match goal with |- _ /\ _ => split end; try apply le_bytes; try apply is_bytes_nil; assumption.
    + rewrite !zlen_app. unfold zlen in *. rewrite !le_length. cbn [List.length]. lia.
  - eexists. split; [intros h; unfold granted_reply; now apply fo_expand_good|]. auto.
Qed.
Lemma refusal_wf k : is_u16 k -> answer_wf (refusal k).
Proof.
  intros K. unfold answer_wf, refusal; cbn [a_status a_addl a_data]. split; [unfold is_u8; lia|].
  split; [repeat constructor; apply K|]. split; [rewrite zlen_cons, zlen_nil; lia|]. split; [constructor|rewrite zlen_nil; lia].
Qed.
Lemma failed_wf k : is_u8 k -> answer_wf (failed k).
Proof.
  intros K. unfold answer_wf, failed; cbn [a_status a_addl a_data]. split; [assumption|].
  split; [constructor|]. split; [rewrite zlen_nil; lia|]. split; [constructor|rewrite zlen_nil; lia].
Qed.

(** What the target does with the request of an open. *)
Lemma target_open pol T large c' a T' : policy_wf pol -> cparams_wf c' -> zlen (c_path c') <= 60000 ->
  target pol T (mkReq (fo_service large) [(KClass, 6); (KInst, 1)] (fo_bytes (fo_width large) c')) = (a, T') ->
  answer_wf a /\
  (T' = T /\ a_status a <> 0
   \/ exists t r, T' = T ++ [t] /\ a_status a = 0 /\ ~ In (tc_name t) (map tc_name T) /\ tconn_wf t
        /\ tc_name t = (c_serial c', c_vendor c', c_origSerial c') /\ tc_path t = c_path c'
        /\ (forall h, fo_expand h (a_data a) = Ok r) /\ f_serial r = c_serial c' /\ f_o2tId r = tc_o2t t /\ f_t2oId r = tc_t2o t).
Proof.
  intros PW W L. unfold target, to_cm; cbn [q_path q_service q_data Z.eqb Pos.eqb andb negb].
  assert (S1 : (fo_service large =? 84) || (fo_service large =? 91) = true) by (destruct large; reflexivity).
  assert (S2 : (fo_service large =? 91) = large) by (destruct large; reflexivity).
  rewrite S1, S2. cbv zeta. replace (if large then 4%nat else 2%nat) with (fo_width large) by reflexivity.
  rewrite parse_fo_ok by assumption.
  set (c := narrow (fo_width large) c').
  assert (N1 : c_pathSize c = c_pathSize c' /\ c_path c = c_path c' /\ c_serial c = c_serial c' /\ c_vendor c = c_vendor c'
               /\ c_origSerial c = c_origSerial c' /\ c_o2tId c = c_o2tId c' /\ c_t2oId c = c_t2oId c') by (repeat split).
  destruct N1 as (N1 & N2 & N3 & N4 & N5 & N6 & N7).
  destruct (Z.eqb_spec (2 * c_pathSize c) (zlen (c_path c))) as [P|P]; cbn [negb];
    [|intros E; inv E; split; [apply refusal_wf; unfold is_u16; lia|left; split; [reflexivity|discriminate]]].
  destruct (named_by _ T) eqn:Nm; [intros E; inv E; split; [apply refusal_wf; unfold is_u16; lia|left; split; [reflexivity|discriminate]]|].
  destruct (pol T c) as [g|] eqn:Pg; [|intros E; inv E; split; [apply refusal_wf; unfold is_u16; lia|left; split; [reflexivity|discriminate]]].
  specialize (PW _ _ _ Pg). intros E. inv E.
  destruct W as (W1 & W2 & W3 & W4 & W5 & W6 & W7 & W8 & W9 & W10 & W11 & W12 & W13 & W14 & W15).
  assert (TW : tconn_wf (granted large c g)).
  { destruct PW as (G1 & G2 & _).
    unfold tconn_wf, granted; cbn [tc_serial tc_vendor tc_orig tc_o2t tc_t2o tc_path]. rewrite N2, N3, N4, N5, N6, N7.
    repeat match goal with |- _ /\ _ => split end; try assumption.
    - destruct (_ =? 1); assumption.
    - destruct (_ =? 2); assumption.
    - rewrite N1, N2 in P. unfold is_u8 in W14. lia.
    - rewrite N1, N2 in P. unfold is_u8 in W14. lia. }
  destruct (granted_good _ _ TW PW) as (AW & r & R1 & R2 & R3 & R4). split; [assumption|]. right.
  exists (granted large c g), r. split; [reflexivity|]. split; [reflexivity|]. split.
  { intros I. apply named_iff in I. unfold granted, tc_name in I; cbn [tc_serial tc_vendor tc_orig] in I. congruence. }
  split; [assumption|]. split; [unfold granted, tc_name; cbn [tc_serial tc_vendor tc_orig]; congruence|]. split; [exact N2|].
  split; [exact R1|]. split; [rewrite R2; exact N3|]. auto.
Qed.

(** ** Calls *)
Definition keeps (m m' : mgr) : Prop := forall o, option_map io_static (lock o m') = option_map io_static (lock o m).
Lemma keeps_refl m : keeps m m.
Proof. intros o. reflexivity. Qed.
Lemma keeps_map m m' : m_map m' = m_map m -> keeps m m'.
Proof. intros E o. unfold lock. now rewrite E. Qed.
Lemma keeps_some m m' o c' : keeps m m' -> lock o m' = Some c' -> exists c, lock o m = Some c /\ io_static c' = io_static c.
Proof. intros K L. specialize (K o). rewrite L in K. destruct (lock o m) as [c|]; [|discriminate]. exists c. split; [reflexivity|]. cbn in K. congruence. Qed.
Lemma keeps_back m m' o c : keeps m m' -> lock o m = Some c -> exists c', lock o m' = Some c' /\ io_static c' = io_static c.
Proof. intros K L. specialize (K o). rewrite L in K. destruct (lock o m') as [c'|]; [|discriminate]. exists c'. split; [reflexivity|]. cbn in K. congruence. Qed.

Definition conn_name (c : iocon) : Z * Z * Z := (io_serial c, io_vendor c, io_orig c).
Lemma static_same c c' t : io_static c' = io_static c -> (same_connection c' t <-> same_connection c t).
Proof. unfold io_static, same_connection. intros E. injection E as ?E. split; intros (A & B & C & D); repeat split; congruence. Qed.
Lemma static_name c c' : io_static c' = io_static c -> conn_name c' = conn_name c.
Proof. unfold io_static, conn_name. intros E. injection E as ?E. congruence. Qed.

Inductive stepped (op : call (list tconn * trace)) (o : outcome (option nat)) (m m' : mgr) (T T' : list tconn) : Prop :=
| StKeep : T' = T -> keeps m m' -> (forall use8 si oid, op = CClose use8 si oid -> lock oid m = None) -> stepped op o m m' T T'
| StHandle rounds ending env : op = CHandle rounds ending env -> T' = T ->
    (forall x c', lock x m' = Some c' -> exists c, lock x m = Some c /\ io_static c' = io_static c) -> stepped op o m m' T T'
| StLost t use8 si host env large c : op = COpen use8 si host env large c -> T' = T ++ [t] -> ~ In (tc_name t) (map tc_name T) -> tconn_wf t ->
    keeps m m' -> (forall oid, o = Ok (Some oid) -> lock oid m' = None) -> stepped op o m m' T T'
| StOpen t oid io use8 si host env large c : op = COpen use8 si host env large c -> T' = T ++ [t] -> ~ In (tc_name t) (map tc_name T) -> tconn_wf t ->
    o = Ok (Some oid) -> same_connection io t -> lock oid m = None ->
    (forall x, lock x m' = if Nat.eqb x oid then Some io else lock x m) -> stepped op o m m' T T'
| StClose use8 si oid c t : op = CClose use8 si oid -> lock oid m = Some c -> In t T -> same_connection c t -> o = Ok None ->
    T' = filter (fun t => negb (name_eqb (tc_name t) (conn_name c))) T ->
    (forall x, lock x m' = if Nat.eqb x oid then None else lock x m) -> stepped op o m m' T T'.

Lemma open_stepped h use8 handle pol host env large c g m T tr o g' m' T' tr' : mgr_inv g m -> cparams_wf c -> zlen (c_path c) <= 50000 -> is_u32 handle -> policy_wf pol ->
  forward_open h use8 (served handle (target pol)) host env large c (g, m, (T, tr)) = (o, (g', m', (T', tr'))) ->
  stepped (COpen use8 (served handle (target pol)) host env large c) o m m' T T'.
Proof.
  intros I W L H PW E. destruct (Z.eq_dec (g_serial g) 2147483647) as [G|G].
  { unfold forward_open in E. rewrite (prepare_overflow large (m_inc m) c g G) in E. inv E. apply StKeep; [reflexivity|apply keeps_refl|discriminate]. }
  unfold forward_open in E.
  pose proof W as (W1 & W2 & W3 & W4 & W5 & W6 & W7 & W8 & W9 & W10 & W11 & W12 & W13 & W14 & W15).
  destruct (prepare_ok large (m_inc m) c g G W10 W12) as (g1 & P & _ & O & _). rewrite P, fo_request_ok in E. clear P.
  match type of E with context [fo_bytes _ ?x] => set (c' := x) in * end.
  assert (W' : cparams_wf c').
  { apply (prepared_wf c); try reflexivity; try assumption; unfold c'; cbn [c_o2tId c_t2oId c_serial c_o2tParams c_t2oParams c_pathSize].
    - destruct (_ =? 1); [unfold is_u32, u16; lia|assumption].
    - destruct (_ =? 2); [unfold is_u32, u32; lia|assumption].
    - unfold is_u16, u16. lia.
    - unfold is_u32. lia.
    - unfold is_u32. lia.
    - unfold is_u8. lia. }
  assert (L' : zlen (c_path c') <= 60000) by (change (c_path c') with (c_path c); lia).
  destruct (target pol T (mkReq (fo_service large) [(KClass, 6); (KInst, 1)] (fo_bytes (fo_width large) c'))) as [a T1] eqn:Q.
  destruct (target_open pol T large c' a T1 PW W' L' Q) as (AW & D).
  assert (Le : zlen (fo_bytes (fo_width large) c') <= 60000).
  { rewrite fo_bytes_len. change (c_path c') with (c_path c). destruct large; cbn [fo_width]; lia. }
  unfold CM_PATH in E. rewrite (served2 h use8 handle (target pol) (fo_service large) 6 1 _ T tr a T1) in E; try assumption; try lia;
      [|split; [unfold is_u16; lia|intros; lia]|destruct large; cbn; lia|now apply fo_bytes_bytes].
    destruct (fo_answer h env host large c _ (g1, m)) as [o1 [g2 m2]] eqn:A. inv E.
    assert (Dc : (exists oid, o = Ok (Some oid)) \/ forall oid, o <> Ok (Some oid)).
    { destruct o as [[oid|]|?|?|]; [left; eauto|right; congruence..]. }
    destruct Dc as [[oid ->]|N].
    + apply answer_some in A as (r & mult & dest & m1 & St & Ex & Mu & De & Eo & -> & M & Lg & In1 & ->).
      cbn [r_status r_data] in St, Ex.
      destruct D as [[_ D]|(t & r' & -> & _ & Fr & TW & Nm & Pa & Ex' & R1 & R2 & R3)]; [contradiction|].
      rewrite Ex' in Ex. inv Ex. cbn [g_oid].
      assert (I1 : mgr_inv g1 m) by (apply (inv_later g); [assumption|lia]).
      destruct (map_find (u16 (f_t2oId r)) (m_map m)) as [old|] eqn:Fd.
      * eapply StLost; try reflexivity; try eassumption.
        -- intros x. f_equal. apply (insert_collides g1); try assumption. congruence.
        -- intros oid E. inv E. rewrite (insert_collides g1 m m1) by (assumption || congruence). now apply fresh_dead.
      * eapply (StOpen _ _ _ _ _ _ t (g_oid g1) (fo_connection large c r mult (g_oid g1) (v_now env) dest)); try reflexivity; try assumption.
        -- unfold same_connection, fo_connection; cbn [io_serial io_vendor io_orig io_o2tId io_t2oId io_path].
           rewrite Nm, R1, R2, R3, Pa. repeat split.
        -- now apply fresh_dead.
        -- intros x. apply insert_lock; try assumption; reflexivity.
    + destruct (answer_none _ _ _ _ _ _ _ _ _ _ _ A N) as [M _].
      destruct D as [[-> _]|(t & r' & -> & _ & Fr & TW & _)].
      * apply StKeep; [reflexivity|now apply keeps_map|discriminate].
      * eapply StLost; try reflexivity; try eassumption; [now apply keeps_map|]. intros oid E. exfalso. exact (N oid E).
Qed.

Lemma handle_shrinks g h rounds ending env m : mgr_inv g m ->
  forall x c', lock x (snd (handle_connections h rounds ending env m)) = Some c' -> exists c, lock x m = Some c /\ io_static c' = io_static c.
Proof.
  intros I. assert (ST : forall m1, mgr_inv g m1 -> statics (m_map m1) = statics (m_map m) ->
    forall x c', lock x m1 = Some c' -> exists c, lock x m = Some c /\ io_static c' = io_static c).
  { intros m1 I1 E x c' L. apply lock_in in L as [Ox [k K]]. destruct (statics_t2o _ _ _ _ E K) as (c & J & Es).
    exists c. split; [|assumption]. rewrite <- Ox. rewrite (static_oid _ _ Es). eapply lock_some; eauto. }
  unfold handle_connections, st_bind. pose proof (select_quiet g h rounds ending m I) as Q.
  destruct (bs_select _ _ _ _ _) as [o2 m2]. cbn [snd] in Q. destruct Q as (Qs & _).
  assert (I2 : mgr_inv g m2) by (eapply statics_inv; eauto).
  destruct o2 as [[]|?|?|]; cbn [snd]; [|now apply ST..].
  unfold run_ticks. pose proof (ticks_static env (m_map m2)) as TS. destruct (ticks env (m_map m2)) as [[res l] ev] eqn:E.
  assert (I3 : mgr_inv g (add_log (set_map m2 l) ev)) by (eapply statics_inv; [exact I2|exact TS]).
  assert (S3 : statics (m_map (add_log (set_map m2 l) ev)) = statics (m_map m)) by (cbn [add_log set_map m_map]; congruence).
  destruct res as [ks|?|?|]; cbn [snd]; [|now apply ST..].
  intros x c' L. apply (ST _ I3 S3). apply lock_in in L as [Ox [k K]]. cbn [set_map m_map] in K. apply fold_erase_in in K as [K _].
  rewrite <- Ox. eapply lock_some; eauto.
Qed.

Record agree (w : world (list tconn * trace)) : Prop := {
  ag_inv : forall j, mgr_inv (w_g w) (w_m w j);
  ag_wf : Forall tconn_wf (at_target w);
  ag_nodup : NoDup (map tc_name (at_target w));
  ag_held : forall i oid c, lock oid (w_m w i) = Some c -> exists t, In t (at_target w) /\ same_connection c t;
  ag_inj : forall i oid c i' oid' c', lock oid (w_m w i) = Some c -> lock oid' (w_m w i') = Some c' -> conn_name c = conn_name c' ->
    i = i' /\ oid = oid' }.

Lemma call_stepped h op g m T tr o g' m' T' tr' : mgr_inv g m -> Forall tconn_wf T ->
  (forall oid c, lock oid m = Some c -> exists t, In t T /\ same_connection c t) -> to_target op ->
  call_mgr h op (g, m, (T, tr)) = (o, (g', m', (T', tr'))) -> stepped op o m m' T T'.
Proof.
  intros I TW Hd U E. destruct op as [use8 si host env large c|use8 si oid|rounds ending env|oid d]; cbn [call_mgr to_target] in *.
  - destruct U as (W & L & handle & pol & H & PW & ->). eapply open_stepped; eauto.
  - destruct U as (handle & pol & H & PW & ->).
    destruct (forward_close h use8 _ (lock oid m) (m, (T, tr))) as [o1 [m1 s1]] eqn:F. inv E.
    destruct (lock oid m) as [c|] eqn:Lk.
    2:{ cbn [forward_close] in F. inv F. apply StKeep; [reflexivity|apply keeps_refl|]. intros ? ? ? X. now inv X. }
    destruct (Hd _ _ Lk) as (t & It & SC). pose proof SC as (Nm & So & St & Sp).
    pose proof (proj1 (Forall_forall _ _) TW _ It) as (T1 & T2 & T3 & T4 & T5 & T6 & T7 & T8).
    unfold tc_name in Nm. injection Nm as N1 N2 N3. rewrite N1 in T1. rewrite N2 in T2. rewrite N3 in T3. rewrite Sp in T6, T7, T8.
    assert (Q : target pol T (mkReq 78 [(KClass, 6); (KInst, 1)] (fc_pack (u16 (io_serial c)) (io_vendor c) (io_orig c) (io_path c)))
      = (done (le 2 (io_serial c) ++ le 2 (io_vendor c) ++ le 4 (io_orig c) ++ [0; 0]),
         filter (fun t => negb (name_eqb (tc_name t) (conn_name c))) T)).
    { unfold target, to_cm; cbn [q_path q_service q_data Z.eqb Pos.eqb andb orb negb].
      rewrite (u16_small (io_serial c)) by assumption. rewrite parse_fc_ok by assumption.
      assert (X : existsb (fun t => name_eqb (tc_name t) (io_serial c, io_vendor c, io_orig c) && bytes_eqb (tc_path t) (io_path c)) T = true).
      { apply existsb_exists. exists t. split; [assumption|]. apply andb_true_iff. split; [|now apply bytes_eqb_iff].
        apply name_eqb_iff. unfold tc_name. congruence. }
      rewrite X. reflexivity. }
    destruct (fc_pack_good (u16 (io_serial c)) (io_vendor c) (io_orig c) (io_path c) T6 ltac:(lia)) as [Fb Fl].
    assert (Fl' : zlen (fc_pack (u16 (io_serial c)) (io_vendor c) (io_orig c) (io_path c)) <= 60000).
    { rewrite fc_pack_bytes. unfold fc_bytes. rewrite !zlen_app. unfold zlen in *. rewrite !le_length. cbn [List.length]. lia. }
    assert (SR := served2 h use8 handle (target pol) 78 6 1 _ T tr _ _ ltac:(lia) ltac:(split; [unfold is_u16; lia|intros; lia]) H ltac:(lia) Fb Fl' Q).
    destruct (close_ok h use8 (served handle (target pol)) g' m (T, tr) oid c _ _ I Lk (SR ltac:(
      unfold answer_wf, done; cbn [a_status a_addl a_data]; split; [unfold is_u8; lia|]; split; [constructor|]; split; [rewrite zlen_nil; lia|];
      split; [rewrite !is_bytes_app, !is_bytes_cons; assert (is_u8 0) by (unfold is_u8; lia);
              repeat match goal with |- _ /\ _ => split end; try apply le_bytes; try apply is_bytes_nil; assumption
             |rewrite !zlen_app; unfold zlen; rewrite !le_length; cbn [List.length]; lia]))) as (m2 & F2 & _ & Al).
    rewrite Lk, F in F2. inv F2. eapply StClose; try reflexivity; try eassumption.
  - destruct (handle_connections h rounds ending env m) as [o1 m1] eqn:F. inv E. eapply StHandle; try reflexivity.
    intros x c' L. apply (handle_shrinks g' h rounds ending env m I). now rewrite F.
  - inv E. apply StKeep; [reflexivity| |discriminate]. intros x. unfold set_output. cbn [set_map m_map].
    assert (I' : mgr_inv g' (set_output oid d m)) by (eapply statics_inv; [exact I|]; unfold set_output; cbn [set_map m_map]; apply output_statics).
    pose proof (output_statics oid d (m_map m)) as OS.
    unfold set_output in I'. destruct (lock x (set_map m _)) as [c'|] eqn:L'.
    + pose proof L' as L0. apply lock_in in L0 as [Ox [k K]]. destruct (statics_t2o _ _ _ _ OS K) as (c & J & Es).
      assert (Lx : lock x m = Some c) by (rewrite <- Ox, (static_oid _ _ Es); eapply lock_some; eauto). rewrite Lx. cbn. congruence.
    + destruct (lock x m) as [c|] eqn:Lx; [|reflexivity]. exfalso.
      apply lock_none in L'. apply L'. cbn [set_map m_map]. rewrite (statics_oids _ _ OS).
      apply lock_in in Lx as [Ox [k K]]. unfold oids. apply in_map_iff. exists (k, c). auto.
Qed.

(** ** The world *)
Lemma update_same {A} (f : nat -> A) i a : update f i a i = a.
Proof. unfold update. now rewrite Nat.eqb_refl. Qed.
Lemma update_other {A} (f : nat -> A) i j a : j <> i -> update f i a j = f j.
Proof. intros N. unfold update. destruct (Nat.eqb_spec j i); [contradiction|reflexivity]. Qed.

Lemma world_stepped h i op w o w' : agree w -> to_target op -> call_world h i op w = (o, w') ->
  stepped op o (w_m w i) (w_m w' i) (at_target w) (at_target w') /\ (forall j, j <> i -> w_m w' j = w_m w j)
  /\ forall j, mgr_inv (w_g w') (w_m w' j).
Proof.
  intros A U E. unfold call_world in E. destruct w as [g mm [T tr]]. cbn [w_g w_m w_s] in E.
  destruct (call_mgr h op (g, mm i, (T, tr))) as [o1 [[g' m'] [T' tr']]] eqn:C. inv E.
  destruct (call_inv h op _ _ _ _ _ _ _ (ag_inv _ A i) C) as [I' Lg].
  split; [|split].
  - cbn [w_m at_target w_s fst]. rewrite update_same. unfold at_target; cbn [w_s fst].
    eapply call_stepped; [exact (ag_inv _ A i)|exact (ag_wf _ A)|intros oid c L; exact (ag_held _ A i oid c L)|exact U|exact C].
  - intros j N. cbn [w_m]. now apply update_other.
  - intros j. cbn [w_m w_g]. destruct (Nat.eq_dec j i) as [->|N]; [now rewrite update_same|]. rewrite update_other by assumption.
    eapply inv_later; [exact (ag_inv _ A j)|assumption].
Qed.

Lemma name_same c t : same_connection c t -> tc_name t = conn_name c.
Proof. intros [E _]. exact E. Qed.
Lemma agree_step h i op w o w' : agree w -> to_target op -> call_world h i op w = (o, w') -> agree w'.
Proof.
  intros A U E. destruct (world_stepped h i op w o w' A U E) as (S & Oth & Inv).
  (* where a connection that is alive afterwards comes from *)
  assert (Old : (forall x c', lock x (w_m w' i) = Some c' -> exists c, lock x (w_m w i) = Some c /\ io_static c' = io_static c) ->
    forall j x c', lock x (w_m w' j) = Some c' -> exists c, lock x (w_m w j) = Some c /\ io_static c' = io_static c).
  { intros H j x c' L. destruct (Nat.eq_dec j i) as [->|N]; [now apply H|]. rewrite Oth in L by assumption. eauto. }
  assert (Inj : (forall j x c', lock x (w_m w' j) = Some c' -> exists c, lock x (w_m w j) = Some c /\ io_static c' = io_static c) ->
    forall j oid c j' oid' c', lock oid (w_m w' j) = Some c -> lock oid' (w_m w' j') = Some c' -> conn_name c = conn_name c' -> j = j' /\ oid = oid').
  { intros H j oid c j' oid' c' L L' N. apply H in L as (d & L & Ed). apply H in L' as (d' & L' & Ed').
    eapply (ag_inj _ A); [exact L|exact L'|]. rewrite <- (static_name _ _ Ed), <- (static_name _ _ Ed'). exact N. }
  assert (Held : forall T', (forall t, In t (at_target w) -> In t T') ->
    (forall j x c', lock x (w_m w' j) = Some c' -> exists c, lock x (w_m w j) = Some c /\ io_static c' = io_static c) ->
    forall j oid c, lock oid (w_m w' j) = Some c -> exists t, In t T' /\ same_connection c t).
  { intros T' Sub H j oid c L. apply H in L as (d & L & Ed). apply (ag_held _ A) in L as (t & It & Sc). exists t. split; [auto|].
    now apply (static_same _ _ _ Ed). }
  assert (App : forall t, ~ In (tc_name t) (map tc_name (at_target w)) -> tconn_wf t ->
    Forall tconn_wf (at_target w ++ [t]) /\ NoDup (map tc_name (at_target w ++ [t]))).
  { intros t Fr TW. split; [apply Forall_app; split; [exact (ag_wf _ A)|constructor; [assumption|constructor]]|].
    rewrite map_app. cbn [map]. apply nodup_app; [exact (ag_nodup _ A)|repeat constructor; intros []|]. intros x Ix [<-|[]]. contradiction. }
  destruct S as [ET K _|rounds ending env -> ET K|t use8 si host env large c -> ET Fr TW K _|t oid io use8 si host env large c -> ET Fr TW -> Sc Dead Lk
    |use8 si oid c t -> Lc It Sc -> ET Lk].
  - specialize (Old (fun x c' => keeps_some _ _ x c' K)). constructor; rewrite ?ET; [assumption|exact (ag_wf _ A)|exact (ag_nodup _ A)| |now apply Inj].
    intros j oid c L. apply (Held (at_target w) (fun t It => It) Old j oid c L).
  - specialize (Old K). constructor; rewrite ?ET; [assumption|exact (ag_wf _ A)|exact (ag_nodup _ A)| |now apply Inj].
    intros j oid c L. apply (Held (at_target w) (fun t It => It) Old j oid c L).
  - specialize (Old (fun x c' => keeps_some _ _ x c' K)). destruct (App t Fr TW) as [A1 A2].
    constructor; rewrite ?ET; [assumption|exact A1|exact A2| |now apply Inj].
    intros j oid c' L. apply (Held (at_target w ++ [t]) (fun x Ix => in_or_app _ _ _ (or_introl Ix)) Old j oid c' L).
  - destruct (App t Fr TW) as [A1 A2].
    assert (Cases : forall j x c', lock x (w_m w' j) = Some c' -> (j = i /\ x = oid /\ c' = io) \/ lock x (w_m w j) = Some c').
    { intros j x c' L. destruct (Nat.eq_dec j i) as [->|N]; [|right; now rewrite Oth in L by assumption].
      rewrite Lk in L. destruct (Nat.eqb_spec x oid) as [->|Nx]; [left; inv L; auto|right; exact L]. }
    assert (Fresh : forall j x c', lock x (w_m w j) = Some c' -> conn_name c' = conn_name io -> False).
    { intros j x c' L N. apply (ag_held _ A) in L as (t' & It' & Sc'). apply Fr. rewrite (name_same _ _ Sc), <- N, <- (name_same _ _ Sc').
      now apply in_map. }
    constructor; rewrite ?ET; [assumption|exact A1|exact A2| |].
    + intros j x c' L. apply Cases in L as [(-> & -> & ->)|L].
      * exists t. split; [apply in_or_app; right; left; reflexivity|assumption].
      * apply (ag_held _ A) in L as (t' & It' & Sc'). exists t'. split; [apply in_or_app; now left|assumption].
    + intros j x c1 j' x' c2 L1 L2 N. apply Cases in L1 as [(-> & -> & ->)|L1]; apply Cases in L2 as [(-> & -> & ->)|L2].
      * auto.
      * exfalso. eapply Fresh; [exact L2|now symmetry].
      * exfalso. eapply Fresh; [exact L1|exact N].
      * eapply (ag_inj _ A); eauto.
  - assert (Cases : forall j x c', lock x (w_m w' j) = Some c' -> lock x (w_m w j) = Some c' /\ ~ (j = i /\ x = oid)).
    { intros j x c' L. destruct (Nat.eq_dec j i) as [->|N]; [|rewrite Oth in L by assumption; split; [assumption|tauto]].
      rewrite Lk in L. destruct (Nat.eqb_spec x oid) as [->|Nx]; [discriminate|split; [assumption|tauto]]. }
    constructor; rewrite ?ET; [assumption|..].
    + apply Forall_forall. intros x Ix. apply filter_In in Ix as [Ix _]. exact (proj1 (Forall_forall _ _) (ag_wf _ A) _ Ix).
    + apply nodup_filter. exact (ag_nodup _ A).
    + intros j x c' L. apply Cases in L as [L Ne]. pose proof L as L0. apply (ag_held _ A) in L0 as (t' & It' & Sc').
      exists t'. split; [|assumption]. apply filter_In. split; [assumption|]. apply negb_true_iff. destruct (name_eqb _ _) eqn:X; [|reflexivity].
      exfalso. apply Ne. apply name_eqb_iff in X. eapply (ag_inj _ A); [exact L|exact Lc|]. rewrite <- (name_same _ _ Sc'). exact X.
    + intros j x c1 j' x' c2 L1 L2 N. apply Cases in L1 as [L1 _]. apply Cases in L2 as [L2 _]. eapply (ag_inj _ A); eauto.
Qed.

Lemma agree_start inc : agree (target_start inc).
Proof.
  constructor; cbn.
  - intros j. apply inv_new.
  - constructor.
  - constructor.
  - intros i oid c L. discriminate.
  - intros i oid c i' oid' c' L. discriminate.
Qed.
Lemma agree_run h ops : forall w, agree w -> Forall (fun x => to_target (snd x)) ops -> agree (run_calls h ops w).
Proof.
  induction ops as [|[i op] ops IH]; intros w A U; cbn [run_calls]; [assumption|]. inv U. apply IH; [|assumption].
  destruct (call_world h i op w) as [o w'] eqn:E. eapply agree_step; eauto.
Qed.


(** ** What the theorems say *)
Lemma names_unique T t t' : NoDup (map tc_name T) -> In t T -> In t' T -> tc_name t = tc_name t' -> t = t'.
Proof.
  induction T as [|x T IH]; intros N I I' E; [contradiction|]. inv N. destruct I as [->|I], I' as [->|I']; auto.
  - exfalso. apply H1. rewrite E. now apply in_map.
  - exfalso. apply H1. rewrite <- E. now apply in_map.
Qed.
Lemma held_once h inc ops w : Forall (fun x => to_target (snd x)) ops -> w = run_calls h ops (target_start inc) ->
  forall i oid c, lock oid (w_m w i) = Some c ->
  exists t, In t (at_target w) /\ same_connection c t
    /\ (forall t', In t' (at_target w) -> tc_name t' = tc_name t -> t' = t)
    /\ forall i' oid' c', lock oid' (w_m w i') = Some c' -> same_connection c' t -> i' = i /\ oid' = oid.
Proof.
  intros U -> i oid c L. pose proof (agree_run h ops _ (agree_start inc) U) as A.
  destruct (ag_held _ A _ _ _ L) as (t & It & Sc). exists t. split; [assumption|]. split; [assumption|]. split.
  - intros t' It' E. eapply names_unique; [exact (ag_nodup _ A)|..]; assumption.
  - intros i' oid' c' L' Sc'. eapply (ag_inj _ A); [exact L'|exact L|]. rewrite <- (name_same _ _ Sc), <- (name_same _ _ Sc'). reflexivity.
Qed.
Lemma close_both h inc ops w : Forall (fun x => to_target (snd x)) ops -> w = run_calls h ops (target_start inc) ->
  forall use8 handle pol i oid c, is_u32 handle -> policy_wf pol -> lock oid (w_m w i) = Some c ->
  exists w' t, call_world h i (CClose use8 (served handle (target pol)) oid) w = (Ok None, w')
    /\ same_connection c t /\ In t (at_target w)
    /\ (forall x, In x (at_target w') <-> In x (at_target w) /\ x <> t)
    /\ (forall x, lock x (w_m w' i) = if Nat.eqb x oid then None else lock x (w_m w i)) /\ forall j, j <> i -> w_m w' j = w_m w j.
Proof.
  intros U -> use8 handle pol i oid c H PW L. pose proof (agree_run h ops _ (agree_start inc) U) as A.
  set (w := run_calls h ops (target_start inc)) in *.
  destruct (call_world h i (CClose use8 (served handle (target pol)) oid) w) as [o w'] eqn:E.
  destruct (world_stepped h i (CClose use8 (served handle (target pol)) oid) w o w' A (ex_intro _ handle (ex_intro _ pol (conj H (conj PW eq_refl)))) E) as (S & Oth & _).
  destruct S as [ET K X|? ? ? X|? ? ? ? ? ? ? X|? ? ? ? ? ? ? ? ? X|use8' si' oid' c0 t X Lc It Sc -> ET Lk]; try discriminate X.
  { rewrite (X _ _ _ eq_refl) in L. discriminate. }
  inv X. rewrite L in Lc. inv Lc. exists w', t. split; [reflexivity|]. split; [assumption|]. split; [assumption|]. split; [|split; assumption].
  intros x. rewrite ET, filter_In. split.
  - intros [Ix N]. split; [assumption|]. intros ->. rewrite (name_same _ _ Sc) in N.
    assert (R : name_eqb (conn_name c0) (conn_name c0) = true) by (now apply name_eqb_iff). rewrite R in N. discriminate.
  - intros [Ix N]. split; [assumption|]. apply negb_true_iff. destruct (name_eqb _ _) eqn:Q; [|reflexivity]. exfalso. apply N.
    apply name_eqb_iff in Q. eapply names_unique; [exact (ag_nodup _ A)|assumption..|]. rewrite Q. symmetry. now apply name_same.
Qed.

Lemma orphans_stay h i op w o w' t : agree w -> to_target op -> call_world h i op w = (o, w') -> orphan w t -> orphan w' t.
Proof.
  intros A U E [It Or]. destruct (world_stepped h i op w o w' A U E) as (S & Oth & _).
  assert (Old : forall (H : forall x c', lock x (w_m w' i) = Some c' -> exists c, lock x (w_m w i) = Some c /\ io_static c' = io_static c),
    forall j oid c, lock oid (w_m w' j) = Some c -> ~ same_connection c t).
  { intros H j oid c' L Sc. destruct (Nat.eq_dec j i) as [->|N]; [|rewrite Oth in L by assumption; exact (Or _ _ _ L Sc)].
    apply H in L as (c & L & Es). apply (Or _ _ _ L). now apply (static_same _ _ _ (eq_sym Es)). }
  destruct S as [ET K _|rounds ending env -> ET K|t0 use8 si host env large c -> ET Fr TW K _|t0 oid io use8 si host env large c -> ET Fr TW -> Sc Dead Lk
    |use8 si oid c t0 -> Lc It0 Sc -> ET Lk]; split; rewrite ?ET.
  - assumption.
  - apply Old. intros x c'. now apply keeps_some.
  - assumption.
  - now apply Old.
  - apply in_or_app. now left.
  - apply Old. intros x c'. now apply keeps_some.
  - apply in_or_app. now left.
  - intros j x c' L Sc'. destruct (Nat.eq_dec j i) as [->|N]; [|rewrite Oth in L by assumption; exact (Or _ _ _ L Sc')].
    rewrite Lk in L. destruct (Nat.eqb_spec x oid) as [->|Nx]; [|exact (Or _ _ _ L Sc')]. inv L.
    apply Fr. rewrite (name_same _ _ Sc), <- (name_same _ _ Sc'). now apply in_map.
  - apply filter_In. split; [assumption|]. apply negb_true_iff. destruct (name_eqb _ _) eqn:Q; [|reflexivity]. exfalso.
    apply name_eqb_iff in Q. apply (Or _ _ _ Lc). rewrite (names_unique _ t t0 (ag_nodup _ A) It It0); [assumption|].
    rewrite Q. symmetry. now apply name_same.
  - intros j x c' L Sc'. destruct (Nat.eq_dec j i) as [->|N]; [|rewrite Oth in L by assumption; exact (Or _ _ _ L Sc')].
    rewrite Lk in L. destruct (Nat.eqb_spec x oid) as [->|Nx]; [discriminate|exact (Or _ _ _ L Sc')].
Qed.
Lemma orphans_stay_run h ops : forall w t, agree w -> Forall (fun x => to_target (snd x)) ops -> orphan w t -> orphan (run_calls h ops w) t.
Proof.
  induction ops as [|[i op] ops IH]; intros w t A U Or; cbn [run_calls]; [assumption|]. inv U.
  destruct (call_world h i op w) as [o w'] eqn:E. apply IH; [eapply agree_step; eauto|assumption|]. eapply orphans_stay; eauto.
Qed.
Lemma held_dec g m t : mgr_inv g m -> (exists oid c, lock oid m = Some c /\ same_connection c t) \/ ~ exists oid c, lock oid m = Some c /\ same_connection c t.
Proof.
  intros I. assert (D : forall c, same_connection c t \/ ~ same_connection c t).
  { intros c. unfold same_connection.
    assert (Q : forall P Q : Prop, P \/ ~ P -> Q \/ ~ Q -> (P /\ Q) \/ ~ (P /\ Q)) by tauto.
    repeat apply Q; try (destruct (Z.eq_dec (io_o2tId c) (tc_o2t t)); tauto).
    all: match goal with |- ?a = ?b \/ _ => assert (X : {a = b} + {a <> b}) by (repeat decide equality); destruct X; tauto end. }
  assert (F : forall l : list (Z * iocon), (exists kc, In kc l /\ same_connection (snd kc) t) \/ ~ exists kc, In kc l /\ same_connection (snd kc) t).
  { induction l as [|x l IH]; [right; intros (? & [] & _)|]. destruct (D (snd x)) as [Y|Nx]; [left; exists x; cbn; auto|].
    destruct IH as [(kc & J & S)|N]; [left; exists kc; cbn; auto|]. right. intros (kc & [->|J] & S); [contradiction|]. apply N. eauto. }
  destruct (F (m_map m)) as [([k c] & J & S)|N].
  - left. exists (io_oid c), c. split; [eapply lock_some; eauto|assumption].
  - right. intros (oid & c & L & S). apply N. apply lock_in in L as [_ [k K]]. exists (k, c). auto.
Qed.

Lemma orphan_comes h i op w o w' t : agree w -> to_target op -> call_world h i op w = (o, w') -> orphan w' t ->
  orphan w t
  \/ (exists use8 si host env large c, op = COpen use8 si host env large c /\ at_target w' = at_target w ++ [t]
       /\ (forall oid, o = Ok (Some oid) -> lock oid (w_m w' i) = None))
  \/ (exists rounds ending env oid c, op = CHandle rounds ending env /\ at_target w' = at_target w
       /\ lock oid (w_m w i) = Some c /\ same_connection c t /\ lock oid (w_m w' i) = None).
Proof.
  intros A U E [It Or]. destruct (world_stepped h i op w o w' A U E) as (S & Oth & _).
  assert (Ot : forall j oid c, j <> i -> lock oid (w_m w j) = Some c -> ~ same_connection c t).
  { intros j oid c N L. rewrite <- Oth in L by assumption. exact (Or _ _ _ L). }
  assert (Kp : keeps (w_m w i) (w_m w' i) -> forall j oid c, lock oid (w_m w j) = Some c -> ~ same_connection c t).
  { intros K j oid c L Sc. destruct (Nat.eq_dec j i) as [->|N]; [|exact (Ot _ _ _ N L Sc)].
    destruct (keeps_back _ _ _ _ K L) as (c' & L' & Es). apply (Or _ _ _ L'). now apply (static_same _ _ _ Es). }
  destruct S as [ET K _|rounds ending env -> ET K|t0 use8 si host env large c -> ET Fr TW K Dd|t0 oid io use8 si host env large c -> ET Fr TW -> Sc Dead Lk
    |use8 si oid c t0 -> Lc It0 Sc -> ET Lk]; rewrite ET in It.
  - left. split; [assumption|now apply Kp].
  - destruct (held_dec _ _ t (ag_inv _ A i)) as [(oid & c & L & Sc)|N].
    + right; right. exists rounds, ending, env, oid, c. split; [reflexivity|]. split; [assumption|]. split; [assumption|]. split; [assumption|].
      destruct (lock oid (w_m w' i)) as [c'|] eqn:L'; [|reflexivity].
      exfalso. destruct (K _ _ L') as (c0 & L0 & Es). rewrite L in L0. inv L0. apply (Or _ _ _ L'). now apply (static_same _ _ _ Es).
    + left. split; [assumption|]. intros j x c L. destruct (Nat.eq_dec j i) as [->|Nj]; [|exact (Ot _ _ _ Nj L)].
      intros Sc. apply N. eauto.
  - apply in_app_or in It as [It|[->|[]]].
    + left. split; [assumption|now apply Kp].
    + right; left. exists use8, si, host, env, large, c. auto.
  - apply in_app_or in It as [It|[->|[]]].
    + left. split; [assumption|]. intros j x c' L Sc'. destruct (Nat.eq_dec j i) as [->|N]; [|exact (Ot _ _ _ N L Sc')].
      destruct (Nat.eqb_spec x oid) as [->|Nx]; [congruence|]. apply (Or i x c'); [|assumption]. rewrite Lk.
      destruct (Nat.eqb_spec x oid); [contradiction|assumption].
    + exfalso. apply (Or i oid io); [|assumption]. rewrite Lk, Nat.eqb_refl. reflexivity.
  - apply filter_In in It as [It Q]. left. split; [assumption|]. intros j x c' L Sc'. destruct (Nat.eq_dec j i) as [->|N]; [|exact (Ot _ _ _ N L Sc')].
    destruct (Nat.eqb_spec x oid) as [->|Nx].
    + rewrite L in Lc. inv Lc. rewrite (name_same _ _ Sc') in Q.
      assert (R : name_eqb (conn_name c) (conn_name c) = true) by (now apply name_eqb_iff). rewrite R in Q. discriminate.
    + apply (Or i x c'); [|assumption]. rewrite Lk. destruct (Nat.eqb_spec x oid); [contradiction|assumption].
Qed.
(** ** Witnesses *)
Definition gives (t2o : Z) : policy := fun _ _ => Some (mkGrant 0x0A0B0C0D t2o 10000 10000 []).
Lemma gives_wf t2o : is_u32 t2o -> policy_wf (gives t2o).
Proof.
  intros H T c g E. inv E. unfold grant_wf, is_u32 in *; cbn [gr_o2t gr_t2o gr_o2tApi gr_t2oApi gr_reply].
  repeat match goal with |- _ /\ _ => split end; try lia; try apply is_bytes_nil; try reflexivity; discriminate.
Qed.
(** T->O multicast, so that the target chooses the id. *)
Definition class1m : cparams := mkCParams 0 0 0 0 0 342 0x12345678 0 10000 0x4204 10000 0x2204 1 0 0 0 [32; 4; 36; 151; 44; 150; 44; 100].
Definition opens (t2o : Z) (c : cparams) (udp : failing) : call (list tconn * trace) :=
  COpen false (served 1 (target (gives t2o))) "10.0.0.1" (mkFoEnv udp None 0 (fun _ => Some 0x0100007F)) false c.
Definition closes (oid : nat) : call (list tconn * trace) := CClose false (served 1 (target (gives 7))) oid.
Lemma class1_good : cparams_wf (class1 1 0).
Proof. unfold class1, cparams_wf, is_u8, is_u16, is_u32; cbn; repeat match goal with |- _ /\ _ => split end; try lia; repeat constructor; lia. Qed.
Lemma class1m_good : cparams_wf class1m.
Proof. unfold class1m, cparams_wf, is_u8, is_u16, is_u32; cbn; repeat match goal with |- _ /\ _ => split end; try lia; repeat constructor; lia. Qed.
Lemma opens_to t2o c r : is_u32 t2o -> cparams_wf c -> zlen (c_path c) <= 50000 -> to_target (opens t2o c r).
Proof. intros. split; [assumption|]. split; [assumption|]. exists 1, (gives t2o). split; [unfold is_u32; lia|]. split; [now apply gives_wf|reflexivity]. Qed.
Lemma closes_to oid : to_target (closes oid).
Proof. exists 1, (gives 7). split; [unfold is_u32; lia|]. split; [apply gives_wf; unfold is_u32; lia|reflexivity]. Qed.

Definition aliased : list (nat * call (list tconn * trace)) := [(0%nat, opens 0x10007 class1m None); (0%nat, opens 0x20007 class1m None)].
Definition silent : list (nat * call (list tconn * trace)) := [(0%nat, opens 7 (class1 1 0) None); (0%nat, CHandle [] SelQuiet (at_ms 70))].
(** 24 is EMFILE: the process has no descriptors left. *)
Definition no_socket : list (nat * call (list tconn * trace)) := [(0%nat, opens 7 (class1 1 0) (Some 24))].
Definition ordinary : list (nat * call (list tconn * trace)) :=
  [(0%nat, opens 7 (class1 1 0) None); (1%nat, opens 0x10007 class1m None); (0%nat, CHandle [] SelQuiet (at_ms 5)); (0%nat, opens 7 (class1 1 0) None);
   (1%nat, closes 1)].
Ltac all_to := repeat first [apply Forall_nil | apply Forall_cons; [cbn [snd]; first [exact I | apply closes_to
  | apply opens_to; [unfold is_u32; lia|first [exact class1_good|exact class1m_good]|vm_compute; discriminate]]|]].
Lemma aliased_to : Forall (fun x => to_target (snd x)) aliased. Proof. unfold aliased. all_to. Qed.
Lemma silent_to : Forall (fun x => to_target (snd x)) silent. Proof. unfold silent. all_to. Qed.
Lemma no_socket_to : Forall (fun x => to_target (snd x)) no_socket. Proof. unfold no_socket. all_to. Qed.
Lemma ordinary_to : Forall (fun x => to_target (snd x)) ordinary. Proof. unfold ordinary. all_to. Qed.

Lemma orphan_by w t : In t (at_target w) -> (forall i, m_map (w_m w (Datatypes.S i)) = []) ->
  forallb (fun kc => negb (name_eqb (tc_name t) (conn_name (snd kc)))) (m_map (w_m w 0%nat)) = true -> orphan w t.
Proof.
  intros It E F. split; [assumption|]. intros i oid c L Sc. apply lock_in in L as [_ [k K]]. destruct i as [|i].
  - pose proof (proj1 (forallb_forall _ _) F _ K) as X. cbn [snd] in X. rewrite (name_same _ _ Sc) in X.
    assert (R : name_eqb (conn_name c) (conn_name c) = true) by (now apply name_eqb_iff). rewrite R in X. discriminate.
  - rewrite E in K. contradiction.
Qed.
Definition wit (n : Z) (o2t t2o : Z) : tconn := mkTConn n 342 0x12345678 o2t t2o [32; 4; 36; 151; 44; 150; 44; 100].
(** The second connection of a target whose ids agree modulo 65536 with the first's; a connection that timed out at
    the originator; a connection for which the originator had no socket left. *)
Ltac orphan_now := apply orphan_by; [vm_compute; auto|intros i; vm_compute; reflexivity|vm_compute; reflexivity].
Lemma aliased_orphan : exists a b oid w2 t, to_target a /\ to_target b
  /\ call_world strict 0 b (run_calls strict [(0%nat, a)] (target_start inc0)) = (Ok (Some oid), w2)
  /\ at_target w2 = at_target (run_calls strict [(0%nat, a)] (target_start inc0)) ++ [t] /\ lock oid (w_m w2 0%nat) = None /\ orphan w2 t.
Proof.
  exists (opens 0x10007 class1m None), (opens 0x20007 class1m None), 1%nat.
  exists (snd (call_world strict 0 (opens 0x20007 class1m None) (run_calls strict [(0%nat, opens 0x10007 class1m None)] (target_start inc0)))).
  exists (wit 2 0x0A0B0C0D 0x20007). pose proof aliased_to as A. inv A. inv H2.
  split; [assumption|]. split; [assumption|]. split; [vm_compute; reflexivity|]. split; [vm_compute; reflexivity|]. split; [vm_compute; reflexivity|].
  orphan_now.
Qed.
Lemma silent_orphan : exists a env w1 w2 t, to_target a
  /\ call_world strict 0 a (target_start inc0) = (Ok (Some 0%nat), w1) /\ lock 0 (w_m w1 0%nat) <> None /\ at_target w1 = [t]
  /\ call_world strict 0 (CHandle [] SelQuiet env) w1 = (Ok None, w2) /\ lock 0 (w_m w2 0%nat) = None /\ orphan w2 t.
Proof.
  exists (opens 7 (class1 1 0) None), (at_ms 70), (run_calls strict [(0%nat, opens 7 (class1 1 0) None)] (target_start inc0)), (run_calls strict silent (target_start inc0)).
  exists (wit 1 0x0A0B0C0D 0x10001). pose proof silent_to as A. inv A. split; [assumption|]. split; [vm_compute; reflexivity|].
  split; [vm_compute; discriminate|]. split; [vm_compute; reflexivity|]. split; [vm_compute; reflexivity|]. split; [vm_compute; reflexivity|]. orphan_now.
Qed.
Lemma thrown_orphan : exists a e w1 t, to_target a /\ call_world strict 0 a (target_start inc0) = (Throw (SystemError e), w1) /\ at_target w1 = [t] /\ orphan w1 t.
Proof.
  exists (opens 7 (class1 1 0) (Some 24)), 24, (run_calls strict no_socket (target_start inc0)), (wit 1 0x0A0B0C0D 0x10001).
  pose proof no_socket_to as A. inv A. split; [assumption|]. split; [vm_compute; reflexivity|]. split; [vm_compute; reflexivity|]. orphan_now.
Qed.
Lemma clean_cons h i op ops w : clean_call i op (fst (call_world h i op w)) w (snd (call_world h i op w)) ->
  clean_run h ops (snd (call_world h i op w)) -> clean_run h ((i, op) :: ops) w.
Proof. cbn [clean_run]. destruct (call_world h i op w) as [o w']. auto. Qed.
Lemma ordinary_clean : clean_run strict ordinary (target_start inc0).
Proof.
  unfold ordinary. apply clean_cons; [right; exists 0%nat; split; vm_compute; [reflexivity|discriminate]|].
  apply clean_cons; [right; exists 1%nat; split; vm_compute; [reflexivity|discriminate]|].
  apply clean_cons; [intros [|oid]; vm_compute; congruence|].
  apply clean_cons; [right; exists 2%nat; split; vm_compute; [reflexivity|discriminate]|].
  apply clean_cons; [exact I|exact I].
Qed.
Lemma run_stay h inc before after t : Forall (fun x => to_target (snd x)) (before ++ after) ->
  orphan (run_calls h before (target_start inc)) t -> orphan (run_calls h (before ++ after) (target_start inc)) t.
Proof.
  intros U Or. apply Forall_app in U as [U1 U2]. rewrite run_calls_app. apply orphans_stay_run; try assumption. apply agree_run; [apply agree_start|assumption].
Qed.
Lemma run_comes h inc ops i op t : Forall (fun x => to_target (snd x)) (ops ++ [(i, op)]) ->
  forall w o w', w = run_calls h ops (target_start inc) -> call_world h i op w = (o, w') -> ~ orphan w t -> orphan w' t ->
  (exists use8 si host env large c, op = COpen use8 si host env large c /\ at_target w' = at_target w ++ [t]
       /\ (forall oid, o = Ok (Some oid) -> lock oid (w_m w' i) = None))
  \/ (exists rounds ending env oid c, op = CHandle rounds ending env /\ at_target w' = at_target w
       /\ lock oid (w_m w i) = Some c /\ same_connection c t /\ lock oid (w_m w' i) = None).
Proof.
  intros U w o w' -> E N Or. apply Forall_app in U as [U1 U2]. inv U2.
  destruct (orphan_comes h i op _ o w' t (agree_run h ops _ (agree_start inc) U1) H1 E Or) as [X|X]; [contradiction|exact X].
Qed.
Definition all_held (w : world (list tconn * trace)) : Prop :=
  forall t, In t (at_target w) -> exists i oid c, lock oid (w_m w i) = Some c /\ same_connection c t.
Lemma held_step h i op w o w' : agree w -> to_target op -> call_world h i op w = (o, w') -> clean_call i op o w w' -> all_held w -> all_held w'.
Proof.
  intros A U E C H t It. destruct (world_stepped h i op w o w' A U E) as (S & Oth & _).
  assert (Kp : keeps (w_m w i) (w_m w' i) -> In t (at_target w) -> exists i oid c, lock oid (w_m w' i) = Some c /\ same_connection c t).
  { intros K J. destruct (H t J) as (j & oid & c & L & Sc). destruct (Nat.eq_dec j i) as [->|N].
    - destruct (keeps_back _ _ _ _ K L) as (c' & L' & Es). exists i, oid, c'. split; [assumption|]. now apply (static_same _ _ _ Es).
    - exists j, oid, c. rewrite Oth by assumption. auto. }
  destruct S as [ET K _|rounds ending env -> ET K|t0 use8 si host env large c -> ET Fr TW K Dd|t0 oid io use8 si host env large c -> ET Fr TW -> Sc Dead Lk
    |use8 si oid c t0 -> Lc It0 Sc -> ET Lk]; pose proof It as J; rewrite ET in J.
  - now apply Kp.
  - destruct (H t J) as (j & oid & c & L & Sc). destruct (Nat.eq_dec j i) as [->|N]; [|exists j, oid, c; rewrite Oth by assumption; auto].
    cbn [clean_call] in C. destruct (lock oid (w_m w' i)) as [c'|] eqn:L'; [|exfalso; apply (C oid); congruence].
    destruct (K _ _ L') as (c0 & L0 & Es). rewrite L in L0. inv L0. exists i, oid, c'. split; [assumption|]. now apply (static_same _ _ _ Es).
  - exfalso. cbn [clean_call] in C. destruct C as [X|(oid & -> & X)]; [|exact (X (Dd _ eq_refl))].
    rewrite X in ET. apply (f_equal (@List.length tconn)) in ET. rewrite app_length in ET. cbn in ET. lia.
  - apply in_app_or in J as [J|[->|[]]].
    + destruct (H t J) as (j & x & c' & L & Sc'). exists j, x, c'. split; [|assumption]. destruct (Nat.eq_dec j i) as [->|N]; [|now rewrite Oth by assumption].
      rewrite Lk. destruct (Nat.eqb_spec x oid) as [->|Nx]; [congruence|assumption].
    + exists i, oid, io. split; [|assumption]. rewrite Lk, Nat.eqb_refl. reflexivity.
  - apply filter_In in J as [J Q]. destruct (H t J) as (j & x & c' & L & Sc'). exists j, x, c'. split; [|assumption].
    destruct (Nat.eq_dec j i) as [->|N]; [|now rewrite Oth by assumption]. rewrite Lk. destruct (Nat.eqb_spec x oid) as [->|Nx]; [|assumption].
    exfalso. rewrite L in Lc. inv Lc. rewrite (name_same _ _ Sc') in Q.
    assert (R : name_eqb (conn_name c) (conn_name c) = true) by (now apply name_eqb_iff). rewrite R in Q. discriminate.
Qed.
Lemma held_run h ops : forall w, agree w -> Forall (fun x => to_target (snd x)) ops -> clean_run h ops w -> all_held w -> all_held (run_calls h ops w).
Proof.
  induction ops as [|[i op] ops IH]; intros w A U C N; cbn [run_calls clean_run] in *; [assumption|]. inv U.
  destruct (call_world h i op w) as [o w'] eqn:E. destruct C as [C1 C2]. cbn [snd] in *. apply IH; try assumption; [eapply agree_step; eauto|].
  eapply held_step; eauto.
Qed.
Lemma run_clean h inc ops w : Forall (fun x => to_target (snd x)) ops -> clean_run h ops (target_start inc) -> w = run_calls h ops (target_start inc) ->
  forall t, In t (at_target w) -> exists i oid c, lock oid (w_m w i) = Some c /\ same_connection c t.
Proof. intros U C ->. apply held_run; try assumption; [apply agree_start|]. intros t []. Qed.
