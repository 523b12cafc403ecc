(** Proofs about the example of implicit messaging. *)
From Verif Require Import Base MBuffer SBuffer PBase PBuffer MEip SEip PEip PRouter MSocket MConnReq SConnReq PConnReq MConn SConn
  PConnOpen PConnMap PIo PConnCall PConnCall2 PConnHist PConnTop PLife SObj PObj STarget PTarget MFile MYaskawa MIdent MParam MFault
  MExample SParam SExample.
Ltac Zify.zify_post_hook ::= Z.div_mod_to_equations.

Notation tworld := (world (list tconn * trace)).

Lemma example_wf : cparams_wf example_params /\ zlen (c_path example_params) <= 50000.
Proof.
  split; [|discriminate]. unfold cparams_wf, example_params; cbn [c_priorityTimeTick c_timeoutTicks c_o2tId c_t2oId c_serial c_vendor
    c_origSerial c_multiplier c_o2tRPI c_o2tParams c_t2oRPI c_t2oParams c_trigger c_pathSize c_path].
  change example_word with 18464. change (Z.lor 0 1) with 1.
  repeat match goal with |- _ /\ _ => split end; try (unfold is_u8, is_u16, is_u32; lia).
  rewrite !is_bytes_cons. repeat match goal with |- _ /\ _ => split end; try (unfold is_u8; lia). apply is_bytes_nil.
Qed.

(** ** A connection of the example *)
Definition example_conn (out : bytes) (id : Z) (c : iocon) : Prop :=
  io_out c = out /\ io_trigger c = 1 /\ io_o2tRTF c = true /\ io_t2oRTF c = false /\ io_o2tFixed c = true /\ io_t2oFixed c = true
  /\ io_o2tSize c = 32 /\ io_t2oSize c = 32 /\ io_o2tId c = id
  /\ exists k, io_o2tSeq c = k mod 2 ^ 32 /\ io_seqCount c = k mod 65536.

Lemma conn_receive h id c data c' ev : example_conn (zeros 32) id c -> io_receive h c data = Ok (c', ev) ->
  example_conn (zeros 32) id c' /\ Forall (example_event id) ev.
Proof.
  intros G E. pose proof G as (O & Tr & R1 & R2 & F1 & F2 & S1 & S2 & Id & K). unfold io_receive in E. rewrite R2, F2 in E. cbn [bind] in E.
  destruct (has_seq (io_trigger c)).
  2:{ cbn [bind] in E. destruct (negb (buf_valid _)); [discriminate|]. rewrite S2 in E. cbn [andb] in E.
      destruct (Z.eqb_spec (zlen (skipn (bpos (buf_of data)) data)) 32); cbn [negb] in E; inv E; (split; [exact G|]).
      - constructor; [|constructor]. split; auto.
      - constructor. }
  destruct (get_u16 h (buf_of data)) as [[seq b]|?|?|]; cbn [bind] in E; try discriminate.
  destruct (negb (buf_valid b)); [discriminate|]. rewrite S2 in E. cbn [andb] in E.
  destruct (Z.eqb_spec (zlen (skipn (bpos b) data)) 32); cbn [negb] in E; inv E; (split; [exact G|]).
  - constructor; [|constructor]. split; auto.
  - constructor.
Qed.
Lemma conn_tick now sr id c : example_conn (zeros 32) id c ->
  let '(res, c', ev) := io_tick now (fun d => d) sr c in example_conn (zeros 32) id c' /\ Forall (example_event id) ev.
Proof.
  intros (O & Tr & R1 & R2 & F1 & F2 & S1 & S2 & Id & k & K1 & K2). unfold io_tick. cbv zeta.
  destruct (u32 _ <? _).
  { split; [|repeat constructor]. repeat (split; [assumption|]). exists k. auto. }
  destruct (io_o2tAPI c <=? _).
  2:{ split; [|constructor]. repeat (split; [assumption|]). exists k. auto. }
  rewrite F1, O, S1. cbn [andb]. change (zlen (zeros 32) =? 32) with true. cbn [negb].
  rewrite Tr. change (has_seq 1) with true. cbn iota.
  assert (E1 : u32 (io_o2tSeq c + 1) = (k + 1) mod 2 ^ 32) by (rewrite K1; unfold u32; change (2 ^ 32) with 4294967296; lia).
  assert (E2 : u16 (io_seqCount c + 1) = (k + 1) mod 65536) by (rewrite K2; unfold u16; lia).
  split.
  - split; [reflexivity|]. repeat (split; [assumption|]). exists (k + 1). auto.
  - constructor; [|constructor]. exists (k + 1). rewrite E1, E2.
    pose proof (packet_bytes c (spec_of c) (k + 1) (zeros 32) ((k + 1) mod 65536) ltac:(discriminate) eq_refl eq_refl) as P.
    rewrite Tr in P. change (has_seq 1) with true in P. cbv zeta in P. cbn iota in P. rewrite P. unfold io_packet, spec_of; cbn [sp_seq sp_o2tHead sp_o2tId].
    rewrite Tr, R1, Id. change (1 mod 4 =? 0) with false. cbn [negb].
    unfold example_packet. change (zeros 32) with (repeat 0 32).
    replace (zlen (le 2 ((k + 1) mod 65536) ++ [1; 0; 0; 0] ++ repeat 0 32) mod 65536) with 38; [reflexivity|].
    rewrite !zlen_app. unfold zlen at 1. rewrite le_length. reflexivity.
Qed.

(** ** The manager *)
Definition example_mgr (id : Z) (m : mgr) : Prop :=
  Forall (fun e => example_conn (zeros 32) id (snd e)) (m_map m) /\ Forall (example_event id) (m_log m).

Lemma update_forall (P : iocon -> Prop) k c l : P c -> Forall (fun e => P (snd e)) l -> Forall (fun e => P (snd e)) (map_update k c l).
Proof.
  intros C F. unfold map_update. induction l as [|[k' c'] l IH]; cbn [map]; [constructor|]. inv F.
  constructor; [|auto]. cbn [fst]. destruct (_ =? _); assumption.
Qed.
Lemma mgr_readable id h d m : example_mgr id m -> example_mgr id (snd (on_readable h d m)).
Proof.
  intros [A B]. unfold on_readable. destruct (fst (udp_receive _ _)) as [data|?|?|]; try (split; assumption).
  destruct (bind (finished (cp_expand h data)) _) as [m'|?|?|] eqn:E; try (split; assumption). cbn [snd].
  destruct (finished (cp_expand h data)) as [items|?|?|]; cbn [bind] in E; try discriminate.
  destruct (nth_error items 0) as [i0|]; [|discriminate].
  destruct (get_u32 h (buf_of (it_data i0))) as [[i b]|?|?|]; cbn [bind] in E; try discriminate.
  destruct (MConn.map_find (u16 i) (m_map m)) as [c|] eqn:Fd; [|inv E; split; assumption].
  destruct (nth_error items 1) as [i1|]; [|discriminate].
  destruct (io_receive h c (it_data i1)) as [[c' ev]|?|?|] eqn:Er; cbn [bind] in E; try discriminate. inv E.
  assert (Gc : example_conn (zeros 32) id c).
  { unfold MConn.map_find in Fd. destruct (find _ (m_map m)) as [[k' c0]|] eqn:F; [|discriminate]. cbn in Fd. inv Fd.
    apply find_some in F as [F _]. exact (proj1 (Forall_forall _ _) A _ F). }
  destruct (conn_receive h id c _ c' ev Gc Er) as [Gc' Ge].
  split; cbn [add_log set_map m_map m_log]; [now apply update_forall|]. apply Forall_app. auto.
Qed.
Lemma mgr_dispatch id h n : forall i ready m, example_mgr id m -> example_mgr id (snd (dispatch (fun _ => on_readable h) i n ready m)).
Proof.
  induction n as [|n IH]; intros i ready m G; [exact G|]. destruct ready as [|[d|] r]; cbn [dispatch]; [exact G| |now apply IH].
  unfold st_bind. pose proof (mgr_readable id h d m G) as G1. destruct (on_readable h d m) as [o m1]. cbn [snd] in G1.
  destruct o; try exact G1. now apply IH.
Qed.
Lemma mgr_rounds id h n ending rounds : forall m, example_mgr id m ->
  example_mgr id (snd (select_rounds (fun _ => on_readable h) n rounds ending m)).
Proof.
  induction rounds as [|r rs IH]; intros m G; cbn [select_rounds]; [destruct ending; exact G|].
  unfold st_bind. pose proof (mgr_dispatch id h n 0%nat (sr_ready r) m G) as G1.
  destruct (dispatch _ _ _ _ m) as [o m1]. cbn [snd] in G1. destruct o; try exact G1. now apply IH.
Qed.
Lemma mgr_ticks id env (l : list (Z * iocon)) : (forall o d, t_hook env o d = d) -> Forall (fun e => example_conn (zeros 32) id (snd e)) l ->
  let '(res, l', ev) := ticks env l in
  Forall (fun e => example_conn (zeros 32) id (snd e)) l' /\ Forall (example_event id) ev.
Proof.
  intros Hk. induction l as [|[k c] l IH]; intros F; cbn [ticks]; [split; constructor|]. inv F. cbn [snd] in *.
  assert (X : let '(res, c', ev) := io_tick (t_now env (io_oid c)) (t_hook env (io_oid c)) (t_send env (io_oid c)) c in
    example_conn (zeros 32) id c' /\ Forall (example_event id) ev).
  { assert (Y : io_tick (t_now env (io_oid c)) (t_hook env (io_oid c)) (t_send env (io_oid c)) c
              = io_tick (t_now env (io_oid c)) (fun d => d) (t_send env (io_oid c)) c) by (unfold io_tick; now rewrite !Hk).
    rewrite Y. now apply conn_tick. }
  destruct (io_tick _ _ _ c) as [[res c'] ev]. destruct X as [X1 X2]. specialize (IH H2).
  destruct res; [|split; [constructor; assumption|assumption]..].
  destruct (ticks env l) as [[res' l'] ev']. destruct IH as [I1 I2]. split; [constructor; assumption|]. apply Forall_app. auto.
Qed.
Lemma erase_forall (P : iocon -> Prop) ks : forall l : list (Z * iocon), Forall (fun e => P (snd e)) l ->
  Forall (fun e => P (snd e)) (fold_left (fun l k => map_erase k l) ks l).
Proof.
  induction ks as [|k ks IH]; intros l F; cbn [fold_left]; [assumption|]. apply IH. apply Forall_forall. intros x Ix.
  unfold map_erase in Ix. apply filter_In in Ix as [Ix _]. exact (proj1 (Forall_forall _ _) F _ Ix).
Qed.
Lemma mgr_handle id h rounds ending env m : (forall o d, t_hook env o d = d) -> example_mgr id m ->
  example_mgr id (snd (handle_connections h rounds ending env m)).
Proof.
  intros Hk G. unfold handle_connections, st_bind.
  assert (G1 : example_mgr id (snd (bs_select (fun _ => on_readable h) (List.length (m_socks m)) rounds ending m))).
  { unfold bs_select. destruct (List.length (m_socks m)); [exact G|now apply mgr_rounds]. }
  destruct (bs_select _ _ _ _ m) as [o m1]. cbn [snd] in G1. destruct o; try exact G1. destruct G1 as [A B].
  unfold run_ticks. pose proof (mgr_ticks id env (m_map m1) Hk A) as X. destruct (ticks env (m_map m1)) as [[res l] ev].
  destruct X as [X1 X2].
  assert (B' : Forall (example_event id) (m_log m1 ++ ev)) by (apply Forall_app; auto).
  destruct res; (split; cbn [snd set_map add_log m_map m_log]; [|exact B']); try exact X1. now apply erase_forall.
Qed.
Lemma loop_sends id h rs n : forall w : tworld,
  example_mgr id (w_m w 0%nat) -> example_mgr id (w_m (snd (serve_loop h rs n w)) 0%nat).
Proof.
  induction n as [|n IH]; intros w G; cbn [serve_loop]; [exact G|].
  destruct (has_open (w_m w 0%nat)); [|exact G]. destruct (rs n) as [[[rounds ending] now] send]. set (env := mkTick now (fun _ d => d) send).
  assert (Hk : forall o d, t_hook env o d = d) by reflexivity.
  assert (G1 : example_mgr id (w_m (snd (call_world h 0 (CHandle rounds ending env) w)) 0%nat)).
  { unfold call_world, call_mgr. pose proof (mgr_handle id h rounds ending env _ Hk G) as G1.
    destruct (handle_connections h rounds ending env (w_m w 0%nat)) as [o m]. cbn [snd w_m]. now rewrite update_same. }
  destruct (call_world h 0 (CHandle rounds ending env) w) as [o w1]. cbn [snd] in G1.
  destruct o; try exact G1. specialize (IH w1 G1). destruct (serve_loop h rs n w1) as [o2 w2]. exact IH.
Qed.

(** ** The open *)
Lemma example_opened h handle pol host env inc o w1 : is_u32 handle -> policy_wf pol ->
  call_world h 0 (COpen false (served handle (target pol)) host env false example_params) (target_start inc) = (o, w1) ->
  exists q c a, example_open q c /\ snd (w_s w1) = [(q, a)]
  /\ (a_status a <> 0 /\ o = Ok None /\ at_target w1 = [] /\ m_map (w_m w1 0%nat) = []
      \/ a_status a = 0 /\ exists t, at_target w1 = [t] /\ tc_name t = (c_serial c, c_vendor c, c_origSerial c) /\ tc_path t = c_path c
         /\ ((exists oid io key, o = Ok (Some oid) /\ lock oid (w_m w1 0%nat) = Some io
                 /\ m_map (w_m w1 0%nat) = [(key, io)] /\ example_conn [] (tc_o2t t) io)
             \/ (forall r, o <> Ok r) /\ m_map (w_m w1 0%nat) = []))
  /\ m_log (w_m w1 0%nat) = [].
Proof.
  intros H PW E. unfold call_world in E. unfold target_start, call_mgr in E; cbn [w_g w_m w_s] in E; cbv beta iota in E.
  match type of E with context [forward_open ?a ?b ?c ?d ?e ?f ?i ?x] => destruct (forward_open a b c d e f i x)
    as [o1 [[g' m'] [T' tr']]] eqn:F end. injection E as -> <-.
  destruct example_wf as [W L].
  pose proof W as (W1 & W2 & W3 & W4 & W5 & W6 & W7 & W8 & W9 & W10 & W11 & W12 & W13 & W14 & W15).
  unfold forward_open in F.
  destruct (prepare_ok false (m_inc (mgr0 (inc 0%nat))) example_params globals0 ltac:(discriminate) W10 W12) as (g1 & P & _ & O & _).
  rewrite P, fo_request_ok in F. clear P.
  match type of F with context [fo_bytes _ ?x] => set (c' := x) in * end.
  assert (W' : cparams_wf c').
  { apply (prepared_wf example_params); try reflexivity; try assumption; unfold c'; cbn [c_o2tId c_t2oId c_serial c_o2tParams c_t2oParams c_pathSize].
    all: try (unfold is_u16, is_u8, is_u32, u16; lia). destruct (_ =? 2); [unfold is_u32, u32; lia|assumption]. }
  assert (L' : zlen (c_path c') <= 60000) by (change (c_path c') with (c_path example_params); lia).
  assert (EO : example_open (mkReq 84 [(KClass, 6); (KInst, 1)] (fo_bytes 2 c')) (narrow 2 c')).
  { unfold example_open; cbn [q_service q_data]. split; [reflexivity|]. split; [reflexivity|]. split; [now apply parse_fo_ok|].
    unfold narrow; cbn [c_vendor c_origSerial c_o2tRPI c_t2oRPI c_trigger c_pathSize c_path c_o2tParams c_t2oParams c_priorityTimeTick c_timeoutTicks c_multiplier c_o2tId c_serial].
    assert (X1 : c_o2tParams c' mod 256 ^ Z.of_nat 2 = 18470) by reflexivity.
    assert (X2 : c_t2oParams c' mod 256 ^ Z.of_nat 2 = 18466) by reflexivity.
    rewrite X1, X2.
    do 12 (split; [reflexivity|]). split; [|split; reflexivity]. intros w [->| ->]; repeat split. }
  destruct (target pol [] (mkReq (fo_service false) [(KClass, 6); (KInst, 1)] (fo_bytes (fo_width false) c'))) as [a T1] eqn:Q.
  destruct (target_open pol [] false c' a T1 PW W' L' Q) as (AW & D).
  assert (Le : zlen (fo_bytes (fo_width false) c') <= 60000).
  { rewrite fo_bytes_len. change (c_path c') with (c_path example_params). cbn [fo_width]. lia. }
  unfold CM_PATH in F. rewrite (served2 h false handle (target pol) (fo_service false) 6 1 _ [] [] a T1) in F; try assumption; try lia;
    [|split; [unfold is_u16; lia|intros; lia]|now apply fo_bytes_bytes].
  destruct (fo_answer h env host false example_params _ (g1, mgr0 (inc 0%nat))) as [o1 [g2 m2]] eqn:A. inv F.
  cbn [w_s snd app at_target fst w_m]. rewrite update_same.
  exists (mkReq 84 [(KClass, 6); (KInst, 1)] (fo_bytes 2 c')), (narrow 2 c'), a. split; [exact EO|]. split; [reflexivity|].
  destruct D as [[-> Na]|(t & r' & -> & Sa & Fr & TW & Nm & Pa & Ex' & R1 & R2 & R3)].
  - unfold fo_answer in A. cbn [r_status] in A.
    destruct (Z.eqb_spec (a_status a) 0) as [|_]; [contradiction|]. cbn [negb] in A. inv A. split; [left; auto|reflexivity].
  - assert (Dc : (exists oid, o = Ok (Some oid)) \/ forall oid, o <> Ok (Some oid)).
    { destruct o as [[oid|]|?|?|]; [left; eauto|right; congruence..]. }
    destruct Dc as [[oid ->]|N].
    + apply answer_some in A as (r & mult & dest & m1 & St & Ex & Mu & De & Eo & -> & M & Lg & In1 & ->).
      split; [|exact Lg].
      right. split; [assumption|]. exists t. split; [reflexivity|]. split; [exact Nm|]. split; [exact Pa|]. left.
      cbn [r_status r_data] in St, Ex. exists oid. eexists. eexists. split; [reflexivity|]. split; [|split].
      * assert (I1 : mgr_inv g1 (mgr0 (inc 0%nat))) by apply inv_new.
        rewrite (insert_lock g1 (mgr0 (inc 0%nat)) m1); try assumption; try reflexivity. subst oid. now rewrite Nat.eqb_refl.
      * reflexivity.
      * rewrite Ex' in Ex. inv Ex. unfold example_conn. do 8 (split; [reflexivity|]). split; [now symmetry|]. exists 0. split; reflexivity.
    + destruct (answer_none _ _ _ _ _ _ _ _ _ _ _ A N) as [M Lg]. split; [|exact Lg].
      right. split; [assumption|]. exists t. split; [reflexivity|]. split; [exact Nm|]. split; [exact Pa|].
      right. split; [|exact M]. intros r ->. destruct r as [oid|]; [now apply (N oid)|].
      unfold fo_answer in A. cbn [r_status] in A. rewrite Sa in A. cbn [Z.eqb negb] in A.
      destruct (bind (fo_expand h (r_data _)) _) as [[r io]|e|u|]; try (inv A; fail).
      destruct (find_or_create_socket _ _ _) as [[] m1]; inv A.
Qed.

(** ** The loop *)
Lemma handle_session {S} h i rounds ending env (w : world S) : w_s (snd (call_world h i (CHandle rounds ending env) w)) = w_s w.
Proof.
  unfold call_world, call_mgr. destruct (handle_connections h rounds ending env (w_m w i)) as [o m]. reflexivity.
Qed.
Lemma loop_runs h rs n : forall (w : tworld) o w', agree w -> serve_loop h rs n w = (o, w') ->
  agree w' /\ w_s w' = w_s w
  /\ (forall x c', lock x (w_m w' 0%nat) = Some c' -> exists c, lock x (w_m w 0%nat) = Some c)
  /\ forall k, o = Ok k -> (k <= n)%nat /\ (k = n \/ has_open (w_m w' 0%nat) = false)
       /\ ((0 < n)%nat -> has_open (w_m w 0%nat) = true -> (0 < k)%nat).
Proof.
  induction n as [|n IH]; intros w o w' A E; cbn [serve_loop] in E.
  { inv E. split; [assumption|]. split; [reflexivity|]. split; [eauto|]. intros k K. inv K. split; [lia|]. split; [auto|lia]. }
  destruct (has_open (w_m w 0%nat)) eqn:Op.
  2:{ inv E. split; [assumption|]. split; [reflexivity|]. split; [eauto|]. intros k K. inv K. split; [lia|]. split; [auto|discriminate]. }
  destruct (rs n) as [[[rounds ending] now] send]. set (env := mkTick now (fun _ d => d) send) in *.
  pose proof (handle_session h 0 rounds ending env w) as HS.
  destruct (call_world h 0 (CHandle rounds ending env) w) as [o1 w1] eqn:C. cbn [snd] in HS.
  pose proof (agree_step h 0 (CHandle rounds ending env) w o1 w1 A I C) as A1.
  destruct (world_stepped h 0 (CHandle rounds ending env) w o1 w1 A I C) as (St & _).
  assert (Lk : forall x c', lock x (w_m w1 0%nat) = Some c' -> exists c, lock x (w_m w 0%nat) = Some c).
  { destruct St as [ET K _|? ? ? _ ET K|? ? ? ? ? ? ? X|? ? ? ? ? ? ? ? ? X|? ? ? ? ? X]; try discriminate X.
    - intros x c' L. destruct (keeps_some _ _ _ _ K L) as (c & L0 & _). eauto.
    - intros x c' L. destruct (K _ _ L) as (c & L0 & _). eauto. }
  destruct o1 as [r|e|u|].
  - destruct (serve_loop h rs n w1) as [o2 w2] eqn:E2. inv E. destruct (IH w1 o2 w' A1 E2) as (A2 & S2 & L2 & K2).
    split; [assumption|]. split; [congruence|]. split.
    + intros x c' L. destruct (L2 _ _ L) as (c & L0). eauto.
    + intros k K. destruct o2 as [k2|?|?|]; inv K. destruct (K2 k2 eq_refl) as (B1 & B2 & _). split; [lia|]. split; [|lia].
      destruct B2; [left; lia|auto].
  - inv E. split; [assumption|]. split; [assumption|]. split; [assumption|]. discriminate.
  - inv E. split; [assumption|]. split; [assumption|]. split; [assumption|]. discriminate.
  - inv E. split; [assumption|]. split; [assumption|]. split; [assumption|]. discriminate.
Qed.

(** ** The close *)
Lemma example_closed h handle pol oid (w : tworld) t c : is_u32 handle -> agree w -> at_target w = [t] -> lock oid (w_m w 0%nat) = Some c ->
  exists w' q a, call_world h 0 (CClose false (served handle (target pol)) oid) w = (Ok None, w')
  /\ snd (w_s w') = snd (w_s w) ++ [(q, a)] /\ example_close q t /\ a_status a = 0 /\ at_target w' = []
  /\ (forall x, lock x (w_m w' 0%nat) = if Nat.eqb x oid then None else lock x (w_m w 0%nat))
  /\ m_log (w_m w' 0%nat) = m_log (w_m w 0%nat).
Proof.
  intros H A ET Lk. destruct (ag_held _ A _ _ _ Lk) as (t' & It & SC). rewrite ET in It. destruct It as [<-|[]].
  pose proof SC as (Nm & So & St & Sp).
  pose proof (ag_wf _ A) as TW. rewrite ET in TW. apply Forall_inv in TW as (T1 & T2 & T3 & T4 & T5 & T6 & T7 & T8).
  pose proof Nm as Nm'. unfold tc_name in Nm. injection Nm as N1 N2 N3. rewrite N1 in T1. rewrite N2 in T2. rewrite N3 in T3. rewrite Sp in T6, T7, T8.
  destruct w as [g mm [T tr]]. unfold at_target in ET; cbn [w_s fst] in ET. subst T. cbn [w_m] in Lk.
  pose proof (ag_inv _ A 0%nat) as I. cbn [w_g w_m] in I.
  assert (Q : target pol [t] (mkReq 78 [(KClass, 6); (KInst, 1)] (fc_pack (u16 (io_serial c)) (io_vendor c) (io_orig c) (io_path c)))
    = (done (le 2 (io_serial c) ++ le 2 (io_vendor c) ++ le 4 (io_orig c) ++ [0; 0]), [])).
  { unfold target, to_cm; cbn [q_path q_service q_data Z.eqb Pos.eqb andb orb negb].
    rewrite (u16_small (io_serial c)) by assumption. rewrite parse_fc_ok by assumption.
    assert (X : name_eqb (tc_name t) (io_serial c, io_vendor c, io_orig c) = true) by (now apply name_eqb_iff).
    assert (Y : bytes_eqb (tc_path t) (io_path c) = true) by (now apply bytes_eqb_iff).
    cbn [existsb filter]. rewrite X, Y. reflexivity. }
  destruct (fc_pack_good (u16 (io_serial c)) (io_vendor c) (io_orig c) (io_path c) T6 ltac:(lia)) as [Fb Fl].
  assert (Fl' : zlen (fc_pack (u16 (io_serial c)) (io_vendor c) (io_orig c) (io_path c)) <= 60000).
  { rewrite fc_pack_bytes. unfold fc_bytes. rewrite !zlen_app. unfold zlen in *. rewrite !le_length. cbn [List.length]. lia. }
  assert (SR := served2 h false handle (target pol) 78 6 1 _ [t] tr _ _ ltac:(lia) ltac:(split; [unfold is_u16; lia|intros; lia]) H ltac:(lia) Fb Fl' Q).
  destruct (close_ok h false (served handle (target pol)) g (mm 0%nat) ([t], tr) oid c _ _ I Lk (SR ltac:(
    unfold answer_wf, done; cbn [a_status a_addl a_data]; split; [unfold is_u8; lia|]; split; [constructor|]; split; [rewrite zlen_nil; lia|];
    split; [rewrite !is_bytes_app, !is_bytes_cons; assert (is_u8 0) by (unfold is_u8; lia);
            repeat match goal with |- _ /\ _ => split end; try apply le_bytes; try apply is_bytes_nil; assumption
           |rewrite !zlen_app; unfold zlen; rewrite !le_length; cbn [List.length]; lia]))) as (m2 & F2 & LG & Al).
  unfold call_world; cbn [w_g w_m w_s call_mgr]. rewrite F2. cbn [omap bind].
  eexists. eexists. eexists. split; [reflexivity|]. cbn [w_s snd at_target fst w_m]. split; [reflexivity|]. split.
  - split; [reflexivity|]. split; [reflexivity|]. cbn [q_data]. rewrite (u16_small (io_serial c)) by assumption.
    rewrite parse_fc_ok by assumption. congruence.
  - split; [reflexivity|]. split; [reflexivity|]. split; [intros x|]; rewrite update_same; [apply Al|exact LG].
Qed.

(** ** The program *)
Theorem implicit_runs h handle pol host env rs inc o w' : is_u32 handle -> policy_wf pol ->
  implicit_example h (served handle (target pol)) host env rs (target_start inc) = (o, w') ->
  exists q c a more, example_open q c /\ snd (w_s w') = (q, a) :: more
  /\ (a_status a <> 0 /\ o = Ok 0%nat /\ more = [] /\ at_target w' = [] /\ has_open (w_m w' 0%nat) = false
         /\ m_log (w_m w' 0%nat) = []
      \/ a_status a = 0 /\ exists t, tc_name t = (c_serial c, c_vendor c, c_origSerial c) /\ tc_path t = c_path c
         /\ Forall (example_event (tc_o2t t)) (m_log (w_m w' 0%nat))
         /\ ((exists q' a', o = Ok 200%nat /\ more = [(q', a')] /\ example_close q' t /\ a_status a' = 0
                /\ at_target w' = [] /\ has_open (w_m w' 0%nat) = false)
             \/ (exists n, o = Ok n /\ (0 < n <= 200)%nat /\ more = [] /\ at_target w' = [t] /\ has_open (w_m w' 0%nat) = false)
             \/ ((forall n, o <> Ok n) /\ more = [] /\ at_target w' = [t]))).
Proof.
  intros H PW E. unfold implicit_example in E.
  destruct (call_world h 0 (COpen false _ host env false example_params) (target_start inc)) as [o1 w1] eqn:C1.
  assert (U : to_target (COpen false (served handle (target pol)) host env false example_params)).
  { destruct example_wf as [W L]. split; [exact W|]. split; [exact L|]. exists handle, pol. auto. }
  pose proof (agree_step h 0 _ _ _ _ (agree_start inc) U C1) as A1.
  destruct (example_opened h handle pol host env inc o1 w1 H PW C1) as (q & c & a & EO & Tr & D & Lg).
  exists q, c, a.
  destruct D as [(Sa & -> & ET & EM)|(Sa & t & ET & Nm & Pa & D)].
  - exists []. split; [assumption|].
    assert (Op : has_open (w_m w1 0%nat) = false) by (unfold has_open; now rewrite EM).
    assert (X : serve_loop h rs 200 w1 = (Ok 0%nat, w1)).
    { change 200%nat with (Datatypes.S 199). cbn [serve_loop]. now rewrite Op. }
    rewrite X in E. inv E. split; [assumption|]. left. do 5 (split; [assumption || reflexivity|]). assumption.
  - destruct D as [(oid & io & key & -> & Lk & M1 & G1)|[No M1]].
    2:{ exists []. split; [assumption|]. assert (X : w' = w1 /\ forall n, o <> Ok n).
        { destruct o1 as [r|e|u|]; [exfalso; now apply (No r)|..]; inv E; split; (reflexivity || discriminate). }
        destruct X as [-> X]. split; [assumption|]. right. split; [assumption|]. exists t. split; [assumption|]. split; [assumption|].
        split; [rewrite Lg; constructor|].
        right. right. auto. }
    rewrite Lk in E.
    destruct (call_world h 0 (CData oid (zeros 32)) w1) as [o2 w2] eqn:C2. cbn [snd] in E.
    pose proof (agree_step h 0 (CData oid (zeros 32)) w1 o2 w2 A1 I C2) as A2.
    assert (S2 : w_s w2 = w_s w1) by (unfold call_world, call_mgr in C2; now inv C2).
    destruct (world_stepped h 0 (CData oid (zeros 32)) w1 o2 w2 A1 I C2) as (St & _).
    assert (K2 : keeps (w_m w1 0%nat) (w_m w2 0%nat)).
    { destruct St as [_ K _|? ? ? X|? ? ? ? ? ? ? X|? ? ? ? ? ? ? ? ? X|? ? ? ? ? X]; try discriminate X. exact K. }
    assert (Op2 : has_open (w_m w2 0%nat) = true).
    { apply has_open_iff. exists oid. unfold alive. destruct (keeps_back _ _ _ _ K2 Lk) as (c2 & L2 & _). congruence. }
    assert (ET2 : at_target w2 = [t]) by (unfold at_target in *; now rewrite S2).
    assert (G2 : example_mgr (tc_o2t t) (w_m w2 0%nat)).
    { unfold call_world, call_mgr in C2. inv C2. cbn [w_m]. rewrite update_same. unfold set_output. split; cbn [set_map m_map m_log].
      - rewrite M1. cbn [map snd]. constructor; [|constructor]. destruct (Nat.eqb_spec (io_oid io) oid) as [_|Nq]; [|now apply lock_in in Lk as [? _]].
        destruct G1 as (_ & G1). cbn [snd]. split; [reflexivity|exact G1].
      - rewrite Lg. constructor. }
    pose proof (loop_sends (tc_o2t t) h rs 200 w2 G2) as G3.
    destruct (serve_loop h rs 200 w2) as [o3 w3] eqn:E3. cbn [snd] in G3. destruct G3 as [_ G3].
    destruct (loop_runs h rs 200 w2 o3 w3 A2 E3) as (A3 & S3 & L3 & K3).
    assert (ET3 : at_target w3 = [t]) by (unfold at_target in *; now rewrite S3).
    assert (Tr3 : snd (w_s w3) = [(q, a)]) by congruence.
    destruct o3 as [n|e|u|].
    2-4: inv E; exists []; split; [assumption|]; split; [assumption|]; right; split; [assumption|]; exists t;
      split; [assumption|]; split; [assumption|]; split; [assumption|]; right; right; split; [discriminate|auto].
    destruct (K3 n eq_refl) as (N1 & N2 & N3). specialize (N3 ltac:(lia) Op2).
    (* only this connection is there *)
    assert (Only : forall x c', lock x (w_m w3 0%nat) = Some c' -> x = oid).
    { intros x c' L. destruct (L3 _ _ L) as (d & Ld). destruct (keeps_some _ _ _ _ K2 Ld) as (d1 & Ld1 & _).
      destruct (ag_held _ A1 _ _ _ Ld1) as (t1 & I1 & Sc1). destruct (ag_held _ A1 _ _ _ Lk) as (t2 & I2 & Sc2).
      rewrite ET in I1, I2. destruct I1 as [<-|[]], I2 as [<-|[]].
      eapply (ag_inj _ A1); [exact Ld1|exact Lk|]. rewrite <- (name_same _ _ Sc1), <- (name_same _ _ Sc2). reflexivity. }
    destruct (lock oid (w_m w3 0%nat)) as [c3|] eqn:L3'.
    + destruct (example_closed h handle pol oid w3 t c3 H A3 ET3 L3') as (w4 & q' & a' & C4 & Tr4 & EC & Sa' & ET4 & Lk4 & Lg4).
      rewrite C4 in E. cbn [omap bind] in E. inv E. exists [(q', a')]. split; [assumption|]. split; [rewrite Tr4, Tr3; reflexivity|].
      right. split; [assumption|]. exists t. split; [assumption|]. split; [assumption|]. split; [now rewrite Lg4|]. left. exists q', a'.
      assert (n = 200%nat).
      { destruct N2 as [N2|N2]; [assumption|]. exfalso.
        assert (X : has_open (w_m w3 0%nat) = true) by (apply has_open_iff; exists oid; unfold alive; congruence). congruence. }
      subst n. do 5 (split; [auto|]).
      destruct (has_open (w_m w' 0%nat)) eqn:Op4; [|reflexivity]. exfalso. apply has_open_iff in Op4 as (x & Ax). unfold alive in Ax.
      rewrite Lk4 in Ax. destruct (Nat.eqb_spec x oid) as [Ex|Nx]; [congruence|].
      destruct (lock x (w_m w3 0%nat)) as [c'|] eqn:Lx; [|congruence]. apply Only in Lx. contradiction.
    + unfold call_world in E. cbn [call_mgr] in E. rewrite L3' in E. cbn [forward_close omap bind] in E. inv E.
      exists []. split; [assumption|]. cbn [w_s]. split; [assumption|]. right. split; [assumption|]. exists t. split; [assumption|]. split; [assumption|].
      split; [cbn [w_m]; rewrite update_same; exact G3|]. right. left. exists n. split; [reflexivity|]. split; [lia|]. split; [reflexivity|]. split; [exact ET3|].
      cbn [w_m]. rewrite update_same.
      destruct (has_open (w_m w3 0%nat)) eqn:Op4; [|reflexivity]. exfalso. apply has_open_iff in Op4 as (x & Ax). unfold alive in Ax.
      destruct (lock x (w_m w3 0%nat)) as [c'|] eqn:Lx; [|congruence]. rewrite (Only _ _ Lx) in Lx. congruence.
Qed.

(** ** For the examples *)
Definition demo_policy : policy := fun _ _ => Some (mkGrant 77 0 1000000 1000000 []).
Lemma demo_policy_wf : policy_wf demo_policy.
Proof.
  intros T c g E. inv E. unfold grant_wf; cbn [gr_o2t gr_t2o gr_o2tApi gr_t2oApi gr_reply].
  repeat match goal with |- _ /\ _ => split end; try (unfold is_u32; lia); try apply is_bytes_nil; try reflexivity; discriminate.
Qed.
Definition demo_env : fo_env := mkFoEnv None None 0 (fun _ => Some 1).
Definition demo_round (now : Z) : round := ([], SelQuiet, fun _ => now, fun _ n => mkSend n 0).
