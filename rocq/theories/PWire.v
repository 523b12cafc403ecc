(** Proofs: connection managers whose session is a TCP connection to a device. *)
From Verif Require Import Base MBuffer SBuffer PBase PBuffer MEip SEip PEip SObj PObj MSocket SSocket PSocket MConnReq SConnReq PConnReq MConn SConn
  PConnOpen PConnMap PIo PConnCall PConnCall2 PConnHist PIo2 PConnTop PIoTop SLife PLife SHost PHost PFile STarget PTarget SWire.
Ltac Zify.zify_post_hook ::= Z.div_mod_to_equations.
Local Open Scope outcome_scope.

Lemma paths_call {S} h (si : session_if S) op g m s o g' m' s' : mgr_inv g m -> sendable_paths m -> ncall_wf op ->
  call_mgr h (over si op) (g, m, s) = (o, (g', m', s')) -> sendable_paths m'.
Proof.
  intros I P W E. destruct op as [use8 host env large c|use8 oid|rounds ending env|oid d]; cbn [over call_mgr ncall_wf] in *.
  - destruct W as (W & L). pose proof W as (_ & _ & _ & _ & _ & _ & _ & _ & _ & _ & _ & _ & _ & _ & W15).
    destruct (Z.eq_dec (g_serial g) 2147483647) as [G|G].
    { unfold forward_open in E. rewrite (prepare_overflow large (m_inc m) c g G) in E. now inv E. }
    destruct (open_request h use8 si host env large c g m s G) as (g1 & c' & O & F). rewrite F in E. clear F.
    assert (I1 : mgr_inv g1 m) by (apply (inv_later g); [assumption|lia]).
    destruct (send_request _ _ _ _ _ _ _ _) as [[resp|?|?|] s1]; [|inv E; assumption..].
    destruct (fo_answer _ _ _ _ _ _ _) as [o1 [g2 m2]] eqn:A. inv E.
    assert (Dc : (exists oid, o = Ok (Some oid)) \/ forall oid, o <> Ok (Some oid)).
    { destruct o as [[oid|]|?|?|]; [left; eauto|right; congruence..]. }
    destruct Dc as [[oid ->]|N].
    + apply answer_some in A as (r & mult & dest & m1 & _ & _ & _ & _ & -> & -> & M & _ & _ & ->).
      destruct (map_find (u16 (f_t2oId r)) (m_map m)) as [old|] eqn:Fd.
      * intros x q Lx. rewrite (insert_collides g1 m m1) in Lx by (assumption || congruence). now apply (P x).
      * intros x q Lx. rewrite (insert_lock g1 m m1) in Lx by (assumption || reflexivity).
        destruct (Nat.eqb x (g_oid g1)); [inv Lx; cbn [fo_connection io_path]; auto|now apply (P x)].
    + destruct (answer_none _ _ _ _ _ _ _ _ _ _ _ A N) as [M _]. intros x q Lx. apply (P x). unfold lock in *. now rewrite <- M.
  - destruct (forward_close _ _ _ _ _) as [o1 [m1 s1]] eqn:F. inv E. unfold forward_close in F.
    destruct (lock oid m) as [c|]; [|now inv F]. destruct (send_request _ _ _ _ _ _ _ _) as [[resp|?|?|] s2]; inv F; try assumption.
    intros x q Lx. apply lock_in in Lx as [Ox [k K]]. cbn [set_map m_map] in K. apply (P x).
    apply (fold_erase_in [u16 (io_t2oId c)] (m_map m)) in K as [K _]. rewrite <- Ox. eapply lock_some; eauto.
  - destruct (handle_connections h rounds ending env m) as [o1 m1] eqn:F. inv E. intros x q Lx.
    destruct (handle_shrinks g' h rounds ending env m I x q) as (c & Lc & St); [now rewrite F|].
    unfold io_static in St. injection St. intros. destruct (P _ _ Lc). split; congruence.
  - inv E. intros x q Lx.
    assert (I' : mgr_inv g' (set_output oid d m)) by (eapply statics_inv; [exact I|]; unfold set_output; cbn [set_map m_map]; apply output_statics).
    apply lock_in in Lx as [Ox [k K]]. destruct (statics_t2o _ _ _ _ (output_statics oid d (m_map m)) K) as (c & J & Es).
    assert (Lc : lock x m = Some c) by (rewrite <- Ox, (static_oid _ _ Es); eapply lock_some; eauto).
    unfold io_static in Es. injection Es. intros. destruct (P _ _ Lc). split; congruence.
Qed.

Section Wire.
Context {D : Type} (p : peer) (handle : Z) (dev : device D) (d : D) (h : heap).
Hypothesis HP : hosts p handle dev d.
Hypothesis HD : device_wf dev.
Hypothesis HH : is_u32 handle.
Notation live := (live_session h p handle).
Notation direct := (served handle dev).

Lemma cm_like use8 service data : 0 <= service < 128 -> is_bytes data -> zlen data <= 60000 ->
  like handle dev d (send_request h live use8 service CM_PATH data []) (send_request h direct use8 service CM_PATH data []).
Proof.
  intros Sv B L. change CM_PATH with (build (Ids2 6 1)). apply like_request; try assumption; [discriminate|].
  split; [repeat constructor; cbn; unfold is_u16; lia|]. intros _. repeat constructor; cbn; unfold is_u8; lia.
Qed.

Lemma call_like op g m w : ncall_wf op -> sendable_paths m -> idle w ->
  exists o g' m' w', call_mgr h (over live op) (g, m, w) = (o, (g', m', w'))
    /\ call_mgr h (over direct op) (g, m, played handle dev d (n_sent w)) = (o, (g', m', played handle dev d (n_sent w'))) /\ went_on handle w w'.
Proof.
  intros W P I. destruct op as [use8 host env large c|use8 oid|rounds ending env|oid x]; cbn [over call_mgr ncall_wf] in *.
  - destruct W as (W & L). destruct (Z.eq_dec (g_serial g) 2147483647) as [G|G].
    { unfold forward_open. rewrite (prepare_overflow large (m_inc m) c g G). eauto 10 using wo_refl. }
    unfold forward_open.
    pose proof W as (W1 & W2 & W3 & W4 & W5 & W6 & W7 & W8 & W9 & W10 & W11 & W12 & W13 & W14 & W15).
    destruct (prepare_ok large (m_inc m) c g G W10 W12) as (g1 & Pr & _ & O & _). rewrite Pr, fo_request_ok. clear Pr.
    match goal with |- context [fo_bytes _ ?y] => set (c' := y) in * end.
    assert (W' : cparams_wf c').
    { apply (prepared_wf c); try reflexivity; try assumption; unfold c'; cbn [c_o2tId c_t2oId c_serial c_o2tParams c_t2oParams c_pathSize].
      - destruct (_ =? 1); [unfold is_u32, u16; lia|assumption].
      - destruct (_ =? 2); [unfold is_u32, u32; lia|assumption].
      - unfold is_u16, u16. lia.
      - unfold is_u32. lia.
      - unfold is_u32. lia.
      - unfold is_u8. lia. }
    assert (Le : zlen (fo_bytes (fo_width large) c') <= 60000).
    { rewrite fo_bytes_len. change (c_path c') with (c_path c). destruct large; cbn [fo_width]; lia. }
    destruct (cm_like use8 (fo_service large) (fo_bytes (fo_width large) c') ltac:(destruct large; cbn; lia) (fo_bytes_bytes _ _ W') Le w I) as (w' & E1 & I1 & P1).
    rewrite E1. destruct (send_request h direct use8 _ _ _ _ _) as [o1 s1]. cbn [fst snd] in P1 |- *. subst s1.
    destruct o1 as [resp|?|?|]; [|eauto 10 using wo_refl..].
    destruct (fo_answer h env host large c resp (g1, m)) as [o2 [g2 m2]]. eauto 10 using wo_refl.
  - destruct (lock oid m) as [c|] eqn:Lk; cbn [forward_close]; [|cbn [omap]; eauto 10 using wo_refl].
    destruct (P _ _ Lk) as (B & L). destruct (fc_pack_good (u16 (io_serial c)) (io_vendor c) (io_orig c) (io_path c) B ltac:(lia)) as [Fb _].
    assert (Fl : zlen (fc_pack (u16 (io_serial c)) (io_vendor c) (io_orig c) (io_path c)) <= 60000).
    { rewrite fc_pack_bytes. unfold fc_bytes. rewrite !zlen_app. unfold zlen in *. rewrite !le_length. cbn [List.length]. lia. }
    destruct (cm_like use8 78 _ ltac:(lia) Fb Fl w I) as (w' & E1 & I1 & P1).
    rewrite E1. destruct (send_request h direct use8 _ _ _ _ _) as [o1 s1]. cbn [fst snd] in P1 |- *. subst s1.
    destruct o1 as [resp|?|?|]; eauto 10 using wo_refl.
  - destruct (handle_connections h rounds ending env m) as [o1 m1]. eauto 10 using wo_refl.
  - eauto 10 using wo_refl.
Qed.

Lemma program_like ops : forall gm ms w, Forall (fun x => ncall_wf (snd x)) ops -> (forall i, mgr_inv gm (ms i)) -> (forall i, sendable_paths (ms i)) -> idle w ->
  exists g' ms' w', run_calls h (overs live ops) (mkWorld gm ms w) = mkWorld g' ms' w'
    /\ run_calls h (overs direct ops) (mkWorld gm ms (played handle dev d (n_sent w))) = mkWorld g' ms' (played handle dev d (n_sent w')) /\ went_on handle w w'
    /\ forall i, sendable_paths (ms' i).
Proof.
  induction ops as [|[i op] ops IH]; intros g ms w F I P Id; cbn [overs map run_calls fst snd]; [eauto 10 using wo_refl|].
  apply Forall_cons_iff in F as [F1 F]. cbn [snd] in F1.
  unfold call_world. cbn [w_g w_m w_s].
  destruct (call_like op g (ms i) w F1 (P i) Id) as (o & g1 & m1 & w1 & E1 & E2 & I1). rewrite E1, E2. cbn [snd].
  destruct (call_inv h (over live op) g (ms i) w _ _ _ _ (I i) E1) as [Iv Le].
  pose proof (paths_call h live op g (ms i) w _ _ _ _ (I i) (P i) F1 E1) as Pv.
  destruct (IH g1 (update ms i m1) w1 F) as (g' & ms' & w' & R1 & R2 & R3); [| |exact (proj1 I1)|].
  - intros j. unfold update. destruct (Nat.eqb j i); [assumption|]. eapply inv_later; eauto.
  - intros j. unfold update. destruct (Nat.eqb j i); [assumption|apply P].
  - exists g', ms', w'. unfold overs in R1, R2. destruct R3 as [R3 R4]. eauto using wo_trans.
Qed.
End Wire.

Lemma program_start {D} (p : peer) handle (dev : device D) d h ops inc w : hosts p handle dev d -> device_wf dev -> is_u32 handle -> idle w ->
  Forall (fun x => ncall_wf (snd x)) ops ->
  exists g' ms' w', run_calls h (overs (live_session h p handle) ops) (mkWorld globals0 (fun i => mgr0 (inc i)) w) = mkWorld g' ms' w'
    /\ run_calls h (overs (served handle dev) ops) (mkWorld globals0 (fun i => mgr0 (inc i)) (played handle dev d (n_sent w)))
       = mkWorld g' ms' (played handle dev d (n_sent w')) /\ went_on handle w w' /\ forall i, sendable_paths (ms' i).
Proof.
  intros HP HD HH Id F. apply program_like; try assumption.
  - intros i. apply inv_new.
  - intros i oid c L. discriminate.
Qed.

(** ** A target of connections *)
Lemma target_wf pol : policy_wf pol -> device_wf (target pol).
Proof.
  intros PW T q. unfold target. destruct (negb (to_cm q)); [apply failed_wf; unfold is_u8; lia|].
  destruct (_ || _).
  - destruct (parse_fo _ _) as [c|]; [|apply failed_wf; unfold is_u8; lia].
    destruct (negb _); [apply refusal_wf; unfold is_u16; lia|].
    destruct (named_by _ _); [apply refusal_wf; unfold is_u16; lia|].
    destruct (pol T c) as [g|] eqn:Pg; [|apply refusal_wf; unfold is_u16; lia].
    destruct (PW _ _ _ Pg) as (_ & _ & _ & _ & G5 & G6 & G7). pose proof (zlen_nonneg (gr_reply g)). cbn [fst].
    unfold answer_wf, done; cbn [a_status a_addl a_data]. split; [unfold is_u8; lia|]. split; [constructor|]. split; [rewrite zlen_nil; lia|].
    unfold granted_reply, fo_reply_bytes; cbn [f_o2tId f_t2oId f_serial f_vendor f_origSerial f_o2tApi f_t2oApi f_replySize f_reply]. split.
    + rewrite !is_bytes_app, !is_bytes_cons. assert (is_u8 0) by (unfold is_u8; lia). assert (is_u8 (zlen (gr_reply g) / 2)) by (unfold is_u8; lia).
      repeat match goal with |- _ /\ _ => split end; try apply le_bytes; try apply is_bytes_nil; assumption.
    + rewrite !zlen_app. unfold zlen in *. rewrite !le_length. cbn [List.length]. lia.
  - destruct (q_service q =? 78); [|apply failed_wf; unfold is_u8; lia].
    destruct (parse_fc _) as [[[[serial vendor] orig] path]|]; [|apply failed_wf; unfold is_u8; lia].
    destruct (existsb _ _); [|apply refusal_wf; unfold is_u16; lia].
    cbn [fst]. apply done_wf.
    + rewrite !is_bytes_app, !is_bytes_cons. assert (is_u8 0) by (unfold is_u8; lia).
      repeat match goal with |- _ /\ _ => split end; try apply le_bytes; try apply is_bytes_nil; assumption.
    + rewrite !zlen_app. unfold zlen. rewrite !le_length. cbn [List.length]. lia.
Qed.

Lemma overs_target handle pol ops : is_u32 handle -> policy_wf pol -> Forall (fun x => ncall_wf (snd x)) ops ->
  Forall (fun x => to_target (snd x)) (overs (served handle (target pol)) ops).
Proof.
  intros HH PW F. unfold overs. apply Forall_map. revert F. apply Forall_impl. intros [i op] W. cbn [snd] in *.
  destruct op; cbn in *; intuition eauto 10.
Qed.

Section Net.
Context (h : heap) (inc : nat -> Z) (p : peer) (handle : Z) (pol : policy) (ops : list (nat * ncall)) (n : net) (w : world net).
Hypothesis HP : hosts p handle (target pol) [].
Hypothesis PW : policy_wf pol.
Hypothesis HH : is_u32 handle.
Hypothesis Id : idle n.
Hypothesis Start : played handle (target pol) [] (n_sent n) = ([], []).
Hypothesis F : Forall (fun x => ncall_wf (snd x)) ops.
Hypothesis Run : w = run_calls h (overs (live_session h p handle) ops) (mkWorld globals0 (fun i => mgr0 (inc i)) n).
Notation T w := (fst (played handle (target pol) [] (n_sent w))).

Lemma net_view : exists w', w' = run_calls h (overs (served handle (target pol)) ops) (target_start inc)
  /\ w_g w' = w_g w /\ w_m w' = w_m w /\ w_s w' = played handle (target pol) [] (n_sent (w_s w)) /\ idle (w_s w) /\ (forall i, sendable_paths (w_m w i)).
Proof.
  destruct (program_start p handle (target pol) [] h ops inc n HP (target_wf pol PW) HH Id F) as (g' & ms' & w' & E1 & E2 & I' & Sp).
  rewrite Start in E2. exists (mkWorld g' ms' (played handle (target pol) [] (n_sent w'))). rewrite Run, E1. cbn [w_g w_m w_s]. split; [now symmetry|]. destruct I' as [I' _]. auto 10.
Qed.

Lemma net_known i oid c : lock oid (w_m w i) = Some c ->
  exists t, In t (T (w_s w)) /\ same_connection c t
    /\ (forall t', In t' (T (w_s w)) -> tc_name t' = tc_name t -> t' = t)
    /\ forall i' oid' c', lock oid' (w_m w i') = Some c' -> same_connection c' t -> i' = i /\ oid' = oid.
Proof.
  intros L. destruct net_view as (w' & R & _ & M & S & _ & _). rewrite <- M in L.
  destruct (held_once h inc _ _ (overs_target handle pol ops HH PW F) R i oid c L) as (t & A & B & C & E).
  unfold at_target in A, C. rewrite S in A, C. rewrite M in E. exists t. auto.
Qed.

Lemma net_closes use8 i oid c : lock oid (w_m w i) = Some c ->
  exists w' t, call_world h i (CClose use8 (live_session h p handle) oid) w = (Ok None, w')
    /\ same_connection c t /\ In t (T (w_s w))
    /\ (forall x, In x (T (w_s w')) <-> In x (T (w_s w)) /\ x <> t)
    /\ (forall x, lock x (w_m w' i) = if Nat.eqb x oid then None else lock x (w_m w i)) /\ (forall j, j <> i -> w_m w' j = w_m w j) /\ went_on handle (w_s w) (w_s w').
Proof.
  intros L. destruct net_view as (v & R & G & M & S & I & Sp). rewrite <- M in L.
  destruct (close_both h inc _ _ (overs_target handle pol ops HH PW F) R use8 handle pol i oid c HH PW L) as (v' & t & A & B & C & E & K & J).
  unfold call_world in A. rewrite G, M, S in A.
  destruct (call_like p handle (target pol) [] h HP (target_wf pol PW) HH (NClose use8 oid) (w_g w) (w_m w i) (w_s w) Logic.I (Sp i) I)
    as (o & g1 & m1 & w1 & E1 & E2 & I1). cbn [over] in E1, E2. rewrite E2 in A. injection A as -> <-.
  unfold at_target in C, E. cbn [w_g w_m w_s] in *. rewrite S in C, E. rewrite M in K, J.
  exists (mkWorld g1 (update (w_m w) i m1) w1), t. unfold call_world. rewrite E1. cbn [w_g w_m w_s]. auto 10.
Qed.
End Net.
