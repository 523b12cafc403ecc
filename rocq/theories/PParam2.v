(** The requests of the parameter object client. *)
From Verif Require Import Base MBuffer SBuffer PBase PBuffer PReader PTrunc MEip SEip SObj PObj MFile PFile MIdent MParam SParam PParam.
Ltac Zify.zify_post_hook ::= Z.div_mod_to_equations.
Local Open Scope outcome_scope.

Section Served.
Context {D : Type}.
Variables (h : heap) (use8 : bool) (handle : Z) (dev : device D) (id : Z).
Hypothesis H : is_u32 handle.
Hypothesis I : sendable use8 id.

Definition taken (a : answer) : outcome bytes :=
  if a_status a =? 0 then Ok (a_data a) else Throw (RuntimeError RtRequestFailed).

Lemma ask_attribute at_ d tr a d' : 0 <= at_ < 256 ->
  dev d (attribute_request id at_) = (a, d') -> answer_wf a ->
  ask h use8 (served handle dev) GET_ATTRIBUTE_SINGLE (epath3 PARAMETER_CLASS_ID id at_) (d, tr)
  = (taken a, (d', tr ++ [(attribute_request id at_, a)])).
Proof.
  intros A E W. unfold ask, GET_ATTRIBUTE_SINGLE, PARAMETER_CLASS_ID.
  rewrite (served3 h use8 handle dev 14 15 id at_ [] d tr a d'); try assumption; try lia; [reflexivity|constructor|cbn; lia].
Qed.
Lemma ask_all d tr a d' :
  dev d (all_request id) = (a, d') -> answer_wf a ->
  ask h use8 (served handle dev) GET_ATTRIBUTE_ALL (epath2 PARAMETER_CLASS_ID id) (d, tr)
  = (taken a, (d', tr ++ [(all_request id, a)])).
Proof.
  intros E W. unfold ask, GET_ATTRIBUTE_ALL, PARAMETER_CLASS_ID.
  rewrite (served2 h use8 handle dev 1 15 id [] d tr a d'); try assumption; try lia; [reflexivity|constructor|cbn; lia].
Qed.

(** ** updateValue *)
Lemma update_good p d tr a d' :
  pa_router p = true -> pa_id p = id -> dev d (attribute_request id 1) = (a, d') -> answer_wf a ->
  a_status a = 0 -> zlen (pa_value p) <= zlen (a_data a) ->
  exists q, update_value h use8 (served handle dev) (p, (d, tr))
            = (Ok tt, (q, (d', tr ++ [(attribute_request id 1, a)])))
  /\ pa_value q = firstn (List.length (pa_value p)) (a_data a) /\ same_but_value p q.
Proof.
  intros R N E W S0 L. unfold update_value. rewrite R, N. unfold ATTR_VALUE.
  rewrite (ask_attribute 1 d tr a d') by (assumption || lia).
  unfold taken. rewrite S0. cbn [Z.eqb bind]. rewrite buf_of_at, get_bytes_n by (unfold zlen in L; lia).
  eexists. split; [reflexivity|]. split; [reflexivity|].
  unfold same_but_value, pa_set_value; cbn. repeat match goal with |- _ /\ _ => split end; reflexivity.
Qed.
Lemma update_error p d tr a d' :
  pa_router p = true -> pa_id p = id -> dev d (attribute_request id 1) = (a, d') -> answer_wf a ->
  a_status a <> 0 ->
  exists e, update_value h use8 (served handle dev) (p, (d, tr))
            = (Throw (RuntimeError e), (p, (d', tr ++ [(attribute_request id 1, a)]))).
Proof.
  intros R N E W S0. unfold update_value. rewrite R, N. unfold ATTR_VALUE.
  rewrite (ask_attribute 1 d tr a d') by (assumption || lia).
  unfold taken. apply Z.eqb_neq in S0. rewrite S0. eexists; reflexivity.
Qed.

(** ** Construction *)
Definition known (a : answer) : Prop := answer_wf a /\ a_status a = 0.

Lemma taken_known a : a_status a = 0 -> taken a = Ok (a_data a).
Proof. intros E. unfold taken. now rewrite E. Qed.
Lemma taken_error a : a_status a <> 0 -> taken a = Throw (RuntimeError RtRequestFailed).
Proof. intros E. unfold taken. apply Z.eqb_neq in E. now rewrite E. Qed.

(** the scaling attributes, one at a time *)
Lemma ask_scaling_step n first d tr a d' : 0 <= first < 256 ->
  dev d (attribute_request id first) = (a, d') -> answer_wf a ->
  ask_scaling h use8 (served handle dev) id first (S n) (d, tr)
  = match taken a with
    | Ok x => let '(o, w) := ask_scaling h use8 (served handle dev) id (first + 1) n
                               (d', tr ++ [(attribute_request id first, a)]) in
              (omap (fun r => x ++ r) o, w)
    | Throw e => (Throw e, (d', tr ++ [(attribute_request id first, a)]))
    | Undef u => (Undef u, (d', tr ++ [(attribute_request id first, a)]))
    | Abort => (Abort, (d', tr ++ [(attribute_request id first, a)]))
    end.
Proof.
  intros F E W. cbn [ask_scaling]. unfold st_bind at 1.
  rewrite (ask_attribute first d tr a d') by assumption. destruct (taken a); try reflexivity.
  unfold st_bind, st_ret.
  destruct (ask_scaling h use8 (served handle dev) id (first + 1) n (d', tr ++ [(attribute_request id first, a)])) as [[x| | |] w]; reflexivity.
Qed.

(** after the second answer *)
Definition after_all (full : bool) (size : Z) (x : bytes) (w : D * trace) : outcome param * (D * trace) :=
  match param_attributes h id full (Z.to_nat size) x with
  | Ok p =>
    if full && pa_scalable p then
      let '(o, w) := ask_scaling h use8 (served handle dev) id 13 4 w in
      (y <- o ;; param_scaling h p y, w)
    else (Ok p, w)
  | Throw e => (Throw e, w)
  | Undef u => (Undef u, w)
  | Abort => (Abort, w)
  end.

Lemma param_read_1 full d tr a d1 :
  dev d (attribute_request id 6) = (a, d1) -> answer_wf a -> a_status a <> 0 ->
  param_read h use8 (served handle dev) id full (d, tr)
  = (Throw (RuntimeError RtRequestFailed), (d1, tr ++ [(attribute_request id 6, a)])).
Proof.
  intros E W S0. unfold param_read, ATTR_DATA_SIZE. unfold st_bind at 1.
  rewrite (ask_attribute 6 d tr a d1), taken_error by (assumption || lia). reflexivity.
Qed.

Lemma param_read_size full d tr a d1 :
  dev d (attribute_request id 6) = (a, d1) -> answer_wf a -> a_status a = 0 ->
  get_u8 h (buf_of (a_data a)) = Undef UbOobRead ->
  param_read h use8 (served handle dev) id full (d, tr)
  = (Undef UbOobRead, (d1, tr ++ [(attribute_request id 6, a)])).
Proof.
  intros E W S0 G. unfold param_read, ATTR_DATA_SIZE. unfold st_bind at 1.
  rewrite (ask_attribute 6 d tr a d1), taken_known by (assumption || lia).
  unfold st_bind at 1, st_lift at 1. rewrite G. reflexivity.
Qed.

Lemma param_read_2 full d (tr : trace) a d1 a2 d2 size b :
  dev d (attribute_request id 6) = (a, d1) -> answer_wf a -> a_status a = 0 ->
  get_u8 h (buf_of (a_data a)) = Ok (size, b) ->
  dev d1 (all_request id) = (a2, d2) -> answer_wf a2 ->
  let w := (d2, (tr ++ [(attribute_request id 6, a); (all_request id, a2)] : trace)) in
  param_read h use8 (served handle dev) id full (d, tr)
  = if a_status a2 =? 0 then after_all full size (a_data a2) w
    else (Throw (RuntimeError RtRequestFailed), w).
Proof.
  intros E W S0 G E2 W2 w. unfold param_read, ATTR_DATA_SIZE. unfold st_bind at 1.
  rewrite (ask_attribute 6 d tr a d1), taken_known by (assumption || lia).
  unfold st_bind at 1, st_lift at 1. rewrite G. cbn [omap bind fst].
  unfold st_bind at 1. rewrite (ask_all d1 _ a2 d2) by assumption.
  replace ((tr ++ [(attribute_request id 6, a)]) ++ [(all_request id, a2)])
    with (tr ++ [(attribute_request id 6, a); (all_request id, a2)]) by (now rewrite <- app_assoc).
  change (d2, tr ++ [(attribute_request id 6, a); (all_request id, a2)]) with w. clearbody w. unfold taken. destruct (a_status a2 =? 0); [|reflexivity].
  unfold st_bind at 1, st_lift at 1. unfold after_all.
  destruct (param_attributes h id full (Z.to_nat size) (a_data a2)) as [p| | |]; try reflexivity.
  destruct (full && pa_scalable p); [|reflexivity]. unfold st_bind, st_lift.
  change (Z.to_nat (ATTR_SCALING_OFFSET - ATTR_SCALING_MULTIPLIER + 1)) with 4%nat.
  change ATTR_SCALING_MULTIPLIER with 13.
  destruct (ask_scaling h use8 (served handle dev) id 13 4 w) as [[x| | |] w']; reflexivity.
Qed.
End Served.

(** ** A device that follows the protocol *)
Lemma le_wf n v : (n <= 8)%nat -> answer_wf (done (le n v)).
Proof. intros L. apply done_wf; [apply le_bytes|unfold zlen; rewrite le_length; lia]. Qed.

Lemma all_bytes_len full p more : pdev_wf p ->
  zlen (all_bytes full p more) <= 3000 + zlen more.
Proof.
  intros ((V1 & V2) & (L1 & L2) & W1 & W2 & W3 & (N1 & N2) & (U1 & U2) & (P1 & P2) & (M1 & M2) & (X1 & X2) & (F1 & F2) & (S1 & S2) & _).
  assert (L : zlen (le 2 (d_descriptor p)) = 2) by (unfold zlen; rewrite le_length; reflexivity).
  unfold all_bytes, stub_bytes, full_bytes, scaling_bytes, text_bytes.
  destruct full; [destruct (d_scalable p)|]; rewrite ?zlen_app, ?zlen_cons, ?zlen_app, ?zlen_cons, ?zlen_nil, ?L; lia.
Qed.
Lemma all_bytes_bytes full p more : pdev_wf p -> is_bytes more -> is_bytes (all_bytes full p more).
Proof.
  intros ((V1 & V2) & (L1 & L2) & W1 & W2 & W3 & (N1 & N2) & (U1 & U2) & (P1 & P2) & (M1 & M2) & (X1 & X2) & (F1 & F2) & (S1 & S2) & _ & _ & _ & _ & W4) B.
  assert (T : forall t, is_bytes t -> zlen t <= 255 -> is_bytes (text_bytes t)).
  { intros t T1 T2. apply is_bytes_cons. split; [|assumption]. pose proof (zlen_nonneg t). unfold is_u8; lia. }
  assert (O : forall x, is_u8 x -> is_bytes [x]) by (intros x Hx; constructor; [exact Hx|constructor]).
  unfold all_bytes, stub_bytes, full_bytes, scaling_bytes.
  repeat (apply is_bytes_app; split); auto using le_bytes.
  destruct full; [destruct (d_scalable p)|]; repeat (apply is_bytes_app; split); auto using is_bytes_nil.
Qed.

Lemma all_wf full p more : pdev_wf p -> is_bytes more -> zlen more <= 50000 -> answer_wf (done (all_bytes full p more)).
Proof.
  intros P B L. apply done_wf; [now apply all_bytes_bytes|]. pose proof (all_bytes_len full p more P). lia.
Qed.

Lemma one_wf z : is_u8 z -> answer_wf (done [z]).
Proof. intros Z0. apply done_wf; [constructor; [exact Z0|constructor]|cbn; lia]. Qed.

Lemma scaling_at h p m dv bs off rest : is_u16 m -> is_u16 dv -> is_u16 bs -> is_s16 off ->
  param_scaling h p (le 2 m ++ le 2 dv ++ le 2 bs ++ le 2 off ++ rest)
  = Ok (mkParam (pa_id p) (pa_full p) (pa_scalable p) (pa_readonly p) (pa_parameter p) (pa_value p) (pa_type p)
        (pa_name p) (pa_units p) (pa_help p) (pa_min p) (pa_max p) (pa_default p)
        m dv bs off (pa_precision p) (pa_router p)).
Proof.
  intros M D B O. unfold param_scaling. rewrite buf_of_at.
  rewrite get_u16_le, u16_small by assumption. cbn [bind].
  rewrite get_u16_le, u16_small by assumption. cbn [bind].
  rewrite get_u16_le, u16_small by assumption. cbn [bind].
  unfold get_s16. rewrite get_u16_le. cbn [bind]. rewrite s16_u16, s16_small by assumption. reflexivity.
Qed.

Lemma parameter_answers id full p more :
  let dev := parameter_device id full p more in
  dev tt (attribute_request id 6) = (done [zlen (d_value p)], tt)
  /\ dev tt (all_request id) = (done (all_bytes full p more), tt)
  /\ dev tt (attribute_request id 13) = (done (le 2 (d_mult p)), tt)
  /\ dev tt (attribute_request id 14) = (done (le 2 (d_div p)), tt)
  /\ dev tt (attribute_request id 15) = (done (le 2 (d_base p)), tt)
  /\ dev tt (attribute_request id 16) = (done (le 2 (d_offset p)), tt).
Proof. cbv zeta. unfold parameter_device, attribute_request, all_request. rewrite Z.eqb_refl. repeat split. Qed.

Lemma param_attributes_at h id full p more : pdev_wf p ->
  exists q, param_attributes h id full (Z.to_nat (zlen (d_value p))) (all_bytes full p more) = Ok q
  /\ before_scaling q id full p.
Proof.
  intros P. destruct (param_reader_at h id full p more P) as (q & E & B). exists q. split; [|exact B].
  rewrite param_attributes_reader, buf_of_at, E. reflexivity.
Qed.

(** Any device that holds the parameter *)
Lemma parameter_reads_any {D} (dev : device D) d h use8 handle id full p more tr :
  dev d (attribute_request id 6) = (done [zlen (d_value p)], d) ->
  dev d (all_request id) = (done (all_bytes full p more), d) ->
  dev d (attribute_request id 13) = (done (le 2 (d_mult p)), d) ->
  dev d (attribute_request id 14) = (done (le 2 (d_div p)), d) ->
  dev d (attribute_request id 15) = (done (le 2 (d_base p)), d) ->
  dev d (attribute_request id 16) = (done (le 2 (d_offset p)), d) ->
  is_u32 handle -> sendable use8 id -> pdev_wf p -> is_bytes more -> zlen more <= 50000 ->
  exists q, param_read h use8 (served handle dev) id full (d, tr)
            = (Ok q, (d, tr ++ parameter_trace id full p more))
  /\ shows_parameter q id full p.
Proof.
  intros E1 E2 E3 E4 E5 E6 H I P B L.
  assert (V : is_u8 (zlen (d_value p))).
  { destruct P as ((_ & V2) & _). pose proof (zlen_nonneg (d_value p)). unfold is_u8; lia. }
  rewrite (param_read_2 h use8 handle _ id H I full d tr _ d _ d (zlen (d_value p)) (at_ [zlen (d_value p)] []) E1 (one_wf _ V) eq_refl (u8_at _ _ _) E2 (all_wf full p more P B L)).
  cbn [a_status done Z.eqb a_data]. unfold after_all.
  destruct (param_attributes_at h id full p more P) as (q & Eq & (B1 & B2 & B3 & B4 & B5 & B6 & B7 & B8 & B9)).
  rewrite Eq, B6. unfold parameter_trace. destruct (full && d_scalable p) eqn:FS.
  - rewrite (ask_scaling_step h use8 handle _ id H I 3 13 d _ _ d ltac:(lia) E3 (le_wf 2 _ ltac:(lia))). cbn [taken done a_status Z.eqb a_data].
    rewrite (ask_scaling_step h use8 handle _ id H I 2 (13 + 1) d _ _ d ltac:(lia) E4 (le_wf 2 _ ltac:(lia))). cbn [taken done a_status Z.eqb a_data].
    rewrite (ask_scaling_step h use8 handle _ id H I 1 (13 + 1 + 1) d _ _ d ltac:(lia) E5 (le_wf 2 _ ltac:(lia))). cbn [taken done a_status Z.eqb a_data].
    rewrite (ask_scaling_step h use8 handle _ id H I 0 (13 + 1 + 1 + 1) d _ _ d ltac:(lia) E6 (le_wf 2 _ ltac:(lia))). cbn [taken done a_status Z.eqb a_data].
    cbn [ask_scaling st_ret omap bind].
    destruct P as (_ & _ & _ & _ & _ & _ & _ & _ & _ & _ & _ & _ & P1 & P2 & P3 & P4 & P5).
    rewrite (scaling_at h q _ _ _ _ []) by assumption.
    apply andb_true_iff in FS as [F S0]. specialize (B9 F). destruct B9 as (C1 & C2 & C3 & C4 & C5 & C6 & C7).
    eexists. split; [f_equal; f_equal; rewrite <- !app_assoc; reflexivity|].
    unfold shows_parameter; cbn -[d_scalable d_readonly]. repeat match goal with |- _ /\ _ => split end; try assumption.
    intros _. repeat match goal with |- _ /\ _ => split end; try assumption.
    intros _. repeat match goal with |- _ /\ _ => split end; try reflexivity. now apply C7.
  - exists q. split; [f_equal|].
    unfold shows_parameter. repeat match goal with |- _ /\ _ => split end; try assumption.
    intros F. specialize (B9 F). destruct B9 as (C1 & C2 & C3 & C4 & C5 & C6 & C7).
    repeat match goal with |- _ /\ _ => split end; try assumption.
    intros S0. rewrite F, S0 in FS. discriminate.
Qed.
Lemma parameter_reads h use8 handle id full p more tr :
  is_u32 handle -> sendable use8 id -> pdev_wf p -> is_bytes more -> zlen more <= 50000 ->
  exists q, param_read h use8 (served handle (parameter_device id full p more)) id full (tt, tr)
            = (Ok q, (tt, tr ++ parameter_trace id full p more))
  /\ shows_parameter q id full p.
Proof.
  destruct (parameter_answers id full p more) as (E1 & E2 & E3 & E4 & E5 & E6). now apply parameter_reads_any.
Qed.

Lemma param_read_router {W} h use8 (si : session_if W) id full w q w' :
  param_read h use8 si id full w = (Ok q, w') -> pa_router q = true.
Proof.
  intros E. unfold param_read, st_bind, st_lift, st_ret in E.
  destruct (ask h use8 si GET_ATTRIBUTE_SINGLE _ w) as [[x| | |] w1]; try discriminate.
  destruct (omap fst (get_u8 h (buf_of x))) as [size| | |]; try discriminate.
  destruct (ask h use8 si GET_ATTRIBUTE_ALL _ w1) as [[y| | |] w2]; try discriminate.
  destruct (param_attributes h id full (Z.to_nat size) y) as [p| | |] eqn:P; try discriminate.
  assert (R : pa_router p = true).
  { clear E. unfold param_attributes in P.
    repeat match type of P with
    | bind ?m _ = _ => destruct m as [[? ?]| | |]; cbn [bind] in P; try discriminate P
    end.
    destruct full; [|injection P as <-; reflexivity].
    repeat match type of P with
    | bind ?m _ = _ => destruct m as [[? ?]| | |]; cbn [bind] in P; try discriminate P
    end. injection P as <-. reflexivity. }
  destruct (full && pa_scalable p); [|injection E as <- _; exact R].
  match type of E with (match ?m with _ => _ end) = _ => destruct m as [[z| | |] w3]; try discriminate E end.
  unfold param_scaling in E.
  repeat match type of E with
  | (bind ?m _, _) = _ => destruct m as [[? ?]| | |]; cbn [bind] in E; try discriminate E
  end. injection E as <- _. exact R.
Qed.
