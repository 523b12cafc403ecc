(** Error answers and truncated replies of the parameter object. *)
From Verif Require Import Base MBuffer SBuffer PBase PBuffer PReader PTrunc MEip SEip SObj PObj MFile PFile MIdent MParam SParam PParam PParam2.
Ltac Zify.zify_post_hook ::= Z.div_mod_to_equations.
Local Open Scope outcome_scope.

Ltac peel := match goal with X : _ = _ ++ (_, _) :: _ |- _ => cbn [app] in X; inv X end.

Section Script.
Variables (h : heap) (use8 : bool) (handle id : Z) (full : bool) (p : pdev) (more : bytes).
Hypothesis H : is_u32 handle.
Hypothesis I : sendable use8 id.
Hypothesis P : pdev_wf p.
Hypothesis B : is_bytes more.
Hypothesis L : zlen more <= 50000.

Let V : is_u8 (zlen (d_value p)).
Proof. destruct P as ((_ & V2) & _). pose proof (zlen_nonneg (d_value p)). unfold is_u8; lia. Qed.

Lemma cons_snoc {A} (x : A) l : x :: l = [x] ++ l.
Proof. reflexivity. Qed.

Lemma parameter_fails T1 q a0 T2 a tr :
  parameter_trace id full p more = T1 ++ (q, a0) :: T2 -> answer_wf a -> a_status a <> 0 ->
  param_read h use8 (served handle scripted) id full (map snd T1 ++ [a], tr)
  = (Throw (RuntimeError RtRequestFailed), ([], tr ++ T1 ++ [(q, a)])).
Proof.
  intros E W S0. unfold parameter_trace in E.
  destruct T1 as [|x1 T1].
  { peel. cbn [map app]. apply param_read_1; try assumption. reflexivity. }
  peel.
  assert (R2 : forall a2 r, answer_wf a2 ->
    param_read h use8 (served handle scripted) id full (done [zlen (d_value p)] :: a2 :: r, tr)
    = if a_status a2 =? 0
      then after_all h use8 handle scripted id full (zlen (d_value p)) (a_data a2)
             (r, tr ++ [(attribute_request id 6, done [zlen (d_value p)]); (all_request id, a2)])
      else (Throw (RuntimeError RtRequestFailed),
            (r, tr ++ [(attribute_request id 6, done [zlen (d_value p)]); (all_request id, a2)]))).
  { intros a2 r W2.
    apply (param_read_2 h use8 handle scripted id H I full _ tr (done [zlen (d_value p)]) (a2 :: r) a2 r (zlen (d_value p)) (at_ [zlen (d_value p)] []));
      [reflexivity|now apply one_wf|reflexivity|apply u8_at|reflexivity|assumption]. }
  destruct T1 as [|x2 T1].
  { peel. cbn [map app]. rewrite R2 by assumption. apply Z.eqb_neq in S0. rewrite S0. reflexivity. }
  peel.
  destruct (param_attributes_at h id full p more P) as (q0 & Eq & (B1 & B2 & B3 & B4 & B5 & B6 & _)).
  cbn [map app snd]. rewrite R2 by (now apply all_wf). cbn [a_status done Z.eqb a_data].
  unfold after_all. rewrite Eq, B6.
  destruct (full && d_scalable p); [|destruct T1; discriminate].
  assert (ST : forall n first a' r tr', 0 <= first < 256 -> answer_wf a' ->
    ask_scaling h use8 (served handle scripted) id first (S n) (a' :: r, tr')
    = match taken a' with
      | Ok x => let '(o, w) := ask_scaling h use8 (served handle scripted) id (first + 1) n
                                 (r, tr' ++ [(attribute_request id first, a')]) in
                (omap (fun r => x ++ r) o, w)
      | Throw e => (Throw e, (r, tr' ++ [(attribute_request id first, a')]))
      | Undef u => (Undef u, (r, tr' ++ [(attribute_request id first, a')]))
      | Abort => (Abort, (r, tr' ++ [(attribute_request id first, a')]))
      end).
  { intros n first a' r tr' F W'. exact (ask_scaling_step h use8 handle scripted id H I n first (a' :: r) tr' a' r F eq_refl W'). }
  assert (G : forall v, answer_wf (done (le 2 v))) by (intros v; apply (le_wf 2); lia).
  destruct T1 as [|x3 T1].
  { peel. cbn [map app]. rewrite ST by (assumption || lia). rewrite taken_error by assumption.
    cbn [bind]. f_equal. f_equal. rewrite <- app_assoc. reflexivity. }
  peel. cbn [map app snd].
  rewrite ST by (apply G || lia). cbn [taken done a_status a_data Z.eqb].
  destruct T1 as [|x4 T1].
  { peel. cbn [map app]. rewrite ST by (assumption || lia). rewrite taken_error by assumption.
    cbn [bind omap]. f_equal. f_equal. rewrite <- !app_assoc. reflexivity. }
  peel. cbn [map app snd].
  rewrite ST by (apply G || lia). cbn [taken done a_status a_data Z.eqb].
  destruct T1 as [|x5 T1].
  { peel. cbn [map app]. rewrite ST by (assumption || lia). rewrite taken_error by assumption.
    cbn [bind omap]. f_equal. f_equal. rewrite <- !app_assoc. reflexivity. }
  peel. cbn [map app snd].
  rewrite ST by (apply G || lia). cbn [taken done a_status a_data Z.eqb].
  destruct T1 as [|x6 T1].
  { peel. cbn [map app]. rewrite ST by (assumption || lia). rewrite taken_error by assumption.
    cbn [bind omap]. f_equal. f_equal. rewrite <- !app_assoc. reflexivity. }
  peel. destruct T1; discriminate.
Qed.
End Script.

(** ** Truncated replies *)
Lemma size_missing {D} use8 handle (dev : device D) id full d tr a d' :
  is_u32 handle -> sendable use8 id -> dev d (attribute_request id 6) = (a, d') -> answer_wf a -> a_status a = 0 ->
  a_data a = [] ->
  fst (param_read strict use8 (served handle dev) id full (d, tr)) = Undef UbOobRead.
Proof.
  intros H I E W S0 A. rewrite (param_read_size strict use8 handle dev id H I full d tr a d') by (assumption || (rewrite A; reflexivity)).
  reflexivity.
Qed.

Lemma attributes_truncated {D} use8 handle (dev : device D) id full p k d tr a1 d1 a2 d2 rest :
  is_u32 handle -> sendable use8 id -> pdev_wf p ->
  dev d (attribute_request id 6) = (a1, d1) -> answer_wf a1 -> a_status a1 = 0 -> a_data a1 = zlen (d_value p) :: rest ->
  dev d1 (all_request id) = (a2, d2) -> answer_wf a2 -> a_status a2 = 0 ->
  a_data a2 = firstn k (all_bytes full p []) -> (k < List.length (all_bytes full p []))%nat ->
  fst (param_read strict use8 (served handle dev) id full (d, tr)) = Undef UbOobRead.
Proof.
  intros H I P E1 W1 S1 A1 E2 W2 S2 A2 K.
  assert (G : get_u8 strict (buf_of (a_data a1)) = Ok (zlen (d_value p), at_ [zlen (d_value p)] rest)) by (rewrite A1; apply u8_at).
  rewrite (param_read_2 strict use8 handle dev id H I full d tr a1 d1 a2 d2 _ _ E1 W1 S1 G E2 W2), S2, A2.
  cbn [Z.eqb]. unfold after_all. rewrite param_attributes_reader.
  destruct (param_reader_at strict id full p [] P) as (q & F & _). rewrite <- buf_of_at in F.
  erewrite (cut_short _ _ _ _ _ (reader_param id full _) (prefix_param id full _) F); [reflexivity|].
  unfold at_; cbn [bpos]. exact K.
Qed.

Lemma reader_scaling : reader_ok (fun h b =>
  '(m, b) <- get_u16 h b ;; '(dv, b) <- get_u16 h b ;; '(bs, b) <- get_u16 h b ;; '(off, b) <- get_s16 h b ;;
  Ok ((m, dv, bs, off), b)).
Proof. pose proof reader_u16. pose proof reader_s16. reader. Qed.
Lemma moves_scaling : moves (fun h b =>
  '(m, b) <- get_u16 h b ;; '(dv, b) <- get_u16 h b ;; '(bs, b) <- get_u16 h b ;; '(off, b) <- get_s16 h b ;;
  Ok ((m, dv, bs, off), b)) 8.
Proof.
  intros h b a b' E.
  apply bind_Ok in E as ((x0 & b0) & E0 & E). apply bind_Ok in E as ((x1 & b1) & E1 & E).
  apply bind_Ok in E as ((x2 & b2) & E2 & E). apply bind_Ok in E as ((x3 & b3) & E3 & E).
  apply moves_u16 in E0, E1, E2. apply moves_s16 in E3. inv E. lia.
Qed.
Lemma param_scaling_reader h q d : param_scaling h q d
  = omap (fun '((m, dv, bs, off), _) =>
       mkParam (pa_id q) (pa_full q) (pa_scalable q) (pa_readonly q) (pa_parameter q) (pa_value q) (pa_type q)
        (pa_name q) (pa_units q) (pa_help q) (pa_min q) (pa_max q) (pa_default q) m dv bs off (pa_precision q) (pa_router q))
      ('(m, b) <- get_u16 h (buf_of d) ;; '(dv, b) <- get_u16 h b ;; '(bs, b) <- get_u16 h b ;; '(off, b) <- get_s16 h b ;;
       Ok ((m, dv, bs, off), b)).
Proof.
  unfold param_scaling.
  step_bind. step_bind. step_bind. step_bind.
Qed.

Lemma scaling_short q d : (List.length d < 8)%nat -> param_scaling strict q d = Undef UbOobRead.
Proof.
  intros L. rewrite param_scaling_reader.
  rewrite (strict_short _ 8 (buf_of d) reader_scaling moves_scaling); [reflexivity|cbn [buf_of bpos]; lia|cbn [buf_of bpos bdata]; lia].
Qed.

Lemma scaling_truncated use8 handle id p more a3 a4 a5 a6 tr :
  is_u32 handle -> sendable use8 id -> pdev_wf p -> is_bytes more -> zlen more <= 50000 -> d_scalable p = true ->
  Forall (fun a => answer_wf a /\ a_status a = 0) [a3; a4; a5; a6] ->
  zlen (a_data a3) + zlen (a_data a4) + zlen (a_data a5) + zlen (a_data a6) < 8 ->
  fst (param_read strict use8 (served handle scripted) id true
         ([done [zlen (d_value p)]; done (all_bytes true p more); a3; a4; a5; a6], tr)) = Undef UbOobRead.
Proof.
  intros H I P B L SC A LN.
  assert (V : is_u8 (zlen (d_value p))).
  { destruct P as ((_ & V2) & _). pose proof (zlen_nonneg (d_value p)). unfold is_u8; lia. }
  rewrite (param_read_2 strict use8 handle scripted id H I true [done [zlen (d_value p)]; done (all_bytes true p more); a3; a4; a5; a6] tr (done [zlen (d_value p)]) [done (all_bytes true p more); a3; a4; a5; a6] (done (all_bytes true p more)) [a3; a4; a5; a6] (zlen (d_value p)) (at_ [zlen (d_value p)] [])
    eq_refl (one_wf _ V) eq_refl (u8_at _ _ _) eq_refl (all_wf true p more P B L)).
  cbn [a_status done Z.eqb a_data]. unfold after_all.
  destruct (param_attributes_at strict id true p more P) as (q & Eq & (B1 & B2 & B3 & B4 & B5 & B6 & _)).
  rewrite Eq, B6, SC. cbn [andb].
  apply Forall_cons_iff in A as [[A3 S3] A]. apply Forall_cons_iff in A as [[A4 S4] A].
  apply Forall_cons_iff in A as [[A5 S5] A]. apply Forall_cons_iff in A as [[A6 S6] _].
  rewrite (ask_scaling_step strict use8 handle scripted id H I 3 13 [a3; a4; a5; a6] _ a3 [a4; a5; a6] ltac:(lia) eq_refl A3), (taken_known a3) by assumption.
  rewrite (ask_scaling_step strict use8 handle scripted id H I 2 (13 + 1) [a4; a5; a6] _ a4 [a5; a6] ltac:(lia) eq_refl A4), (taken_known a4) by assumption.
  rewrite (ask_scaling_step strict use8 handle scripted id H I 1 (13 + 1 + 1) [a5; a6] _ a5 [a6] ltac:(lia) eq_refl A5), (taken_known a5) by assumption.
  rewrite (ask_scaling_step strict use8 handle scripted id H I 0 (13 + 1 + 1 + 1) [a6] _ a6 [] ltac:(lia) eq_refl A6), (taken_known a6) by assumption.
  cbn [ask_scaling st_ret omap bind fst]. apply scaling_short.
  unfold zlen in LN. rewrite !app_length. cbn [List.length]. lia.
Qed.

(** Whatever the successful answers contain, the constructor does not throw. *)
Lemma scaling_no_throw h q d e : param_scaling h q d <> Throw e.
Proof.
  rewrite param_scaling_reader. destruct (ro_result _ reader_scaling h (buf_of d)) as [([[[m dv] bs] off] & b & F)|F];
    rewrite F; discriminate.
Qed.
Lemma ask_scaling_no_throw {D} h use8 handle (dev : device D) id n : is_u32 handle -> sendable use8 id ->
  (forall d q, answer_wf (fst (dev d q)) /\ a_status (fst (dev d q)) = 0) ->
  forall first d tr, 0 <= first -> first + Z.of_nat n <= 256 ->
  exists x w, ask_scaling h use8 (served handle dev) id first n (d, tr) = (Ok x, w).
Proof.
  intros H I A. induction n as [|n IH]; intros first d tr F0 F1; [exists [], (d, tr); reflexivity|].
  destruct (dev d (attribute_request id first)) as [a d'] eqn:E.
  pose proof (A d (attribute_request id first)) as [A1 A2]. rewrite E in A1, A2. cbn [fst] in A1, A2.
  rewrite (ask_scaling_step h use8 handle dev id H I n first d tr a d' ltac:(lia) E A1), taken_known by assumption.
  destruct (IH (first + 1) d' (tr ++ [(attribute_request id first, a)])) as (x & w & K); try lia.
  exists (a_data a ++ x), w.
  match goal with |- (let '(o, w) := ?m in _) = _ => replace m with (@Ok bytes x, w) by (symmetry; exact K) end.
  reflexivity.
Qed.

Lemma parameter_no_throw {D} h use8 handle (dev : device D) id full d tr e :
  is_u32 handle -> sendable use8 id ->
  (forall d q, answer_wf (fst (dev d q)) /\ a_status (fst (dev d q)) = 0) ->
  fst (param_read h use8 (served handle dev) id full (d, tr)) <> Throw e.
Proof.
  intros H I A.
  destruct (dev d (attribute_request id 6)) as [a1 d1] eqn:E1.
  pose proof (A d (attribute_request id 6)) as [W1 S1]. rewrite E1 in W1, S1. cbn [fst] in W1, S1.
  destruct (ro_result _ reader_u8 h (buf_of (a_data a1))) as [(size & b & G)|G].
  2:{ rewrite (param_read_size h use8 handle dev id H I full d tr a1 d1 E1 W1 S1 G). discriminate. }
  destruct (dev d1 (all_request id)) as [a2 d2] eqn:E2.
  pose proof (A d1 (all_request id)) as [W2 S2]. rewrite E2 in W2, S2. cbn [fst] in W2, S2.
  rewrite (param_read_2 h use8 handle dev id H I full d tr a1 d1 a2 d2 size b E1 W1 S1 G E2 W2), S2. cbn [Z.eqb].
  unfold after_all. rewrite param_attributes_reader.
  destruct (ro_result _ (reader_param id full (Z.to_nat size)) h (buf_of (a_data a2))) as [(q & b' & F)|F]; rewrite F; [|discriminate].
  cbn [omap bind fst]. destruct (full && pa_scalable q); [|discriminate].
  destruct (ask_scaling_no_throw h use8 handle dev id 4 H I A 13 d2
     (tr ++ [(attribute_request id 6, a1); (all_request id, a2)]) ltac:(lia) ltac:(lia)) as (x & w & K).
  match goal with |- fst (let '(o, w) := ?m in _) <> _ => replace m with (@Ok bytes x, w) by (symmetry; exact K) end.
  cbn [bind fst]. apply scaling_no_throw.
Qed.

(** ** Parameters made by hand *)
Lemma set_by_hand id full size l : made_by_hand (fold_left pa_apply l (param_new id full size)) id full size l.
Proof.
  assert (G : forall l p, let q := fold_left pa_apply l p in
    pa_id q = pa_id p /\ pa_full q = pa_full p /\ pa_parameter q = pa_parameter p /\ pa_router q = pa_router p
    /\ pa_value q = pa_value p /\ pa_min q = pa_min p /\ pa_max q = pa_max p /\ pa_default q = pa_default p
    /\ pa_scalable q = last_given (fun c => match c with SetScalable x => Some x | _ => None end) l (pa_scalable p)
    /\ pa_readonly q = last_given (fun c => match c with SetReadOnly x => Some x | _ => None end) l (pa_readonly p)
    /\ pa_type q = last_given (fun c => match c with SetDataType x => Some x | _ => None end) l (pa_type p)
    /\ pa_name q = last_given (fun c => match c with SetPName x => Some x | _ => None end) l (pa_name p)
    /\ pa_units q = last_given (fun c => match c with SetUnits x => Some x | _ => None end) l (pa_units p)
    /\ pa_help q = last_given (fun c => match c with SetHelp x => Some x | _ => None end) l (pa_help p)
    /\ pa_mult q = last_given (fun c => match c with SetMult x => Some x | _ => None end) l (pa_mult p)
    /\ pa_div q = last_given (fun c => match c with SetDiv x => Some x | _ => None end) l (pa_div p)
    /\ pa_base q = last_given (fun c => match c with SetBase x => Some x | _ => None end) l (pa_base p)
    /\ pa_offset q = last_given (fun c => match c with SetOffset x => Some x | _ => None end) l (pa_offset p)
    /\ pa_precision q = last_given (fun c => match c with SetPrecision x => Some x | _ => None end) l (pa_precision p)).
  { clear l. induction l as [|c l IH]; intros p; cbv zeta.
    - cbn [fold_left last_given]. repeat split.
    - cbn [fold_left]. pose proof (IH (pa_apply p c)) as K. cbv zeta in K. destruct p, c; exact K. }
  exact (G l (param_new id full size)).
Qed.
