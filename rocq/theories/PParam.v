(** Proofs about the identity and parameter object clients. *)
From Verif Require Import Base MBuffer SBuffer PBase PBuffer PReader PTrunc MEip SEip SObj PObj MFile PFile MIdent MParam SParam.
Ltac Zify.zify_post_hook ::= Z.div_mod_to_equations.
Local Open Scope outcome_scope.

Lemma get_short_at h t pre rest : text_wf t ->
  get_short_string h (at_ pre (text_bytes t ++ rest)) = Ok (short_string t, at_ (pre ++ text_bytes t) rest).
Proof.
  intros [B L]. unfold get_short_string, text_bytes. cbn [app]. rewrite get_u8_at. cbn [bind].
  unfold zlen. rewrite Nat2Z.id, get_bytes_at. cbn [bind]. now rewrite <- app_assoc.
Qed.

(** ** Identity *)
Lemma get_identity_at h n i pre rest : ident_wf i ->
  exists o, get_identity h n (at_ pre (ident_bytes i ++ rest)) = Ok (o, at_ (pre ++ ident_bytes i) rest)
  /\ id_instance o = n /\ shows_identity o i.
Proof.
  intros (W1 & W2 & W3 & W4 & W5 & W6 & W7 & W8 & W9). unfold get_identity, ident_bytes.
  rewrite <- !app_assoc.
  rewrite get_u16_le. cbn [bind]. rewrite get_u16_le. cbn [bind]. rewrite get_u16_le. cbn [bind].
  unfold get_rev. cbn [app]. rewrite get_u8_at. cbn [bind]. rewrite get_u8_at. cbn [bind].
  rewrite get_u16_le. cbn [bind]. rewrite get_u32_le. cbn [bind].
  change (zlen (i_name i) :: i_name i ++ rest) with (text_bytes (i_name i) ++ rest).
  rewrite get_short_at by (now split). cbn [bind].
  eexists. split; [f_equal; f_equal; f_equal; rewrite <- !app_assoc; reflexivity|].
  split; [reflexivity|]. unfold shows_identity; cbn.
  rewrite !(u16_small (i_vendor i)), !(u16_small (i_type i)), !(u16_small (i_code i)), !(u16_small (i_status i)), (u32_small (i_serial i)) by assumption.
  repeat (split; [reflexivity|]). reflexivity.
Qed.

Lemma reader_identity n : reader_ok (fun h => get_identity h n).
Proof.
  unfold get_identity. pose proof reader_u16. pose proof reader_u32. pose proof reader_rev. pose proof reader_short. reader.
Qed.
Lemma prefix_identity n : prefix_ok (fun h => get_identity h n).
Proof.
  unfold get_identity. pose proof prefix_u16. pose proof prefix_u32. pose proof prefix_rev. pose proof prefix_short. prefix.
Qed.

Lemma one_sendable use8 : sendable use8 1.
Proof. split; [unfold is_u16; lia|intros _; lia]. Qed.

Section Identity.
Context {D : Type}.
Variables (h : heap) (use8 : bool) (handle : Z) (dev : device D).
Hypothesis H : is_u32 handle.

(** What the constructor makes of the answer. *)
Lemma identity_read_served n d tr a d' :
  dev d (identity_request 1) = (a, d') -> answer_wf a ->
  identity_read h use8 (served handle dev) n (d, tr)
  = (if a_status a =? 0 then omap fst (get_identity h n (buf_of (a_data a))) else Throw (RuntimeError RtRequestFailed),
     (d', tr ++ [(identity_request 1, a)])).
Proof.
  intros E W. unfold identity_read. unfold GET_ATTRIBUTE_ALL, IDENTITY_CLASS_ID.
  erewrite (served2 h use8 handle dev 1 1 1 [] d tr a d');
    [|lia|apply one_sendable|assumption|lia|constructor|rewrite zlen_nil; lia|exact E|assumption].
  cbn [bind r_status r_data]. unfold GSC_SUCCESS. f_equal.
  destruct (a_status a =? 0); [|reflexivity].
  destruct (get_identity h n (buf_of (a_data a))) as [[i b]| | |]; try reflexivity.
  cbn [bind omap fst]. destruct (negb (buf_valid b)); reflexivity.
Qed.

Lemma identity_reads n d tr a d' i rest :
  dev d (identity_request 1) = (a, d') -> answer_wf a -> a_status a = 0 ->
  a_data a = ident_bytes i ++ rest -> ident_wf i ->
  exists o, identity_read h use8 (served handle dev) n (d, tr) = (Ok o, (d', tr ++ [(identity_request 1, a)]))
  /\ id_instance o = n /\ shows_identity o i.
Proof.
  intros E W S0 A I. rewrite (identity_read_served _ _ _ _ _ E W), S0, A. cbn [Z.eqb].
  rewrite buf_of_at. destruct (get_identity_at h n i [] rest I) as (o & F & G). rewrite F.
  exists o. split; [reflexivity|exact G].
Qed.

Lemma identity_error n d tr a d' :
  dev d (identity_request 1) = (a, d') -> answer_wf a -> a_status a <> 0 ->
  exists e, identity_read h use8 (served handle dev) n (d, tr)
            = (Throw (RuntimeError e), (d', tr ++ [(identity_request 1, a)])).
Proof.
  intros E W S0. rewrite (identity_read_served _ _ _ _ _ E W).
  destruct (Z.eqb_spec (a_status a) 0); [lia|]. eauto.
Qed.

(** However short the data, no exception is thrown. *)
Lemma identity_short_no_throw n d tr a d' e :
  dev d (identity_request 1) = (a, d') -> answer_wf a -> a_status a = 0 ->
  fst (identity_read h use8 (served handle dev) n (d, tr)) <> Throw e.
Proof.
  intros E W S0. rewrite (identity_read_served _ _ _ _ _ E W), S0. cbn [Z.eqb fst].
  destruct (ro_result _ (reader_identity n) h (buf_of (a_data a))) as [(x & b & F)|F]; rewrite F; discriminate.
Qed.
End Identity.

Lemma identity_truncated {D} use8 handle (dev : device D) n d tr a d' i k :
  is_u32 handle -> dev d (identity_request 1) = (a, d') -> answer_wf a -> a_status a = 0 -> ident_wf i ->
  a_data a = firstn k (ident_bytes i) -> (k < List.length (ident_bytes i))%nat ->
  fst (identity_read strict use8 (served handle dev) n (d, tr)) = Undef UbOobRead.
Proof.
  intros H E W S0 I A K. rewrite (identity_read_served _ _ _ _ H _ _ _ _ _ E W), S0, A. cbn [Z.eqb fst].
  destruct (get_identity_at strict n i [] [] I) as (o & F & _). rewrite app_nil_r, <- buf_of_at in F.
  erewrite (cut_short _ _ _ _ _ (reader_identity n) (prefix_identity n) F); [reflexivity|].
  unfold at_; cbn [bpos app]. exact K.
Qed.

(** ** Parameters *)
Lemma land_bit x n : 0 <= n -> negb (Z.land x (2 ^ n) =? 0) = Z.testbit x n.
Proof.
  intros N. destruct (Z.testbit x n) eqn:E.
  - destruct (Z.eqb_spec (Z.land x (2 ^ n)) 0) as [F|F]; [|reflexivity].
    apply (f_equal (fun y => Z.testbit y n)) in F. rewrite Z.land_spec, E, Z.pow2_bits_true, Z.bits_0 in F by lia. discriminate.
  - replace (Z.land x (2 ^ n)) with 0; [reflexivity|]. symmetry. apply Z.bits_inj'. intros k K.
    rewrite Z.land_spec, Z.bits_0. destruct (Z.eq_dec k n) as [->|X]; [now rewrite E|].
    rewrite Z.pow2_bits_false by lia. now destruct (Z.testbit x k).
Qed.

Definition before_scaling (q : param) (id : Z) (full : bool) (p : pdev) : Prop :=
  pa_id q = id /\ pa_parameter q = id /\ pa_full q = full
  /\ pa_value q = d_value p /\ pa_type q = d_type p
  /\ pa_scalable q = d_scalable p /\ pa_readonly q = d_readonly p /\ pa_router q = true
  /\ (full = true ->
      pa_name q = d_name p /\ pa_units q = d_units p /\ pa_help q = d_help p
      /\ pa_min q = d_min p /\ pa_max q = d_max p /\ pa_default q = d_default p
      /\ (d_scalable p = true -> pa_precision q = d_precision p)).

(** the decoder with its cursor kept *)
Definition param_reader (id : Z) (full : bool) (size : nat) (h : heap) (b : buffer) : outcome (param * buffer) :=
  '(value, b) <- get_bytes h size b ;;
  '(plen, b) <- get_u8 h b ;;
  '(_, b) <- get_bytes h (Z.to_nat plen) b ;;
  '(descr, b) <- get_u16 h b ;;
  '(ty, b) <- get_u8 h b ;;
  let scalable := negb (Z.land descr SUPPORTS_SCALING =? 0) in
  let readonly := negb (Z.land descr READ_ONLY =? 0) in
  if full then
    '(_, b) <- get_bytes h 1 b ;;
    '(name, b) <- get_short_string h b ;;
    '(units, b) <- get_short_string h b ;;
    '(help, b) <- get_short_string h b ;;
    '(mn, b) <- get_bytes h size b ;;
    '(mx, b) <- get_bytes h size b ;;
    '(df, b) <- get_bytes h size b ;;
    '(prec, b) <- (if scalable
                   then '(_, b) <- get_bytes h 16 b ;; get_u8 h b
                   else Ok (0, b)) ;;
    Ok (mkParam id full scalable readonly id value ty (str_std name) (str_std units) (str_std help)
          mn mx df 1 1 1 0 prec true, b)
  else
    Ok (mkParam id full scalable readonly id value ty [] [] []
          (zeros size) (zeros size) (zeros size) 1 1 1 0 0 true, b).

Ltac step_bind :=
  match goal with
  | |- bind ?m _ = omap _ (bind ?m _) => destruct m as [[? ?]| | |]; cbn [bind omap]; try reflexivity
  end.
Lemma param_attributes_reader h id full size d :
  param_attributes h id full size d = omap fst (param_reader id full size h (buf_of d)).
Proof.
  unfold param_attributes, param_reader.
  step_bind. step_bind. step_bind. step_bind. step_bind. destruct full; [|reflexivity].
  step_bind. step_bind. step_bind. step_bind. step_bind. step_bind. step_bind.
  cbn zeta. match goal with |- bind ?m _ = _ => destruct m as [[? ?]| | |]; reflexivity end.
Qed.

Ltac norm_app := repeat (progress (repeat rewrite <- app_assoc; cbn [app])); rewrite ?app_nil_r.
Lemma get_bytes_z h l z pre rest : z = zlen l ->
  get_bytes h (Z.to_nat z) (at_ pre (l ++ rest)) = Ok (l, at_ (pre ++ l) rest).
Proof. intros ->. unfold zlen. rewrite Nat2Z.id. apply get_bytes_at. Qed.

Lemma param_reader_at h id full p more : pdev_wf p ->
  exists q, param_reader id full (Z.to_nat (zlen (d_value p))) h (at_ [] (all_bytes full p more))
            = Ok (q, at_ (all_bytes full p []) more) /\ before_scaling q id full p.
Proof.
  intros ((V1 & V2) & (L1 & L2) & W1 & W2 & W3 & N & U & HP & (M1 & M2) & (X1 & X2) & (F1 & F2) & (S1 & S2) & _ & _ & _ & _ & W4).
  unfold param_reader, all_bytes, stub_bytes. rewrite <- !app_assoc.
  rewrite get_bytes_z by reflexivity. cbn [bind]. unfold text_bytes at 1. cbn [app].
  rewrite get_u8_at. cbn [bind]. rewrite get_bytes_z by reflexivity. cbn [bind].
  rewrite get_u16_le, u16_small by assumption. cbn [bind].
  rewrite get_u8_at. cbn [bind]. cbn zeta.
  replace (negb (Z.land (d_descriptor p) SUPPORTS_SCALING =? 0)) with (d_scalable p) by (symmetry; apply (land_bit _ 2); lia).
  replace (negb (Z.land (d_descriptor p) READ_ONLY =? 0)) with (d_readonly p) by (symmetry; apply (land_bit _ 4); lia).
  destruct full.
  - unfold full_bytes. rewrite <- !app_assoc. cbn [app].
    rewrite (get_bytes_z h [d_size_again p] 1 _ _ eq_refl : get_bytes h 1 (at_ _ (d_size_again p :: _)) = _). cbn [bind].
    rewrite get_short_at by assumption. cbn [bind].
    rewrite get_short_at by assumption. cbn [bind].
    rewrite get_short_at by assumption. cbn [bind].
    rewrite get_bytes_z by (symmetry; assumption). cbn [bind].
    rewrite get_bytes_z by (symmetry; assumption). cbn [bind].
    rewrite get_bytes_z by (symmetry; assumption). cbn [bind].
    destruct (d_scalable p) eqn:SC.
    + unfold scaling_bytes. rewrite <- !app_assoc. cbn [app].
      rewrite (get_bytes_z h (d_skipped p) 16 _ _ (eq_sym S2) : get_bytes h 16 _ = _). cbn [bind].
      rewrite get_u8_at. cbn [bind].
      eexists. split; [f_equal; f_equal; f_equal; unfold text_bytes; norm_app; reflexivity|].
      unfold before_scaling; cbn -[d_scalable d_readonly]. rewrite SC. repeat match goal with |- _ /\ _ => split end; try reflexivity.
      intros _. repeat match goal with |- _ /\ _ => split end; reflexivity.
    + cbn [app bind].
      eexists. split; [f_equal; f_equal; f_equal; unfold text_bytes; norm_app; reflexivity|].
      unfold before_scaling; cbn -[d_scalable d_readonly]. rewrite SC. repeat match goal with |- _ /\ _ => split end; try reflexivity.
      intros _. repeat match goal with |- _ /\ _ => split end; try reflexivity. discriminate.
  - cbn [app].
    eexists. split; [f_equal; f_equal; f_equal; norm_app; reflexivity|].
    unfold before_scaling; cbn -[d_scalable d_readonly]. repeat match goal with |- _ /\ _ => split end; try reflexivity. discriminate.
Qed.

Lemma reader_param id full size : reader_ok (param_reader id full size).
Proof.
  unfold param_reader.
  apply (reader_bind' (fun h => get_bytes h size)); [apply reader_bytes|intros value].
  apply (reader_bind' get_u8); [apply reader_u8|intros plen].
  apply (reader_bind' (fun h => get_bytes h (Z.to_nat plen))); [apply reader_bytes|intros ?].
  apply (reader_bind' get_u16); [apply reader_u16|intros descr].
  apply (reader_bind' get_u8); [apply reader_u8|intros ty]. cbn zeta.
  destruct full.
  - apply (reader_bind' (fun h => get_bytes h 1)); [apply reader_bytes|intros ?].
    apply (reader_bind' get_short_string); [apply reader_short|intros ?].
    apply (reader_bind' get_short_string); [apply reader_short|intros ?].
    apply (reader_bind' get_short_string); [apply reader_short|intros ?].
    apply (reader_bind' (fun h => get_bytes h size)); [apply reader_bytes|intros ?].
    apply (reader_bind' (fun h => get_bytes h size)); [apply reader_bytes|intros ?].
    apply (reader_bind' (fun h => get_bytes h size)); [apply reader_bytes|intros ?].
    apply (reader_bind' (fun h b => if negb (Z.land descr SUPPORTS_SCALING =? 0)
                                    then bind (get_bytes h 16 b) (fun '(_, b) => get_u8 h b) else Ok (0, b))).
    + destruct (negb _); [|apply (reader_ret 0)].
      apply (reader_bind' (fun h => get_bytes h 16) (fun _ => get_u8)); [apply reader_bytes|intros ?; apply reader_u8].
    + intros prec.
      match goal with |- reader_ok (fun _ b => Ok (?x, b)) => apply (reader_ret x) end.
  - match goal with |- reader_ok (fun _ b => Ok (?x, b)) => apply (reader_ret x) end.
Qed.
Lemma prefix_param id full size : prefix_ok (param_reader id full size).
Proof.
  unfold param_reader.
  apply (prefix_bind (fun h => get_bytes h size)); [apply prefix_bytes|intros value].
  apply (prefix_bind get_u8); [apply prefix_u8|intros plen].
  apply (prefix_bind (fun h => get_bytes h (Z.to_nat plen))); [apply prefix_bytes|intros ?].
  apply (prefix_bind get_u16); [apply prefix_u16|intros descr].
  apply (prefix_bind get_u8); [apply prefix_u8|intros ty]. cbn zeta.
  destruct full.
  - apply (prefix_bind (fun h => get_bytes h 1)); [apply prefix_bytes|intros ?].
    apply (prefix_bind get_short_string); [apply prefix_short|intros ?].
    apply (prefix_bind get_short_string); [apply prefix_short|intros ?].
    apply (prefix_bind get_short_string); [apply prefix_short|intros ?].
    apply (prefix_bind (fun h => get_bytes h size)); [apply prefix_bytes|intros ?].
    apply (prefix_bind (fun h => get_bytes h size)); [apply prefix_bytes|intros ?].
    apply (prefix_bind (fun h => get_bytes h size)); [apply prefix_bytes|intros ?].
    apply (prefix_bind (fun h b => if negb (Z.land descr SUPPORTS_SCALING =? 0)
                                    then bind (get_bytes h 16 b) (fun '(_, b) => get_u8 h b) else Ok (0, b))).
    + destruct (negb _); [|apply (prefix_ret 0)].
      apply (prefix_bind (fun h => get_bytes h 16) (fun _ => get_u8)); [apply prefix_bytes|intros ?; apply prefix_u8].
    + intros prec.
      match goal with |- prefix_ok (fun _ b => Ok (?x, b)) => apply (prefix_ret x) end.
  - match goal with |- prefix_ok (fun _ b => Ok (?x, b)) => apply (prefix_ret x) end.
Qed.

(** ** Identities made by hand *)
Lemma set_shows n l : id_instance (fold_left identity_set l (identity_new n)) = n
  /\ shows_identity (fold_left identity_set l (identity_new n)) (ident_of l).
Proof.
  assert (G : forall l o, id_instance (fold_left identity_set l o) = id_instance o
    /\ shows_identity (fold_left identity_set l o)
      (mkIdent (last_given (fun c => match c with SetVendor x => Some x | _ => None end) l (id_vendor o))
        (last_given (fun c => match c with SetType x => Some x | _ => None end) l (id_type o))
        (last_given (fun c => match c with SetCode x => Some x | _ => None end) l (id_code o))
        (last_given (fun c => match c with SetRevision r => Some (rev_major r) | _ => None end) l (rev_major (id_revision o)))
        (last_given (fun c => match c with SetRevision r => Some (rev_minor r) | _ => None end) l (rev_minor (id_revision o)))
        (last_given (fun c => match c with SetStatus x => Some x | _ => None end) l (id_status o))
        (last_given (fun c => match c with SetSerial x => Some x | _ => None end) l (id_serial o))
        (last_given (fun c => match c with SetName x => Some x | _ => None end) l (str_std (id_name o))))).
  { clear l. induction l as [|c l IH]; intros [n' v t k r w s m].
    - cbn. repeat split. destruct r; reflexivity.
    - destruct c; exact (IH _). }
  exact (G l (identity_new n)).
Qed.
