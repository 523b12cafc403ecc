From Coq Require Import Permutation.
From Verif Require Import Base MBuffer SBuffer PBase PBuffer PReader MEip SEip PPathT PEip PRouter MConnReq SConnReq.
Ltac Zify.zify_post_hook ::= Z.div_mod_to_equations.
Local Open Scope outcome_scope.

(** ** Bits *)
Lemma low_range lfo f : 0 <= low lfo f < 32 /\ 0 < width lfo f <= 16 /\ low lfo f + width lfo f <= 32.
Proof. destruct lfo, f; cbn; lia. Qed.

Lemma part_bits lfo f v i : 0 <= i ->
  Z.testbit (part lfo f v) i = (i <? width lfo f) && Z.testbit v (i + low lfo f).
Proof.
  intros Hi. pose proof (low_range lfo f) as (L & W & _). unfold part.
  rewrite <- Z.shiftr_div_pow2, <- Z.land_ones by lia.
  rewrite Z.land_spec, Z.shiftr_spec, Z.testbit_ones_nonneg by lia. apply andb_comm.
Qed.

Lemma u32_bits v i : 0 <= i -> Z.testbit (u32 v) i = (i <? 32) && Z.testbit v i.
Proof.
  intros Hi. unfold u32. change 4294967296 with (2 ^ 32). rewrite <- Z.land_ones by lia.
  rewrite Z.land_spec, Z.testbit_ones_nonneg by lia. apply andb_comm.
Qed.
Lemma u16_bits v i : 0 <= i -> Z.testbit (u16 v) i = (i <? 16) && Z.testbit v i.
Proof.
  intros Hi. unfold u16. change 65536 with (2 ^ 16). rewrite <- Z.land_ones by lia.
  rewrite Z.land_spec, Z.testbit_ones_nonneg by lia. apply andb_comm.
Qed.

(** Every getter extracts its bit range. *)
Lemma mask_shift v k w : 0 <= k -> 0 < w -> k + w <= 32 ->
  Z.shiftr (Z.land v (u32 (Z.shiftl (Z.ones w) k))) k = (v / 2 ^ k) mod 2 ^ w.
Proof.
  intros Hk Hw Hs. rewrite <- Z.shiftr_div_pow2, <- Z.land_ones by lia.
  apply Z.bits_inj'. intros i Hi.
  rewrite Z.shiftr_spec, Z.land_spec, Z.land_spec, Z.shiftr_spec, u32_bits by lia.
  rewrite Z.shiftl_spec by lia. replace (i + k - k) with i by lia.
  rewrite Z.testbit_ones_nonneg by lia.
  destruct (Z.ltb_spec i w); [|now rewrite !andb_false_r].
  destruct (Z.ltb_spec (i + k) 32); [reflexivity|lia].
Qed.

Lemma getter_part lfo f v : getter lfo f v = part lfo f v.
Proof.
  unfold part. destruct f; cbn [getter low width].
  - unfold ncp_owner. exact (mask_shift v (if lfo then 31 else 15) 1 ltac:(destruct lfo; lia) ltac:(lia) ltac:(destruct lfo; lia)).
  - unfold ncp_conn_type. exact (mask_shift v (if lfo then 29 else 13) 2 ltac:(destruct lfo; lia) ltac:(lia) ltac:(destruct lfo; lia)).
  - unfold ncp_priority. exact (mask_shift v (if lfo then 26 else 10) 2 ltac:(destruct lfo; lia) ltac:(lia) ltac:(destruct lfo; lia)).
  - unfold ncp_size_type. exact (mask_shift v (if lfo then 25 else 9) 1 ltac:(destruct lfo; lia) ltac:(lia) ltac:(destruct lfo; lia)).
  - unfold ncp_size, ncp_mask. rewrite Z.pow_0_r, Z.div_1_r.
    replace (if lfo then 65535 else 511) with (Z.ones (if lfo then 16 else 9)) by (destruct lfo; reflexivity).
    rewrite Z.land_ones by (destruct lfo; lia). unfold u16. apply Z.mod_small.
    destruct lfo.
    + pose proof (Z.mod_pos_bound v (2 ^ 16)). lia.
    + pose proof (Z.mod_pos_bound v (2 ^ 9)). lia.
Qed.

(** What one setter does to the word. *)
Definition shifted (lfo : bool) (o : ncp_op) : Z :=
  Z.shiftl (op_value o mod 2 ^ width lfo (op_field o)) (low lfo (op_field o)).

Lemma set_value lfo v o : is_u32 v -> op_ok o -> ncp_set lfo v o = Z.lor v (shifted lfo o) /\ is_u32 (ncp_set lfo v o).
Proof.
  intros V O.
  assert (B : forall x, 0 <= x < 2 ^ 32 -> u32 (Z.lor v x) = Z.lor v x /\ is_u32 (u32 (Z.lor v x))).
  { intros x X. assert (L : 0 <= Z.lor v x < 2 ^ 32).
    { unfold is_u32 in V. split; [apply Z.lor_nonneg; lia|].
      destruct (Z.eq_dec (Z.lor v x) 0) as [->|N]; [lia|].
      apply Z.log2_lt_pow2; [pose proof (Z.lor_nonneg v x); lia|].
      rewrite Z.log2_lor by lia.
      apply Z.max_lub_lt.
      - destruct (Z.eq_dec v 0) as [->|]; [cbn; lia|]. apply Z.log2_lt_pow2; lia.
      - destruct (Z.eq_dec x 0) as [->|]; [cbn; lia|]. apply Z.log2_lt_pow2; lia. }
    unfold is_u32 in *. rewrite u32_small by (unfold is_u32; lia). split; [reflexivity|lia]. }
  unfold shifted. destruct o as [x|x|x|x|x]; cbn [ncp_set op_field op_value low width op_ok] in *.
  - rewrite Z.mod_small by lia. apply B. destruct lfo; rewrite Z.shiftl_mul_pow2 by lia; lia.
  - rewrite Z.mod_small by lia. apply B. destruct lfo; rewrite Z.shiftl_mul_pow2 by lia; lia.
  - rewrite Z.mod_small by lia. apply B. destruct lfo; rewrite Z.shiftl_mul_pow2 by lia; lia.
  - rewrite Z.mod_small by lia. apply B. destruct lfo; rewrite Z.shiftl_mul_pow2 by lia; lia.
  - rewrite Z.shiftl_0_r. unfold ncp_mask.
    replace (if lfo then 65535 else 511) with (Z.ones (if lfo then 16 else 9)) by (destruct lfo; reflexivity).
    rewrite Z.land_ones by (destruct lfo; lia). apply B.
    destruct lfo.
    + pose proof (Z.mod_pos_bound x (2 ^ 16)). lia.
    + pose proof (Z.mod_pos_bound x (2 ^ 9)). lia.
Qed.

(** Fields do not overlap. *)
Lemma part_lor lfo f a b : part lfo f (Z.lor a b) = Z.lor (part lfo f a) (part lfo f b).
Proof.
  apply Z.bits_inj'. intros i Hi. rewrite Z.lor_spec, !part_bits by assumption.
  rewrite Z.lor_spec. destruct (i <? width lfo f); reflexivity.
Qed.
Lemma part_shifted lfo f o : part lfo f (shifted lfo o)
  = if field_eqb (op_field o) f then op_value o mod 2 ^ width lfo f else 0.
Proof.
  pose proof (low_range lfo f) as (L & W & _). pose proof (low_range lfo (op_field o)) as (L' & W' & _).
  apply Z.bits_inj'. intros i Hi. rewrite part_bits by assumption. unfold shifted.
  rewrite Z.shiftl_spec by lia.
  destruct (field_eqb (op_field o) f) eqn:E.
  - assert (op_field o = f) by (destruct (op_field o), f; try discriminate; reflexivity). subst f.
    replace (i + low lfo (op_field o) - low lfo (op_field o)) with i by lia.
    rewrite <- Z.land_ones by lia. rewrite Z.land_spec, Z.testbit_ones_nonneg by lia.
    destruct (i <? width lfo (op_field o)); [reflexivity|now rewrite andb_false_r].
  - rewrite Z.bits_0. destruct (Z.ltb_spec i (width lfo f)) as [H|H]; [|reflexivity]. cbn [andb].
    set (j := i + low lfo f - low lfo (op_field o)).
    rewrite <- Z.land_ones by lia. rewrite Z.land_spec.
    destruct (Z.ltb_spec j 0) as [J|J]; [now rewrite !Z.testbit_neg_r by assumption|].
    rewrite Z.testbit_ones_nonneg by lia.
    destruct (Z.ltb_spec j (width lfo (op_field o))) as [K|K]; [|apply andb_false_r]. exfalso.
    subst j. destruct lfo, (op_field o), f; cbn in *; try discriminate; lia.
Qed.

Lemma sets_value lfo ops : Forall op_ok ops -> forall v, is_u32 v ->
  is_u32 (fold_left (ncp_set lfo) ops v)
  /\ forall f, part lfo f (fold_left (ncp_set lfo) ops v) = Z.lor (part lfo f v) (written lfo f ops).
Proof.
  unfold written. induction 1 as [|o ops O _ IH]; intros v V; cbn [fold_left fold_right].
  - split; [assumption|]. intros f. now rewrite Z.lor_0_r.
  - destruct (set_value lfo v o V O) as [E W]. destruct (IH _ W) as [R P]. split; [assumption|].
    intros f. rewrite P, E, part_lor, part_shifted. rewrite <- Z.lor_assoc.
    destruct (field_eqb (op_field o) f); [reflexivity|]. now rewrite Z.lor_0_l.
Qed.

Lemma getters_after lfo ops v f : Forall op_ok ops -> is_u32 v ->
  getter lfo f (fold_left (ncp_set lfo) ops v) = Z.lor (getter lfo f v) (written lfo f ops).
Proof. intros O V. rewrite !getter_part. apply sets_value; assumption. Qed.

Lemma written_perm lfo f a b : Permutation a b -> written lfo f a = written lfo f b.
Proof.
  unfold written. induction 1 as [|x a b P IH|x y a|a b c P1 IH1 P2 IH2]; cbn [fold_right].
  - reflexivity.
  - now rewrite IH.
  - destruct (field_eqb (op_field x) f), (field_eqb (op_field y) f); try reflexivity.
    rewrite !Z.lor_assoc. f_equal. apply Z.lor_comm.
  - congruence.
Qed.

Lemma part_0 lfo f : part lfo f 0 = 0.
Proof. unfold part. rewrite Z.div_0_l by (pose proof (low_range lfo f); apply Z.pow_nonzero; lia). apply Z.mod_0_l. pose proof (low_range lfo f). apply Z.pow_nonzero; lia. Qed.

Lemma any_order lfo ops o t p x s : Permutation ops [SetOwner o; SetConnType t; SetPriority p; SetSizeType x; SetSize s] ->
  0 <= o < 2 -> 0 <= t < 4 -> 0 <= p < 4 -> 0 <= x < 2 -> is_u16 s -> (lfo = false -> s < 512) ->
  let v := fold_left (ncp_set lfo) ops 0 in
  ncp_owner lfo v = o /\ ncp_conn_type lfo v = t /\ ncp_priority lfo v = p /\ ncp_size_type lfo v = x
  /\ ncp_size lfo v = s.
Proof.
  intros P O T Pr X S S'. cbv zeta.
  assert (A : Forall op_ok ops).
  { apply (Permutation_Forall (Permutation_sym P)).
    repeat (apply Forall_cons; [assumption|]). apply Forall_nil. }
  assert (U : is_u32 0) by (unfold is_u32; lia).
  pose proof (fun f => getters_after lfo ops 0 f A U) as G.
  assert (G' : forall f, getter lfo f (fold_left (ncp_set lfo) ops 0)
     = written lfo f [SetOwner o; SetConnType t; SetPriority p; SetSizeType x; SetSize s]).
  { intros f. rewrite G, getter_part, part_0, Z.lor_0_l. now apply written_perm. }
  unfold written in G'. 
  split; [|split; [|split; [|split]]].
  - rewrite (G' FOwner : ncp_owner lfo _ = _). cbn [fold_right op_field op_value field_eqb width]. rewrite Z.lor_0_r. apply Z.mod_small. lia.
  - rewrite (G' FType : ncp_conn_type lfo _ = _). cbn [fold_right op_field op_value field_eqb width]. rewrite Z.lor_0_r. apply Z.mod_small. lia.
  - rewrite (G' FPriority : ncp_priority lfo _ = _). cbn [fold_right op_field op_value field_eqb width]. rewrite Z.lor_0_r. apply Z.mod_small. lia.
  - rewrite (G' FVar : ncp_size_type lfo _ = _). cbn [fold_right op_field op_value field_eqb width]. rewrite Z.lor_0_r. apply Z.mod_small. lia.
  - rewrite (G' FSize : ncp_size lfo _ = _). cbn [fold_right op_field op_value field_eqb width]. rewrite Z.lor_0_r. apply Z.mod_small.
    unfold is_u16 in S. destruct lfo; [lia|]. specialize (S' eq_refl). lia.
Qed.

Lemma small_size_refuted : exists s, is_u16 s /\ ncp_size false (ncp_set false 0 (SetSize s)) <> s.
Proof. exists 512. split; [unfold is_u16; lia|vm_compute; discriminate]. Qed.

Lemma chain_returns lfo ops : forall v, snd (ncp_chain lfo ops v) = fold_left (ncp_set lfo) ops v.
Proof. induction ops as [|[x|x|x|x|x] ops IH]; intros v; cbn [ncp_chain fold_left snd]; auto. Qed.
Lemma chain_variable_before lfo ops v : Forall (fun o => op_field o <> FOwner) ops ->
  fst (ncp_chain lfo ops v) = fold_left (ncp_set lfo) ops v.
Proof.
  intros F. revert v. induction F as [|o ops O _ IH]; intros v; [reflexivity|].
  destruct o; cbn [ncp_chain fold_left op_field] in *; try congruence; apply IH.
Qed.
Lemma chain_variable lfo pre v rest : Forall (fun o => op_field o <> FOwner) pre -> forall x,
  fst (ncp_chain lfo (pre ++ SetOwner x :: rest) v) = fold_left (ncp_set lfo) (pre ++ [SetOwner x]) v.
Proof.
  intros F x. revert v. induction F as [|o ops O _ IH]; intros v; [reflexivity|].
  destruct o; cbn [ncp_chain fold_left op_field app] in *; try congruence; apply IH.
Qed.
Lemma chain_refuted : exists lfo ops, Forall op_ok ops
  /\ fst (ncp_chain lfo ops 0) <> fold_left (ncp_set lfo) ops 0.
Proof.
  exists false, [SetOwner 1; SetConnType 2]. split; [|vm_compute; discriminate].
  repeat (apply Forall_cons; [cbn; lia|]). apply Forall_nil.
Qed.

(** ** Requests *)
Ltac packing :=
  cbv zeta; rewrite ?put_u8_data; cbn [bdata bpos buf_new app];
  repeat (rewrite ?put_u32_le, ?put_u16_le, ?put_u8_data; cbn [bdata bpos]).

Lemma fo_pack_bytes c : fo_pack c = Ok (fo_bytes 2 c).
Proof.
  unfold fo_pack. packing. unfold buf_size; cbn [bdata].
  replace (Nat.eqb _ 36) with true.
  2:{ symmetry. apply Nat.eqb_eq. rewrite ?app_length, ?le_length. reflexivity. }
  unfold put_bytes; cbn [bdata]. f_equal. unfold fo_bytes. rewrite !le2_u16, <- !app_assoc. reflexivity.
Qed.
Lemma lfo_pack_bytes c : lfo_pack c = Ok (fo_bytes 4 c).
Proof.
  unfold lfo_pack. packing. unfold buf_size; cbn [bdata].
  replace (Nat.eqb _ 40) with true.
  2:{ symmetry. apply Nat.eqb_eq. rewrite ?app_length, ?le_length. reflexivity. }
  unfold put_bytes; cbn [bdata]. unfold fo_bytes. rewrite <- ?app_assoc. reflexivity.
Qed.

Lemma take1 x r : is_u8 x -> take_int 1 (x :: r) = Some (x, r).
Proof.
  intros X. replace (x :: r) with (le 1 x ++ r) by (rewrite le1_small by assumption; reflexivity).
  rewrite take_le. change (256 ^ Z.of_nat 1) with 256. unfold is_u8 in X. now rewrite Z.mod_small.
Qed.

Definition narrow (n : nat) (c : cparams) : cparams :=
  mkCParams (c_priorityTimeTick c) (c_timeoutTicks c) (c_o2tId c) (c_t2oId c) (c_serial c) (c_vendor c)
    (c_origSerial c) (c_multiplier c) (c_o2tRPI c) (c_o2tParams c mod 256 ^ Z.of_nat n)
    (c_t2oRPI c) (c_t2oParams c mod 256 ^ Z.of_nat n) (c_trigger c) (c_pathSize c) 0 0 (c_path c).

Lemma take2 v r : is_u16 v -> take_int 2 (le 2 v ++ r) = Some (v, r).
Proof. intros X. rewrite take_le. change (256 ^ Z.of_nat 2) with 65536. unfold is_u16 in X. now rewrite Z.mod_small. Qed.
Lemma take4 v r : is_u32 v -> take_int 4 (le 4 v ++ r) = Some (v, r).
Proof. intros X. rewrite take_le. change (256 ^ Z.of_nat 4) with (2 ^ 32). unfold is_u32 in X. now rewrite Z.mod_small. Qed.

Lemma parse_fo_ok n c : cparams_wf c -> parse_fo n (fo_bytes n c) = Some (narrow n c).
Proof.
  intros (W1 & W2 & W3 & W4 & W5 & W6 & W7 & W8 & W9 & W10 & W11 & W12 & W13 & W14 & W15).
  unfold fo_bytes, parse_fo. cbn [app].
  rewrite take1 by assumption. rewrite take1 by assumption. rewrite take4 by assumption. rewrite take4 by assumption.
  rewrite take2 by assumption. rewrite take2 by assumption. rewrite take4 by assumption. rewrite take1 by assumption.
  change (0 :: 0 :: 0 :: ?r) with ([0;0;0] ++ r). 
  unfold take_int at 1. rewrite take_app by reflexivity. rewrite take4 by assumption. rewrite take_le.
  rewrite take4 by assumption. rewrite take_le. rewrite take1 by assumption. rewrite take1 by assumption. reflexivity.
Qed.

Lemma fc_pack_bytes serial vendor orig path :
  fc_pack serial vendor orig path = fc_bytes serial vendor orig ((zlen path / 2) mod 256) path.
Proof. unfold fc_pack. packing. unfold put_bytes; cbn [bdata]. unfold fc_bytes. rewrite <- !app_assoc. reflexivity. Qed.

Lemma fc_words (path : bytes) : zlen path mod 2 = 0 -> zlen path <= 510 -> 2 * ((zlen path / 2) mod 256) = zlen path.
Proof. intros E L. pose proof (zlen_nonneg path). lia. Qed.
Lemma fc_refuted : exists path : bytes, is_bytes path /\ 2 * ((zlen path / 2) mod 256) <> zlen path.
Proof. exists [0]. split; [exact (zeros_bytes 1)|vm_compute; discriminate]. Qed.

(** ** Response *)
Lemma fo_expand_good h r rsv rest : fo_response_wf r -> 
  fo_expand h (fo_reply_bytes r rsv rest) = Ok r.
Proof.
  intros (W1 & W2 & W3 & W4 & W5 & W6 & W7 & W8 & W9 & W10).
  unfold fo_expand, fo_reply_bytes. rewrite buf_of_at.
  rewrite get_u32_le; cbn [bind]. rewrite get_u32_le; cbn [bind]. rewrite get_u16_le; cbn [bind].
  rewrite get_u16_le; cbn [bind]. rewrite get_u32_le; cbn [bind]. rewrite get_u32_le; cbn [bind].
  rewrite get_u32_le; cbn [bind]. cbn [app]. rewrite get_u8_at; cbn [bind]. rewrite get_u8_at; cbn [bind].
  replace (Z.to_nat (f_replySize r * 2)) with (List.length (f_reply r)).
  2:{ unfold zlen in W10. lia. }
  rewrite get_bytes_at; cbn [bind]. rewrite !u32_small, !u16_small by assumption. destruct r; reflexivity.
Qed.

Lemma take_le_front (n : nat) l : is_bytes l -> (n <= List.length l)%nat ->
  exists v r, l = le n v ++ r /\ 0 <= v < 256 ^ Z.of_nat n /\ is_bytes r
              /\ List.length r = (List.length l - n)%nat.
Proof.
  intros B L. destruct (split_n n l L) as (a & r & -> & La). apply is_bytes_app in B as [Ba Br].
  destruct (le_of_bytes n a Ba La) as (v & E & V). exists v, r.
  split; [now rewrite E|split; [assumption|split; [assumption|]]]. rewrite app_length. lia.
Qed.

Lemma fo_cases data : is_bytes data -> (26 <= List.length data)%nat ->
  exists r rsv rest, fo_response_wf (mkFoResp (f_o2tId r) (f_t2oId r) (f_serial r) (f_vendor r) (f_origSerial r)
      (f_o2tApi r) (f_t2oApi r) 0 [])
    /\ is_u8 (f_replySize r) /\ is_u8 rsv /\ is_bytes rest
    /\ data = le 4 (f_o2tId r) ++ le 4 (f_t2oId r) ++ le 2 (f_serial r) ++ le 2 (f_vendor r)
       ++ le 4 (f_origSerial r) ++ le 4 (f_o2tApi r) ++ le 4 (f_t2oApi r) ++ [f_replySize r; rsv] ++ rest.
Proof.
  intros B L.
  destruct (take_le_front 4 data B ltac:(lia)) as (v1 & r1 & E1 & V1 & B1 & L1).
  destruct (take_le_front 4 r1 B1 ltac:(lia)) as (v2 & r2 & E2 & V2 & B2 & L2).
  destruct (take_le_front 2 r2 B2 ltac:(lia)) as (v3 & r3 & E3 & V3 & B3 & L3).
  destruct (take_le_front 2 r3 B3 ltac:(lia)) as (v4 & r4 & E4 & V4 & B4 & L4).
  destruct (take_le_front 4 r4 B4 ltac:(lia)) as (v5 & r5 & E5 & V5 & B5 & L5).
  destruct (take_le_front 4 r5 B5 ltac:(lia)) as (v6 & r6 & E6 & V6 & B6 & L6).
  destruct (take_le_front 4 r6 B6 ltac:(lia)) as (v7 & r7 & E7 & V7 & B7 & L7).
  destruct r7 as [|n [|rsv rest]]; try (cbn [List.length] in L7; lia).
  apply is_bytes_cons in B7 as [Bn B7]. apply is_bytes_cons in B7 as [Bv B7].
  exists (mkFoResp v1 v2 v3 v4 v5 v6 v7 n []), rsv, rest.
  unfold fo_response_wf; cbn [f_o2tId f_t2oId f_serial f_vendor f_origSerial f_o2tApi f_t2oApi f_replySize f_reply].
  change (256 ^ Z.of_nat 4) with 4294967296 in *. change (256 ^ Z.of_nat 2) with 65536 in *.
  split.
  { do 7 (split; [first [exact V1|exact V2|exact V3|exact V4|exact V5|exact V6|exact V7]|]).
    split; [unfold is_u8; lia|split; [exact is_bytes_nil|reflexivity]]. }
  split; [assumption|split; [assumption|split; [assumption|]]].
  rewrite E1, E2, E3, E4, E5, E6, E7. reflexivity.
Qed.

Definition fo_head h (b : buffer) : outcome (fo_response * buffer) :=
  '(o2t, b) <- get_u32 h b ;;
  '(t2o, b) <- get_u32 h b ;;
  '(serial, b) <- get_u16 h b ;;
  '(vendor, b) <- get_u16 h b ;;
  '(orig, b) <- get_u32 h b ;;
  '(o2tApi, b) <- get_u32 h b ;;
  '(t2oApi, b) <- get_u32 h b ;;
  '(n, b) <- get_u8 h b ;;
  '(_, b) <- get_u8 h b ;;
  Ok (mkFoResp o2t t2o serial vendor orig o2tApi t2oApi n [], b).
Definition with_reply (r : fo_response) (reply : bytes) : fo_response :=
  mkFoResp (f_o2tId r) (f_t2oId r) (f_serial r) (f_vendor r) (f_origSerial r)
      (f_o2tApi r) (f_t2oApi r) (f_replySize r) reply.

Lemma fo_expand_split h data : fo_expand h data =
  ('(r, b) <- fo_head h (buf_of data) ;;
   '(reply, b) <- get_bytes h (Z.to_nat (f_replySize r * 2)) b ;;
   Ok (with_reply r reply)).
Proof.
  unfold fo_expand, fo_head.
  repeat match goal with
  | |- bind (?m) _ = bind (bind ?m _) _ => destruct m as [[? ?]|?|?|]; cbn [bind]; try reflexivity
  end.
Qed.
Lemma reader_head : reader_ok fo_head.
Proof.
  unfold fo_head.
  repeat (refine (reader_bind' _ _ _ _); [first [apply reader_u32|apply reader_u16|apply reader_u8]|intros ?]).
  apply reader_ret.
Qed.
Lemma moves_head : moves fo_head 26.
Proof.
  unfold fo_head.
  refine (moves_bind get_u32 _ 4 22 moves_u32 _); intros ?.
  refine (moves_bind get_u32 _ 4 18 moves_u32 _); intros ?.
  refine (moves_bind get_u16 _ 2 16 moves_u16 _); intros ?.
  refine (moves_bind get_u16 _ 2 14 moves_u16 _); intros ?.
  refine (moves_bind get_u32 _ 4 10 moves_u32 _); intros ?.
  refine (moves_bind get_u32 _ 4 6 moves_u32 _); intros ?.
  refine (moves_bind get_u32 _ 4 2 moves_u32 _); intros ?.
  refine (moves_bind get_u8 _ 1 1 moves_fetch _); intros ?.
  refine (moves_bind get_u8 _ 1 0 moves_fetch _); intros ?.
  apply moves_ret.
Qed.

Lemma fo_head_ok h r rsv rest pre :
  fo_response_wf (mkFoResp (f_o2tId r) (f_t2oId r) (f_serial r) (f_vendor r) (f_origSerial r)
      (f_o2tApi r) (f_t2oApi r) 0 []) ->
  fo_head h (at_ pre (le 4 (f_o2tId r) ++ le 4 (f_t2oId r) ++ le 2 (f_serial r) ++ le 2 (f_vendor r)
       ++ le 4 (f_origSerial r) ++ le 4 (f_o2tApi r) ++ le 4 (f_t2oApi r) ++ [f_replySize r; rsv] ++ rest))
  = Ok (with_reply r [], at_ (pre ++ le 4 (f_o2tId r) ++ le 4 (f_t2oId r) ++ le 2 (f_serial r) ++ le 2 (f_vendor r)
       ++ le 4 (f_origSerial r) ++ le 4 (f_o2tApi r) ++ le 4 (f_t2oApi r) ++ [f_replySize r; rsv]) rest).
Proof.
  intros (W1 & W2 & W3 & W4 & W5 & W6 & W7 & _). cbn [f_o2tId f_t2oId f_serial f_vendor f_origSerial f_o2tApi f_t2oApi] in *.
  unfold fo_head.
  rewrite get_u32_le; cbn [bind]. rewrite get_u32_le; cbn [bind]. rewrite get_u16_le; cbn [bind].
  rewrite get_u16_le; cbn [bind]. rewrite get_u32_le; cbn [bind]. rewrite get_u32_le; cbn [bind].
  rewrite get_u32_le; cbn [bind]. cbn [app]. rewrite get_u8_at; cbn [bind]. rewrite get_u8_at; cbn [bind].
  rewrite !u32_small, !u16_small by assumption. unfold with_reply. rewrite <- !app_assoc. reflexivity.
Qed.

(** Without foreign memory, the decoder succeeds exactly on complete replies. *)
Lemma fo_expand_strict data : is_bytes data ->
  (exists r rsv rest, fo_response_wf r /\ is_u8 rsv /\ is_bytes rest /\ data = fo_reply_bytes r rsv rest)
  \/ fo_expand strict data = Undef UbOobRead.
Proof.
  intros B. destruct (le_lt_dec 26 (List.length data)) as [L|L].
  2:{ right. rewrite fo_expand_split. 
      rewrite (strict_short fo_head 26 (buf_of data) reader_head moves_head); cbn [buf_of bdata bpos]; [reflexivity|lia|lia]. }
  destruct (fo_cases data B L) as (r & rsv & rest & W & N & V & Br & ->).
  destruct (le_lt_dec (Z.to_nat (f_replySize r * 2)) (List.length rest)) as [K|K].
  - left. destruct (split_n _ rest K) as (reply & rest' & -> & Lr).
    apply is_bytes_app in Br as [Br Br'].
    exists (with_reply r reply), rsv, rest'. split; [|split; [assumption|split; [assumption|reflexivity]]].
    destruct W as (W1 & W2 & W3 & W4 & W5 & W6 & W7 & _).
    unfold fo_response_wf, with_reply in *; cbn [f_o2tId f_t2oId f_serial f_vendor f_origSerial f_o2tApi f_t2oApi f_replySize f_reply] in *.
    do 7 (split; [assumption|]). split; [assumption|split; [assumption|]].
    unfold zlen, is_u8 in *. lia.
  - right. rewrite fo_expand_split, buf_of_at, fo_head_ok by assumption. cbn [bind app].
    cbn [with_reply f_replySize].
    rewrite (strict_short (fun h => get_bytes h (Z.to_nat (f_replySize r * 2))) _ _ (reader_bytes _) (moves_bytes _)).
    + reflexivity.
    + unfold at_; cbn [bpos bdata]. rewrite !app_length. lia.
    + unfold at_; cbn [bpos bdata]. rewrite (app_length _ rest). lia.
Qed.

Lemma fo_expand_iff data r : is_bytes data ->
  (fo_expand strict data = Ok r <-> fo_response_wf r /\ exists rsv rest, data = fo_reply_bytes r rsv rest).
Proof.
  intros B. split.
  - intros E. destruct (fo_expand_strict data B) as [(r' & rsv & rest & W & V & Br & ->)|U]; [|congruence].
    rewrite fo_expand_good in E by assumption. injection E as <-. eauto.
  - intros (W & rsv & rest & ->). now apply fo_expand_good.
Qed.

Lemma fo_expand_refuted : exists h data r, (forall r rsv rest, data <> fo_reply_bytes r rsv rest)
  /\ fo_expand h data = Ok r.
Proof.
  exists (fun _ _ => Some 0), [], (mkFoResp 0 0 0 0 0 0 0 0 []). split; [|reflexivity].
  intros r rsv rest. discriminate.
Qed.
