(** Properties C27-C30: connection parameters, Forward Open, Forward Close. *)
From Coq Require Import Permutation.
From Verif Require Import Base MBuffer SBuffer PBase SEip MConnReq SConnReq PConnReq.

(** C27. Full statement: any five setters in any order, every size. True except
    for sizes above 511 in the 16-bit layout. *)
Theorem C27_any_order_partial : forall lfo ops o t p x s,
  Permutation ops [SetOwner o; SetConnType t; SetPriority p; SetSizeType x; SetSize s] ->
  0 <= o < 2 -> 0 <= t < 4 -> 0 <= p < 4 -> 0 <= x < 2 -> is_u16 s -> (lfo = false -> s < 512) ->
  let v := fold_left (ncp_set lfo) ops 0 in
  ncp_owner lfo v = o /\ ncp_conn_type lfo v = t /\ ncp_priority lfo v = p /\ ncp_size_type lfo v = x
  /\ ncp_size lfo v = s.
Proof. exact any_order. Qed.
Print Assumptions C27_any_order_partial.
Example C27_example :
  let v := fold_left (ncp_set false) [SetSize 505; SetPriority 2; SetOwner 1; SetSizeType 1; SetConnType 2] 0 in
  v = 52217 /\ ncp_size false v = 505 /\ ncp_priority false v = 2.
Proof. vm_compute. auto. Qed.

(** Any setters whatsoever, on any word: every field is the bitwise or of what
    it held and what was written to it, so no setter disturbs another field. *)
Theorem C27_fields : forall lfo ops v f, Forall op_ok ops -> is_u32 v ->
  getter lfo f (fold_left (ncp_set lfo) ops v) = Z.lor (getter lfo f v) (written lfo f ops).
Proof. exact getters_after. Qed.
Print Assumptions C27_fields.
Example C27_fields_example : Forall op_ok [SetPriority 1; SetPriority 2]
  /\ written false FPriority [SetPriority 1; SetPriority 2] = 3.
Proof. split; [repeat constructor; cbn; lia|reflexivity]. Qed.
(** The getters read the bit ranges of the CIP specification. *)
Theorem C27_layout : forall lfo f v, getter lfo f v = part lfo f v.
Proof. exact getter_part. Qed.
Print Assumptions C27_layout.
Example C27_layout_example : part false FSize 0x4204 = 4 /\ part false FType 0x4204 = 2 /\ part false FVar 0x4204 = 1
  /\ getter false FType 0x4204 = 2.
Proof. vm_compute. auto. Qed.

Theorem C27_refuted : exists s, is_u16 s /\ ncp_size false (ncp_set false 0 (SetSize s)) <> s.
Proof. exact small_size_refuted. Qed.
Print Assumptions C27_refuted.

(** The builder idiom: the value of a chain of setters is right, but the
    variable it was called on misses everything after a setRedundantOwner. *)
Theorem C27_chain_value : forall lfo ops v, snd (ncp_chain lfo ops v) = fold_left (ncp_set lfo) ops v.
Proof. exact chain_returns. Qed.
Print Assumptions C27_chain_value.
Theorem C27_chain_variable : forall lfo pre v rest, Forall (fun o => op_field o <> FOwner) pre -> forall x,
  fst (ncp_chain lfo (pre ++ SetOwner x :: rest) v) = fold_left (ncp_set lfo) (pre ++ [SetOwner x]) v.
Proof. exact chain_variable. Qed.
Print Assumptions C27_chain_variable.
Example C27_chain_variable_example : Forall (fun o => op_field o <> FOwner) [SetSize 4; SetPriority 1]
  /\ fst (ncp_chain false ([SetSize 4; SetPriority 1] ++ SetOwner 1 :: [SetConnType 2]) 0) = 4 + 2 ^ 10 + 2 ^ 15
  /\ snd (ncp_chain false ([SetSize 4; SetPriority 1] ++ SetOwner 1 :: [SetConnType 2]) 0) = 4 + 2 ^ 10 + 2 ^ 15 + 2 ^ 14.
Proof. split; [repeat constructor; discriminate|split; reflexivity]. Qed.
Theorem C27_chain_refuted : exists lfo ops, Forall op_ok ops
  /\ fst (ncp_chain lfo ops 0) <> fold_left (ncp_set lfo) ops 0.
Proof. exact chain_refuted. Qed.
Print Assumptions C27_chain_refuted.
Example C27_chain_example : ncp_chain true [SetSize 4; SetOwner 1; SetPriority 2] 0
  = (4 + 2 ^ 31, 4 + 2 ^ 31 + 2 ^ 27).
Proof. reflexivity. Qed.

(** C28 *)
Theorem C28_forward_open : forall c, fo_pack c = Ok (fo_bytes 2 c).
Proof. exact fo_pack_bytes. Qed.
Print Assumptions C28_forward_open.
Theorem C28_large_forward_open : forall c, lfo_pack c = Ok (fo_bytes 4 c).
Proof. exact lfo_pack_bytes. Qed.
Print Assumptions C28_large_forward_open.
(** What the target reads; the small form carries the low 16 bits of the
    parameter words. *)
Theorem C28_parse : forall n c, cparams_wf c -> parse_fo n (fo_bytes n c) = Some (narrow n c).
Proof. exact parse_fo_ok. Qed.
Print Assumptions C28_parse.
Definition example_params : cparams :=
  mkCParams 7 249 0 0x10001 5 342 0x12345678 1 10000 0x43F6 20000 0x43F4 1 4 1 0 [32; 4; 36; 151; 44; 150; 44; 100].
Example C28_example : cparams_wf example_params
  /\ narrow 2 example_params = mkCParams 7 249 0 0x10001 5 342 0x12345678 1 10000 0x43F6 20000 0x43F4 1 4 0 0 [32; 4; 36; 151; 44; 150; 44; 100]
  /\ option_map zlen (match fo_pack example_params with Ok l => Some l | _ => None end) = Some 44.
Proof.
  split; [|split; reflexivity].
  unfold cparams_wf, example_params, is_u8, is_u16, is_u32, is_bytes; cbn.
  repeat match goal with |- _ /\ _ => split end; try lia. repeat constructor; cbn; lia.
Qed.

(** C29. Full statement: the length field is the number of words of the path.
    True for paths of up to 255 whole words. *)
Theorem C29_layout : forall serial vendor orig path,
  fc_pack serial vendor orig path = fc_bytes serial vendor orig ((zlen path / 2) mod 256) path.
Proof. exact fc_pack_bytes. Qed.
Print Assumptions C29_layout.
Theorem C29_words_partial : forall path : bytes, zlen path mod 2 = 0 -> zlen path <= 510 ->
  2 * ((zlen path / 2) mod 256) = zlen path.
Proof. exact fc_words. Qed.
Print Assumptions C29_words_partial.
Example C29_example : zlen [32; 4; 36; 151] mod 2 = 0
  /\ fc_pack 0x0102 0x0304 0x05060708 [32; 4; 36; 151] = [0; 0; 2; 1; 4; 3; 8; 7; 6; 5; 2; 0; 32; 4; 36; 151].
Proof. split; reflexivity. Qed.
Theorem C29_refuted : exists path : bytes, is_bytes path /\ 2 * ((zlen path / 2) mod 256) <> zlen path.
Proof. exact fc_refuted. Qed.
Print Assumptions C29_refuted.

(** C30. Full statement: incomplete responses are never decoded. A complete one
    always is, an incomplete one is read beyond its end. *)
Theorem C30_complete : forall h r rsv rest, fo_response_wf r -> fo_expand h (fo_reply_bytes r rsv rest) = Ok r.
Proof. exact fo_expand_good. Qed.
Print Assumptions C30_complete.
Example C30_complete_example :
  let r := mkFoResp 0x11223344 0x00020001 5 342 0x12345678 10000 20000 1 [7; 8] in
  fo_reply_bytes r 0 [9]
  = [68; 51; 34; 17; 1; 0; 2; 0; 5; 0; 86; 1; 120; 86; 52; 18; 16; 39; 0; 0; 32; 78; 0; 0; 1; 0; 7; 8; 9].
Proof. reflexivity. Qed.
Theorem C30_exact : forall data r, is_bytes data ->
  (fo_expand strict data = Ok r <-> fo_response_wf r /\ exists rsv rest, data = fo_reply_bytes r rsv rest).
Proof. exact fo_expand_iff. Qed.
Print Assumptions C30_exact.
Example C30_exact_example : is_bytes [1; 2; 3] /\ (forall r, fo_expand strict [1; 2; 3] <> Ok r).
Proof. split; [repeat constructor; cbn; lia|intros r; vm_compute; discriminate]. Qed.
Theorem C30_incomplete_partial : forall data, is_bytes data ->
  (exists r rsv rest, fo_response_wf r /\ is_u8 rsv /\ is_bytes rest /\ data = fo_reply_bytes r rsv rest)
  \/ fo_expand strict data = Undef UbOobRead.
Proof. exact fo_expand_strict. Qed.
Print Assumptions C30_incomplete_partial.
Example C30_example :
  let r := mkFoResp 0x11223344 0x00020001 5 342 0x12345678 10000 20000 1 [7; 8] in
  fo_response_wf r /\ fo_expand strict (fo_reply_bytes r 0 [9]) = Ok r
  /\ fo_expand strict [1; 2; 3] = Undef UbOobRead.
Proof.
  cbv zeta. split; [|split; reflexivity].
  unfold fo_response_wf, is_u8, is_u16, is_u32, is_bytes; cbn. repeat match goal with |- _ /\ _ => split end; try lia.
  repeat constructor; cbn; lia.
Qed.
Theorem C30_refuted : exists h data r, (forall r rsv rest, data <> fo_reply_bytes r rsv rest)
  /\ fo_expand h data = Ok r.
Proof. exact fo_expand_refuted. Qed.
Print Assumptions C30_refuted.
