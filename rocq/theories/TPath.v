(** Properties C06-C10: paths and message router requests. *)
From Verif Require Import Base MBuffer SBuffer PBase MEip MYaskawa SEip PPath PPathT.

(** C06. Full statement: for every path. It fails for the path built by the
    default constructor; the missing case is characterised exactly. *)
Theorem C06_pack_layout_partial : forall (use8 : bool) (i : ids),
  i <> Ids0 -> ids_wf i ->
  epath_pack use8 (build i) = path_bytes (segments use8 i)
  /\ 2 * epath_words use8 (build i) = zlen (epath_pack use8 (build i)).
Proof. exact pack_words. Qed.
Print Assumptions C06_pack_layout_partial.

Example C06_example :
  ids_wf (Ids3 4 100 3)
  /\ epath_pack false (build (Ids3 4 256 3)) = [33; 0; 4; 0; 37; 0; 0; 1; 49; 0; 3; 0]
  /\ epath_pack true (build (Ids3 4 100 3)) = [32; 4; 36; 100; 48; 3].
Proof. split; [repeat constructor; unfold is_u16; cbn; lia|split; reflexivity]. Qed.

(** The default path: no words announced, one class segment emitted. *)
Theorem C06_default_path : forall use8 : bool,
  epath_words use8 (build Ids0) = 0
  /\ epath_pack use8 (build Ids0) = path_bytes (segments use8 (Ids1 0)).
Proof. exact pack_empty. Qed.
Print Assumptions C06_default_path.

Theorem C06_refuted : exists use8 i, ids_wf i
  /\ 2 * epath_words use8 (build i) <> zlen (epath_pack use8 (build i)).
Proof. exact pack_words_refuted. Qed.
Print Assumptions C06_refuted.

(** The textual form shows exactly the ids the path was built from. *)
Theorem C06_text : forall i : ids, epath_to_string (build i)
  = match i with
    | Ids0 => "[classId=0]"
    | Ids1 c => "[classId=" ++ to_string c ++ "]"
    | Ids2 c o => "[classId=" ++ to_string c ++ " objectId=" ++ to_string o ++ "]"
    | Ids3 c o a => "[classId=" ++ to_string c ++ " objectId=" ++ to_string o
                    ++ " attributeId=" ++ to_string a ++ "]"
    end%string.
Proof. exact path_text. Qed.
Print Assumptions C06_text.

(** C07. The exact condition under which a packed path expands to an equal
    path: no id is zero, and in the 8-bit form every id fits a byte. *)
Theorem C07_roundtrip_iff : forall (h : heap) (use8 : bool) (i : ids), ids_wf i ->
  exists p, epath_expand h (epath_pack use8 (build i)) = (p, Ok tt)
  /\ (epath_eqb p (build i) = true <-> ids_nonzero i /\ (use8 = true -> ids_small i)).
Proof. exact roundtrip_iff. Qed.
Print Assumptions C07_roundtrip_iff.

Example C07_example : ids_wf (Ids3 4 100 3) /\ ids_nonzero (Ids3 4 100 3) /\ ids_small (Ids3 4 100 3)
  /\ epath_expand strict (epath_pack true (build (Ids3 4 100 3))) = (build (Ids3 4 100 3), Ok tt).
Proof.
  split; [|split; [|split]]; try (repeat constructor; unfold is_u16, is_u8; cbn; lia).
Qed.

Theorem C07_equality : forall p q : epath, epath_eqb p q = true <-> p = q.
Proof. exact eqb_iff. Qed.
Print Assumptions C07_equality.
Example C07_equality_example : epath_eqb (build (Ids2 4 7)) (build (Ids2 4 7)) = true
  /\ epath_eqb (build (Ids2 4 7)) (build (Ids3 4 7 0)) = false.
Proof. split; reflexivity. Qed.

Theorem C07_refuted : exists use8 i p, ids_wf i
  /\ epath_expand strict (epath_pack use8 (build i)) = (p, Ok tt) /\ epath_eqb p (build i) = false.
Proof. exact roundtrip_refuted. Qed.
Print Assumptions C07_refuted.

(** C08: every byte string falls under exactly one of the next three theorems. *)
Theorem C08_cases : forall data : bytes, is_bytes data ->
  exists segs tail, Forall seg_wf segs /\ data = path_bytes segs ++ tail
    /\ (tail = [] \/ unknown tail \/ truncated tail).
Proof. exact cases_total. Qed.
Print Assumptions C08_cases.
Example C08_cases_example :
  is_bytes [32; 6; 37; 0; 44; 1; 49; 0]
  /\ [32; 6; 37; 0; 44; 1; 49; 0] = path_bytes [Seg8 KClass 6; Seg16 KInst 0 300] ++ [49; 0]
  /\ truncated [49; 0].
Proof.
  split; [|split; [reflexivity|]].
  - repeat (apply Forall_cons || apply Forall_nil); unfold is_u8; lia.
  - exists (Seg16 KAttr 0 9), [9; 0]. split; [unfold seg_wf, is_u8, is_u16; lia|].
    split; [discriminate|split; [discriminate|reflexivity]].
Qed.

Theorem C08_well_formed : forall (h : heap) (segs : list segment), Forall seg_wf segs ->
  epath_expand h (path_bytes segs)
  = (mkPath (last_id KClass segs) (last_id KInst segs) (last_id KAttr segs)
            (size_of (last_id KClass segs) (last_id KInst segs) (last_id KAttr segs)), Ok tt).
Proof. exact expand_good. Qed.
Print Assumptions C08_well_formed.
Example C08_well_formed_example :
  Forall seg_wf [Seg8 KClass 6; Seg16 KInst 0 300]
  /\ epath_expand strict [32; 6; 37; 0; 44; 1] = (mkPath 6 300 0 2, Ok tt).
Proof.
  split; [|reflexivity].
  constructor; [unfold seg_wf, is_u8; lia|]. constructor; [unfold seg_wf, is_u8, is_u16; lia|constructor].
Qed.

Theorem C08_unknown_segment : forall (h : heap) (segs : list segment) (tail : bytes),
  Forall seg_wf segs -> unknown tail ->
  snd (epath_expand h (path_bytes segs ++ tail)) = Throw (RuntimeError RtEPathUnknownSegment).
Proof. exact expand_unknown. Qed.
Print Assumptions C08_unknown_segment.
Example C08_unknown_example : Forall seg_wf [Seg8 KClass 6] /\ unknown [52; 1]
  /\ snd (epath_expand strict [32; 6; 52; 1]) = Throw (RuntimeError RtEPathUnknownSegment).
Proof.
  split; [|split; [|reflexivity]].
  - constructor; [unfold seg_wf, is_u8; lia|constructor].
  - exists 52, [1]. split; [reflexivity|]. intros ([| |] & [E|E]); discriminate.
Qed.

Theorem C08_truncated_not_accepted : forall (h : heap) (segs : list segment) (tail : bytes),
  Forall seg_wf segs -> truncated tail ->
  snd (epath_expand h (path_bytes segs ++ tail)) = Undef UbOobRead
  \/ snd (epath_expand h (path_bytes segs ++ tail)) = Throw (RuntimeError RtEPathFormat).
Proof. exact expand_truncated. Qed.
Print Assumptions C08_truncated_not_accepted.
Example C08_truncated_example : truncated [37; 0; 9]
  /\ snd (epath_expand (fun _ _ => Some 0) [32; 6; 37; 0; 9]) = Throw (RuntimeError RtEPathFormat).
Proof.
  split; [|reflexivity]. exists (Seg16 KInst 0 9), [0]. split; [unfold seg_wf, is_u8, is_u16; lia|].
  split; [discriminate|split; [discriminate|reflexivity]].
Qed.

(** ... and the bytes after the input are always looked at in that case. *)
Theorem C08_truncated_reads_out_of_bounds : forall (segs : list segment) (tail : bytes),
  Forall seg_wf segs -> truncated tail ->
  snd (epath_expand strict (path_bytes segs ++ tail)) = Undef UbOobRead.
Proof. exact expand_truncated_strict. Qed.
Print Assumptions C08_truncated_reads_out_of_bounds.
Example C08_truncated_reads_example : truncated [36]
  /\ snd (epath_expand strict [32; 6; 36]) = Undef UbOobRead.
Proof.
  split; [|reflexivity]. exists (Seg8 KInst 1), [1]. split; [unfold seg_wf, is_u8; lia|].
  split; [discriminate|split; [discriminate|reflexivity]].
Qed.

Theorem C08_accepted_iff : forall (h : heap) (data : bytes), is_bytes data ->
  (snd (epath_expand h data) = Ok tt <-> exists segs, Forall seg_wf segs /\ data = path_bytes segs).
Proof. exact accept_iff. Qed.
Print Assumptions C08_accepted_iff.

Example C08_example :
  Forall seg_wf [Seg8 KClass 6; Seg16 KInst 0 300; Seg8 KClass 7]
  /\ epath_expand strict (path_bytes [Seg8 KClass 6; Seg16 KInst 0 300; Seg8 KClass 7])
     = (mkPath 7 300 0 2, Ok tt)
  /\ unknown [52; 1] /\ truncated [37; 0; 9].
Proof.
  split; [|split; [reflexivity|split]].
  - constructor; [unfold seg_wf, is_u8; lia|]. constructor; [unfold seg_wf, is_u8, is_u16; lia|].
    constructor; [unfold seg_wf, is_u8; lia|constructor].
  - exists 52, [1]. split; [reflexivity|]. intros ([| |] & [E|E]); discriminate.
  - exists (Seg16 KInst 0 9), [0]. split; [unfold seg_wf, is_u8, is_u16; lia|].
    split; [discriminate|split; [discriminate|reflexivity]].
Qed.

(** C09: the Yaskawa path. Full statement: for every path; the default path
    fails as in C06. *)
Theorem C09_pack_layout_partial : forall i : ids, i <> Ids0 -> ids_small i ->
  ypath_pack (ybuild i) = path_bytes (segments true i)
  /\ 2 * ypath_words (ybuild i) = zlen (ypath_pack (ybuild i)).
Proof. exact yaskawa_pack. Qed.
Print Assumptions C09_pack_layout_partial.
Example C09_pack_example : Ids3 114 1 9 <> Ids0 /\ ids_small (Ids3 114 1 9)
  /\ ypath_pack (ybuild (Ids3 114 1 9)) = [32; 114; 36; 1; 48; 9] /\ ypath_words (ybuild (Ids3 114 1 9)) = 3.
Proof. split; [discriminate|]. split; [repeat constructor; unfold is_u8; cbn; lia|split; reflexivity]. Qed.

Theorem C09_refuted : exists i, ids_small i
  /\ 2 * ypath_words (ybuild i) <> zlen (ypath_pack (ybuild i)).
Proof. exact yaskawa_pack_refuted. Qed.
Print Assumptions C09_refuted.

Theorem C09_roundtrip : forall (h : heap) (i : ids), ids_small i ->
  exists p, ypath_expand h (ypath_pack (ybuild i)) = (p, Ok tt)
  /\ (y_class p, y_object p, y_attr p) = (y_class (ybuild i), y_object (ybuild i), y_attr (ybuild i))
  /\ (ypath_eqb p (ybuild i) = true <-> ids_nonzero i).
Proof. exact yaskawa_roundtrip. Qed.
Print Assumptions C09_roundtrip.
Example C09_roundtrip_example : ids_small (Ids2 114 0)
  /\ ypath_expand strict (ypath_pack (ybuild (Ids2 114 0))) = (mkYPath 114 0 0 1, Ok tt)
  /\ ypath_eqb (mkYPath 114 0 0 1) (ybuild (Ids2 114 0)) = false.
Proof. split; [repeat constructor; unfold is_u8; cbn; lia|split; reflexivity]. Qed.

(** What any well-formed path expands to; 16-bit ids lose their high byte. *)
Theorem C09_expand : forall (h : heap) (segs : list segment), Forall seg_wf segs ->
  ypath_expand h (path_bytes segs)
  = (let c := last_id KClass segs mod 256 in let o := last_id KInst segs mod 256 in
     let a := last_id KAttr segs mod 256 in
     mkYPath c o a (size_of c o a), Ok tt).
Proof. exact yexpand_good. Qed.
Print Assumptions C09_expand.
Example C09_expand_example : Forall seg_wf [Seg8 KClass 6; Seg16 KInst 0 300]
  /\ ypath_expand strict [32; 6; 37; 0; 44; 1] = (mkYPath 6 44 0 2, Ok tt).
Proof.
  split; [|reflexivity].
  constructor; [unfold seg_wf, is_u8; lia|]. constructor; [unfold seg_wf, is_u8, is_u16; lia|constructor].
Qed.

Theorem C09_accepted_iff : forall (h : heap) (data : bytes), is_bytes data ->
  (snd (ypath_expand h data) = Ok tt <-> exists segs, Forall seg_wf segs /\ data = path_bytes segs).
Proof. exact y_accept_iff. Qed.
Print Assumptions C09_accepted_iff.
Example C09_accepted_example : snd (ypath_expand strict [32; 6; 36; 1]) = Ok tt
  /\ snd (ypath_expand strict [32; 6; 52; 1]) = Throw (RuntimeError RtEPathUnknownSegment)
  /\ snd (ypath_expand strict [32; 6; 36]) = Undef UbOobRead.
Proof. repeat split. Qed.

Theorem C09_unknown_segment : forall (h : heap) (segs : list segment) (tail : bytes),
  Forall seg_wf segs -> unknown tail ->
  snd (ypath_expand h (path_bytes segs ++ tail)) = Throw (RuntimeError RtEPathUnknownSegment).
Proof. exact yexpand_unknown. Qed.
Print Assumptions C09_unknown_segment.
Example C09_unknown_example : Forall seg_wf [Seg8 KClass 6] /\ unknown [52; 1]
  /\ snd (ypath_expand strict (path_bytes [Seg8 KClass 6] ++ [52; 1])) = Throw (RuntimeError RtEPathUnknownSegment).
Proof. split; [apply C08_unknown_example|]. split; [apply C08_unknown_example|reflexivity]. Qed.

Theorem C09_truncated_not_accepted : forall (h : heap) (segs : list segment) (tail : bytes),
  Forall seg_wf segs -> truncated tail ->
  snd (ypath_expand h (path_bytes segs ++ tail)) = Undef UbOobRead
  \/ snd (ypath_expand h (path_bytes segs ++ tail)) = Throw (RuntimeError RtEPathFormat).
Proof. exact yexpand_truncated. Qed.
Print Assumptions C09_truncated_not_accepted.
Example C09_truncated_example : truncated [37; 0; 9]
  /\ snd (ypath_expand (fun _ _ => Some 0) (path_bytes [Seg8 KClass 6] ++ [37; 0; 9])) = Throw (RuntimeError RtEPathFormat)
  /\ snd (ypath_expand strict (path_bytes [Seg8 KClass 6] ++ [37; 0; 9])) = Undef UbOobRead.
Proof. split; [apply C08_truncated_example|split; reflexivity]. Qed.

Theorem C09_request : forall (service : Z) (i : ids) (data : bytes), i <> Ids0 -> ids_small i ->
  yrequest_pack service (ybuild i) data = request_bytes service (segments true i) data
  /\ parse_request (yrequest_pack service (ybuild i) data)
     = Some (service, path_bytes (segments true i), data).
Proof. exact yrequest_recover. Qed.
Print Assumptions C09_request.

Example C09_example : ids_small (Ids2 100 1)
  /\ yrequest_pack 14 (ybuild (Ids2 100 1)) [9; 8] = [14; 2; 32; 100; 36; 1; 9; 8].
Proof. split; [repeat constructor; unfold is_u8; cbn; lia|reflexivity]. Qed.

(** C10. Full statement: for every path; false for the default path, whose
    class segment is not counted. *)
Theorem C10_request_partial : forall (use8 : bool) (service : Z) (i : ids) (data : bytes),
  i <> Ids0 ->
  request_pack use8 service (build i) data = request_bytes service (segments use8 i) data
  /\ parse_request (request_pack use8 service (build i) data)
     = Some (service, path_bytes (segments use8 i), data).
Proof. exact request_recover. Qed.
Print Assumptions C10_request_partial.

Example C10_example :
  request_pack false 14 (build (Ids3 1 1 7)) [170]
  = [14; 6; 33; 0; 1; 0; 37; 0; 1; 0; 49; 0; 7; 0; 170].
Proof. reflexivity. Qed.

(** The bytes of every request, including the default path. *)
Theorem C10_request_bytes : forall (use8 : bool) (service : Z) (i : ids) (data : bytes),
  request_pack use8 service (build i) data
  = [service; zlen (path_bytes (segments use8 i)) / 2]
    ++ path_bytes (segments use8 (match i with Ids0 => Ids1 0 | _ => i end)) ++ data.
Proof. exact request_bytes_any. Qed.
Print Assumptions C10_request_bytes.

Theorem C10_refuted : exists use8 service i data,
  parse_request (request_pack use8 service (build i) data)
  <> Some (service, path_bytes (segments use8 i), data).
Proof. exact request_recover_refuted. Qed.
Print Assumptions C10_refuted.
