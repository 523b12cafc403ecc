(** Lemmas behind the theorems of TPath.v. *)
From Verif Require Import Base MBuffer SBuffer PBase PBuffer PReader MEip MYaskawa SEip PPath.
Ltac Zify.zify_post_hook ::= Z.div_mod_to_equations.
Local Open Scope outcome_scope.

Lemma path_bytes_app a b : path_bytes (a ++ b) = path_bytes a ++ path_bytes b.
Proof. unfold path_bytes. now rewrite map_app, concat_app. Qed.

(** ** Packing *)
Lemma put16_data v c b : bdata (put_u16 (put_u16 b c) v) = bdata b ++ le 2 c ++ le 2 v.
Proof. rewrite !put_u16_le; cbn [bdata]. now rewrite <- app_assoc. Qed.

Definition shape (i : ids) : ids := match i with Ids0 => Ids1 0 | _ => i end.

Lemma pack_segments use8 i : epath_pack use8 (build i) = path_bytes (segments use8 (shape i)).
Proof.
  unfold epath_pack. destruct use8.
  - destruct i; reflexivity.
  - destruct i; cbn [build epath0 epath1 epath2 epath3 p_size p_class p_object p_attr];
      cbn -[put_u16 le path_bytes]; rewrite ?put16_data; cbn [bdata buf_new app];
      rewrite ?put16_data; reflexivity.
Qed.

Lemma pack_layout use8 i : i <> Ids0 -> epath_pack use8 (build i) = path_bytes (segments use8 i).
Proof. intros H. rewrite pack_segments. destruct i; [congruence|reflexivity..]. Qed.

Lemma segments_length use8 i :
  List.length (path_bytes (segments use8 i)) = ((if use8 then 2 else 4) * List.length (ids_list i))%nat.
Proof. destruct use8, i; reflexivity. Qed.

Lemma words_count use8 i : epath_words use8 (build i) = zlen (path_bytes (segments use8 i)) / 2.
Proof. unfold zlen. rewrite segments_length. destruct use8, i; reflexivity. Qed.

Lemma pack_words use8 i : i <> Ids0 -> ids_wf i ->
  epath_pack use8 (build i) = path_bytes (segments use8 i)
  /\ 2 * epath_words use8 (build i) = zlen (epath_pack use8 (build i)).
Proof.
  intros H _. rewrite pack_layout by assumption. split; [reflexivity|].
  unfold zlen. rewrite segments_length. destruct use8, i; try congruence; reflexivity.
Qed.

Lemma pack_words_refuted : exists use8 i, ids_wf i
  /\ 2 * epath_words use8 (build i) <> zlen (epath_pack use8 (build i)).
Proof. exists false, Ids0. split; [constructor|]. vm_compute. discriminate. Qed.

Lemma pack_empty use8 : epath_words use8 (build Ids0) = 0
  /\ epath_pack use8 (build Ids0) = path_bytes (segments use8 (Ids1 0)).
Proof. split; [destruct use8; reflexivity|apply pack_segments]. Qed.

(** ** Parsing *)
Lemma segments_wf use8 i : ids_wf i -> Forall seg_wf (segments use8 (shape i)).
Proof.
  intros W. assert (W' : ids_wf (shape i)).
  { destruct i; [|assumption..]. constructor; [apply u16_zero|constructor]. }
  unfold segments, ids_wf in *. apply Forall_map. eapply Forall_impl; [|exact W'].
  intros [k v] Hv. cbn [fst snd] in *. destruct use8; cbn [seg_wf].
  - unfold is_u8. apply Z.mod_pos_bound. lia.
  - split; [apply u8_zero|assumption].
Qed.

Definition fields (use8 : bool) (i : ids) : Z * Z * Z :=
  let f v := if use8 then v mod 256 else v in
  match i with
  | Ids0 => (0, 0, 0) | Ids1 c => (f c, 0, 0) | Ids2 c o => (f c, f o, 0)
  | Ids3 c o a => (f c, f o, f a)
  end.

Lemma expand_pack h use8 i : ids_wf i ->
  epath_expand h (epath_pack use8 (build i))
  = (let '(c, o, a) := fields use8 i in mkPath c o a (size_of c o a), Ok tt).
Proof.
  intros W. rewrite pack_segments, expand_good by (apply segments_wf; assumption).
  destruct use8, i; reflexivity.
Qed.

Lemma eqb_iff a b : epath_eqb a b = true <-> a = b.
Proof.
  unfold epath_eqb. destruct a as [c1 o1 a1 s1], b as [c2 o2 a2 s2]; cbn [p_size p_class p_object p_attr].
  rewrite !andb_true_iff, !Z.eqb_eq. split.
  - intros [[[-> ->] ->] ->]; reflexivity.
  - intros E; injection E as -> -> -> ->; auto.
Qed.
Lemma yeqb_iff a b : ypath_eqb a b = true <-> a = b.
Proof.
  unfold ypath_eqb. destruct a as [c1 o1 a1 s1], b as [c2 o2 a2 s2]; cbn [y_size y_class y_object y_attr].
  rewrite !andb_true_iff, !Z.eqb_eq. split.
  - intros [[[-> ->] ->] ->]; reflexivity.
  - intros E; injection E as -> -> -> ->; auto.
Qed.

Lemma Forall3 {A} (P : A -> Prop) a b c : Forall P [a; b; c] <-> P a /\ P b /\ P c.
Proof. rewrite !Forall_cons_iff. intuition. Qed.
Lemma Forall2' {A} (P : A -> Prop) a b : Forall P [a; b] <-> P a /\ P b.
Proof. rewrite !Forall_cons_iff. intuition. Qed.
Lemma Forall1 {A} (P : A -> Prop) a : Forall P [a] <-> P a.
Proof. rewrite !Forall_cons_iff. intuition. Qed.

Ltac size_cases :=
  unfold size_of;
  repeat match goal with |- context [?x =? 0] => destruct (Z.eqb_spec x 0) end.

Lemma roundtrip_iff h use8 i : ids_wf i ->
  exists p, epath_expand h (epath_pack use8 (build i)) = (p, Ok tt)
  /\ (epath_eqb p (build i) = true <-> ids_nonzero i /\ (use8 = true -> ids_small i)).
Proof.
  intros W. rewrite expand_pack by assumption.
  eexists. split; [reflexivity|]. rewrite eqb_iff.
  unfold ids_wf, ids_nonzero, ids_small in *.
  destruct i as [|c|c o|c o a]; cbn [ids_list fields build] in *.
  - split; [intros _; split; [constructor|intros _; constructor]|intros _; reflexivity].
  - rewrite !Forall1 in *; cbn [snd] in *. unfold is_u16, is_u8, epath1 in *.
    destruct use8; size_cases; split; intros E; try (injection E as E); try f_equal; try lia;
      try (split; [|intros _]); lia.
  - rewrite !Forall2' in *; cbn [snd] in *. unfold is_u16, is_u8, epath2 in *.
    destruct use8; size_cases; split; intros E; try (injection E as E); try f_equal; try lia;
      try (split; [|intros _]); lia.
  - rewrite !Forall3 in *; cbn [snd] in *. unfold is_u16, is_u8, epath3 in *.
    destruct use8; size_cases; split; intros E; try (injection E as E); try f_equal; try lia;
      try (split; [|intros _]); lia.
Qed.

Lemma roundtrip_refuted : exists use8 i p, ids_wf i
  /\ epath_expand strict (epath_pack use8 (build i)) = (p, Ok tt) /\ epath_eqb p (build i) = false.
Proof.
  exists false, (Ids3 4 0 3), (mkPath 4 0 3 1). split.
  - repeat constructor; unfold is_u16; cbn; lia.
  - split; reflexivity.
Qed.

(** ** Acceptance *)
Lemma accept_iff h data : is_bytes data ->
  (snd (epath_expand h data) = Ok tt <-> exists segs, Forall seg_wf segs /\ data = path_bytes segs).
Proof.
  intros B. split.
  - intros E. destruct (path_cases (List.length data) data (Nat.le_refl _) B)
      as (segs & tail & W & -> & [->|[U|T]]).
    + exists segs. split; [assumption|apply app_nil_r].
    + rewrite expand_unknown in E by assumption. discriminate.
    + destruct (expand_truncated h segs tail W T) as [E'|E']; rewrite E' in E; discriminate.
  - intros (segs & W & ->). rewrite expand_good by assumption. reflexivity.
Qed.
Lemma y_accept_iff h data : is_bytes data ->
  (snd (ypath_expand h data) = Ok tt <-> exists segs, Forall seg_wf segs /\ data = path_bytes segs).
Proof.
  intros B. split.
  - intros E. destruct (path_cases (List.length data) data (Nat.le_refl _) B)
      as (segs & tail & W & -> & [->|[U|T]]).
    + exists segs. split; [assumption|apply app_nil_r].
    + rewrite yexpand_unknown in E by assumption. discriminate.
    + destruct (yexpand_truncated h segs tail W T) as [E'|E']; rewrite E' in E; discriminate.
  - intros (segs & W & ->). rewrite yexpand_good by assumption. reflexivity.
Qed.

Lemma cases_total data : is_bytes data ->
  exists segs tail, Forall seg_wf segs /\ data = path_bytes segs ++ tail
    /\ (tail = [] \/ unknown tail \/ truncated tail).
Proof. apply (path_cases (List.length data)); auto. Qed.

(** ** Yaskawa *)
Lemma ypack_segments i : ids_small i -> ypath_pack (ybuild i) = path_bytes (segments true (shape i)).
Proof.
  unfold ids_small. destruct i as [|c|c o|c o a]; cbn [ids_list]; intros W; [reflexivity|..].
  - rewrite Forall1 in W. unfold is_u8 in W; cbn [snd] in W.
    unfold ypath_pack, segments, path_bytes; cbn. rewrite !Z.mod_small by lia. reflexivity.
  - rewrite Forall2' in W. unfold is_u8 in W; cbn [snd] in W.
    unfold ypath_pack, segments, path_bytes; cbn. rewrite !Z.mod_small by lia. reflexivity.
  - rewrite Forall3 in W. unfold is_u8 in W; cbn [snd] in W.
    unfold ypath_pack, segments, path_bytes; cbn. rewrite !Z.mod_small by lia. reflexivity.
Qed.
Lemma small_wf i : ids_small i -> ids_wf i.
Proof. unfold ids_small, ids_wf. apply Forall_impl. unfold is_u8, is_u16. intros; lia. Qed.

Lemma yaskawa_pack i : i <> Ids0 -> ids_small i ->
  ypath_pack (ybuild i) = path_bytes (segments true i)
  /\ 2 * ypath_words (ybuild i) = zlen (ypath_pack (ybuild i)).
Proof.
  intros H W. rewrite ypack_segments by assumption. unfold zlen. rewrite segments_length.
  destruct i; [congruence|split; reflexivity..].
Qed.
Lemma yaskawa_pack_refuted : exists i, ids_small i
  /\ 2 * ypath_words (ybuild i) <> zlen (ypath_pack (ybuild i)).
Proof. exists Ids0. split; [constructor|]. vm_compute. discriminate. Qed.

Lemma yaskawa_roundtrip h i : ids_small i ->
  exists p, ypath_expand h (ypath_pack (ybuild i)) = (p, Ok tt)
  /\ (y_class p, y_object p, y_attr p) = (y_class (ybuild i), y_object (ybuild i), y_attr (ybuild i))
  /\ (ypath_eqb p (ybuild i) = true <-> ids_nonzero i).
Proof.
  intros W. rewrite ypack_segments, yexpand_good
    by (try assumption; apply segments_wf, small_wf; assumption).
  eexists. split; [reflexivity|]. rewrite yeqb_iff. unfold ids_small, ids_nonzero in *.
  destruct i as [|c|c o|c o a]; cbn [ids_list ybuild shape] in *.
  - split; [reflexivity|]. split; [intros _; constructor|intros _; reflexivity].
  - rewrite Forall1 in *; cbn [snd] in *. unfold is_u8 in W.
    cbv [last_id segments map ids_list rev app find kind_eqb seg_kind seg_id fst snd ypath1 y_class y_object y_attr].
    rewrite !Zmod_mod. change (0 mod 256) with 0. rewrite !Z.mod_small by lia.
    split; [reflexivity|]. size_cases; split; intros E; try congruence; try lia.
  - rewrite Forall2' in *; cbn [snd] in *. unfold is_u8 in W.
    cbv [last_id segments map ids_list rev app find kind_eqb seg_kind seg_id fst snd ypath2 y_class y_object y_attr].
    rewrite !Zmod_mod. change (0 mod 256) with 0. rewrite !Z.mod_small by lia.
    split; [reflexivity|]. size_cases; split; intros E; try congruence; try lia.
  - rewrite Forall3 in *; cbn [snd] in *. unfold is_u8 in W.
    cbv [last_id segments map ids_list rev app find kind_eqb seg_kind seg_id fst snd ypath3 y_class y_object y_attr].
    rewrite !Zmod_mod. rewrite !Z.mod_small by lia.
    split; [reflexivity|]. size_cases; split; intros E; try congruence; try lia.
Qed.

(** ** Requests *)
Lemma request_bytes_any use8 service i data :
  request_pack use8 service (build i) data
  = [service; zlen (path_bytes (segments use8 i)) / 2]
    ++ path_bytes (segments use8 (match i with Ids0 => Ids1 0 | _ => i end)) ++ data.
Proof.
  unfold request_pack, put_bytes, put_u8, push; cbn [bdata bpos buf_new].
  rewrite pack_segments, words_count. rewrite <- !app_assoc. reflexivity.
Qed.

Lemma take_app n a b : List.length a = n -> take n (a ++ b) = Some (a, b).
Proof.
  intros <-. unfold take. rewrite app_length.
  replace (Nat.leb _ _) with true by (symmetry; apply Nat.leb_le; lia).
  now rewrite firstn_app_exact, skipn_app_exact.
Qed.

Lemma half_words use8 i :
  (2 * Z.to_nat (zlen (path_bytes (segments use8 i)) / 2))%nat = List.length (path_bytes (segments use8 i)).
Proof. unfold zlen. rewrite segments_length. destruct use8, i; reflexivity. Qed.

Lemma request_recover use8 service i data : i <> Ids0 ->
  request_pack use8 service (build i) data = request_bytes service (segments use8 i) data
  /\ parse_request (request_pack use8 service (build i) data)
     = Some (service, path_bytes (segments use8 i), data).
Proof.
  intros H. rewrite request_bytes_any.
  replace (match i with Ids0 => Ids1 0 | _ => i end) with i by (destruct i; congruence).
  split; [reflexivity|]. cbn [app parse_request].
  rewrite take_app by (symmetry; apply half_words). reflexivity.
Qed.

Lemma request_recover_refuted : exists use8 service i data,
  parse_request (request_pack use8 service (build i) data) <> Some (service, path_bytes (segments use8 i), data).
Proof. exists false, 14, Ids0, [7]. vm_compute. discriminate. Qed.

Lemma yrequest_recover service i data : i <> Ids0 -> ids_small i ->
  yrequest_pack service (ybuild i) data = request_bytes service (segments true i) data
  /\ parse_request (yrequest_pack service (ybuild i) data)
     = Some (service, path_bytes (segments true i), data).
Proof.
  intros H W. assert (E : yrequest_pack service (ybuild i) data = request_bytes service (segments true i) data).
  { unfold yrequest_pack, request_bytes, put_bytes, put_u8, push; cbn [bdata bpos buf_new].
    destruct (yaskawa_pack i H W) as [E1 E2]. rewrite E1 in *. rewrite <- E2.
    replace (2 * ypath_words (ybuild i) / 2) with (ypath_words (ybuild i))
      by (symmetry; rewrite Z.mul_comm; apply Z.div_mul; lia).
    rewrite <- !app_assoc. reflexivity. }
  rewrite E. split; [reflexivity|]. unfold request_bytes. cbn [app parse_request].
  rewrite take_app by (symmetry; apply half_words). reflexivity.
Qed.

(** ** Text *)
Lemma path_text i : epath_to_string (build i)
  = match i with
    | Ids0 => "[classId=0]"
    | Ids1 c => "[classId=" ++ to_string c ++ "]"
    | Ids2 c o => "[classId=" ++ to_string c ++ " objectId=" ++ to_string o ++ "]"
    | Ids3 c o a => "[classId=" ++ to_string c ++ " objectId=" ++ to_string o
                    ++ " attributeId=" ++ to_string a ++ "]"
    end%string.
Proof.
  assert (A : forall a b c : string, ((a ++ b) ++ c = a ++ (b ++ c))%string).
  { intros a b c. induction a as [|x a IH]; cbn [append]; [reflexivity|now rewrite IH]. }
  destruct i; unfold epath_to_string; cbn [build epath0 epath1 epath2 epath3 p_size p_class p_object p_attr];
    cbn -[to_string append]; rewrite ?A; reflexivity.
Qed.
