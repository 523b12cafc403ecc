(** Lemmas about the buffer model. *)
From Verif Require Import Base MBuffer SBuffer PBase.
Ltac Zify.zify_post_hook ::= Z.div_mod_to_equations.
Local Open Scope outcome_scope.

(** A valid buffer is a consumed part followed by an unread part. *)
Definition at_ (pre rest : bytes) : buffer := mkBuf (pre ++ rest) (List.length pre).

Lemma buf_of_at d : buf_of d = at_ [] d.
Proof. reflexivity. Qed.

Lemma at_split b : (bpos b <= List.length (bdata b))%nat ->
  b = at_ (firstn (bpos b) (bdata b)) (skipn (bpos b) (bdata b)).
Proof.
  destruct b as [d p]; cbn [bdata bpos]; intros H; unfold at_.
  rewrite firstn_skipn, firstn_length_le by lia. reflexivity.
Qed.

Lemma fetch_at h pre x rest :
  fetch h (at_ pre (x :: rest)) = Ok (x, at_ (pre ++ [x]) rest).
Proof.
  unfold fetch, at_; cbn [bdata bpos].
  rewrite nth_error_app2, Nat.sub_diag by lia. cbn [nth_error].
  rewrite <- app_assoc, app_length. cbn [List.length app]. do 3 f_equal. lia.
Qed.

(** ** Writing *)
Lemma put_u8_data b v : put_u8 b v = mkBuf (bdata b ++ [v]) (bpos b).
Proof. reflexivity. Qed.

Lemma put_u16_le b v : put_u16 b v = mkBuf (bdata b ++ le 2 v) (bpos b).
Proof.
  unfold put_u16, push; cbn [bdata bpos le]. rewrite <- app_assoc, shr8. reflexivity.
Qed.
Lemma put_u32_le b v : put_u32 b v = mkBuf (bdata b ++ le 4 v) (bpos b).
Proof.
  unfold put_u32, push; cbn [bdata bpos le].
  rewrite <- !app_assoc, shr8, shr16, shr24. reflexivity.
Qed.
Lemma put_u64_le b v : put_u64 b v = mkBuf (bdata b ++ le 8 v) (bpos b).
Proof.
  unfold put_u64, push; cbn [bdata bpos le].
  rewrite <- !app_assoc, shr8, shr16, shr24, shr32, shr40, shr48, shr56. reflexivity.
Qed.

Lemma le_mod n v : le n (v mod 256 ^ Z.of_nat n) = le n v.
Proof.
  revert v; induction n as [|n IH]; intros v; cbn [le]; [reflexivity|].
  rewrite Nat2Z.inj_succ, Z.pow_succ_r by lia.
  rewrite Z.rem_mul_r by lia.
  f_equal.
  - rewrite (Z.mul_comm 256), Z_mod_plus_full, Zmod_mod. reflexivity.
  - rewrite <- (IH (v / 256)). f_equal.
    rewrite (Z.mul_comm 256), Z.div_add, Z.div_small by lia. reflexivity.
Qed.
Lemma le1_u8 v : le 1 (u8 v) = le 1 v.
Proof. apply (le_mod 1). Qed.
Lemma le2_u16 v : le 2 (u16 v) = le 2 v.
Proof. apply (le_mod 2). Qed.
Lemma le4_u32 v : le 4 (u32 v) = le 4 v.
Proof. apply (le_mod 4). Qed.
Lemma le8_u64 v : le 8 (u64 v) = le 8 v.
Proof. apply (le_mod 8). Qed.

Lemma put_words_le b l : put_words b l = mkBuf (bdata b ++ concat (map (le 2) l)) (bpos b).
Proof.
  unfold put_words. revert b. induction l as [|w l IH]; intros b; cbn [fold_left map concat].
  - rewrite app_nil_r. now destruct b.
  - rewrite IH. unfold push; cbn [bdata bpos]. rewrite <- !app_assoc, shr8. reflexivity.
Qed.

Lemma htons_swap x : is_u16 x -> htons x = 256 * (x mod 256) + x / 256.
Proof.
  unfold is_u16, htons, u16; intros H. rewrite shl8, shr8. lia.
Qed.
Lemma htons_u16 x : htons (u16 x) = htons x.
Proof. unfold htons, u16. now rewrite Zmod_mod. Qed.
Lemma htons_invol x : is_u16 x -> htons (htons x) = x.
Proof.
  intros H. rewrite (htons_swap x H).
  assert (Hs : is_u16 (256 * (x mod 256) + x / 256)) by (unfold is_u16 in *; lia).
  rewrite (htons_swap _ Hs). unfold is_u16 in *. lia.
Qed.
Lemma htons_range x : is_u16 (htons x).
Proof. apply u16_range. Qed.
Lemma le2_swap x : is_u16 x -> le 2 (256 * (x mod 256) + x / 256) = be16 x.
Proof.
  unfold is_u16; intros H; cbn [le]; unfold be16. f_equal; [lia|]. f_equal. lia.
Qed.

Lemma write_layout b v : wf_value v -> write b v = mkBuf (bdata b ++ layout v) (bpos b).
Proof.
  destruct v; cbn [wf_value write layout]; intros W.
  - unfold put_u8, push. now rewrite le1_small.
  - unfold put_s8, push. now rewrite <- le1_u8, le1_small by apply u8_range.
  - apply put_u16_le.
  - unfold put_s16. now rewrite put_u16_le, le2_u16.
  - apply put_u32_le.
  - unfold put_s32. now rewrite put_u32_le, le4_u32.
  - apply put_u64_le.
  - unfold put_s64. now rewrite put_u64_le, le8_u64.
  - apply put_u32_le.
  - apply put_u64_le.
  - reflexivity.
  - apply put_words_le.
  - destruct W as [W1 W2]. unfold put_short_string, short_string, put_bytes, put_u8, push.
    cbn [bdata bpos str_length str_data]. rewrite <- app_assoc.
    rewrite u8_small by (unfold is_u8; pose proof (zlen_nonneg text); lia).
    rewrite le1_small by (unfold is_u8; pose proof (zlen_nonneg text); lia). reflexivity.
  - destruct W as [W1 W2]. unfold put_cip_string, cip_string, put_bytes.
    cbn [bdata bpos str_length str_data]. rewrite put_u16_le, le2_u16.
    cbn [bdata bpos]. now rewrite <- app_assoc.
  - unfold put_rev, put_u8, push; cbn [bdata bpos rev_major rev_minor].
    now rewrite <- app_assoc.
  - destruct W as (Wf & Wa & Wb & Wc & Wd & Wp).
    unfold put_endpoint, put_bytes.
    cbn [ep_addr the_endpoint sa_family sa_port sa_addr].
    rewrite put_u32_le, put_u16_le, put_u16_le. cbn [bdata bpos].
    f_equal. rewrite <- !app_assoc. f_equal.
    assert (E1 : le 2 (htons (s16 f)) = be16 f).
    { rewrite <- htons_u16, u16_s16, u16_small by assumption.
      rewrite htons_swap by assumption. apply le2_swap; assumption. }
    rewrite E1, le2_swap by assumption. rewrite le4_u32.
    unfold be16. cbn [app]. do 4 f_equal.
    unfold is_u8 in *. cbn [le]. cbn [app].
    f_equal; [lia|]. f_equal; [lia|]. f_equal; [lia|]. f_equal; lia.
Qed.

Lemma writes_layout vs : forall b, Forall wf_value vs ->
  writes b vs = mkBuf (bdata b ++ concat (map layout vs)) (bpos b).
Proof.
  induction vs as [|v vs IH]; intros b W; cbn [writes map concat].
  - rewrite app_nil_r. now destruct b.
  - inv W. rewrite IH by assumption. rewrite write_layout by assumption. cbn [bdata bpos].
    now rewrite <- app_assoc.
Qed.

(** ** Reading in bounds *)
Lemma get_u8_at h pre x rest :
  get_u8 h (at_ pre (x :: rest)) = Ok (x, at_ (pre ++ [x]) rest).
Proof. apply fetch_at. Qed.

Lemma get_bytes_at h l : forall pre rest,
  get_bytes h (List.length l) (at_ pre (l ++ rest)) = Ok (l, at_ (pre ++ l) rest).
Proof.
  induction l as [|x l IH]; intros pre rest; cbn [get_bytes List.length app].
  - now rewrite app_nil_r.
  - rewrite fetch_at. cbn [bind]. rewrite IH. cbn [bind]. now rewrite <- app_assoc.
Qed.

Lemma get_bytes_n h n pre rest : (n <= List.length rest)%nat ->
  get_bytes h n (at_ pre rest) = Ok (firstn n rest, at_ (pre ++ firstn n rest) (skipn n rest)).
Proof.
  intros L. pose proof (get_bytes_at h (firstn n rest) pre (skipn n rest)) as E.
  rewrite firstn_skipn, firstn_length_le in E by assumption. exact E.
Qed.

Lemma get_u16_at h pre x0 x1 rest : is_u8 x0 -> is_u8 x1 ->
  get_u16 h (at_ pre (x0 :: x1 :: rest)) = Ok (le_val [x0; x1], at_ (pre ++ [x0; x1]) rest).
Proof.
  intros H0 H1. unfold get_u16. rewrite fetch_at. cbn [bind]. rewrite fetch_at. cbn [bind].
  rewrite <- app_assoc. cbn [app le_val]. do 2 f_equal.
  rewrite shl8. unfold is_u8, u16 in *. lia.
Qed.

Lemma get_u32_at h pre x0 x1 x2 x3 rest :
  is_u8 x0 -> is_u8 x1 -> is_u8 x2 -> is_u8 x3 ->
  get_u32 h (at_ pre (x0 :: x1 :: x2 :: x3 :: rest))
  = Ok (le_val [x0; x1; x2; x3], at_ (pre ++ [x0; x1; x2; x3]) rest).
Proof.
  intros H0 H1 H2 H3. unfold get_u32.
  rewrite fetch_at. cbn [bind]. rewrite fetch_at. cbn [bind].
  rewrite fetch_at. cbn [bind]. rewrite fetch_at. cbn [bind].
  rewrite <- !app_assoc. cbn [app le_val]. do 2 f_equal.
  rewrite !u32_s32, shl8, shl16, shl24. unfold is_u8 in *.
  rewrite (u32_small x0) by (unfold is_u32; lia).
  rewrite (u32_small (256 * x1)) by (unfold is_u32; lia).
  rewrite (u32_small (65536 * x2)) by (unfold is_u32; lia).
  rewrite (u32_small (16777216 * x3)) by (unfold is_u32; lia).
  rewrite (u32_small (x0 + _)) by (unfold is_u32; lia).
  rewrite (u32_small (x0 + _ + _)) by (unfold is_u32; lia).
  rewrite u32_small by (unfold is_u32; lia). lia.
Qed.

Lemma get_u64_at h pre x0 x1 x2 x3 x4 x5 x6 x7 rest :
  is_u8 x0 -> is_u8 x1 -> is_u8 x2 -> is_u8 x3 ->
  is_u8 x4 -> is_u8 x5 -> is_u8 x6 -> is_u8 x7 ->
  get_u64 h (at_ pre (x0 :: x1 :: x2 :: x3 :: x4 :: x5 :: x6 :: x7 :: rest))
  = Ok (le_val [x0; x1; x2; x3; x4; x5; x6; x7],
        at_ (pre ++ [x0; x1; x2; x3; x4; x5; x6; x7]) rest).
Proof.
  intros H0 H1 H2 H3 H4 H5 H6 H7. unfold get_u64.
  do 8 (rewrite fetch_at; cbn [bind]).
  rewrite <- !app_assoc. cbn [app le_val]. do 2 f_equal.
  rewrite shl8, shl16, shl24, shl32, shl40, shl48, shl56. unfold is_u8 in *.
  rewrite (u64_small x0) by (unfold is_u64; lia).
  rewrite (u64_small (256 * x1)) by (unfold is_u64; lia).
  rewrite (u64_small (65536 * x2)) by (unfold is_u64; lia).
  rewrite (u64_small (16777216 * x3)) by (unfold is_u64; lia).
  rewrite (u64_small (4294967296 * x4)) by (unfold is_u64; lia).
  rewrite (u64_small (1099511627776 * x5)) by (unfold is_u64; lia).
  rewrite (u64_small (281474976710656 * x6)) by (unfold is_u64; lia).
  rewrite (u64_small (72057594037927936 * x7)) by (unfold is_u64; lia).
  rewrite (u64_small (x0 + _)) by (unfold is_u64; lia).
  rewrite (u64_small (x0 + _ + _)) by (unfold is_u64; lia).
  rewrite (u64_small (x0 + _ + _ + _)) by (unfold is_u64; lia).
  rewrite (u64_small (x0 + _ + _ + _ + _)) by (unfold is_u64; lia).
  rewrite (u64_small (x0 + _ + _ + _ + _ + _)) by (unfold is_u64; lia).
  rewrite (u64_small (x0 + _ + _ + _ + _ + _ + _)) by (unfold is_u64; lia).
  rewrite u64_small by (unfold is_u64; lia). lia.
Qed.

Lemma destruct2 {A} (l : list A) : List.length l = 2%nat -> exists a b, l = [a; b].
Proof. destruct l as [|a [|b [|]]]; try discriminate. eauto. Qed.
Lemma destruct4 {A} (l : list A) : List.length l = 4%nat -> exists a b c d, l = [a; b; c; d].
Proof. destruct l as [|a [|b [|c [|d [|]]]]]; try discriminate. eauto 6. Qed.
Lemma destruct8 {A} (l : list A) : List.length l = 8%nat ->
  exists a b c d e f g h, l = [a; b; c; d; e; f; g; h].
Proof.
  destruct l as [|a [|b [|c [|d [|e [|f [|g [|h [|]]]]]]]]]; try discriminate. eauto 10.
Qed.

(** Decoding by exact-length prefixes. *)
Lemma get_u16_pre h pre l rest : is_bytes l -> List.length l = 2%nat ->
  get_u16 h (at_ pre (l ++ rest)) = Ok (le_val l, at_ (pre ++ l) rest).
Proof.
  intros B L. destruct (destruct2 l L) as (a & b & ->). inv B. inv H2.
  now apply get_u16_at.
Qed.
Lemma get_u32_pre h pre l rest : is_bytes l -> List.length l = 4%nat ->
  get_u32 h (at_ pre (l ++ rest)) = Ok (le_val l, at_ (pre ++ l) rest).
Proof.
  intros B L. destruct (destruct4 l L) as (a & b & c & d & ->). unfold is_bytes in B.
  rewrite !Forall_cons_iff in B. destruct B as (?&?&?&?&_).
  now apply get_u32_at.
Qed.
Lemma get_u64_pre h pre l rest : is_bytes l -> List.length l = 8%nat ->
  get_u64 h (at_ pre (l ++ rest)) = Ok (le_val l, at_ (pre ++ l) rest).
Proof.
  intros B L. destruct (destruct8 l L) as (a & b & c & d & e & f & g & h' & ->).
  unfold is_bytes in B.
  rewrite !Forall_cons_iff in B. destruct B as (?&?&?&?&?&?&?&?&_).
  now apply get_u64_at.
Qed.

Lemma get_u16_le h pre v rest :
  get_u16 h (at_ pre (le 2 v ++ rest)) = Ok (u16 v, at_ (pre ++ le 2 v) rest).
Proof.
  rewrite get_u16_pre by (apply le_bytes || apply le_length).
  rewrite le_val_le. reflexivity.
Qed.
Lemma get_u32_le h pre v rest :
  get_u32 h (at_ pre (le 4 v ++ rest)) = Ok (u32 v, at_ (pre ++ le 4 v) rest).
Proof.
  rewrite get_u32_pre by (apply le_bytes || apply le_length).
  rewrite le_val_le. reflexivity.
Qed.
Lemma get_u64_le h pre v rest :
  get_u64 h (at_ pre (le 8 v ++ rest)) = Ok (u64 v, at_ (pre ++ le 8 v) rest).
Proof.
  rewrite get_u64_pre by (apply le_bytes || apply le_length).
  rewrite le_val_le. reflexivity.
Qed.

Lemma get_words_at h l : is_words l -> forall pre rest,
  get_words h (List.length l) (at_ pre (concat (map (le 2) l) ++ rest))
  = Ok (l, at_ (pre ++ concat (map (le 2) l)) rest).
Proof.
  induction 1 as [|w l Hw Hl IH]; intros pre rest; cbn [get_words List.length map concat app].
  - now rewrite app_nil_r.
  - cbn [le app]. rewrite fetch_at. cbn [bind]. rewrite fetch_at. cbn [bind].
    rewrite IH. cbn [bind].
    rewrite <- !app_assoc. cbn [app]. do 3 f_equal.
    rewrite shl8. unfold is_u16, u16, s16 in *. lia.
Qed.

Lemma read_write_at h v pre rest : wf_value v ->
  read h (type_of v) (at_ pre (layout v ++ rest)) = Ok (shows v, at_ (pre ++ layout v) rest).
Proof.
  destruct v; cbn [wf_value]; intros W; unfold read; cbn [type_of layout shows];
    unfold get_f32, get_f64, get_s16, get_s32, get_s64;
    rewrite ?get_u16_le, ?get_u32_le, ?get_u64_le.
  - cbn [le app]. rewrite get_u8_at. cbn [omap bind fst snd].
    unfold is_u8 in W. replace (v mod 256) with v by lia. reflexivity.
  - cbn [le app]. unfold get_s8. rewrite fetch_at. cbn [omap bind fst snd].
    do 3 f_equal. unfold is_s8, s8, u8 in *. lia.
  - cbn [omap bind fst snd]. now rewrite u16_small.
  - cbn [omap bind fst snd]. now rewrite s16_u16, s16_small.
  - cbn [omap bind fst snd]. now rewrite u32_small.
  - cbn [omap bind fst snd]. now rewrite s32_u32, s32_small.
  - cbn [omap bind fst snd]. now rewrite u64_small.
  - cbn [omap bind fst snd]. now rewrite s64_u64, s64_small.
  - cbn [omap bind fst snd]. now rewrite u32_small.
  - cbn [omap bind fst snd]. now rewrite u64_small.
  - rewrite get_bytes_at. reflexivity.
  - rewrite get_words_at by assumption. reflexivity.
  - destruct W as [W1 W2]. pose proof (zlen_nonneg text) as Hn.
    cbn [le app]. unfold get_short_string. rewrite get_u8_at. cbn [bind].
    replace (zlen text mod 256) with (zlen text) by lia.
    replace (Z.to_nat (zlen text)) with (List.length text) by (unfold zlen; lia).
    rewrite get_bytes_at. cbn [omap bind fst snd short_string str_length str_data].
    rewrite u8_small by (unfold is_u8; lia). now rewrite <- app_assoc.
  - destruct W as [W1 W2]. pose proof (zlen_nonneg text) as Hn.
    unfold get_cip_string. rewrite <- app_assoc, get_u16_le. cbn [bind].
    rewrite u16_small by (unfold is_u16; lia).
    replace (Z.to_nat (zlen text)) with (List.length text) by (unfold zlen; lia).
    rewrite get_bytes_at. cbn [omap bind fst snd cip_string str_length str_data].
    rewrite u16_small by (unfold is_u16; lia). now rewrite <- app_assoc.
  - cbn [app]. unfold get_rev. rewrite get_u8_at. cbn [bind]. rewrite get_u8_at.
    cbn [omap bind fst snd rev_major rev_minor]. now rewrite <- app_assoc.
  - destruct W as (Wf & Wa & Wb & Wc & Wd & Wp).
    unfold get_endpoint, get_s16. rewrite <- !app_assoc.
    rewrite <- (le2_swap f), <- (le2_swap p) by assumption.
    rewrite get_u16_le. cbn [bind]. rewrite get_u16_le. cbn [bind].
    rewrite get_u32_pre; [|repeat (constructor; [assumption|]); constructor|reflexivity].
    cbn [bind].
    change (get_bytes h 8) with (get_bytes h (List.length [0;0;0;0;0;0;0;0])).
    rewrite get_bytes_at. cbn [omap bind fst snd].
    rewrite u16_s16. rewrite <- !app_assoc.
    assert (Rf : is_u16 (256 * (f mod 256) + f / 256)) by (unfold is_u16 in *; lia).
    assert (Rp : is_u16 (256 * (p mod 256) + p / 256)) by (unfold is_u16 in *; lia).
    rewrite htons_u16, !u16_small by assumption.
    unfold ep_of_addr, the_endpoint; cbn [sa_family sa_port sa_addr].
    do 3 f_equal.
    assert (E3 : le_val [a; b; c; d] = a + 256 * b + 65536 * c + 16777216 * d)
      by (cbn [le_val]; lia).
    rewrite E3.
    rewrite <- (htons_swap f), <- (htons_swap p) by assumption.
    rewrite !htons_invol by assumption.
    f_equal. unfold inet_ntoa, dotted. rewrite shr8, shr16, shr24.
    unfold u8, is_u8 in *.
    assert (A1 : (a + 256 * b + 65536 * c + 16777216 * d) mod 256 = a) by lia.
    assert (A2 : (a + 256 * b + 65536 * c + 16777216 * d) / 256 = b + 256 * c + 65536 * d) by lia.
    rewrite A1, A2.
    assert (A3 : (b + 256 * c + 65536 * d) mod 256 = b) by lia.
    assert (A4 : (b + 256 * c + 65536 * d) / 256 = c + 256 * d) by lia.
    rewrite A3, A4.
    assert (A5 : (c + 256 * d) mod 256 = c) by lia.
    assert (A6 : (c + 256 * d) / 256 mod 256 = d) by lia.
    rewrite A5, A6. reflexivity.
Qed.
