(** Arithmetic and list lemmas used by all proof files. *)
From Coq Require Export ZifyBool ZifyNat ZifyN.
From Verif Require Import Base SBuffer.
Ltac Zify.zify_post_hook ::= Z.div_mod_to_equations.

Ltac inv H := inversion H; subst; clear H.

(** ** Integer conversions *)
Lemma u8_small x : is_u8 x -> u8 x = x.
Proof. unfold is_u8, u8; intros; apply Z.mod_small; lia. Qed.
Lemma u16_small x : is_u16 x -> u16 x = x.
Proof. unfold is_u16, u16; intros; apply Z.mod_small; lia. Qed.
Lemma u32_small x : is_u32 x -> u32 x = x.
Proof. unfold is_u32, u32; intros; apply Z.mod_small; lia. Qed.
Lemma u64_small x : is_u64 x -> u64 x = x.
Proof. unfold is_u64, u64; intros; apply Z.mod_small; lia. Qed.
Lemma s8_small x : is_s8 x -> s8 x = x.
Proof. unfold is_s8, s8; intros; rewrite Z.mod_small; lia. Qed.
Lemma s16_small x : is_s16 x -> s16 x = x.
Proof. unfold is_s16, s16; intros; rewrite Z.mod_small; lia. Qed.
Lemma s32_small x : is_s32 x -> s32 x = x.
Proof. unfold is_s32, s32; intros; rewrite Z.mod_small; lia. Qed.
Lemma s64_small x : is_s64 x -> s64 x = x.
Proof. unfold is_s64, s64; intros; rewrite Z.mod_small; lia. Qed.

Lemma u8_range x : is_u8 (u8 x).
Proof. unfold is_u8, u8; apply Z.mod_pos_bound; lia. Qed.
Lemma u16_range x : is_u16 (u16 x).
Proof. unfold is_u16, u16; apply Z.mod_pos_bound; lia. Qed.
Lemma u32_range x : is_u32 (u32 x).
Proof. unfold is_u32, u32; apply Z.mod_pos_bound; lia. Qed.
Lemma u64_range x : is_u64 (u64 x).
Proof. unfold is_u64, u64; apply Z.mod_pos_bound; lia. Qed.

Lemma u32_s32 x : u32 (s32 x) = u32 x.
Proof.
  unfold u32, s32.
  rewrite Zminus_mod_idemp_l. f_equal. lia.
Qed.

Lemma s16_u16 x : s16 (u16 x) = s16 x.
Proof. unfold s16, u16. rewrite Zplus_mod_idemp_l. reflexivity. Qed.
Lemma s32_u32 x : s32 (u32 x) = s32 x.
Proof. unfold s32, u32. rewrite Zplus_mod_idemp_l. reflexivity. Qed.
Lemma s64_u64 x : s64 (u64 x) = s64 x.
Proof. unfold s64, u64. rewrite Zplus_mod_idemp_l. reflexivity. Qed.
Lemma s8_u8 x : s8 (u8 x) = s8 x.
Proof. unfold s8, u8. rewrite Zplus_mod_idemp_l. reflexivity. Qed.
Lemma u16_s16 x : u16 (s16 x) = u16 x.
Proof. unfold u16, s16. rewrite Zminus_mod_idemp_l. f_equal. lia. Qed.

Lemma shl_mul x n : 0 <= n -> Z.shiftl x n = x * 2 ^ n.
Proof. intros; apply Z.shiftl_mul_pow2; lia. Qed.
Lemma shr_div x n : 0 <= n -> Z.shiftr x n = x / 2 ^ n.
Proof. intros; apply Z.shiftr_div_pow2; lia. Qed.

Lemma shl8 x : Z.shiftl x 8 = 256 * x.
Proof. rewrite shl_mul by lia. change (2^8) with 256. lia. Qed.
Lemma shl16 x : Z.shiftl x 16 = 65536 * x.
Proof. rewrite shl_mul by lia. change (2^16) with 65536. lia. Qed.
Lemma shl24 x : Z.shiftl x 24 = 16777216 * x.
Proof. rewrite shl_mul by lia. change (2^24) with 16777216. lia. Qed.
Lemma shl32 x : Z.shiftl x 32 = 4294967296 * x.
Proof. rewrite shl_mul by lia. change (2^32) with 4294967296. lia. Qed.
Lemma shl40 x : Z.shiftl x 40 = 1099511627776 * x.
Proof. rewrite shl_mul by lia. change (2^40) with 1099511627776. lia. Qed.
Lemma shl48 x : Z.shiftl x 48 = 281474976710656 * x.
Proof. rewrite shl_mul by lia. change (2^48) with 281474976710656. lia. Qed.
Lemma shl56 x : Z.shiftl x 56 = 72057594037927936 * x.
Proof. rewrite shl_mul by lia. change (2^56) with 72057594037927936. lia. Qed.
Lemma shr8 x : Z.shiftr x 8 = x / 256.
Proof. rewrite shr_div by lia. reflexivity. Qed.
Lemma shr16 x : Z.shiftr x 16 = x / 256 / 256.
Proof. rewrite shr_div by lia. rewrite Z.div_div by lia. reflexivity. Qed.
Lemma shr24 x : Z.shiftr x 24 = x / 256 / 256 / 256.
Proof. rewrite shr_div by lia. rewrite !Z.div_div by lia. reflexivity. Qed.
Lemma shr32 x : Z.shiftr x 32 = x / 256 / 256 / 256 / 256.
Proof. rewrite shr_div by lia. rewrite !Z.div_div by lia. reflexivity. Qed.
Lemma shr40 x : Z.shiftr x 40 = x / 256 / 256 / 256 / 256 / 256.
Proof. rewrite shr_div by lia. rewrite !Z.div_div by lia. reflexivity. Qed.
Lemma shr48 x : Z.shiftr x 48 = x / 256 / 256 / 256 / 256 / 256 / 256.
Proof. rewrite shr_div by lia. rewrite !Z.div_div by lia. reflexivity. Qed.
Lemma shr56 x : Z.shiftr x 56 = x / 256 / 256 / 256 / 256 / 256 / 256 / 256.
Proof. rewrite shr_div by lia. rewrite !Z.div_div by lia. reflexivity. Qed.

(** ** Little-endian digits *)
Lemma le_length n v : List.length (le n v) = n.
Proof. revert v; induction n as [|n IH]; intros v; cbn [le List.length]; [reflexivity|]. now rewrite IH. Qed.

Lemma le_bytes n v : is_bytes (le n v).
Proof.
  revert v; induction n as [|n IH]; intros v; cbn [le]; constructor; [|apply IH].
  unfold is_u8; apply Z.mod_pos_bound; lia.
Qed.

Lemma le_val_le n v : le_val (le n v) = v mod 256 ^ Z.of_nat n.
Proof.
  revert v; induction n as [|n IH]; intros v; cbn [le le_val].
  - now rewrite Z.mod_1_r.
  - rewrite IH. rewrite Nat2Z.inj_succ, Z.pow_succ_r by lia.
    rewrite Z.rem_mul_r by lia. reflexivity.
Qed.

Lemma le_val_bound l : is_bytes l -> 0 <= le_val l < 256 ^ zlen l.
Proof.
  induction 1 as [|x l Hx Hl IH]; cbn [le_val]; unfold zlen in *; cbn [List.length].
  - lia.
  - rewrite Nat2Z.inj_succ, Z.pow_succ_r by lia. unfold is_u8 in Hx. nia.
Qed.

Lemma le_le_val l : is_bytes l -> le (List.length l) (le_val l) = l.
Proof.
  induction 1 as [|x l Hx Hl IH]; cbn [le_val List.length le]; [reflexivity|].
  unfold is_u8 in Hx.
  replace ((x + 256 * le_val l) mod 256) with x by lia.
  replace ((x + 256 * le_val l) / 256) with (le_val l) by lia.
  now rewrite IH.
Qed.

Lemma le_inj n a b :
  0 <= a < 256 ^ Z.of_nat n -> 0 <= b < 256 ^ Z.of_nat n -> le n a = le n b -> a = b.
Proof.
  intros Ha Hb E. apply (f_equal le_val) in E. rewrite !le_val_le in E.
  rewrite !Z.mod_small in E by lia. exact E.
Qed.

Lemma le1 x : le 1 x = [x mod 256].
Proof. reflexivity. Qed.
Lemma le1_small x : is_u8 x -> le 1 x = [x].
Proof. intros; cbn [le]; f_equal; unfold is_u8 in *; lia. Qed.

(** ** Lists *)
Lemma zlen_nonneg {A} (l : list A) : 0 <= zlen l.
Proof. unfold zlen; lia. Qed.
Lemma zlen_app {A} (a b : list A) : zlen (a ++ b) = zlen a + zlen b.
Proof. unfold zlen; rewrite app_length; lia. Qed.
Lemma zlen_nil {A} : zlen (@nil A) = 0.
Proof. reflexivity. Qed.
Lemma zlen_cons {A} (x : A) l : zlen (x :: l) = 1 + zlen l.
Proof. unfold zlen; cbn [List.length]; lia. Qed.
Lemma zlen_map {A B} (f : A -> B) l : zlen (map f l) = zlen l.
Proof. unfold zlen; now rewrite map_length. Qed.

Lemma is_bytes_app a b : is_bytes (a ++ b) <-> is_bytes a /\ is_bytes b.
Proof. apply Forall_app. Qed.
Lemma is_bytes_cons x b : is_bytes (x :: b) <-> is_u8 x /\ is_bytes b.
Proof. unfold is_bytes; apply Forall_cons_iff. Qed.
Lemma is_bytes_nil : is_bytes [].
Proof. constructor. Qed.
Lemma is_bytes_firstn n l : is_bytes l -> is_bytes (firstn n l).
Proof.
  intros H; rewrite <- (firstn_skipn n l) in H; apply is_bytes_app in H; tauto.
Qed.
Lemma is_bytes_skipn n l : is_bytes l -> is_bytes (skipn n l).
Proof.
  intros H; rewrite <- (firstn_skipn n l) in H; apply is_bytes_app in H; tauto.
Qed.
Lemma zeros_length n : List.length (zeros n) = n.
Proof. apply repeat_length. Qed.
Lemma zeros_bytes n : is_bytes (zeros n).
Proof.
  unfold zeros; induction n as [|n IH]; cbn [repeat]; constructor; auto.
  unfold is_u8; lia.
Qed.

Lemma firstn_app_exact {A} (a b : list A) : firstn (List.length a) (a ++ b) = a.
Proof. rewrite firstn_app, firstn_all, Nat.sub_diag; cbn [firstn]; now rewrite app_nil_r. Qed.
Lemma skipn_app_exact {A} (a b : list A) : skipn (List.length a) (a ++ b) = b.
Proof. rewrite skipn_app, skipn_all, Nat.sub_diag; reflexivity. Qed.

Lemma app_inj_length {A} (a b c d : list A) :
  List.length a = List.length c -> a ++ b = c ++ d -> a = c /\ b = d.
Proof.
  intros L E. apply (f_equal (firstn (List.length a))) in E as E1.
  apply (f_equal (skipn (List.length a))) in E as E2.
  rewrite firstn_app_exact in E1. rewrite skipn_app_exact in E2.
  rewrite L in E1, E2. rewrite firstn_app_exact in E1. rewrite skipn_app_exact in E2. auto.
Qed.

(** ** Outcomes *)
Lemma bind_Ok {A B} (m : outcome A) (k : A -> outcome B) b :
  bind m k = Ok b -> exists a, m = Ok a /\ k a = Ok b.
Proof. destruct m; cbn [bind]; intros E; try discriminate. eauto. Qed.

Ltac obind H :=
  let a := fresh "r" in let H1 := fresh H in
  apply bind_Ok in H as (a & H1 & H).
