(** Engineering units and typed access. *)
From Coq Require Import QArith SpecFloat Lqa.
From Verif Require Import Base MBuffer SBuffer PBase PBuffer PReader PTrunc MIdent MParam SParam.
Ltac Zify.zify_post_hook ::= Z.div_mod_to_equations.
Local Open Scope Z_scope.

Lemma to_eng_formula p x : pa_scalable p = true ->
  (actual_to_eng exact p x == eng_formula (pa_mult p) (pa_div p) (pa_base p) (pa_offset p) (pa_precision p) x)%Q.
Proof. intros S0. unfold actual_to_eng, eng_formula. rewrite S0. reflexivity. Qed.

Lemma inject_nonzero z : z <> 0 -> ~ (inject_Z z == 0)%Q.
Proof. intros N E. unfold Qeq, inject_Z in E; cbn in E. lia. Qed.

Lemma pow10_nonzero n : 0 <= n -> 10 ^ n <> 0.
Proof. intros N. pose proof (Z.pow_pos_nonneg 10 n). lia. Qed.

Definition scaling_ok (p : param) : Prop :=
  pa_mult p <> 0 /\ pa_base p <> 0 /\ pa_div p <> 0 /\ 0 <= pa_precision p.

Lemma from_eng_exact p x : pa_scalable p = true -> pa_mult p * pa_base p < 2147483648 ->
  eng_to_actual exact p x
  = Ok ((x * inject_Z (pa_div p) * inject_Z (10 ^ pa_precision p)) / inject_Z (pa_mult p * pa_base p) - inject_Z (pa_offset p))%Q.
Proof.
  intros S0 B. unfold eng_to_actual. rewrite S0. cbv zeta. apply Z.ltb_lt in B. rewrite B. reflexivity.
Qed.

Lemma inverse_1 p x : pa_scalable p = true -> scaling_ok p -> pa_mult p * pa_base p < 2147483648 ->
  exists y, eng_to_actual exact p (actual_to_eng exact p x) = Ok y /\ (y == x)%Q.
Proof.
  intros S0 (M & B & D & P) O. eexists. split; [apply from_eng_exact; assumption|].
  rewrite to_eng_formula by assumption. unfold eng_formula. rewrite inject_Z_mult.
  apply inject_nonzero in M, B, D. pose proof (inject_nonzero _ (pow10_nonzero _ P)) as T.
  field. tauto.
Qed.
Lemma inverse_2 p x : pa_scalable p = true -> scaling_ok p -> pa_mult p * pa_base p < 2147483648 ->
  exists y, eng_to_actual exact p x = Ok y /\ (actual_to_eng exact p y == x)%Q.
Proof.
  intros S0 (M & B & D & P) O. eexists. split; [apply from_eng_exact; assumption|].
  rewrite to_eng_formula by assumption. unfold eng_formula. rewrite inject_Z_mult.
  apply inject_nonzero in M, B, D. pose proof (inject_nonzero _ (pow10_nonzero _ P)) as T.
  field. tauto.
Qed.

Lemma identity_any A p (x : num A) : pa_scalable p = false -> actual_to_eng A p x = x /\ eng_to_actual A p x = Ok x.
Proof. intros S0. unfold actual_to_eng, eng_to_actual. rewrite S0. split; reflexivity. Qed.

Lemma overflow_any A p (x : num A) : pa_scalable p = true -> 2147483648 <= pa_mult p * pa_base p ->
  eng_to_actual A p x = Undef UbSignedOverflow.
Proof.
  intros S0 B. unfold eng_to_actual. rewrite S0. cbv zeta. apply Z.ltb_ge in B. rewrite B. reflexivity.
Qed.

(** ** Typed access *)
Lemma width_type t v : in_type t v ->
  match t with
  | IU8 => is_u8 v | IS8 => is_s8 v | IU16 => is_u16 v | IS16 => is_s16 v
  | IU32 => is_u32 v | IS32 => is_s32 v | IU64 => is_u64 v | IS64 => is_s64 v
  end.
Proof.
  unfold in_type. destruct t; cbn [signed width]; unfold is_u8, is_s8, is_u16, is_s16, is_u32, is_s32, is_u64, is_s64;
  match goal with |- context [2 ^ ?e] => idtac | _ => idtac end; cbn; lia.
Qed.

Definition value_of (t : itype) (v : Z) : value :=
  match t with
  | IU8 => VU8 v | IS8 => VS8 v | IU16 => VU16 v | IS16 => VS16 v
  | IU32 => VU32 v | IS32 => VS32 v | IU64 => VU64 v | IS64 => VS64 v
  end.
Lemma value_of_wf t v : in_type t v -> wf_value (value_of t v).
Proof. intros H. apply width_type in H. destruct t; exact H. Qed.
Lemma value_of_layout t v : layout (value_of t v) = le (width t) v.
Proof. destruct t; reflexivity. Qed.
Lemma read_int h t b v : read h (type_of (value_of t v)) b = omap (fun p : Z * buffer => (ShInt (fst p), snd p)) (get_int h t b).
Proof. destruct t; reflexivity. Qed.

Lemma encode_value_of h t v rest : in_type t v -> encode_value h t (le (width t) v ++ rest) = Ok v.
Proof.
  intros T. unfold encode_value. rewrite <- value_of_layout, buf_of_at.
  pose proof (read_write_at h (value_of t v) [] rest (value_of_wf t v T)) as R. rewrite read_int in R.
  destruct (get_int h t (at_ [] (layout (value_of t v) ++ rest))) as [[x b]| | |]; try discriminate.
  cbn [omap bind fst snd] in *. inv R. destruct t; cbn [value_of shows] in H0; inv H0; reflexivity.
Qed.

Lemma reader_int t : reader_ok (fun h => get_int h t).
Proof.
  destruct t; cbn [get_int];
  [apply reader_u8|apply reader_s8|apply reader_u16|apply reader_s16|apply reader_u32|apply reader_s32|apply reader_u64|apply reader_s64].
Qed.
Lemma moves_int t : moves (fun h => get_int h t) (width t).
Proof.
  destruct t; cbn [get_int width];
  [apply moves_fetch|apply moves_s8|apply moves_u16|apply moves_s16|apply moves_u32|apply moves_s32|apply moves_u64|apply moves_s64].
Qed.
Lemma encode_short t d : (List.length d < width t)%nat -> encode_value strict t d = Undef UbOobRead.
Proof.
  intros L. unfold encode_value.
  rewrite (strict_short _ (width t) (buf_of d) (reader_int t) (moves_int t)); [reflexivity|cbn; lia|cbn [buf_of bpos bdata]; lia].
Qed.

Lemma decode_value_le t v : in_type t v -> decode_value t v = le (width t) v.
Proof.
  intros T. unfold decode_value. rewrite <- value_of_layout.
  transitivity (bdata (write buf_new (value_of t v))); [destruct t; reflexivity|].
  rewrite write_layout by (now apply value_of_wf). reflexivity.
Qed.

Lemma type_range t v : (int_min t <=? v) && (v <=? int_max t) = true <-> in_type t v.
Proof.
  rewrite andb_true_iff, !Z.leb_le. unfold in_type. destruct t; cbn [signed width int_min int_max]; cbn; lia.
Qed.

Lemma trunc_integer q : integer_part q (Z.quot (Qnum q) (Zpos (Qden q))).
Proof.
  destruct q as [n d]. unfold integer_part, Qle, Qlt, inject_Z; cbn [Qnum Qden].
  rewrite !Z.mul_1_r, !Z.mul_0_l.
  pose proof (Z.quot_rem' n (Zpos d)) as E. split.
  - intros P. pose proof (Z.rem_bound_pos n (Zpos d)). nia.
  - intros N.
    pose proof (Z.rem_bound_pos (-n) (Zpos d)) as R. rewrite Z.rem_opp_l in R by lia.
    pose proof (Z.quot_pos (-n) (Zpos d)) as Q1. rewrite Z.quot_opp_l in Q1 by lia. nia.
Qed.
Lemma integer_part_unique a v w : integer_part a v -> integer_part a w -> v = w.
Proof.
  intros [P1 N1] [P2 N2]. destruct (Qlt_le_dec a 0) as [N|P].
  - destruct (N1 N) as (A1 & B1 & _), (N2 N) as (A2 & B2 & _).
    assert (inject_Z (v - 1) < inject_Z w)%Q by lra. assert (inject_Z (w - 1) < inject_Z v)%Q by lra.
    rewrite <- Zlt_Qlt in *. lia.
  - destruct (P1 P) as (A1 & B1), (P2 P) as (A2 & B2).
    assert (inject_Z v < inject_Z (w + 1))%Q by lra. assert (inject_Z w < inject_Z (v + 1))%Q by lra.
    rewrite <- Zlt_Qlt in *. lia.
Qed.
Lemma integer_part_int v : integer_part (inject_Z v) v.
Proof.
  unfold integer_part. rewrite <- ?Zle_Qle, <- ?Zlt_Qlt. change 0%Q with (inject_Z 0). rewrite <- ?Zle_Qle, <- ?Zlt_Qlt. lia.
Qed.
Lemma integer_part_eq a b v : (a == b)%Q -> integer_part a v -> integer_part b v.
Proof. intros E [P N]. split; intros K; rewrite <- E in K |- *; auto. Qed.

(** What the setters store. *)
Lemma set_eng_exact t p x a v : eng_to_actual exact p x = Ok a -> integer_part a v ->
  set_eng exact t p x = if (int_min t <=? v) && (v <=? int_max t) then Ok (decode_value t v) else Undef UbFloatToInt.
Proof.
  intros E I. unfold set_eng. rewrite E. cbn [bind ntrunc exact].
  rewrite (integer_part_unique _ _ _ I (trunc_integer a)). reflexivity.
Qed.
Lemma set_eng_fits t p x a v : eng_to_actual exact p x = Ok a -> integer_part a v -> in_type t v ->
  set_eng exact t p x = Ok (le (width t) v).
Proof.
  intros E I T. rewrite (set_eng_exact t p x a v E I). rewrite (proj2 (type_range t v) T).
  now rewrite decode_value_le.
Qed.
Lemma set_eng_too_big t p x a v : eng_to_actual exact p x = Ok a -> integer_part a v -> ~ in_type t v ->
  set_eng exact t p x = Undef UbFloatToInt.
Proof.
  intros E I T. rewrite (set_eng_exact t p x a v E I).
  destruct ((int_min t <=? v) && (v <=? int_max t)) eqn:R; [|reflexivity]. apply type_range in R. contradiction.
Qed.

(** A limit that is the engineering value of a number of the type is stored as
    that number, and read back as the same engineering value. *)
Definition scaling_any (p : param) : Prop :=
  pa_scalable p = true -> scaling_ok p /\ pa_mult p * pa_base p < 2147483648.
Lemma set_eng_roundtrip t p x v : scaling_any p -> in_type t v ->
  (x == actual_to_eng exact p (inject_Z v))%Q -> set_eng exact t p x = Ok (le (width t) v).
Proof.
  intros S0 T E. destruct (pa_scalable p) eqn:SC.
  - destruct (S0 SC) as [S1 S2]. destruct (inverse_1 p (inject_Z v) SC S1 S2) as (y & F & G).
    rewrite from_eng_exact in F by assumption. inv F.
    eapply set_eng_fits; [apply from_eng_exact; assumption| |exact T].
    eapply integer_part_eq; [|apply integer_part_int]. rewrite <- G. now rewrite E.
  - destruct (identity_any exact p x SC) as [_ F]. destruct (identity_any exact p (inject_Z v) SC) as [G _].
    eapply set_eng_fits; [exact F| |exact T]. rewrite G in E.
    eapply integer_part_eq; [symmetry; exact E|apply integer_part_int].
Qed.
Lemma get_eng_le A h t p v rest : in_type t v ->
  get_eng A h t p (le (width t) v ++ rest) = Ok (actual_to_eng A p (of_int A v)).
Proof. intros T. unfold get_eng. rewrite encode_value_of by assumption. reflexivity. Qed.
