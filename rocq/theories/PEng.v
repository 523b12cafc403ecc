(** Limits in engineering units over doubles that are out of range, infinite or
    not a number. *)
From Coq Require Import QArith Qabs SpecFloat.
From Verif Require Import Base MBuffer SBuffer PBase MParam SParam PParam PParam2 PScale SFloat PScale2 PScale3.
Local Open Scope Z_scope.

Lemma set_eng_finite t p x a v : eng_to_actual double p x = Ok a -> finite a -> integer_part (sfq a) v ->
  (in_type t v -> set_eng double t p x = Ok (le (width t) v))
  /\ (~ in_type t v -> set_eng double t p x = Undef UbFloatToInt).
Proof.
  intros E F I. destruct (trunc_double a F) as (n & En & In). rewrite (integer_part_unique _ n v In I) in En.
  unfold set_eng. rewrite E. cbn [bind]. rewrite En. split; intros T.
  - rewrite (proj2 (type_range t v) T). now rewrite decode_value_le.
  - destruct ((int_min t <=? v) && (v <=? int_max t)) eqn:R; [|reflexivity]. apply type_range in R. contradiction.
Qed.

Lemma wild_mul f g : ~ finite f -> ~ finite (SFmul 53 1024 f g).
Proof. destruct f as [s|s| |s m e], g as [s'|s'| |s' m' e']; cbn [finite SFmul]; tauto. Qed.
Lemma wild_div f g : ~ finite f -> ~ finite (SFdiv 53 1024 f g).
Proof. destruct f as [s|s| |s m e], g as [s'|s'| |s' m' e']; cbn [finite SFdiv]; tauto. Qed.
Lemma wild_sub f g : ~ finite f -> ~ finite (SFsub 53 1024 f g).
Proof. destruct f as [s|s| |s m e], g as [s'|s'| |s' m' e']; cbn [finite SFsub]; try tauto. destruct (Bool.eqb s (negb s')); cbn [finite]; tauto. Qed.
Lemma wild_zero f s : ~ finite (SFdiv 53 1024 f (S754_zero s)).
Proof. destruct f as [s'|s'| |s' m' e']; cbn [finite SFdiv]; tauto. Qed.
Lemma set_eng_wild t p x a : eng_to_actual double p x = Ok a -> ~ finite a -> set_eng double t p x = Undef UbFloatToInt.
Proof.
  intros E F. unfold set_eng. rewrite E. cbn [bind]. destruct a as [s|s| |s m e]; cbn [finite] in F; try tauto; reflexivity.
Qed.
Lemma set_eng_not_finite t p x : ~ finite x -> (pa_scalable p = true -> pa_mult p * pa_base p < 2 ^ 31) ->
  set_eng double t p x = Undef UbFloatToInt.
Proof.
  intros F L. destruct (pa_scalable p) eqn:S.
  - eapply set_eng_wild.
    + unfold eng_to_actual. rewrite S. cbv zeta. replace (pa_mult p * pa_base p <? 2147483648) with true by (symmetry; apply Z.ltb_lt; specialize (L eq_refl); lia). reflexivity.
    + cbn [nsub ndiv nmul double]. apply wild_sub, wild_div, wild_mul, wild_mul, F.
  - apply (set_eng_wild t p x x); [|exact F]. unfold eng_to_actual. now rewrite S.
Qed.
Lemma set_eng_no_base t p x : pa_scalable p = true -> pa_mult p * pa_base p = 0 ->
  set_eng double t p x = Undef UbFloatToInt.
Proof.
  intros S Z. eapply set_eng_wild.
  - unfold eng_to_actual. rewrite S. cbv zeta. rewrite Z. reflexivity.
  - cbn [nsub ndiv nmul double of_int]. apply wild_sub. change (binary_normalize 53 1024 0 0 false) with (S754_zero false). apply wild_zero.
Qed.
Lemma set_eng_overflow A t p x : pa_scalable p = true -> 2 ^ 31 <= pa_mult p * pa_base p ->
  set_eng A t p x = Undef UbSignedOverflow.
Proof.
  intros S L. unfold set_eng, eng_to_actual. rewrite S. cbv zeta. replace (pa_mult p * pa_base p <? 2147483648) with false by (symmetry; apply Z.ltb_ge; lia). reflexivity.
Qed.
