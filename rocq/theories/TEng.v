(** Property theorems: limits in engineering units over doubles (C75). *)
From Coq Require Import QArith SpecFloat.
From Verif Require Import Base MBuffer SBuffer PBase MParam SParam PParam PParam2 PScale SFloat PEng TParam.
Local Open Scope Z_scope.

(** C75. In double arithmetic too, the integer part of the actual value is stored
    if the type holds it; otherwise the conversion is undefined. *)
Theorem C75_double_stored : forall t p x a v, eng_to_actual double p x = Ok a -> finite a -> integer_part (sfq a) v ->
  (in_type t v -> set_eng double t p x = Ok (le (width t) v))
  /\ (~ in_type t v -> set_eng double t p x = Undef UbFloatToInt).
Proof. exact set_eng_finite. Qed.
Print Assumptions C75_double_stored.

(** C75. It is undefined for infinities and NaNs, whatever the scaling. *)
Theorem C75_not_finite : forall t p x, ~ finite x -> (pa_scalable p = true -> pa_mult p * pa_base p < 2 ^ 31) ->
  set_eng double t p x = Undef UbFloatToInt.
Proof. exact set_eng_not_finite. Qed.
Print Assumptions C75_not_finite.

(** C75. With a multiplier or a base of 0, which an adapter can send, and with a
    product that does not fit into an int, it is undefined for every number. *)
Theorem C75_no_base : forall t p x, pa_scalable p = true -> pa_mult p * pa_base p = 0 ->
  set_eng double t p x = Undef UbFloatToInt.
Proof. exact set_eng_no_base. Qed.
Print Assumptions C75_no_base.
Theorem C75_large_base : forall A t p x, pa_scalable p = true -> 2 ^ 31 <= pa_mult p * pa_base p ->
  set_eng A t p x = Undef UbSignedOverflow.
Proof. exact set_eng_overflow. Qed.
Print Assumptions C75_large_base.

Example C75_double_stored_example : let p := scaled 1 1 1 0 2 in
  exists a, eng_to_actual double p (of_int double 3) = Ok a /\ finite a /\ integer_part (sfq a) 300 /\ in_type IU16 300 /\ ~ in_type IU8 300
    /\ set_eng double IU16 p (of_int double 3) = Ok [44; 1] /\ set_eng double IU8 p (of_int double 3) = Undef UbFloatToInt.
Proof.
  cbv zeta. eexists. split; [vm_compute; reflexivity|]. split; [exact Logic.I|].
  split; [split; intros K; vm_compute in K |- *; try (split; [discriminate|reflexivity]); try (elim K; reflexivity); discriminate|].
  split; [unfold in_type; cbn; lia|]. split; [unfold in_type; cbn; lia|]. split; vm_compute; reflexivity.
Qed.
Example C75_not_finite_example : ~ finite S754_nan /\ ~ finite (S754_infinity true)
  /\ set_eng double IU32 (scaled 1 1 1 0 2) (S754_infinity true) = Undef UbFloatToInt.
Proof. split; [intros []|]. split; [intros []|]. vm_compute. reflexivity. Qed.
Example C75_base_example : pa_scalable (scaled 1 1 0 0 0) = true /\ set_eng double IU32 (scaled 1 1 0 0 0) (of_int double 3) = Undef UbFloatToInt
  /\ 2 ^ 31 <= pa_mult (scaled 65535 1 65535 0 0) * pa_base (scaled 65535 1 65535 0 0).
Proof. split; [reflexivity|]. split; [vm_compute; reflexivity|]. vm_compute. discriminate. Qed.
