(** Specification of rounding to binary64, over the rationals. *)
From Coq Require Import ZArith QArith Qabs Qpower SpecFloat.
Local Open Scope Q_scope.

(** The number m * 2 ^ e. *)
Definition dyadic (m e : Z) : Q := inject_Z m * Qpower (2 # 1) e.
(** The number a (finite) float stands for. *)
Definition sfq (f : spec_float) : Q :=
  match f with
  | S754_finite s m e => dyadic (if s then Zneg m else Zpos m) e
  | _ => 0
  end.
Definition finite (f : spec_float) : Prop :=
  match f with
  | S754_finite _ _ _ | S754_zero _ => True
  | _ => False
  end.
(** No number with a 53 bit significand is closer to [x] than [f] is, and [f]
    has a 53 bit significand itself. *)
Definition nearest (f : spec_float) (x : Q) : Prop :=
  finite f
  /\ (exists m e, (Z.abs m < 2 ^ 53)%Z /\ sfq f == dyadic m e)
  /\ forall m e, (Z.abs m < 2 ^ 53)%Z -> Qabs (x - sfq f) <= Qabs (x - dyadic m e).
