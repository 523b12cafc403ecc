(** Specification: the numbers of IEEE 754 bit patterns. *)
From Coq Require Import ZArith QArith SpecFloat.
From Verif Require Import Base MReal SFloat.
Local Open Scope Z_scope.

(** bytes of a value, bits of the fraction, largest biased exponent, bias *)
Definition rwidth (t : rtype) : nat := match t with RReal => 4 | RLreal => 8 end.
Definition rfrac (t : rtype) : Z := match t with RReal => 23 | RLreal => 52 end.
Definition rtop (t : rtype) : Z := match t with RReal => 255 | RLreal => 2047 end.
Definition rbias (t : rtype) : Z := match t with RReal => 127 | RLreal => 1023 end.
(** the pattern with this sign, exponent and fraction *)
Definition pattern (t : rtype) (neg : bool) (E F : Z) : Z :=
  (if neg then (rtop t + 1) * 2 ^ rfrac t else 0) + E * 2 ^ rfrac t + F.
(** the number it stands for: +-(1 + F / 2^f) * 2^(E - bias), without the 1 and with
    exponent 1 if E is 0 *)
Definition ieee_number (t : rtype) (neg : bool) (E F : Z) : Q :=
  ((if neg then -1 else 1) * (inject_Z (if E =? 0 then 0 else 1) + inject_Z F / inject_Z (2 ^ rfrac t))
   * Qpower (2 # 1) (Z.max E 1 - rbias t))%Q.
