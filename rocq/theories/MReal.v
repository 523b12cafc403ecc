(** Model of the [REAL] and [LREAL] instances of the templates of
    src/ParameterObject.h. *)
From Coq Require Import ZArith SpecFloat.
From Verif Require Import Base MBuffer MParam.
Local Open Scope Z_scope.
Local Open Scope outcome_scope.

(** src/cip/Types.h:23-24: float and double *)
Inductive rtype := RReal | RLreal.
(** IEEE 754 binary32 and binary64: bits of the fraction and of the exponent *)
Definition frac_bits (t : rtype) : Z := match t with RReal => 23 | RLreal => 52 end.
Definition exp_bits (t : rtype) : Z := match t with RReal => 8 | RLreal => 11 end.
Definition rprec (t : rtype) : Z := match t with RReal => 24 | RLreal => 53 end.
Definition remax (t : rtype) : Z := match t with RReal => 128 | RLreal => 1024 end.

(** The object a bit pattern represents. All NaNs are one. *)
Definition float_of_bits (t : rtype) (x : Z) : spec_float :=
  let s := Z.testbit x (frac_bits t + exp_bits t) in
  let e := x / 2 ^ frac_bits t mod 2 ^ exp_bits t in
  let m := x mod 2 ^ frac_bits t in
  if e =? 0 then
    match m with Zpos p => S754_finite s p (emin (rprec t) (remax t)) | _ => S754_zero s end
  else if e =? 2 ^ exp_bits t - 1 then (if m =? 0 then S754_infinity s else S754_nan)
  else match m + 2 ^ frac_bits t with
       | Zpos p => S754_finite s p (e - 1 + emin (rprec t) (remax t))
       | _ => S754_nan
       end.
(** The bit pattern of an object. Which NaN is written (its sign and payload) is
    not modelled: one stands for all. *)
Definition bits_of_float (t : rtype) (f : spec_float) : Z :=
  let sign (s : bool) := if s then 2 ^ (frac_bits t + exp_bits t) else 0 in
  match f with
  | S754_zero s => sign s
  | S754_infinity s => sign s + (2 ^ exp_bits t - 1) * 2 ^ frac_bits t
  | S754_nan => (2 ^ exp_bits t - 1) * 2 ^ frac_bits t + 2 ^ (frac_bits t - 1)
  | S754_finite s m e =>
    if Zpos m <? 2 ^ frac_bits t then sign s + Zpos m
    else sign s + (e - emin (rprec t) (remax t) + 1) * 2 ^ frac_bits t + (Zpos m - 2 ^ frac_bits t)
  end.
(** Conversion to type [t] (IEC 60559: to nearest even, too large becomes
    infinite). *)
Definition convert (t : rtype) (f : spec_float) : spec_float :=
  match f with
  | S754_finite s m e => binary_round (rprec t) (remax t) s m e
  | _ => f
  end.

(** src/ParameterObject.h:348-353 (encodeValue) *)
Definition encode_real (h : heap) (t : rtype) (d : bytes) : outcome spec_float :=
  omap (fun x => float_of_bits t (fst x)) (match t with RReal => get_f32 h (buf_of d) | RLreal => get_f64 h (buf_of d) end).
(** src/ParameterObject.h:356-360 (decodeValue) *)
Definition decode_real (t : rtype) (f : spec_float) : bytes :=
  bdata (match t with RReal => put_f32 buf_new (bits_of_float t f) | RLreal => put_f64 buf_new (bits_of_float t f) end).
(** src/ParameterObject.h:116-119, 139-142, 173-176, 207-210 (getEngValue,
    getEngMinValue, getEngMaxValue, getEngDefaultValue) of the vector [d] *)
Definition get_eng_real (h : heap) (t : rtype) (p : param) (d : bytes) : outcome spec_float :=
  v <- encode_real h t d ;; Ok (actual_to_eng double p (match t with RReal => convert RLreal v | RLreal => v end)).
(** src/ParameterObject.h:150-153, 184-187, 218-221: the vector setEngMinValue,
    setEngMaxValue, setEngDefaultValue store *)
Definition set_eng_real (t : rtype) (p : param) (x : spec_float) : outcome bytes :=
  a <- eng_to_actual double p x ;; Ok (decode_real t (match t with RReal => convert RReal a | RLreal => a end)).
