(** Model of the Parameter Object client (src/ParameterObject.cpp,
    src/ParameterObject.h). Logging is left out. *)
From Verif Require Import Base MBuffer MEip MFile MIdent.
From Coq Require Import QArith SpecFloat.
Local Open Scope outcome_scope.
Local Open Scope Z_scope.

(** src/ParameterObject.h:25 *)
Definition PARAMETER_CLASS_ID : Z := 15.
(** src/ParameterObject.cpp:15-36 *)
Definition ATTR_VALUE : Z := 1.
Definition ATTR_DATA_SIZE : Z := 6.
Definition ATTR_SCALING_MULTIPLIER : Z := 13.
Definition ATTR_SCALING_OFFSET : Z := 16.
Definition SUPPORTS_SCALING : Z := 4.
Definition READ_ONLY : Z := 16.

(** src/ParameterObject.h:362-381. [pa_router]: whether _messageRouter points
    to a router. *)
Record param := mkParam {
  pa_id : Z; pa_full : bool; pa_scalable : bool; pa_readonly : bool; pa_parameter : Z;
  pa_value : bytes; pa_type : Z; pa_name : bytes; pa_units : bytes; pa_help : bytes;
  pa_min : bytes; pa_max : bytes; pa_default : bytes;
  pa_mult : Z; pa_div : Z; pa_base : Z; pa_offset : Z; pa_precision : Z; pa_router : bool }.

(** src/ParameterObject.cpp:43-60 *)
Definition param_new (id : Z) (full : bool) (size : nat) : param :=
  mkParam id full false false 0 (zeros size) 0 [] [] [] (zeros size) (zeros size) (zeros size) 1 1 1 0 0 false.

(** src/ParameterObject.cpp:108-145: the first part of the reply to
    Get_Attributes_All, before the scaling attributes are asked for; the values
    are read into vectors of [size] bytes. *)
Definition param_attributes (h : heap) (id : Z) (full : bool) (size : nat) (d : bytes) : outcome param :=
  '(value, b) <- get_bytes h size (buf_of d) ;;
  '(plen, b) <- get_u8 h b ;;
  '(_, b) <- get_bytes h (Z.to_nat plen) b ;;
  '(descr, b) <- get_u16 h b ;;
  '(ty, b) <- get_u8 h b ;;
  let scalable := negb (Z.land descr SUPPORTS_SCALING =? 0) in
  let readonly := negb (Z.land descr READ_ONLY =? 0) in
  if full then
    '(_, b) <- get_bytes h 1 b ;;
    '(name, b) <- get_short_string h b ;;
    '(units, b) <- get_short_string h b ;;
    '(help, b) <- get_short_string h b ;;
    '(mn, b) <- get_bytes h size b ;;
    '(mx, b) <- get_bytes h size b ;;
    '(df, b) <- get_bytes h size b ;;
    '(prec, b) <- (if scalable
                   then '(_, b) <- get_bytes h 16 b ;; get_u8 h b
                   else Ok (0, b)) ;;
    Ok (mkParam id full scalable readonly id value ty (str_std name) (str_std units) (str_std help)
          mn mx df 1 1 1 0 prec true)
  else
    Ok (mkParam id full scalable readonly id value ty [] [] []
          (zeros size) (zeros size) (zeros size) 1 1 1 0 0 true).

(** src/ParameterObject.cpp:162-164 *)
Definition param_scaling (h : heap) (p : param) (d : bytes) : outcome param :=
  '(m, b) <- get_u16 h (buf_of d) ;;
  '(dv, b) <- get_u16 h b ;;
  '(bs, b) <- get_u16 h b ;;
  '(off, b) <- get_s16 h b ;;
  Ok (mkParam (pa_id p) (pa_full p) (pa_scalable p) (pa_readonly p) (pa_parameter p) (pa_value p) (pa_type p)
        (pa_name p) (pa_units p) (pa_help p) (pa_min p) (pa_max p) (pa_default p)
        m dv bs off (pa_precision p) (pa_router p)).

Section Client.
Context {W : Type}.
Variables (h : heap) (use8 : bool) (si : session_if W).

(** A request whose reply must be a success; its data. *)
Definition ask (service : Z) (path : epath) : st W bytes :=
  fun w =>
    let '(o, w) := send_request h si use8 service path [] [] w in
    (r <- o ;; if r_status r =? GSC_SUCCESS then Ok (r_data r)
               else Throw (RuntimeError RtRequestFailed), w).

(** src/ParameterObject.cpp:147-160: attributes first, first+1, ... ([n] of
    them), concatenated. *)
Fixpoint ask_scaling (id : Z) (first : Z) (n : nat) : st W bytes :=
  match n with
  | O => st_ret []
  | S n' => (d <- ask GET_ATTRIBUTE_SINGLE (epath3 PARAMETER_CLASS_ID id first) ;;
             r <- ask_scaling id (first + 1) n' ;;
             st_ret (d ++ r))%st
  end.

(** src/ParameterObject.cpp:62-182. As in the identity object, the exception
    for an invalid buffer (line 170) is never thrown. *)
Definition param_read (id : Z) (full : bool) : st W param :=
  (d <- ask GET_ATTRIBUTE_SINGLE (epath3 PARAMETER_CLASS_ID id ATTR_DATA_SIZE) ;;
   size <- st_lift (omap fst (get_u8 h (buf_of d))) ;;
   d <- ask GET_ATTRIBUTE_ALL (epath2 PARAMETER_CLASS_ID id) ;;
   p <- st_lift (param_attributes h id full (Z.to_nat size) d) ;;
   if full && pa_scalable p then
     d <- ask_scaling id ATTR_SCALING_MULTIPLIER (Z.to_nat (ATTR_SCALING_OFFSET - ATTR_SCALING_MULTIPLIER + 1)) ;;
     st_lift (param_scaling h p d)
   else st_ret p)%st.

(** src/ParameterObject.cpp:184-198. The object changes only after a complete
    read (a read outside the reply is undefined). *)
Definition pa_set_value (p : param) (v : bytes) : param :=
  mkParam (pa_id p) (pa_full p) (pa_scalable p) (pa_readonly p) (pa_parameter p) v (pa_type p)
    (pa_name p) (pa_units p) (pa_help p) (pa_min p) (pa_max p) (pa_default p)
    (pa_mult p) (pa_div p) (pa_base p) (pa_offset p) (pa_precision p) (pa_router p).
Definition update_value : st (param * W) unit :=
  fun '(p, w) =>
    if pa_router p then
      let '(o, w) := ask GET_ATTRIBUTE_SINGLE (epath3 PARAMETER_CLASS_ID (pa_id p) ATTR_VALUE) w in
      match (d <- o ;; get_bytes h (List.length (pa_value p)) (buf_of d)) with
      | Ok (v, _) => (Ok tt, (pa_set_value p v, w))
      | Throw e => (Throw e, (p, w))
      | Undef u => (Undef u, (p, w))
      | Abort => (Abort, (p, w))
      end
    else (Undef UbNullDeref, (p, w)).
End Client.

(** ** Engineering units *)

(** Arithmetic of [double]: conversion from integers, the four operations,
    std::pow(10, n) and the integer part towards zero (none for infinities and
    NaN). *)
Record arith := mkArith {
  num : Type;
  of_int : Z -> num;
  nadd : num -> num -> num;
  nsub : num -> num -> num;
  nmul : num -> num -> num;
  ndiv : num -> num -> num;
  npow10 : Z -> num;
  ntrunc : num -> option Z }.

(** Exact arithmetic on rationals (an idealisation; division by zero is 0). *)
Definition exact : arith :=
  mkArith Q inject_Z Qplus Qminus Qmult Qdiv (fun n => inject_Z (10 ^ n))
    (fun q => Some (Z.quot (Qnum q) (Zpos (Qden q)))).
(** IEEE 754 binary64, round to nearest even, with std::pow(10, n) taken to be
    the correctly rounded power. *)
Definition double : arith :=
  mkArith spec_float (fun z => binary_normalize 53 1024 z 0 false)
    (SFadd 53 1024) (SFsub 53 1024) (SFmul 53 1024) (SFdiv 53 1024)
    (fun n => binary_normalize 53 1024 (10 ^ n) 0 false)
    (fun f => match f with
              | S754_zero _ => Some 0
              | S754_finite s m e =>
                let n := if 0 <=? e then Zpos m * 2 ^ e else Zpos m / 2 ^ (- e) in
                Some (if s then - n else n)
              | S754_infinity _ | S754_nan => None
              end).

(** src/ParameterObject.cpp:297-304: every operand is converted to double. *)
Definition actual_to_eng (A : arith) (p : param) (x : num A) : num A :=
  if pa_scalable p then
    ndiv A (nmul A (nmul A (nadd A x (of_int A (pa_offset p))) (of_int A (pa_mult p))) (of_int A (pa_base p)))
           (nmul A (of_int A (pa_div p)) (npow10 A (pa_precision p)))
  else x.

(** src/ParameterObject.cpp:306-313: the product of the two uint16_t is
    computed in int (32 bits). *)
Definition eng_to_actual (A : arith) (p : param) (x : num A) : outcome (num A) :=
  if pa_scalable p then
    let mb := pa_mult p * pa_base p in
    if (mb <? 2147483648) then
      Ok (nsub A (ndiv A (nmul A (nmul A x (of_int A (pa_div p))) (npow10 A (pa_precision p)))
                         (of_int A mb))
                 (of_int A (pa_offset p)))
    else Undef UbSignedOverflow
  else Ok x.

(** ** Typed access *)

(** The integer types the templates are used with (CipTypes.h); the instances
    with REAL and LREAL are in MReal.v. *)
Inductive itype := IU8 | IS8 | IU16 | IS16 | IU32 | IS32 | IU64 | IS64.
Definition get_int (h : heap) (t : itype) (b : buffer) : outcome (Z * buffer) :=
  match t with
  | IU8 => get_u8 h b | IS8 => get_s8 h b | IU16 => get_u16 h b | IS16 => get_s16 h b
  | IU32 => get_u32 h b | IS32 => get_s32 h b | IU64 => get_u64 h b | IS64 => get_s64 h b
  end.
Definition put_int (t : itype) (b : buffer) (v : Z) : buffer :=
  match t with
  | IU8 => put_u8 b v | IS8 => put_s8 b v | IU16 => put_u16 b v | IS16 => put_s16 b v
  | IU32 => put_u32 b v | IS32 => put_s32 b v | IU64 => put_u64 b v | IS64 => put_s64 b v
  end.
Definition int_min (t : itype) : Z :=
  match t with
  | IS8 => -128 | IS16 => -32768 | IS32 => -2147483648 | IS64 => -9223372036854775808
  | _ => 0
  end.
Definition int_max (t : itype) : Z :=
  match t with
  | IU8 => 255 | IS8 => 127 | IU16 => 65535 | IS16 => 32767 | IU32 => 4294967295 | IS32 => 2147483647
  | IU64 => 18446744073709551615 | IS64 => 9223372036854775807
  end.

(** src/ParameterObject.h:348-353 (encodeValue); getActualValue, getMinValue,
    getMaxValue and getDefaultValue (100-102, 128-130, 162-164, 196-198) apply
    it to the four byte vectors. *)
Definition encode_value (h : heap) (t : itype) (d : bytes) : outcome Z :=
  omap fst (get_int h t (buf_of d)).
(** src/ParameterObject.h:356-360 (decodeValue) *)
Definition decode_value (t : itype) (v : Z) : bytes := bdata (put_int t buf_new v).

(** src/ParameterObject.h:116-119, 139-142, 173-176, 207-210: getEngValue,
    getEngMinValue, getEngMaxValue, getEngDefaultValue of the vector [d]. *)
Definition get_eng (A : arith) (h : heap) (t : itype) (p : param) (d : bytes) : outcome (num A) :=
  v <- encode_value h t d ;; Ok (actual_to_eng A p (of_int A v)).
(** src/ParameterObject.h:150-153, 184-187, 218-221: the vector setEngMinValue,
    setEngMaxValue, setEngDefaultValue store. The conversion to T is undefined
    when the integer part does not fit. *)
Definition set_eng (A : arith) (t : itype) (p : param) (x : num A) : outcome bytes :=
  a <- eng_to_actual A p x ;;
  match ntrunc A a with
  | Some v => if (int_min t <=? v) && (v <=? int_max t) then Ok (decode_value t v) else Undef UbFloatToInt
  | None => Undef UbFloatToInt
  end.

(** src/ParameterObject.cpp:253-295: the other setters *)
Inductive pa_set :=
| SetScalable (v : bool) | SetReadOnly (v : bool) | SetDataType (v : Z) | SetPName (v : bytes) | SetUnits (v : bytes) | SetHelp (v : bytes)
| SetMult (v : Z) | SetDiv (v : Z) | SetBase (v : Z) | SetOffset (v : Z) | SetPrecision (v : Z).
Definition pa_apply (p : param) (c : pa_set) : param :=
  let '(mkParam id full sc ro pn va ty na un he mi ma de mu di ba of pr ro') := p in
  match c with
  | SetScalable v => mkParam id full v ro pn va ty na un he mi ma de mu di ba of pr ro'
  | SetReadOnly v => mkParam id full sc v pn va ty na un he mi ma de mu di ba of pr ro'
  | SetDataType v => mkParam id full sc ro pn va v na un he mi ma de mu di ba of pr ro'
  | SetPName v => mkParam id full sc ro pn va ty v un he mi ma de mu di ba of pr ro'
  | SetUnits v => mkParam id full sc ro pn va ty na v he mi ma de mu di ba of pr ro'
  | SetHelp v => mkParam id full sc ro pn va ty na un v mi ma de mu di ba of pr ro'
  | SetMult v => mkParam id full sc ro pn va ty na un he mi ma de v di ba of pr ro'
  | SetDiv v => mkParam id full sc ro pn va ty na un he mi ma de mu v ba of pr ro'
  | SetBase v => mkParam id full sc ro pn va ty na un he mi ma de mu di v of pr ro'
  | SetOffset v => mkParam id full sc ro pn va ty na un he mi ma de mu di ba v pr ro'
  | SetPrecision v => mkParam id full sc ro pn va ty na un he mi ma de mu di ba of v ro'
  end.

Definition pa_set_min (p : param) (v : bytes) : param :=
  mkParam (pa_id p) (pa_full p) (pa_scalable p) (pa_readonly p) (pa_parameter p) (pa_value p) (pa_type p)
    (pa_name p) (pa_units p) (pa_help p) v (pa_max p) (pa_default p)
    (pa_mult p) (pa_div p) (pa_base p) (pa_offset p) (pa_precision p) (pa_router p).
Definition pa_set_max (p : param) (v : bytes) : param :=
  mkParam (pa_id p) (pa_full p) (pa_scalable p) (pa_readonly p) (pa_parameter p) (pa_value p) (pa_type p)
    (pa_name p) (pa_units p) (pa_help p) (pa_min p) v (pa_default p)
    (pa_mult p) (pa_div p) (pa_base p) (pa_offset p) (pa_precision p) (pa_router p).
Definition pa_set_default (p : param) (v : bytes) : param :=
  mkParam (pa_id p) (pa_full p) (pa_scalable p) (pa_readonly p) (pa_parameter p) (pa_value p) (pa_type p)
    (pa_name p) (pa_units p) (pa_help p) (pa_min p) (pa_max p) v
    (pa_mult p) (pa_div p) (pa_base p) (pa_offset p) (pa_precision p) (pa_router p).
(** src/ParameterObject.h:150-153, 184-187, 218-221 *)
Definition set_eng_min (A : arith) (t : itype) (p : param) (x : num A) : outcome param := omap (pa_set_min p) (set_eng A t p x).
Definition set_eng_max (A : arith) (t : itype) (p : param) (x : num A) : outcome param := omap (pa_set_max p) (set_eng A t p x).
Definition set_eng_default (A : arith) (t : itype) (p : param) (x : num A) : outcome param := omap (pa_set_default p) (set_eng A t p x).
