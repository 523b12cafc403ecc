(** Specification of the identity and parameter objects. *)
From Verif Require Import Base MBuffer SBuffer MEip SEip SObj MIdent MParam.
From Coq Require Import QArith SpecFloat.
Local Open Scope Z_scope.

(** ** Identity *)

(** An identity as the device holds it. *)
Record ident := mkIdent {
  i_vendor : Z; i_type : Z; i_code : Z; i_major : Z; i_minor : Z; i_status : Z; i_serial : Z; i_name : bytes }.
Definition ident_wf (i : ident) : Prop :=
  is_u16 (i_vendor i) /\ is_u16 (i_type i) /\ is_u16 (i_code i) /\ is_u8 (i_major i) /\ is_u8 (i_minor i)
  /\ is_u16 (i_status i) /\ is_u32 (i_serial i) /\ is_bytes (i_name i) /\ zlen (i_name i) <= 255.
(** its attributes, as sent by Get_Attributes_All *)
Definition ident_bytes (i : ident) : bytes :=
  le 2 (i_vendor i) ++ le 2 (i_type i) ++ le 2 (i_code i) ++ [i_major i; i_minor i] ++ le 2 (i_status i)
  ++ le 4 (i_serial i) ++ [zlen (i_name i)] ++ i_name i.
(** what the getters of an IdentityObject return *)
Definition shows_identity (o : identity) (i : ident) : Prop :=
  id_vendor o = i_vendor i /\ id_type o = i_type i /\ id_code o = i_code i
  /\ id_revision o = mkRev (i_major i) (i_minor i) /\ id_status o = i_status i /\ id_serial o = i_serial i
  /\ str_std (id_name o) = i_name i.
(** The value the last of the calls [l] that [sel] accepts gave, or [d]. *)
Fixpoint last_given {A B} (sel : A -> option B) (l : list A) (d : B) : B :=
  match l with
  | [] => d
  | c :: l => last_given sel l (match sel c with Some x => x | None => d end)
  end.
(** What an identity holds after the setters [l]. *)
Definition ident_of (l : list id_set) : ident :=
  mkIdent (last_given (fun c => match c with SetVendor x => Some x | _ => None end) l 0)
    (last_given (fun c => match c with SetType x => Some x | _ => None end) l 0)
    (last_given (fun c => match c with SetCode x => Some x | _ => None end) l 0)
    (last_given (fun c => match c with SetRevision r => Some (rev_major r) | _ => None end) l 0)
    (last_given (fun c => match c with SetRevision r => Some (rev_minor r) | _ => None end) l 0)
    (last_given (fun c => match c with SetStatus x => Some x | _ => None end) l 0)
    (last_given (fun c => match c with SetSerial x => Some x | _ => None end) l 0)
    (last_given (fun c => match c with SetName x => Some x | _ => None end) l []).
Definition identity_request (n : Z) : request := mkReq 1 [(KClass, 1); (KInst, n)] [].

(** ** Parameters *)

(** A parameter as the device holds it. [d_skipped]: the 16 bytes with the
    scaling attributes and links; [d_size_again]: the data size, which is sent
    again before the texts. *)
Record pdev := mkPdev {
  d_value : bytes; d_link : bytes; d_descriptor : Z; d_type : Z; d_size_again : Z;
  d_name : bytes; d_units : bytes; d_help : bytes;
  d_min : bytes; d_max : bytes; d_default : bytes; d_skipped : bytes;
  d_mult : Z; d_div : Z; d_base : Z; d_offset : Z; d_precision : Z }.
Definition d_scalable (p : pdev) : bool := Z.testbit (d_descriptor p) 2.
Definition d_readonly (p : pdev) : bool := Z.testbit (d_descriptor p) 4.
Definition text_wf (t : bytes) : Prop := is_bytes t /\ zlen t <= 255.
Definition pdev_wf (p : pdev) : Prop :=
  text_wf (d_value p) /\ text_wf (d_link p) /\ is_u16 (d_descriptor p) /\ is_u8 (d_type p) /\ is_u8 (d_size_again p)
  /\ text_wf (d_name p) /\ text_wf (d_units p) /\ text_wf (d_help p)
  /\ (is_bytes (d_min p) /\ zlen (d_min p) = zlen (d_value p))
  /\ (is_bytes (d_max p) /\ zlen (d_max p) = zlen (d_value p))
  /\ (is_bytes (d_default p) /\ zlen (d_default p) = zlen (d_value p))
  /\ (is_bytes (d_skipped p) /\ zlen (d_skipped p) = 16)
  /\ is_u16 (d_mult p) /\ is_u16 (d_div p) /\ is_u16 (d_base p) /\ is_s16 (d_offset p) /\ is_u8 (d_precision p).

Definition text_bytes (t : bytes) : bytes := zlen t :: t.
(** the attributes every parameter has, the texts and limits, the precision *)
Definition stub_bytes (p : pdev) : bytes :=
  d_value p ++ text_bytes (d_link p) ++ le 2 (d_descriptor p) ++ [d_type p].
Definition full_bytes (p : pdev) : bytes :=
  [d_size_again p] ++ text_bytes (d_name p) ++ text_bytes (d_units p) ++ text_bytes (d_help p)
  ++ d_min p ++ d_max p ++ d_default p.
Definition scaling_bytes (p : pdev) : bytes := d_skipped p ++ [d_precision p].

(** What is sent for Get_Attributes_All: at least what the client asks for
    ([full]) and what the parameter has, and perhaps more. *)
Definition all_bytes (full : bool) (p : pdev) (more : bytes) : bytes :=
  stub_bytes p ++ (if full then full_bytes p ++ (if d_scalable p then scaling_bytes p else []) else []) ++ more.

Definition attribute_request (id a : Z) : request := mkReq 14 [(KClass, 15); (KInst, id); (KAttr, a)] [].
Definition all_request (id : Z) : request := mkReq 1 [(KClass, 15); (KInst, id)] [].

(** The requests of the constructor with their answers. *)
Definition parameter_trace (id : Z) (full : bool) (p : pdev) (more : bytes) : trace :=
  [(attribute_request id 6, done [zlen (d_value p)]); (all_request id, done (all_bytes full p more))]
  ++ if full && d_scalable p
     then [(attribute_request id 13, done (le 2 (d_mult p))); (attribute_request id 14, done (le 2 (d_div p)));
           (attribute_request id 15, done (le 2 (d_base p))); (attribute_request id 16, done (le 2 (d_offset p)))]
     else [].

(** A device with this parameter as instance [id]. *)
Definition parameter_device (id : Z) (full : bool) (p : pdev) (more : bytes) : device unit :=
  fun _ q =>
    (match q with
     | mkReq 14 [(KClass, 15); (KInst, i); (KAttr, a)] [] =>
       if i =? id then
         match a with
         | 1 => done (d_value p)
         | 6 => done [zlen (d_value p)]
         | 13 => done (le 2 (d_mult p))
         | 14 => done (le 2 (d_div p))
         | 15 => done (le 2 (d_base p))
         | 16 => done (le 2 (d_offset p))
         | _ => failed 20
         end
       else failed 5
     | mkReq 1 [(KClass, 15); (KInst, i)] [] => if i =? id then done (all_bytes full p more) else failed 5
     | _ => failed 8
     end, tt).

(** What the getters of the ParameterObject return. *)
Definition shows_parameter (q : param) (id : Z) (full : bool) (p : pdev) : Prop :=
  pa_id q = id /\ pa_parameter q = id /\ pa_full q = full
  /\ pa_value q = d_value p /\ pa_type q = d_type p
  /\ pa_scalable q = d_scalable p /\ pa_readonly q = d_readonly p
  /\ (full = true ->
      pa_name q = d_name p /\ pa_units q = d_units p /\ pa_help q = d_help p
      /\ pa_min q = d_min p /\ pa_max q = d_max p /\ pa_default q = d_default p
      /\ (d_scalable p = true ->
          pa_mult q = d_mult p /\ pa_div q = d_div p /\ pa_base q = d_base p /\ pa_offset q = d_offset p
          /\ pa_precision q = d_precision p)).

(** Everything but the value is the same. *)
Definition same_but_value (p q : param) : Prop :=
  pa_id q = pa_id p /\ pa_full q = pa_full p /\ pa_scalable q = pa_scalable p /\ pa_readonly q = pa_readonly p
  /\ pa_parameter q = pa_parameter p /\ pa_type q = pa_type p /\ pa_name q = pa_name p /\ pa_units q = pa_units p
  /\ pa_help q = pa_help p /\ pa_min q = pa_min p /\ pa_max q = pa_max p /\ pa_default q = pa_default p
  /\ pa_mult q = pa_mult p /\ pa_div q = pa_div p /\ pa_base q = pa_base p /\ pa_offset q = pa_offset p
  /\ pa_precision q = pa_precision p /\ pa_router q = pa_router p.

(** ** Engineering units *)

(** the documented formula (ParameterObject.h:109), over the rationals *)
Definition eng_formula (mult dv bs off prec : Z) (x : Q) : Q :=
  (((x + inject_Z off) * inject_Z mult * inject_Z bs) / (inject_Z dv * inject_Z (10 ^ prec)))%Q.

(** Widths and ranges of the integer types. *)
Definition width (t : itype) : nat :=
  match t with IU8 | IS8 => 1 | IU16 | IS16 => 2 | IU32 | IS32 => 4 | IU64 | IS64 => 8 end.
Definition signed (t : itype) : bool :=
  match t with IS8 | IS16 | IS32 | IS64 => true | _ => false end.
Definition in_type (t : itype) (v : Z) : Prop :=
  if signed t then - 2 ^ (8 * Z.of_nat (width t) - 1) <= v < 2 ^ (8 * Z.of_nat (width t) - 1)
  else 0 <= v < 2 ^ (8 * Z.of_nat (width t)).

(** Everything but the three limits is the same. *)
Definition same_but_limits (p q : param) : Prop :=
  pa_id q = pa_id p /\ pa_full q = pa_full p /\ pa_scalable q = pa_scalable p /\ pa_readonly q = pa_readonly p
  /\ pa_parameter q = pa_parameter p /\ pa_type q = pa_type p /\ pa_name q = pa_name p /\ pa_units q = pa_units p
  /\ pa_help q = pa_help p /\ pa_value q = pa_value p /\ pa_mult q = pa_mult p /\ pa_div q = pa_div p /\ pa_base q = pa_base p
  /\ pa_offset q = pa_offset p /\ pa_precision q = pa_precision p /\ pa_router q = pa_router p.
(** What a parameter made without a session holds after the setters [l]: the
    values given last; before that nothing, with a scaling that changes nothing. *)
Definition made_by_hand (q : param) (id : Z) (full : bool) (size : nat) (l : list pa_set) : Prop :=
  pa_id q = id /\ pa_full q = full /\ pa_parameter q = 0 /\ pa_router q = false
  /\ pa_value q = repeat 0 size /\ pa_min q = repeat 0 size /\ pa_max q = repeat 0 size /\ pa_default q = repeat 0 size
  /\ pa_scalable q = last_given (fun c => match c with SetScalable x => Some x | _ => None end) l false
  /\ pa_readonly q = last_given (fun c => match c with SetReadOnly x => Some x | _ => None end) l false
  /\ pa_type q = last_given (fun c => match c with SetDataType x => Some x | _ => None end) l 0
  /\ pa_name q = last_given (fun c => match c with SetPName x => Some x | _ => None end) l []
  /\ pa_units q = last_given (fun c => match c with SetUnits x => Some x | _ => None end) l []
  /\ pa_help q = last_given (fun c => match c with SetHelp x => Some x | _ => None end) l []
  /\ pa_mult q = last_given (fun c => match c with SetMult x => Some x | _ => None end) l 1
  /\ pa_div q = last_given (fun c => match c with SetDiv x => Some x | _ => None end) l 1
  /\ pa_base q = last_given (fun c => match c with SetBase x => Some x | _ => None end) l 1
  /\ pa_offset q = last_given (fun c => match c with SetOffset x => Some x | _ => None end) l 0
  /\ pa_precision q = last_given (fun c => match c with SetPrecision x => Some x | _ => None end) l 0.

(** [v] is [a] without its fraction. *)
Definition integer_part (a : Q) (v : Z) : Prop :=
  (0 <= a -> inject_Z v <= a /\ a < inject_Z (v + 1))%Q
  /\ (a < 0 -> a <= inject_Z v /\ inject_Z (v - 1) < a /\ inject_Z v <= 0)%Q.
