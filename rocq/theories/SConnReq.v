(** Specification of the Connection Manager messages (CIP volume 1, chapter 3). *)
From Coq Require Import Permutation.
From Verif Require Import Base MBuffer SBuffer MConnReq SEip.

(** ** Connection parameter word: fields as bit ranges *)
Inductive field := FOwner | FType | FPriority | FVar | FSize.
Definition low (lfo : bool) (f : field) : Z :=
  match f with
  | FOwner => if lfo then 31 else 15
  | FType => if lfo then 29 else 13
  | FPriority => if lfo then 26 else 10
  | FVar => if lfo then 25 else 9
  | FSize => 0
  end.
Definition width (lfo : bool) (f : field) : Z :=
  match f with
  | FOwner => 1 | FType => 2 | FPriority => 2 | FVar => 1
  | FSize => if lfo then 16 else 9
  end.
(** the value of a field in a word *)
Definition part (lfo : bool) (f : field) (v : Z) : Z := (v / 2 ^ low lfo f) mod 2 ^ width lfo f.

Definition getter (lfo : bool) (f : field) (v : Z) : Z :=
  match f with
  | FOwner => ncp_owner lfo v
  | FType => ncp_conn_type lfo v
  | FPriority => ncp_priority lfo v
  | FVar => ncp_size_type lfo v
  | FSize => ncp_size lfo v
  end.

Definition op_field (o : ncp_op) : field :=
  match o with
  | SetOwner _ => FOwner | SetConnType _ => FType | SetPriority _ => FPriority
  | SetSizeType _ => FVar | SetSize _ => FSize
  end.
Definition op_value (o : ncp_op) : Z :=
  match o with SetOwner v | SetConnType v | SetPriority v | SetSizeType v | SetSize v => v end.
(** arguments the C++ types allow *)
Definition op_ok (o : ncp_op) : Prop :=
  match o with
  | SetOwner v | SetSizeType v => 0 <= v < 2
  | SetConnType v | SetPriority v => 0 <= v < 4
  | SetSize v => is_u16 v
  end.
Definition field_eqb (a b : field) : bool :=
  match a, b with
  | FOwner, FOwner | FType, FType | FPriority, FPriority | FVar, FVar | FSize, FSize => true
  | _, _ => false
  end.
(** everything written to field [f], clipped to its width *)
Definition written (lfo : bool) (f : field) (ops : list ncp_op) : Z :=
  fold_right (fun o acc => if field_eqb (op_field o) f
                           then Z.lor (op_value o mod 2 ^ width lfo f) acc else acc) 0 ops.

(** ** Requests *)
Definition cparams_wf (c : cparams) : Prop :=
  is_u8 (c_priorityTimeTick c) /\ is_u8 (c_timeoutTicks c) /\ is_u32 (c_o2tId c) /\ is_u32 (c_t2oId c)
  /\ is_u16 (c_serial c) /\ is_u16 (c_vendor c) /\ is_u32 (c_origSerial c) /\ is_u8 (c_multiplier c)
  /\ is_u32 (c_o2tRPI c) /\ is_u32 (c_o2tParams c) /\ is_u32 (c_t2oRPI c) /\ is_u32 (c_t2oParams c)
  /\ is_u8 (c_trigger c) /\ is_u8 (c_pathSize c) /\ is_bytes (c_path c).

(** [n]: bytes of a parameter word, 2 or 4 *)
Definition fo_bytes (n : nat) (c : cparams) : bytes :=
  [c_priorityTimeTick c; c_timeoutTicks c] ++ le 4 (c_o2tId c) ++ le 4 (c_t2oId c)
  ++ le 2 (c_serial c) ++ le 2 (c_vendor c) ++ le 4 (c_origSerial c)
  ++ [c_multiplier c; 0; 0; 0] ++ le 4 (c_o2tRPI c) ++ le n (c_o2tParams c)
  ++ le 4 (c_t2oRPI c) ++ le n (c_t2oParams c) ++ [c_trigger c; c_pathSize c] ++ c_path c.

(** A target reading the request (real-time formats are not on the wire). *)
Definition parse_fo (n : nat) (l : bytes) : option cparams :=
  match take_int 1 l with None => None | Some (tick, l) =>
  match take_int 1 l with None => None | Some (ticks, l) =>
  match take_int 4 l with None => None | Some (o2t, l) =>
  match take_int 4 l with None => None | Some (t2o, l) =>
  match take_int 2 l with None => None | Some (serial, l) =>
  match take_int 2 l with None => None | Some (vendor, l) =>
  match take_int 4 l with None => None | Some (orig, l) =>
  match take_int 1 l with None => None | Some (mult, l) =>
  match take_int 3 l with None => None | Some (_, l) =>
  match take_int 4 l with None => None | Some (o2tRPI, l) =>
  match take_int n l with None => None | Some (o2tP, l) =>
  match take_int 4 l with None => None | Some (t2oRPI, l) =>
  match take_int n l with None => None | Some (t2oP, l) =>
  match take_int 1 l with None => None | Some (trig, l) =>
  match take_int 1 l with None => None | Some (psize, path) =>
    Some (mkCParams tick ticks o2t t2o serial vendor orig mult o2tRPI o2tP t2oRPI t2oP trig psize 0 0 path)
  end end end end end end end end end end end end end end end.

Definition fc_bytes (serial vendor origSerial words : Z) (path : bytes) : bytes :=
  [0; 0] ++ le 2 serial ++ le 2 vendor ++ le 4 origSerial ++ [words; 0] ++ path.

(** Forward Open success reply *)
Definition fo_reply_bytes (r : fo_response) (rsv : Z) (rest : bytes) : bytes :=
  le 4 (f_o2tId r) ++ le 4 (f_t2oId r) ++ le 2 (f_serial r) ++ le 2 (f_vendor r)
  ++ le 4 (f_origSerial r) ++ le 4 (f_o2tApi r) ++ le 4 (f_t2oApi r)
  ++ [f_replySize r; rsv] ++ f_reply r ++ rest.
Definition fo_response_wf (r : fo_response) : Prop :=
  is_u32 (f_o2tId r) /\ is_u32 (f_t2oId r) /\ is_u16 (f_serial r) /\ is_u16 (f_vendor r)
  /\ is_u32 (f_origSerial r) /\ is_u32 (f_o2tApi r) /\ is_u32 (f_t2oApi r) /\ is_u8 (f_replySize r)
  /\ is_bytes (f_reply r) /\ zlen (f_reply r) = 2 * f_replySize r.
