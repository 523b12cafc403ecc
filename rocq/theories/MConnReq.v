(** Model of src/cip/connectionManager: connection parameters, Forward Open,
    Large Forward Open and Forward Close requests, Forward Open response. *)
From Verif Require Import Base MBuffer.
Local Open Scope outcome_scope.

(** ** NetworkConnectionParametersBuilder *)

(** src/cip/connectionManager/NetworkConnectionParametersBuilder.cpp:22-65: the
    new [_value]. Enumerators are their values (NetworkConnectionParametersBuilder.h:16-38). *)
Inductive ncp_op :=
| SetOwner (v : Z) | SetConnType (v : Z) | SetPriority (v : Z) | SetSizeType (v : Z) | SetSize (v : Z).

Definition ncp_mask (lfo : bool) : Z := if lfo then 65535 else 511.

Definition ncp_set (lfo : bool) (value : Z) (o : ncp_op) : Z :=
  match o with
  | SetOwner v => u32 (Z.lor value (Z.shiftl v (if lfo then 31 else 15)))
  | SetConnType v => u32 (Z.lor value (Z.shiftl v (if lfo then 29 else 13)))
  | SetPriority v => u32 (Z.lor value (Z.shiftl v (if lfo then 26 else 10)))
  | SetSizeType v => u32 (Z.lor value (Z.shiftl v (if lfo then 25 else 9)))
  | SetSize v => u32 (Z.lor value (Z.land v (ncp_mask lfo)))
  end.

(** lines 71-109 *)
Definition ncp_owner (lfo : bool) (value : Z) : Z :=
  let k := if lfo then 31 else 15 in Z.shiftr (Z.land value (u32 (Z.shiftl 1 k))) k.
Definition ncp_conn_type (lfo : bool) (value : Z) : Z :=
  let k := if lfo then 29 else 13 in Z.shiftr (Z.land value (u32 (Z.shiftl 3 k))) k.
Definition ncp_priority (lfo : bool) (value : Z) : Z :=
  let k := if lfo then 26 else 10 in Z.shiftr (Z.land value (u32 (Z.shiftl 3 k))) k.
Definition ncp_size_type (lfo : bool) (value : Z) : Z :=
  let k := if lfo then 25 else 9 in Z.shiftr (Z.land value (u32 (Z.shiftl 1 k))) k.
Definition ncp_size (lfo : bool) (value : Z) : Z := u16 (Z.land value (ncp_mask lfo)).

(** A chain of setters [b.set1(..).set2(..)...] on a builder variable: the
    value of the variable afterwards and the value of the expression.
    [setRedundantOwner] returns a copy (line 22), the others a reference. *)
Fixpoint ncp_chain (lfo : bool) (ops : list ncp_op) (value : Z) : Z * Z :=
  match ops with
  | [] => (value, value)
  | SetOwner v :: r =>
    let value' := ncp_set lfo value (SetOwner v) in
    (value', fold_left (ncp_set lfo) r value')
  | o :: r => ncp_chain lfo r (ncp_set lfo value o)
  end.

(** ** ConnectionParameters: src/cip/connectionManager/ConnectionParameters.h:14-32 *)
Record cparams := mkCParams {
  c_priorityTimeTick : Z; c_timeoutTicks : Z; c_o2tId : Z; c_t2oId : Z;
  c_serial : Z; c_vendor : Z; c_origSerial : Z; c_multiplier : Z;
  c_o2tRPI : Z; c_o2tParams : Z; c_t2oRPI : Z; c_t2oParams : Z;
  c_trigger : Z; c_pathSize : Z; c_o2tRTF : Z; c_t2oRTF : Z; c_path : bytes }.

(** src/cip/connectionManager/ForwardOpenRequest.cpp:23-51; a failing
    assertion aborts. *)
Definition fo_pack (c : cparams) : outcome bytes :=
  let b := buf_new in
  let b := put_u8 b (c_priorityTimeTick c) in
  let b := put_u8 b (c_timeoutTicks c) in
  let b := put_u32 b (c_o2tId c) in
  let b := put_u32 b (c_t2oId c) in
  let b := put_u16 b (c_serial c) in
  let b := put_u16 b (c_vendor c) in
  let b := put_u32 b (c_origSerial c) in
  let b := put_u8 b (c_multiplier c) in
  let b := put_u8 (put_u8 (put_u8 b 0) 0) 0 in
  let b := put_u32 b (c_o2tRPI c) in
  let b := put_u16 b (u16 (c_o2tParams c)) in
  let b := put_u32 b (c_t2oRPI c) in
  let b := put_u16 b (u16 (c_t2oParams c)) in
  let b := put_u8 b (c_trigger c) in
  let b := put_u8 b (c_pathSize c) in
  if Nat.eqb (buf_size b) 36 then Ok (bdata (put_bytes b (c_path c))) else Abort.

(** src/cip/connectionManager/LargeForwardOpenRequest.cpp:23-48 *)
Definition lfo_pack (c : cparams) : outcome bytes :=
  let b := buf_new in
  let b := put_u8 b (c_priorityTimeTick c) in
  let b := put_u8 b (c_timeoutTicks c) in
  let b := put_u32 b (c_o2tId c) in
  let b := put_u32 b (c_t2oId c) in
  let b := put_u16 b (c_serial c) in
  let b := put_u16 b (c_vendor c) in
  let b := put_u32 b (c_origSerial c) in
  let b := put_u8 b (c_multiplier c) in
  let b := put_u8 (put_u8 (put_u8 b 0) 0) 0 in
  let b := put_u32 b (c_o2tRPI c) in
  let b := put_u32 b (c_o2tParams c) in
  let b := put_u32 b (c_t2oRPI c) in
  let b := put_u32 b (c_t2oParams c) in
  let b := put_u8 b (c_trigger c) in
  let b := put_u8 b (c_pathSize c) in
  if Nat.eqb (buf_size b) 40 then Ok (bdata (put_bytes b (c_path c))) else Abort.

(** src/cip/connectionManager/ForwardCloseRequest.cpp:21-37 *)
Definition fc_pack (serial vendor origSerial : Z) (path : bytes) : bytes :=
  let b := put_u8 (put_u8 buf_new 0) 0 in
  let b := put_u16 b serial in
  let b := put_u16 b vendor in
  let b := put_u32 b origSerial in
  let b := put_u8 b (u8 (zlen path / 2)) in
  let b := put_u8 b 0 in
  bdata (put_bytes b path).

(** src/cip/connectionManager/ForwardOpenResponse.h:33-41 *)
Record fo_response := mkFoResp {
  f_o2tId : Z; f_t2oId : Z; f_serial : Z; f_vendor : Z; f_origSerial : Z;
  f_o2tApi : Z; f_t2oApi : Z; f_replySize : Z; f_reply : bytes }.

(** src/cip/connectionManager/ForwardOpenResponse.cpp:28-44 (the object is
    only read after a successful return, so no partial state is kept). *)
Definition fo_expand (h : heap) (data : bytes) : outcome fo_response :=
  '(o2t, b) <- get_u32 h (buf_of data) ;;
  '(t2o, b) <- get_u32 h b ;;
  '(serial, b) <- get_u16 h b ;;
  '(vendor, b) <- get_u16 h b ;;
  '(orig, b) <- get_u32 h b ;;
  '(o2tApi, b) <- get_u32 h b ;;
  '(t2oApi, b) <- get_u32 h b ;;
  '(n, b) <- get_u8 h b ;;
  '(_, b) <- get_u8 h b ;;
  '(reply, b) <- get_bytes h (Z.to_nat (n * 2)) b ;;
  Ok (mkFoResp o2t t2o serial vendor orig o2tApi t2oApi n reply).
