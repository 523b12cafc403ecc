(** Model of the message formats: src/cip/EPath.cpp,
    src/cip/MessageRouterRequest.cpp, src/cip/MessageRouterResponse.cpp,
    src/eip/CommonPacket*.cpp and src/eip/EncapsPacket*.cpp.

    Member functions that parse into an existing object return the new value
    of the object together with the outcome, because fields assigned before an
    exception stay assigned. *)
From Verif Require Import Base MBuffer.
Local Open Scope outcome_scope.

(** ** EPath *)

(** src/cip/EPath.h:34-37 *)
Record epath := mkPath { p_class : Z; p_object : Z; p_attr : Z; p_size : Z }.

(** src/cip/EPath.cpp:21-50 *)
Definition epath0 : epath := mkPath 0 0 0 0.
Definition epath1 (c : Z) : epath := mkPath c 0 0 1.
Definition epath2 (c o : Z) : epath := mkPath c o 0 2.
Definition epath3 (c o a : Z) : epath := mkPath c o a 3.

(** src/cip/EPath.cpp:12-19 *)
Definition SEG_CLASS8 : Z := 32.      (* 0x20 *)
Definition SEG_CLASS16 : Z := 33.     (* 0x21 *)
Definition SEG_INST8 : Z := 36.       (* 0x24 *)
Definition SEG_INST16 : Z := 37.      (* 0x25 *)
Definition SEG_ATTR8 : Z := 48.       (* 0x30 *)
Definition SEG_ATTR16 : Z := 49.      (* 0x31 *)

(** src/cip/EPath.cpp:52-91; in 16-bit mode the segment type is written as a
    16-bit integer, which supplies the pad byte. *)
Definition epath_pack (use8 : bool) (p : epath) : bytes :=
  if use8 then
    let b := put_u8 (put_u8 buf_new SEG_CLASS8) (u8 (p_class p)) in
    let b := if p_size p >? 1 then
               let b := put_u8 (put_u8 b SEG_INST8) (u8 (p_object p)) in
               if p_size p >? 2 then put_u8 (put_u8 b SEG_ATTR8) (u8 (p_attr p)) else b
             else b in
    bdata b
  else
    let b := put_u16 (put_u16 buf_new SEG_CLASS16) (p_class p) in
    let b := if p_size p >? 1 then
               let b := put_u16 (put_u16 b SEG_INST16) (p_object p) in
               if p_size p >? 2 then put_u16 (put_u16 b SEG_ATTR16) (p_attr p) else b
             else b in
    bdata b.

(** src/cip/EPath.cpp:105-112 *)
Definition epath_words (use8 : bool) (p : epath) : Z :=
  if use8 then p_size p else u8 (p_size p * 2).

(** src/cip/EPath.cpp:114-125 *)
Definition epath_to_string (p : epath) : string :=
  ("[classId=" ++ to_string (p_class p) ++
   (if p_size p >? 1 then
      " objectId=" ++ to_string (p_object p) ++
      (if p_size p >? 2 then " attributeId=" ++ to_string (p_attr p) else "")
    else "") ++ "]")%string.

Definition set_class (p : epath) (v : Z) := mkPath v (p_object p) (p_attr p) (p_size p).
Definition set_object (p : epath) (v : Z) := mkPath (p_class p) v (p_attr p) (p_size p).
Definition set_attr (p : epath) (v : Z) := mkPath (p_class p) (p_object p) v (p_size p).
Definition set_psize (p : epath) (v : Z) := mkPath (p_class p) (p_object p) (p_attr p) v.

(** One iteration of the loop body, src/cip/EPath.cpp:136-168. *)
Definition epath_segment (h : heap) (b : buffer) (p : epath) : outcome (buffer * epath) :=
  '(seg, b) <- get_u8 h b ;;
  if seg =? SEG_CLASS8 then '(v, b) <- get_u8 h b ;; Ok (b, set_class p v)
  else if seg =? SEG_CLASS16 then
    '(_, b) <- get_u8 h b ;; '(v, b) <- get_u16 h b ;; Ok (b, set_class p v)
  else if seg =? SEG_INST8 then '(v, b) <- get_u8 h b ;; Ok (b, set_object p v)
  else if seg =? SEG_INST16 then
    '(_, b) <- get_u8 h b ;; '(v, b) <- get_u16 h b ;; Ok (b, set_object p v)
  else if seg =? SEG_ATTR8 then '(v, b) <- get_u8 h b ;; Ok (b, set_attr p v)
  else if seg =? SEG_ATTR16 then
    '(_, b) <- get_u8 h b ;; '(v, b) <- get_u16 h b ;; Ok (b, set_attr p v)
  else Throw (RuntimeError RtEPathUnknownSegment).

(** The loop, src/cip/EPath.cpp:135-169; [n] is [data.size() - i] (the [int]
    loop counter is taken not to overflow, i.e. fewer than 2^31 bytes). *)
Fixpoint epath_loop (h : heap) (n : nat) (b : buffer) (p : epath) : epath * outcome buffer :=
  match n with
  | O => (p, Ok b)
  | S n' =>
    if buf_empty b then (p, Ok b)
    else match epath_segment h b p with
         | Ok (b', p') => epath_loop h n' b' p'
         | Throw e => (p, Throw e)
         | Undef u => (p, Undef u)
         | Abort => (p, Abort)
         end
  end.

(** src/cip/EPath.cpp:175-185 *)
Definition epath_derive_size (p : epath) : epath :=
  if p_class p >? 0 then
    if p_object p >? 0 then
      if p_attr p >? 0 then set_psize p 3 else set_psize p 2
    else set_psize p 1
  else p.

(** src/cip/EPath.cpp:127-186. All four fields are reset first, so the result
    does not depend on the previous value of the object. *)
Definition epath_expand (h : heap) (data : bytes) : epath * outcome unit :=
  match epath_loop h (List.length data) (buf_of data) epath0 with
  | (p, Ok b) =>
    if negb (buf_valid b) then (p, Throw (RuntimeError RtEPathFormat))
    else (epath_derive_size p, Ok tt)
  | (p, Throw e) => (p, Throw e)
  | (p, Undef u) => (p, Undef u)
  | (p, Abort) => (p, Abort)
  end.

(** src/cip/EPath.cpp:188-193 *)
Definition epath_eqb (a b : epath) : bool :=
  (p_size a =? p_size b) && (p_class a =? p_class b)
  && (p_object a =? p_object b) && (p_attr a =? p_attr b).

(** ** Message router request *)

(** src/cip/MessageRouterRequest.cpp:23-31 *)
Definition request_pack (use8 : bool) (service : Z) (path : epath) (data : bytes) : bytes :=
  bdata (put_bytes (put_bytes (put_u8 (put_u8 buf_new service) (epath_words use8 path))
                              (epath_pack use8 path)) data).

(** ** Common packet *)

(** src/eip/CommonPacketItem.h:45-47 *)
Record cpitem := mkItem { it_type : Z; it_length : Z; it_data : bytes }.

(** src/eip/CommonPacketItem.h:15-24 (those the code uses) *)
Definition NULL_ADDR : Z := 0.
Definition CONNECTED_TRANSPORT_PACKET : Z := 177.   (* 0x00B1 *)
Definition UNCONNECTED_MESSAGE : Z := 178.          (* 0x00B2 *)
Definition O2T_SOCKADDR_INFO : Z := 32768.          (* 0x8000 *)
Definition SEQUENCED_ADDRESS_ITEM : Z := 32770.     (* 0x8002 *)

(** src/eip/CommonPacketItem.cpp:12-17 *)
Definition item_null : cpitem := mkItem NULL_ADDR 0 [].
(** src/eip/CommonPacketItem.cpp:19-24: the length is truncated to 16 bits. *)
Definition item_of (ty : Z) (d : bytes) : cpitem := mkItem ty (u16 (zlen d)) d.

(** src/eip/CommonPacketItem.cpp:28-36 *)
Definition item_pack (i : cpitem) : bytes :=
  let b := put_u16 (put_u16 buf_new (u16 (it_type i))) (it_length i) in
  let b := if it_length i >? 0 then put_bytes b (it_data i) else b in
  bdata b.

(** std::vector<uint8_t> equality *)
Fixpoint bytes_eqb (a b : bytes) : bool :=
  match a, b with
  | [], [] => true
  | x :: a', y :: b' => (x =? y) && bytes_eqb a' b'
  | _, _ => false
  end.

(** src/eip/CommonPacketItem.cpp:50-54 *)
Definition item_eqb (a b : cpitem) : bool :=
  (it_type a =? it_type b) && (it_length a =? it_length b) && bytes_eqb (it_data a) (it_data b).

(** src/eip/CommonPacket.cpp:24-33 *)
Definition cp_pack (items : list cpitem) : bytes :=
  bdata (fold_left (fun b i => put_bytes b (item_pack i)) items
                   (put_u16 buf_new (u16 (zlen items)))).

(** The loop, src/eip/CommonPacket.cpp:41-54; [n] is [count - i], [acc] the
    items found so far. *)
Fixpoint cp_loop (h : heap) (n : nat) (b : buffer) (acc : list cpitem)
  : list cpitem * outcome unit :=
  match n with
  | O => (acc, Ok tt)
  | S n' =>
    if buf_empty b then (acc, Ok tt)
    else match ('(ty, b) <- get_u16 h b ;;
                '(len, b) <- get_u16 h b ;;
                '(d, b) <- get_bytes h (Z.to_nat len) b ;;
                if negb (buf_valid b) then Throw (RuntimeError RtCommonPacketFormat)
                else Ok (item_of ty d, b)) with
         | Ok (i, b') => cp_loop h n' b' (acc ++ [i])
         | Throw e => (acc, Throw e)
         | Undef u => (acc, Undef u)
         | Abort => (acc, Abort)
         end
  end.

(** src/eip/CommonPacket.cpp:35-55 ([_items] is cleared first). *)
Definition cp_expand (h : heap) (data : bytes) : list cpitem * outcome unit :=
  match get_u16 h (buf_of data) with
  | Ok (count, b) => cp_loop h (Z.to_nat count) b []
  | Throw e => ([], Throw e)
  | Undef u => ([], Undef u)
  | Abort => ([], Abort)
  end.

(** The value of a fresh object after [expand], or its failure. *)
Definition finished {A} (r : A * outcome unit) : outcome A :=
  match r with
  | (a, Ok _) => Ok a
  | (_, Throw e) => Throw e
  | (_, Undef u) => Undef u
  | (_, Abort) => Abort
  end.

(** src/eip/CommonPacketItemFactory.cpp:12-29 *)
Definition item_unconnected (d : bytes) : cpitem := item_of UNCONNECTED_MESSAGE d.
Definition item_connected (d : bytes) : cpitem := item_of CONNECTED_TRANSPORT_PACKET d.
Definition item_sequenced (conn_id seq : Z) : cpitem :=
  item_of SEQUENCED_ADDRESS_ITEM (bdata (put_u32 (put_u32 buf_new conn_id) seq)).

(** ** Message router response *)

(** src/cip/MessageRouterResponse.h:36-40 *)
Record response := mkResp {
  r_service : Z; r_status : Z; r_addl : list Z; r_data : bytes; r_items : list cpitem }.

(** src/cip/MessageRouterResponse.cpp:15-21 *)
Definition response0 : response := mkResp 1 0 [] [] [].

(** src/cip/MessageRouterResponse.cpp:25-46. The first comparison is made in
    size_t; after the first check [data.size() - 4] does not wrap, and
    [additionalStatusSize*2] is a non-negative int. *)
Definition response_expand (h : heap) (r : response) (data : bytes) : response * outcome unit :=
  if Nat.ltb (List.length data) 4 then (r, Throw (RuntimeError RtMrrShort))
  else
    match ('(svc, b) <- get_u8 h (buf_of data) ;;
           '(_, b) <- get_u8 h b ;;
           '(st, b) <- get_u8 h b ;;
           '(n, b) <- get_u8 h b ;;
           Ok (svc, st, n, b)) with
    | Ok (svc, st, n, b) =>
      let r1 := mkResp svc st (r_addl r) (r_data r) (r_items r) in
      if n * 2 >? zlen data - 4 then (r1, Throw (RuntimeError RtMrrStatusSize))
      else match ('(ws, b) <- get_words h (Z.to_nat n) b ;;
                  '(d, b) <- get_bytes h (buf_size b - bpos b) b ;;
                  Ok (ws, d)) with
           | Ok (ws, d) => (mkResp svc st ws d (r_items r), Ok tt)
           | Throw e => (r1, Throw e)
           | Undef u => (r1, Undef u)
           | Abort => (r1, Abort)
           end
    | Throw e => (r, Throw e)
    | Undef u => (r, Undef u)
    | Abort => (r, Abort)
    end.

(** ** Encapsulation packet *)

(** src/eip/EncapsPacket.h:72-78 *)
Record encaps := mkEncaps {
  e_command : Z; e_length : Z; e_handle : Z; e_status : Z;
  e_context : bytes; e_options : Z; e_data : bytes }.

(** src/eip/EncapsPacket.h:17-28 *)
Definition CMD_NOP : Z := 0.
Definition CMD_LIST_IDENTITY : Z := 99.          (* 0x63 *)
Definition CMD_REGISTER_SESSION : Z := 101.      (* 0x65 *)
Definition CMD_UN_REGISTER_SESSION : Z := 102.   (* 0x66 *)
Definition CMD_SEND_RR_DATA : Z := 111.          (* 0x6F *)
(** src/eip/EncapsPacket.h:31 *)
Definition ENCAPS_SUCCESS : Z := 0.
(** src/eip/EncapsPacket.h:41 *)
Definition HEADER_SIZE : nat := 24.

(** src/eip/EncapsPacket.cpp:15-22 *)
Definition encaps0 : encaps := mkEncaps CMD_NOP 0 0 ENCAPS_SUCCESS (zeros 8) 0 [].

(** src/eip/EncapsPacket.cpp:67-69, 79-81, 88-90, 96-99 *)
Definition e_set_command (p : encaps) (c : Z) : encaps :=
  mkEncaps c (e_length p) (e_handle p) (e_status p) (e_context p) (e_options p) (e_data p).
Definition e_set_handle (p : encaps) (s : Z) : encaps :=
  mkEncaps (e_command p) (e_length p) s (e_status p) (e_context p) (e_options p) (e_data p).
Definition e_set_status (p : encaps) (s : Z) : encaps :=
  mkEncaps (e_command p) (e_length p) (e_handle p) s (e_context p) (e_options p) (e_data p).
Definition e_set_data (p : encaps) (d : bytes) : encaps :=
  mkEncaps (e_command p) (u16 (zlen d)) (e_handle p) (e_status p) (e_context p) (e_options p) d.

(** src/eip/EncapsPacket.cpp:49-61 *)
Definition encaps_pack (p : encaps) : bytes :=
  let b := put_u16 buf_new (u16 (e_command p)) in
  let b := put_u16 b (e_length p) in
  let b := put_u32 b (e_handle p) in
  let b := put_u32 b (u32 (e_status p)) in
  let b := put_bytes b (e_context p) in
  let b := put_u32 b (e_options p) in
  bdata (put_bytes b (e_data p)).

(** src/eip/EncapsPacket.cpp:26-47 *)
Definition encaps_expand (h : heap) (p : encaps) (data : bytes) : encaps * outcome unit :=
  if Nat.ltb (List.length data) HEADER_SIZE then (p, Throw (RuntimeError RtEncapsShort))
  else
    match ('(cmd, b) <- get_u16 h (buf_of data) ;;
           '(len, b) <- get_u16 h b ;;
           '(hdl, b) <- get_u32 h b ;;
           '(st, b) <- get_u32 h b ;;
           '(ctx, b) <- get_bytes h (List.length (e_context p)) b ;;
           '(opt, b) <- get_u32 h b ;;
           Ok (mkEncaps cmd len hdl st ctx opt (e_data p), b)) with
    | Ok (p1, b) =>
      let data_size := (List.length data - HEADER_SIZE)%nat in
      if negb (Z.of_nat data_size =? e_length p1) then (p1, Throw (RuntimeError RtEncapsLength))
      else match get_bytes h (Z.to_nat (e_length p1)) b with
           | Ok (d, _) =>
             (mkEncaps (e_command p1) (e_length p1) (e_handle p1) (e_status p1)
                       (e_context p1) (e_options p1) d, Ok tt)
           | Throw e => (p1, Throw e)
           | Undef u => (p1, Undef u)
           | Abort => (p1, Abort)
           end
    | Throw e => (p, Throw e)
    | Undef u => (p, Undef u)
    | Abort => (p, Abort)
    end.

(** src/eip/EncapsPacket.cpp:101-108: the two bytes are copied out of [data]
    with unchecked iterators. *)
Definition length_from_header (h : heap) (data : bytes) : outcome Z :=
  '(l, _) <- get_bytes h 2 (mkBuf data 2) ;;
  '(len, _) <- get_u16 h (buf_of l) ;;
  Ok len.

(** src/eip/EncapsPacket.cpp:110-118 *)
Definition encaps_eqb (a b : encaps) : bool :=
  (e_command a =? e_command b) && (e_length a =? e_length b) && (e_handle a =? e_handle b)
  && (e_status a =? e_status b) && bytes_eqb (e_context a) (e_context b)
  && (e_options a =? e_options b) && bytes_eqb (e_data a) (e_data b).

(** src/eip/EncapsPacketFactory.cpp:13-26 *)
Definition register_packet : encaps :=
  e_set_data (e_set_command encaps0 CMD_REGISTER_SESSION)
             (bdata (put_u16 (put_u16 buf_new 1) 0)).
(** src/eip/EncapsPacketFactory.cpp:28-33 *)
Definition unregister_packet (handle : Z) : encaps :=
  e_set_handle (e_set_command encaps0 CMD_UN_REGISTER_SESSION) handle.
(** src/eip/EncapsPacketFactory.cpp:35-48 *)
Definition rr_data_packet (handle timeout : Z) (data : bytes) : encaps :=
  e_set_data (e_set_handle (e_set_command encaps0 CMD_SEND_RR_DATA) handle)
             (bdata (put_bytes (put_u16 (put_u32 buf_new 0) timeout) data)).
(** src/eip/EncapsPacketFactory.cpp:50-55 *)
Definition list_identity_packet : encaps :=
  e_set_handle (e_set_command encaps0 CMD_LIST_IDENTITY) 0.

(** ** Message router (src/MessageRouter.cpp) *)

(** A session as seen by MessageRouter ([SessionInfoIf]): its handle and its
    [sendAndReceive], over some external state [S]. *)
Record session_if (S : Type) := mkSession {
  si_handle : Z;
  si_exchange : encaps -> st S encaps }.
Arguments mkSession {S} _ _.
Arguments si_handle {S} _.
Arguments si_exchange {S} _.

(** src/MessageRouter.cpp:46-58: the packet that is transmitted. *)
Definition request_packet (handle : Z) (use8 : bool) (service : Z) (path : epath)
    (data : bytes) (extra : list cpitem) : encaps :=
  let items := [item_null; item_unconnected (request_pack use8 service path data)] ++ extra in
  rr_data_packet handle 0 (cp_pack items).

(** src/MessageRouter.cpp:62-80. [receivedData(size() - 6)] with fewer than 6
    bytes asks for about 2^64 bytes: std::length_error. [items.at(1)] throws
    std::out_of_range. *)
Definition reply_response (h : heap) (received : encaps) : outcome response :=
  let rd := e_data received in
  if Nat.ltb (List.length rd) 6 then Throw LengthError
  else
    '(_, b) <- get_u32 h (buf_of rd) ;;
    '(_, b) <- get_u16 h b ;;
    '(d, _) <- get_bytes h (List.length rd - 6) b ;;
    items <- finished (cp_expand h d) ;;
    match nth_error items 1 with
    | None => Throw OutOfRange
    | Some it =>
      r <- finished (response_expand h response0 (it_data it)) ;;
      Ok (if Nat.ltb 2 (List.length items)
          then mkResp (r_service r) (r_status r) (r_addl r) (r_data r) (skipn 2 items)
          else r)
    end.

(** src/MessageRouter.cpp:37-81 ([assert(si)]: the session exists). *)
Definition send_request {S} (h : heap) (si : session_if S) (use8 : bool) (service : Z)
    (path : epath) (data : bytes) (extra : list cpitem) : st S response :=
  fun s =>
    match si_exchange si (request_packet (si_handle si) use8 service path data extra) s with
    | (Ok received, s') => (reply_response h received, s')
    | (Throw e, s') => (Throw e, s')
    | (Undef u, s') => (Undef u, s')
    | (Abort, s') => (Abort, s')
    end.
