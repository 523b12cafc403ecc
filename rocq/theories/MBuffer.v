(** Model of src/utils/Buffer.{h,cpp}, src/cip/CipString.h,
    src/cip/CipRevision.cpp and src/sockets/EndPoint.cpp. *)
From Coq Require Import DecimalString.
From Verif Require Import Base.
Local Open Scope outcome_scope.

(** ** Buffer *)

(** src/utils/Buffer.h:117-118 ([_buffer], [_position]). *)
Record buffer := mkBuf { bdata : bytes; bpos : nat }.

(** src/utils/Buffer.cpp:10-12, 18-19 ([Buffer()], [Buffer(capacity)]; the
    capacity is only a reservation). *)
Definition buf_new : buffer := mkBuf [] 0.
(** src/utils/Buffer.cpp:14-16 *)
Definition buf_of (d : bytes) : buffer := mkBuf d 0.

(** src/utils/Buffer.h:111-115 *)
Definition buf_size (b : buffer) : nat := List.length (bdata b).
Definition buf_valid (b : buffer) : bool := Nat.leb (bpos b) (buf_size b).
Definition buf_empty (b : buffer) : bool := Nat.leb (buf_size b) (bpos b).

(** [_buffer.push_back(v)] *)
Definition push (b : buffer) (v : Z) : buffer := mkBuf (bdata b ++ [v]) (bpos b).

(** [_buffer[_position++]]: std::vector::operator[] is unchecked, so an index
    at or above the size is an out-of-bounds read; what it finds is given by
    [h].  The position is advanced in any case. *)
Definition fetch (h : heap) (b : buffer) : outcome (Z * buffer) :=
  let b' := mkBuf (bdata b) (S (bpos b)) in
  match nth_error (bdata b) (bpos b) with
  | Some v => Ok (v, b')
  | None => match h (bdata b) (bpos b) with
            | Some v => Ok (u8 v, b')
            | None => Undef UbOobRead
            end
  end.

(** src/utils/Buffer.cpp:21-25 *)
Definition put_u8 (b : buffer) (v : Z) : buffer := push b v.
(** src/utils/Buffer.cpp:27-31 *)
Definition get_u8 (h : heap) (b : buffer) : outcome (Z * buffer) := fetch h b.

(** src/utils/Buffer.cpp:33-37 *)
Definition put_s8 (b : buffer) (v : Z) : buffer := push b (u8 v).
(** src/utils/Buffer.cpp:39-42; the assignment to int8_t converts. *)
Definition get_s8 (h : heap) (b : buffer) : outcome (Z * buffer) :=
  '(x, b) <- fetch h b ;; Ok (s8 (u8 x), b).

(** src/utils/Buffer.cpp:44-48 *)
Definition put_u16 (b : buffer) (v : Z) : buffer :=
  push (push b (u8 v)) (u8 (Z.shiftr v 8)).
(** src/utils/Buffer.cpp:50-54 *)
Definition get_u16 (h : heap) (b : buffer) : outcome (Z * buffer) :=
  '(x0, b) <- fetch h b ;;
  '(x1, b) <- fetch h b ;;
  Ok (u16 (u16 x0 + u16 (Z.shiftl x1 8)), b).

(** src/utils/Buffer.cpp:56-58 *)
Definition put_s16 (b : buffer) (v : Z) : buffer := put_u16 b (u16 v).
(** src/utils/Buffer.cpp:60-62; the bits of the object are written. *)
Definition get_s16 (h : heap) (b : buffer) : outcome (Z * buffer) :=
  '(v, b) <- get_u16 h b ;; Ok (s16 v, b).

(** src/utils/Buffer.cpp:64-71 *)
Definition put_u32 (b : buffer) (v : Z) : buffer :=
  push (push (push (push b (u8 v)) (u8 (Z.shiftr v 8)))
       (u8 (Z.shiftr v 16))) (u8 (Z.shiftr v 24)).
(** src/utils/Buffer.cpp:73-80; [uint8_t << k] is computed in int, where
    [<< 24] can reach the sign bit (defined in C++20), before the conversion
    to uint32_t. *)
Definition get_u32 (h : heap) (b : buffer) : outcome (Z * buffer) :=
  '(x0, b) <- fetch h b ;;
  let v := u32 x0 in
  '(x1, b) <- fetch h b ;;
  let v := u32 (v + u32 (s32 (Z.shiftl x1 8))) in
  '(x2, b) <- fetch h b ;;
  let v := u32 (v + u32 (s32 (Z.shiftl x2 16))) in
  '(x3, b) <- fetch h b ;;
  let v := u32 (v + u32 (s32 (Z.shiftl x3 24))) in
  Ok (v, b).

(** src/utils/Buffer.cpp:82-84 *)
Definition put_s32 (b : buffer) (v : Z) : buffer := put_u32 b (u32 v).
(** src/utils/Buffer.cpp:86-88 *)
Definition get_s32 (h : heap) (b : buffer) : outcome (Z * buffer) :=
  '(v, b) <- get_u32 h b ;; Ok (s32 v, b).

(** src/utils/Buffer.cpp:90-101 *)
Definition put_u64 (b : buffer) (v : Z) : buffer :=
  let b := push b (u8 v) in
  let b := push b (u8 (Z.shiftr v 8)) in
  let b := push b (u8 (Z.shiftr v 16)) in
  let b := push b (u8 (Z.shiftr v 24)) in
  let b := push b (u8 (Z.shiftr v 32)) in
  let b := push b (u8 (Z.shiftr v 40)) in
  let b := push b (u8 (Z.shiftr v 48)) in
  push b (u8 (Z.shiftr v 56)).
(** src/utils/Buffer.cpp:103-114 *)
Definition get_u64 (h : heap) (b : buffer) : outcome (Z * buffer) :=
  '(x0, b) <- fetch h b ;;
  let v := u64 x0 in
  '(x1, b) <- fetch h b ;;
  let v := u64 (v + u64 (Z.shiftl x1 8)) in
  '(x2, b) <- fetch h b ;;
  let v := u64 (v + u64 (Z.shiftl x2 16)) in
  '(x3, b) <- fetch h b ;;
  let v := u64 (v + u64 (Z.shiftl x3 24)) in
  '(x4, b) <- fetch h b ;;
  let v := u64 (v + u64 (Z.shiftl x4 32)) in
  '(x5, b) <- fetch h b ;;
  let v := u64 (v + u64 (Z.shiftl x5 40)) in
  '(x6, b) <- fetch h b ;;
  let v := u64 (v + u64 (Z.shiftl x6 48)) in
  '(x7, b) <- fetch h b ;;
  let v := u64 (v + u64 (Z.shiftl x7 56)) in
  Ok (v, b).

(** src/utils/Buffer.cpp:116-118 *)
Definition put_s64 (b : buffer) (v : Z) : buffer := put_u64 b (u64 v).
(** src/utils/Buffer.cpp:120-122 *)
Definition get_s64 (h : heap) (b : buffer) : outcome (Z * buffer) :=
  '(v, b) <- get_u64 h b ;; Ok (s64 v, b).

(** src/utils/Buffer.cpp:124-138: float and double are represented by their
    bit patterns (the code reinterprets the object; the aliasing rule this
    breaks is outside the model). *)
Definition put_f32 (b : buffer) (bits : Z) : buffer := put_u32 b bits.
Definition get_f32 (h : heap) (b : buffer) : outcome (Z * buffer) := get_u32 h b.
Definition put_f64 (b : buffer) (bits : Z) : buffer := put_u64 b bits.
Definition get_f64 (h : heap) (b : buffer) : outcome (Z * buffer) := get_u64 h b.

(** src/utils/Buffer.cpp:140-143 *)
Definition put_bytes (b : buffer) (v : bytes) : buffer := mkBuf (bdata b ++ v) (bpos b).
(** src/utils/Buffer.cpp:145-149: std::copy of [val.size()] bytes starting at
    the position, then the position is advanced; modelled byte by byte. *)
Fixpoint get_bytes (h : heap) (n : nat) (b : buffer) : outcome (bytes * buffer) :=
  match n with
  | O => Ok ([], b)
  | S n' => '(x, b) <- fetch h b ;;
            '(xs, b) <- get_bytes h n' b ;;
            Ok (x :: xs, b)
  end.

(** src/utils/Buffer.cpp:151-158 *)
Definition put_words (b : buffer) (v : list Z) : buffer :=
  fold_left (fun b w => push (push b (u8 w)) (u8 (Z.shiftr w 8))) v b.
(** src/utils/Buffer.cpp:160-167: the two halves go through int16_t. *)
Fixpoint get_words (h : heap) (n : nat) (b : buffer) : outcome (list Z * buffer) :=
  match n with
  | O => Ok ([], b)
  | S n' => '(x0, b) <- fetch h b ;;
            let v := u16 (s16 x0) in
            '(x1, b) <- fetch h b ;;
            let v := u16 (v + s16 (Z.shiftl x1 8)) in
            '(vs, b) <- get_words h n' b ;;
            Ok (v :: vs, b)
  end.

(** ** Strings *)

(** src/cip/CipString.h:45-46 *)
Record cipstring := mkStr { str_length : Z; str_data : bytes }.

(** src/cip/CipString.h:20-28 for T = CipUsint / CipUint: [_length] is
    [size()] converted to T, the data is kept whole. *)
Definition short_string (d : bytes) : cipstring := mkStr (u8 (zlen d)) d.
Definition cip_string (d : bytes) : cipstring := mkStr (u16 (zlen d)) d.
(** src/cip/CipString.h:32-34 (a std::string is a byte string) *)
Definition str_std (s : cipstring) : bytes := str_data s.

(** src/utils/Buffer.h:89-92 *)
Definition put_short_string (b : buffer) (s : cipstring) : buffer :=
  put_bytes (put_u8 b (str_length s)) (str_data s).
Definition put_cip_string (b : buffer) (s : cipstring) : buffer :=
  put_bytes (put_u16 b (str_length s)) (str_data s).
(** src/utils/Buffer.h:94-103 *)
Definition get_short_string (h : heap) (b : buffer) : outcome (cipstring * buffer) :=
  '(len, b) <- get_u8 h b ;;
  '(d, b) <- get_bytes h (Z.to_nat len) b ;;
  Ok (short_string d, b).
Definition get_cip_string (h : heap) (b : buffer) : outcome (cipstring * buffer) :=
  '(len, b) <- get_u16 h b ;;
  '(d, b) <- get_bytes h (Z.to_nat len) b ;;
  Ok (cip_string d, b).

(** ** Revision *)

(** src/cip/CipRevision.h:26-27, CipRevision.cpp:14-17 *)
Record revision := mkRev { rev_major : Z; rev_minor : Z }.
(** src/cip/CipRevision.cpp:19-22 *)
Definition rev_eqb (a b : revision) : bool :=
  (rev_major a =? rev_major b) && (rev_minor a =? rev_minor b).

(** [std::to_string] of a non-negative integer. *)
Definition to_string (x : Z) : string :=
  NilZero.string_of_uint (N.to_uint (Z.to_N x)).

(** src/cip/CipRevision.cpp:24-26 *)
Definition rev_to_string (r : revision) : string :=
  (to_string (rev_major r) ++ "." ++ to_string (rev_minor r))%string.

(** src/utils/Buffer.cpp:169-171 *)
Definition put_rev (b : buffer) (r : revision) : buffer :=
  put_u8 (put_u8 b (rev_major r)) (rev_minor r).
(** src/utils/Buffer.cpp:173-178 *)
Definition get_rev (h : heap) (b : buffer) : outcome (revision * buffer) :=
  '(ma, b) <- get_u8 h b ;;
  '(mi, b) <- get_u8 h b ;;
  Ok (mkRev ma mi, b).

(** ** End points *)

(** [struct sockaddr_in]: the integers stored in the fields of the (little
    endian) host; [sin_port] and [s_addr] are in network order, so the first
    octet of an address is the low byte of [sa_addr]. *)
Record sockaddr := mkAddr { sa_family : Z; sa_port : Z; sa_addr : Z }.

(** [htons] on a little-endian host. *)
Definition htons (x : Z) : Z := u16 (Z.shiftl (u16 x) 8 + Z.shiftr (u16 x) 8).

(** [inet_ntoa] (OS function): dotted decimal of the octets in memory order. *)
Definition inet_ntoa (a : Z) : string :=
  (to_string (u8 a) ++ "." ++ to_string (u8 (Z.shiftr a 8)) ++ "." ++
   to_string (u8 (Z.shiftr a 16)) ++ "." ++ to_string (u8 (Z.shiftr a 24)))%string.

(** src/sockets/EndPoint.h:36-38 *)
Record endpoint := mkEP { ep_host : string; ep_port : Z; ep_addr : sockaddr }.

Definition AF_INET : Z := 2.

(** src/sockets/EndPoint.cpp:22-26 *)
Definition ep_of_addr (a : sockaddr) : endpoint :=
  mkEP (inet_ntoa (sa_addr a)) (htons (sa_port a)) a.

(** src/sockets/EndPoint.cpp:28-42. [aton] stands for inet_aton, which returns
    0 (not a negative value) for text it cannot parse and then leaves the zero
    initialised address alone, so the [throw] is never reached. *)
Definition ep_of_host (aton : string -> option Z) (host : string) (port : Z) : endpoint :=
  mkEP host port
       (mkAddr AF_INET (htons (u16 port))
               (match aton host with Some a => a | None => 0 end)).

(** src/sockets/EndPoint.cpp:56-62 *)
Definition ep_eqb (a b : endpoint) : bool :=
  String.eqb (ep_host a) (ep_host b) && (ep_port a =? ep_port b)
  && (sa_addr (ep_addr a) =? sa_addr (ep_addr b))
  && (sa_port (ep_addr a) =? sa_port (ep_addr b))
  && (sa_family (ep_addr a) =? sa_family (ep_addr b)).

(** src/sockets/EndPoint.cpp:68-71; std::string comparison is lexicographic on
    unsigned characters. *)
Definition ep_ltb (a b : endpoint) : bool :=
  String.ltb (ep_host a) (ep_host b) && (ep_port a <? ep_port b).

(** src/sockets/EndPoint.cpp:73-75 (ports are non-negative in every use). *)
Definition ep_to_string (a : endpoint) : string :=
  (ep_host a ++ ":" ++ to_string (ep_port a))%string.

(** src/utils/Buffer.cpp:180-187 *)
Definition put_endpoint (b : buffer) (v : endpoint) : buffer :=
  let a := ep_addr v in
  put_bytes (put_u32 (put_u16 (put_u16 b (htons (s16 (sa_family a)))) (sa_port a))
                     (u32 (sa_addr a)))
            (zeros 8).
(** src/utils/Buffer.cpp:189-200 *)
Definition get_endpoint (h : heap) (b : buffer) : outcome (endpoint * buffer) :=
  '(fam, b) <- get_s16 h b ;;
  '(port, b) <- get_u16 h b ;;
  '(addr, b) <- get_u32 h b ;;
  '(_, b) <- get_bytes h 8 b ;;
  Ok (ep_of_addr (mkAddr (htons (u16 fam)) port addr), b).
