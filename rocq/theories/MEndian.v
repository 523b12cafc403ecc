(** Socket addresses on hosts that are not like Linux on x86: big-endian hosts, and
    systems (BSD, macOS) where sin_family has 8 bits and comes after sin_len. Everywhere else in
    this model a host is little-endian and sin_family has 16 bits. *)
From Verif Require Import Base MBuffer MEip MSocket MConnReq MConn.
Local Open Scope outcome_scope.

(** [y_big]: the bytes of a number are stored with the high one first; [y_len]: struct sockaddr_in
    is {uint8_t sin_len; uint8_t sin_family; in_port_t sin_port; in_addr sin_addr; char
    sin_zero[8]} instead of {uint16_t sin_family; ...}. *)
Record layout := mkLayout { y_big : bool; y_len : bool }.

(** A struct sockaddr_in is its 16 bytes in memory. *)
Definition mem := list Z.
Definition peek (m : mem) (i : nat) : Z := nth i m 0.
Fixpoint poke (m : mem) (i : nat) (v : Z) : mem :=
  match m, i with
  | [], _ => []
  | _ :: r, O => v :: r
  | x :: r, S i' => x :: poke r i' v
  end.
Definition load16 (big : bool) (m : mem) (i : nat) : Z :=
  if big then 256 * peek m i + peek m (S i) else peek m i + 256 * peek m (S i).
Definition store16 (big : bool) (m : mem) (i : nat) (v : Z) : mem :=
  let lo := u8 v in let hi := u8 (Z.shiftr v 8) in
  if big then poke (poke m i hi) (S i) lo else poke (poke m i lo) (S i) hi.
Definition load32 (big : bool) (m : mem) (i : nat) : Z :=
  if big then 65536 * load16 big m i + load16 big m (2 + i) else load16 big m i + 65536 * load16 big m (2 + i).
Definition store32 (big : bool) (m : mem) (i : nat) (v : Z) : mem :=
  let lo := u16 v in let hi := u16 (Z.shiftr v 16) in
  if big then store16 big (store16 big m i hi) (2 + i) lo else store16 big (store16 big m i lo) (2 + i) hi.

(** sin_family is at offset 0 or 1; sin_port at 2, sin_addr at 4. Assigning to 8 bits keeps
    the low ones. *)
Definition fam_at (y : layout) : nat := if y_len y then 1 else 0.
Definition family (y : layout) (m : mem) : Z := if y_len y then peek m 1 else load16 (y_big y) m 0.
Definition set_family (y : layout) (m : mem) (v : Z) : mem := if y_len y then poke m 1 (u8 v) else store16 (y_big y) m 0 v.

(** htons() of the host *)
Definition htons_on (y : layout) (x : Z) : Z := if y_big y then u16 x else htons x.

(** An EndPoint: text, port and struct (src/sockets/EndPoint.h:36-38). *)
Record endpoint_on := mkEo { eo_host : string; eo_port : Z; eo_addr : mem }.

(** inet_ntoa: the octets in memory order *)
Definition memory_text (m : mem) : string :=
  (to_string (peek m 4) ++ "." ++ to_string (peek m 5) ++ "." ++ to_string (peek m 6) ++ "." ++ to_string (peek m 7))%string.
(** src/sockets/EndPoint.cpp:22-26 *)
Definition of_mem (y : layout) (m : mem) : endpoint_on := mkEo (memory_text m) (htons_on y (load16 (y_big y) m 2)) m.

(** src/sockets/EndPoint.cpp:28-42; inet_aton stores the four octets [aton host] in memory order, or
    nothing. sin_len stays 0. *)
Definition set_octets (m : mem) (a : bytes) : mem :=
  poke (poke (poke (poke m 4 (nth 0 a 0)) 5 (nth 1 a 0)) 6 (nth 2 a 0)) 7 (nth 3 a 0).
Definition of_text (y : layout) (aton : string -> option bytes) (host : string) (port : Z) : endpoint_on :=
  let m := store16 (y_big y) (set_family y (zeros 16) AF_INET) 2 (htons_on y (u16 port)) in
  mkEo host port (match aton host with Some a => set_octets m a | None => m end).

(** src/utils/Buffer.cpp:180-187 *)
Definition write_on (y : layout) (b : buffer) (v : endpoint_on) : buffer :=
  let m := eo_addr v in
  put_bytes (put_u32 (put_u16 (put_u16 b (htons_on y (s16 (family y m)))) (load16 (y_big y) m 2)) (load32 (y_big y) m 4)) (zeros 8).
(** src/utils/Buffer.cpp:189-200. The 16 bits of the family are written to where sin_family
    is, also if it has 8 bits (this is not allowed by the language, but what
    compilers do); the port is written after that. *)
Definition read_on (y : layout) (h : heap) (b : buffer) : outcome (endpoint_on * buffer) :=
  '(fam, b) <- get_s16 h b ;;
  let m := store16 (y_big y) (zeros 16) (fam_at y) (u16 fam) in
  '(port, b) <- get_u16 h b ;;
  let m := store16 (y_big y) m 2 port in
  '(addr, b) <- get_u32 h b ;;
  let m := store32 (y_big y) m 4 addr in
  '(_, b) <- get_bytes h 8 b ;;
  Ok (of_mem y (set_family y m (htons_on y (family y m))), b).

(** src/sockets/EndPoint.cpp:56-62 *)
Definition same_on (y : layout) (a b : endpoint_on) : bool :=
  String.eqb (eo_host a) (eo_host b) && (eo_port a =? eo_port b)
  && (load32 (y_big y) (eo_addr a) 4 =? load32 (y_big y) (eo_addr b) 4)
  && (load16 (y_big y) (eo_addr a) 2 =? load16 (y_big y) (eo_addr b) 2)
  && (family y (eo_addr a) =? family y (eo_addr b)).

(** src/ConnectionManager.cpp:131-149: where the data of a connection is sent *)
Definition dest_on (y : layout) (h : heap) (aton : string -> option bytes) (host : string) (items : list cpitem) : outcome endpoint_on :=
  match find (fun i => it_type i =? O2T_SOCKADDR_INFO) items with
  | Some i =>
    '(e, _) <- read_on y h (buf_of (it_data i)) ;;
    Ok (if String.eqb (eo_host e) "0.0.0.0"%string then of_text y aton host (eo_port e) else e)
  | None => Ok (of_text y aton host EIP_DEFAULT_IMPLICIT_PORT)
  end.
