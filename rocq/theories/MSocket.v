(** Model of src/sockets and of src/SessionInfo.cpp (POSIX branches; SO_NOSIGPIPE
    does not exist on Linux, so that branch is left out). System calls are
    inputs of the model: every theorem quantifies over their results. Log
    output is not modelled. *)
From Verif Require Import Base MBuffer MEip.
Local Open Scope outcome_scope.

(** errno values used by the code *)
Definition EINTR : Z := 4.
Definition EAGAIN : Z := 11.
Definition EINPROGRESS : Z := 115.
Definition ETIMEDOUT : Z := 110.

(** ** TCP *)

(** What successive recv() calls meet: bytes, an error (EINTR included; EAGAIN
    is the receive timeout), or the end of the stream. An empty list stands for
    a peer that sends nothing more, so recv() runs into its timeout. A recv()
    that asks for less than a segment leaves the rest of it. The end of the
    stream is permanent. [Data []] is no event at all. *)
Inductive seg := Data (l : bytes) | Err (e : Z) | Eof.

(** src/sockets/TCPSocket.cpp:141-169: [n] is [size - count], [acc] the part of
    the zero-initialised buffer that is filled. [count] is an int: sizes of
    2^31 and above are outside the model (the library asks for at most 65535). *)
Fixpoint recv_loop (n : nat) (acc : bytes) (segs : list seg) : outcome bytes * list seg :=
  match n with
  | O => (Ok acc, segs)
  | _ =>
    match segs with
    | [] => (Throw (SystemError EAGAIN), [])
    | Data l :: r =>
      if Nat.leb (List.length l) n then recv_loop (n - List.length l) (acc ++ l) r
      else (Ok (acc ++ firstn n l), Data (skipn n l) :: r)
    | Err e :: r =>
      if e =? EINTR then recv_loop n acc r else (Throw (SystemError e), r)
    | Eof :: r => (Ok (acc ++ zeros n), Eof :: r)
    end
  end.

Definition tcp_receive (n : nat) : st (list seg) bytes := recv_loop n [].

(** Result of one send()/sendto(): the value returned and errno. *)
Record send_result := mkSend { s_count : Z; s_errno : Z }.

(** src/sockets/TCPSocket.cpp:127-139 and src/sockets/UDPSocket.cpp:53-67:
    [int count] is compared with [size_t] after conversion to 64 bits unsigned
    (buffers of 2^31 bytes and more are outside the model). *)
Definition send_check (size : Z) (r : send_result) : outcome unit :=
  let count := if s_count r <? 0 then 2 ^ 64 + s_count r else s_count r in
  if count <? size then Throw (SystemError (s_errno r)) else Ok tt.

(** ** Connecting: src/sockets/TCPSocket.cpp:31-111 *)

Definition O_NONBLOCK : Z := 2048.
Definition failing := option Z.   (* Some errno: the call fails *)

(** Results of the system calls in the order they are made. [k_flags] are the
    flags of a new descriptor; select returns (result, errno); [k_soerr] is the
    value of SO_ERROR. *)
Record calls := mkCalls {
  k_socket : failing; k_flags : Z; k_getfl1 : failing; k_setfl1 : failing;
  k_connect : failing; k_select : Z * Z; k_getsockopt : failing; k_soerr : Z;
  k_getfl2 : failing; k_setfl2 : failing }.

(** The descriptor afterwards: never opened, open with these flags, closed. *)
Inductive descriptor := NoFd | OpenFd (flags : Z) | ClosedFd.

Definition sys (f : failing) : outcome unit :=
  match f with Some e => Throw (SystemError e) | None => Ok tt end.

(** lines 64-96. The do-while loop never repeats: every branch leaves it. *)
Definition tcp_connect_wait (k : calls) : outcome unit :=
  match k_connect k with
  | None => Ok tt
  | Some e =>
    if e =? EINPROGRESS then
      let '(res, err) := k_select k in
      if (res <? 0) && negb (err =? EINTR) then Throw (SystemError err)
      else if 0 <? res then
        _ <- sys (k_getsockopt k) ;;
        if negb (k_soerr k =? 0) then Throw (SystemError (k_soerr k)) else Ok tt
      else Throw (SystemError ETIMEDOUT)
    else Throw (SystemError e)
  end.

(** lines 62-111: the [try] block, given the flags set before. On any
    exception the descriptor is closed. *)
Definition tcp_connect_try (k : calls) (flags : Z) : outcome unit * descriptor :=
  match (_ <- tcp_connect_wait k ;; _ <- sys (k_getfl2 k) ;; sys (k_setfl2 k)) with
  | Ok _ => (Ok tt, OpenFd (Z.land flags (Z.lnot O_NONBLOCK)))
  | Throw e => (Throw e, ClosedFd)
  | Undef u => (Undef u, ClosedFd)
  | Abort => (Abort, ClosedFd)
  end.

(** lines 31-57: failures before the [try] leave the descriptor as it is (the
    destructor of a partly constructed object does not run). *)
Definition tcp_connect (k : calls) : outcome unit * descriptor :=
  match k_socket k with
  | Some e => (Throw (SystemError e), NoFd)
  | None =>
    match k_getfl1 k with
    | Some e => (Throw (SystemError e), OpenFd (k_flags k))
    | None =>
      match k_setfl1 k with
      | Some e => (Throw (SystemError e), OpenFd (k_flags k))
      | None => tcp_connect_try k (Z.lor (k_flags k) O_NONBLOCK)
      end
    end
  end.

(** src/sockets/BaseSocket.cpp:91-110; C++ division truncates towards zero. *)
Definition portable_interval (ms : Z) : Z * Z :=
  (Z.max (Z.quot ms 1000) 0, Z.max (Z.rem ms 1000 * 1000) 0).

(** ** UDP *)
Inductive dgram := Dgram (l : bytes) | DErr (e : Z).

(** src/sockets/UDPSocket.cpp:69-79: the buffer always has [size] bytes; a
    longer datagram is cut, a shorter one is followed by zeros. An empty list
    is a receive timeout. *)
Definition udp_receive (size : nat) : st (list dgram) bytes :=
  fun ds =>
    match ds with
    | [] => (Throw (SystemError EAGAIN), [])
    | Dgram l :: r => (Ok (firstn size l ++ zeros (size - List.length l)), r)
    | DErr e :: r => (Throw (SystemError e), r)
    end.

(** ** Sessions: src/SessionInfo.cpp *)

(** The network as a session sees it: what the peer has received so far (one
    entry per send), what is on the way to us, and the results of the next
    send() calls (when the list is used up, send() accepts everything). *)
Record net := mkNet {
  n_sent : list bytes; n_in : list seg; n_results : list send_result }.

(** The peer: what it puts on the wire when it receives [data] after [log]. *)
Definition peer := list bytes -> bytes -> list seg.

(** One send() on the connection. The peer receives what was accepted. *)
Definition net_send (p : peer) (data : bytes) : st net unit :=
  fun w =>
    let r := match n_results w with [] => mkSend (zlen data) 0 | r :: _ => r end in
    let got := firstn (Z.to_nat (s_count r)) data in
    (send_check (zlen data) r,
     mkNet (n_sent w ++ [got]) (n_in w ++ p (n_sent w) got) (tl (n_results w))).

Definition net_receive (n : nat) : st net bytes :=
  fun w => let '(o, segs) := tcp_receive n (n_in w) in
           (o, mkNet (n_sent w) segs (n_results w)).

(** src/SessionInfo.cpp:58-68 *)
Definition check_reply (handle : Z) (r : encaps) : outcome encaps :=
  if negb (e_status r =? ENCAPS_SUCCESS) then Throw (RuntimeError RtSessionStatus)
  else if negb (handle =? 0) && negb (e_handle r =? handle)
       then Throw (RuntimeError RtSessionHandle)
       else Ok r.

(** src/SessionInfo.cpp:47-69 *)
Definition send_and_receive (h : heap) (p : peer) (handle : Z) (packet : encaps) : st net encaps :=
  st_bind (net_send p (encaps_pack packet)) (fun _ =>
  st_bind (net_receive HEADER_SIZE) (fun header =>
  st_bind (fun w => (length_from_header h header, w)) (fun len =>
  st_bind (net_receive (Z.to_nat len)) (fun data =>
  fun w => (r <- finished (encaps_expand h encaps0 (header ++ data)) ;; check_reply handle r, w))))).

(** src/SessionInfo.cpp:20-35 after the connection is made; the result is the
    session handle. *)
Definition session_register (h : heap) (p : peer) : st net Z :=
  st_bind (send_and_receive h p 0 register_packet) (fun r =>
  fun w => (if negb (e_status r =? ENCAPS_SUCCESS) then Throw (RuntimeError RtSessionRegister)
            else Ok (e_handle r), w)).

(** src/SessionInfo.cpp:41-45: a destructor; an exception terminates the
    program. *)
Definition session_destroy (p : peer) (handle : Z) : st net unit :=
  fun w => match net_send p (encaps_pack (unregister_packet handle)) w with
           | (Throw _, w') => (Abort, w')
           | r => r
           end.

(** src/SessionInfo.cpp:20-35, connection included: a failing constructor
    destroys the socket (src/sockets/TCPSocket.cpp:121-125). *)
Definition session_open (h : heap) (k : calls) (p : peer) : st net Z * (net -> descriptor) :=
  match tcp_connect k with
  | (Ok _, fd) =>
    (session_register h p,
     fun w => match fst (session_register h p w) with Ok _ => fd | _ => ClosedFd end)
  | (Throw e, fd) => (fun w => (Throw e, w), fun _ => fd)
  | (Undef u, fd) => (fun w => (Undef u, w), fun _ => fd)
  | (Abort, fd) => (fun w => (Abort, w), fun _ => fd)
  end.

(** A session as the message router uses it. *)
Definition live_session (h : heap) (p : peer) (handle : Z) : session_if net :=
  mkSession handle (send_and_receive h p handle).

(** Several exchanges, one after the other, each with its own outcome. *)
Fixpoint exchanges (h : heap) (p : peer) (handle : Z) (packets : list encaps) (w : net)
  : list (outcome encaps) * net :=
  match packets with
  | [] => ([], w)
  | q :: r =>
    let '(o, w1) := send_and_receive h p handle q w in
    let '(os, w2) := exchanges h p handle r w1 in
    (o :: os, w2)
  end.
