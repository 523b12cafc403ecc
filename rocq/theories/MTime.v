(** Model of the time that receiving takes: sessions (src/SessionInfo.cpp,
    src/sockets/TCPSocket.cpp) and discovery (src/DiscoveryManager.cpp,
    src/sockets/UDPSocket.cpp) once more, with a clock (milliseconds). Only
    system calls take time. *)
From Verif Require Import Base MBuffer MEip MIdent MSocket MDisc.
Local Open Scope outcome_scope.

(** src/sockets/BaseSocket.cpp:78-110: the timeout given to the socket; 0 is none
    at all, recv() and recvfrom() wait for ever. The result of setsockopt() is
    ignored, and taken to be success. *)
Definition wait_of (ms : Z) : Z := let '(s, us) := portable_interval ms in s * 1000 + us / 1000.

(** One recv() or recvfrom() that begins at [c], when the next event is (or will
    be) there at [t]: whether the event is met, and when the call returns. An
    event that comes exactly at the end of the timeout is met. *)
Definition meets (T c t : Z) : bool * Z :=
  if (T =? 0) || (t <=? c + T) then (true, Z.max c t) else (false, c + T).

(** ** TCP *)

(** src/sockets/TCPSocket.cpp:141-169, as [recv_loop] of MSocket.v, with the time
    at which each event is there. Every recv() has the whole timeout. [None]: the
    call does not return. [Data []] is no event. *)
Fixpoint recv_timed (T : Z) (n : nat) (acc : bytes) (c : Z) (evs : list (Z * seg))
  : option (outcome bytes * Z * list (Z * seg)) :=
  match n with
  | O => Some (Ok acc, c, evs)
  | _ =>
    match evs with
    | [] => if T =? 0 then None else Some (Throw (SystemError EAGAIN), c + T, [])
    | (_, Data []) :: r => recv_timed T n acc c r
    | (t, e) :: r =>
      let '(met, c') := meets T c t in
      if met then
        match e with
        | Data l =>
          if Nat.leb (List.length l) n then recv_timed T (n - List.length l) (acc ++ l) c' r
          else Some (Ok (acc ++ firstn n l), c', (t, Data (skipn n l)) :: r)
        | Err e => if e =? EINTR then recv_timed T n acc c' r else Some (Throw (SystemError e), c', r)
        | Eof => Some (Ok (acc ++ zeros n), c', (t, Eof) :: r)
        end
      else Some (Throw (SystemError EAGAIN), c', (t, e) :: r)
    end
  end.

(** As [net] of MSocket.v: the clock, what the peer has received, what is on the
    way with the time at which it is there, and for the next calls of send() the
    result and how long they take ([None]: the call does not return; no timeout
    is set for sending). When the list is used up send() takes no time. *)
Record tnet := mkTnet {
  tn_clock : Z; tn_sent : list bytes; tn_in : list (Z * seg); tn_results : list (send_result * option Z) }.
(** The peer, which is told when it gets something. *)
Definition tpeer := list bytes -> bytes -> Z -> list (Z * seg).

(** Calls that take time, and may not return. *)
Definition tm (A : Type) := tnet -> option (outcome A * tnet).
Definition tm_bind {A B} (m : tm A) (k : A -> tm B) : tm B :=
  fun w => match m w with
           | Some (Ok a, w') => k a w'
           | Some (Throw e, w') => Some (Throw e, w')
           | Some (Undef u, w') => Some (Undef u, w')
           | Some (Abort, w') => Some (Abort, w')
           | None => None
           end.

(** src/sockets/TCPSocket.cpp:127-139 *)
Definition send_timed (p : tpeer) (data : bytes) : tm unit :=
  fun w =>
    let '(r, took) := match tn_results w with [] => (mkSend (zlen data) 0, Some 0) | x :: _ => x end in
    match took with
    | None => None
    | Some d =>
      let c := tn_clock w + Z.max 0 d in
      let got := firstn (Z.to_nat (s_count r)) data in
      Some (send_check (zlen data) r,
            mkTnet c (tn_sent w ++ [got]) (tn_in w ++ p (tn_sent w) got c) (tl (tn_results w)))
    end.
Definition receive_timed (T : Z) (n : nat) : tm bytes :=
  fun w => match recv_timed T n [] (tn_clock w) (tn_in w) with
           | Some (o, c, evs) => Some (o, mkTnet c (tn_sent w) evs (tn_results w))
           | None => None
           end.

(** src/SessionInfo.cpp:47-69 *)
Definition exchange_timed (h : heap) (T : Z) (p : tpeer) (handle : Z) (packet : encaps) : tm encaps :=
  tm_bind (send_timed p (encaps_pack packet)) (fun _ =>
  tm_bind (receive_timed T HEADER_SIZE) (fun header =>
  tm_bind (fun w => Some (length_from_header h header, w)) (fun len =>
  tm_bind (receive_timed T (Z.to_nat len)) (fun data =>
  fun w => Some (r <- finished (encaps_expand h encaps0 (header ++ data)) ;; check_reply handle r, w))))).

(** src/SessionInfo.cpp:20-35, src/sockets/TCPSocket.cpp:31-111: connecting takes
    time in select() alone, [waited] of it (at most the timeout); then the
    timeout is set for receiving and the session is registered. *)
Definition open_timed (h : heap) (timeout : Z) (k : calls) (waited : Z) (p : tpeer) : tm Z :=
  fun w =>
    let took := match k_connect k with Some e => if e =? EINPROGRESS then Z.min (Z.max 0 waited) (wait_of timeout) else 0 | None => 0 end in
    let w := mkTnet (tn_clock w + took) (tn_sent w) (tn_in w) (tn_results w) in
    match fst (tcp_connect k) with
    | Ok _ =>
      tm_bind (exchange_timed h (wait_of timeout) p 0 register_packet) (fun r =>
      fun w => Some (if negb (e_status r =? ENCAPS_SUCCESS) then Throw (RuntimeError RtSessionRegister)
                     else Ok (e_handle r), w)) w
    | Throw e => Some (Throw e, w)
    | Undef u => Some (Undef u, w)
    | Abort => Some (Abort, w)
    end.

(** A session as the message router uses it. A call that does not return is
    [Abort] here; with a timeout and a send() that returns there is none. *)
Definition timed_session (h : heap) (T : Z) (p : tpeer) (handle : Z) : session_if tnet :=
  mkSession handle (fun q w => match exchange_timed h T p handle q w with Some r => r | None => (Abort, w) end).

(** ** Discovery *)

(** src/DiscoveryManager.cpp:43-86, as [disc_loop] of MDisc.v: every recvfrom()
    has the whole timeout. *)
Fixpoint disc_timed (h : heap) (T : Z) (acc : list entry) (c : Z) (ds : list (Z * dgram))
  : option (outcome (list entry) * Z) :=
  match ds with
  | [] => if T =? 0 then None else Some (disc_catch acc (Throw (SystemError EAGAIN)), c + T)
  | (t, d) :: r =>
    let '(met, c') := meets T c t in
    if met then
      match bind (fst (udp_receive EIP_MAX_PACKET_SIZE [d])) (fun data => disc_reply h data acc) with
      | Ok acc' => disc_timed h T acc' c' r
      | o => Some (disc_catch acc o, c')
      end
    else Some (disc_catch acc (Throw (SystemError EAGAIN)), c')
  end.
