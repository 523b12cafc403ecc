(** Model of the time that handleConnections takes: BaseSocket::select
    (src/sockets/BaseSocket.cpp) and ConnectionManager::handleConnections
    (src/ConnectionManager.cpp) once more, with a clock (nanoseconds) and
    datagrams that arrive. *)
From Verif Require Import Base MBuffer MEip MSocket MConnReq MConn.

(** What comes to a socket: when it is there, and what recvfrom() meets. A socket
    that is ready is taken to have something for recvfrom(). *)
Definition queue := list (Z * dgram).

(** src/sockets/BaseSocket.cpp:129: how long ::select() may wait, at [c]. *)
Definition sel_wait (stop c : Z) : Z :=
  let '(s, us) := portable_interval (Z.quot (stop - c) 1000000) in s * 1000000000 + us * 1000.

(** When the first socket is ready. *)
Fixpoint first_arrival (qs : list queue) : option Z :=
  match qs with
  | [] => None
  | [] :: r => first_arrival r
  | ((a, _) :: _) :: r => match first_arrival r with Some b => Some (Z.min a b) | None => Some a end
  end.
(** src/sockets/BaseSocket.cpp:137: whether something is ready, and when
    ::select() returns. It does not fail here. *)
Definition select_call (stop c : Z) (qs : list queue) : bool * Z :=
  match first_arrival qs with
  | Some a => if a <=? c + sel_wait stop c then (true, Z.max c a) else (false, c + sel_wait stop c)
  | None => (false, c + sel_wait stop c)
  end.

Section Poll.
Context (h : heap) (cost : dgram -> Z).   (* how long the handler takes for a datagram *)

(** src/sockets/BaseSocket.cpp:142-147: one datagram from each socket that was
    ready at [t]. *)
Fixpoint serve (t : Z) (qs : list queue) (m : mgr) (c : Z) : outcome unit * mgr * Z * list queue :=
  match qs with
  | [] => (Ok tt, m, c, [])
  | [] :: r => let '(o, m, c, r) := serve t r m c in (o, m, c, [] :: r)
  | ((a, d) :: q) :: r =>
    if a <=? t then
      let '(o, m) := on_readable h d m in
      let c := c + Z.max 0 (cost d) in
      match o with
      | Ok _ => let '(o, m, c, r) := serve t r m c in (o, m, c, q :: r)
      | _ => (o, m, c, q :: r)
      end
    else let '(o, m, c, r) := serve t r m c in (o, m, c, ((a, d) :: q) :: r)
  end.

(** src/sockets/BaseSocket.cpp:125-150. [None]: more rounds than [fuel]. *)
Fixpoint poll (fuel : nat) (stop : Z) (qs : list queue) (m : mgr) (c : Z) : option (outcome unit * mgr * Z * list queue) :=
  match fuel with
  | O => None
  | S fuel =>
    let '(ready, t) := select_call stop c qs in
    if ready then
      match serve t qs m t with
      | (Ok _, m, c, qs) => poll fuel stop qs m c
      | r => Some r
      end
    else Some (Ok tt, m, t, qs)
  end.
Definition backlog (qs : list queue) : nat := List.length (List.concat qs).

(** src/ConnectionManager.cpp:207-227: a call at [c] with a timeout in
    milliseconds. The times of the ticks and what their listeners and sendto()
    do are given by the time at which the loop ends. *)
Definition handle_timed (timeout : Z) (env : Z -> tick_env) (qs : list queue) (m : mgr) (c : Z)
  : option (outcome unit * mgr * Z * list queue) :=
  match m_socks m with
  | [] => Some (Undef UbDerefEnd, m, c, qs)
  | _ =>
    match poll (S (backlog qs)) (c + timeout * 1000000) qs m c with
    | Some (Ok _, m, c, qs) => let '(o, m) := run_ticks (env c) m in Some (o, m, c, qs)
    | r => r
    end
  end.
End Poll.
