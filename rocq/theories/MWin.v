(** Model of the branches of src/sockets and src/DiscoveryManager.* that are
    compiled on Windows and on macOS, next to those for Linux (MSocket.v,
    MDisc.v, MConn.v, MTime.v). The error numbers are those of the systems;
    log output is not modelled. *)
From Verif Require Import Base MBuffer MEip MIdent MSocket MDisc MConn.
Local Open Scope Z_scope.
Local Open Scope outcome_scope.

Inductive platform := Linux | MacOS | Windows.

(** ** Error numbers *)

(** What the systems report: a call was interrupted, a connection is being made, it
    could not be made in time, recv() or recvfrom() is at the end of its timeout. *)
Definition sys_intr (p : platform) : Z := match p with Linux | MacOS => 4 | Windows => 10004 end.
Definition sys_inprogress (p : platform) : Z := match p with Linux => 115 | MacOS => 36 | Windows => 10036 end.
Definition sys_timedout (p : platform) : Z := match p with Linux => 110 | MacOS => 60 | Windows => 10060 end.
Definition sys_again (p : platform) : Z := match p with Linux => 11 | MacOS => 35 | Windows => 10060 end.

(** The numbers the code compares with. src/sockets/Platform.h:12, 27: the name, on
    Windows with WSA in front *)
Definition err_intr (p : platform) : Z := match p with Linux => EINTR | MacOS => 4 | Windows => 10004 end.
Definition err_inprogress (p : platform) : Z := match p with Linux => EINPROGRESS | MacOS => 36 | Windows => 10036 end.
Definition err_timedout (p : platform) : Z := match p with Linux => ETIMEDOUT | MacOS => 60 | Windows => 10060 end.
(** src/DiscoveryManager.h:11-15: EAGAIN, on Windows WSAETIMEDOUT *)
Definition discovery_end (p : platform) : Z := match p with Linux => EAGAIN | MacOS => 35 | Windows => err_timedout p end.
(** The error of recvfrom() on Windows when the datagram is longer than the buffer *)
Definition WSAEMSGSIZE : Z := 10040.

(** src/sockets/Platform.cpp:15-26. [text] are the messages of the system (as
    bytes). FormatMessage() returns 0 if there is none or if it does not fit into
    255 characters with the zero at the end. The loop takes characters off the end. *)
Fixpoint trim (rev_msg : bytes) : bytes :=
  match rev_msg with
  | c :: r => if (c =? 13) || (c =? 10) then trim r else rev_msg
  | [] => []
  end.
Definition not_available : bytes := [78; 47; 65]. (* N/A *)
Definition win_message (text : Z -> option bytes) (c : Z) : bytes :=
  let formatted := match text c with Some l => if zlen l <? 255 then l else [] | None => [] end in
  if zlen formatted =? 0 then not_available else rev (trim (rev formatted)).

(** ** Timeouts *)

(** src/sockets/BaseSocket.cpp:91-111: the seconds and microseconds are converted
    to 64 bits on Linux, to 32 bits on macOS (__darwin_suseconds_t) and on Windows
    (long int). *)
Definition interval (p : platform) (ms : Z) : Z * Z :=
  let cast := match p with Linux => s64 | MacOS | Windows => s32 end in
  (Z.max (cast (Z.quot ms 1000)) 0, Z.max (cast (Z.rem ms 1000 * 1000)) 0).
(** src/sockets/BaseSocket.cpp:78-89: how many milliseconds recv() waits; 0 is for
    ever. The result of setsockopt() is ignored and taken to be success. *)
Definition recv_wait (p : platform) (ms : Z) : Z :=
  match p with
  | Windows => u32 ms
  | _ => let '(s, us) := interval p ms in s * 1000 + us / 1000
  end.

(** ** Connecting: src/sockets/TCPSocket.cpp:31-111 *)

(** Lines 64-96, as [tcp_connect_wait] of MSocket.v. *)
Definition connect_wait (p : platform) (k : calls) : outcome unit :=
  match k_connect k with
  | None => Ok tt
  | Some e =>
    if e =? err_inprogress p then
      let '(res, err) := k_select k in
      if (res <? 0) && negb (err =? err_intr p) then Throw (SystemError err)
      else if 0 <? res then
        _ <- sys (k_getsockopt k) ;;
        if negb (k_soerr k =? 0) then Throw (SystemError (k_soerr k)) else Ok tt
      else Throw (SystemError (err_timedout p))
    else Throw (SystemError e)
  end.
Definition nonblock (p : platform) : Z := match p with MacOS => 4 | _ => O_NONBLOCK end.
(** Lines 31-111. [nosigpipe]: the result of setsockopt() of SO_NOSIGPIPE, which
    exists on macOS only (39-44). On Windows the socket is never switched to
    non-blocking mode (47-57, 98-107). *)
Definition connect_on (p : platform) (nosigpipe : failing) (k : calls) : outcome unit * descriptor :=
  let leave_with (flags : Z) (o : outcome unit) :=
    match o with Ok _ => (Ok tt, OpenFd flags) | Throw e => (Throw e, ClosedFd) | Undef u => (Undef u, ClosedFd) | Abort => (Abort, ClosedFd) end in
  match k_socket k with
  | Some e => (Throw (SystemError e), NoFd)
  | None =>
    match p with
    | Windows => leave_with (k_flags k) (connect_wait p k)
    | _ =>
      match (match p with MacOS => nosigpipe | _ => None end), k_getfl1 k, k_setfl1 k with
      | Some e, _, _ | None, Some e, _ | None, None, Some e => (Throw (SystemError e), OpenFd (k_flags k))
      | None, None, None =>
        leave_with (Z.land (Z.lor (k_flags k) (nonblock p)) (Z.lnot (nonblock p)))
                   (_ <- connect_wait p k ;; _ <- sys (k_getfl2 k) ;; sys (k_setfl2 k))
      end
    end
  end.

(** An attempt to connect: after how many milliseconds the system knows how it
    ends, and the error (0: connected). *)
Record attempt := mkAttempt { at_when : Z; at_error : Z }.
(** The calls made for it with the timeout [ms]: connect() on a blocking socket
    returns with the result; on a non-blocking one it is in progress, and select()
    waits for no longer than the interval. *)
Definition waits (p : platform) (ms : Z) : Z := let '(s, us) := interval p ms in s * 1000 + us / 1000.
Definition calls_for (p : platform) (ms : Z) (a : attempt) : calls :=
  match p with
  | Windows => mkCalls None 0 None None (if at_error a =? 0 then None else Some (at_error a)) (0, 0) None 0 None None
  | _ => mkCalls None 0 None None (Some (sys_inprogress p)) (if at_when a <=? waits p ms then 1 else 0, 0) None (at_error a) None None
  end.
Definition connect_timed (p : platform) (ms : Z) (a : attempt) : outcome unit * Z :=
  (fst (connect_on p None (calls_for p ms a)),
   match p with Windows => at_when a | _ => Z.min (at_when a) (waits p ms) end).

(** ** Receiving *)

(** src/sockets/TCPSocket.cpp:141-169, as [recv_loop] of MSocket.v *)
Fixpoint recv_on (p : platform) (n : nat) (acc : bytes) (segs : list seg) : outcome bytes * list seg :=
  match n with
  | O => (Ok acc, segs)
  | _ =>
    match segs with
    | [] => (Throw (SystemError (sys_again p)), [])
    | Data l :: r =>
      if Nat.leb (List.length l) n then recv_on p (n - List.length l) (acc ++ l) r
      else (Ok (acc ++ firstn n l), Data (skipn n l) :: r)
    | Err e :: r =>
      if e =? err_intr p then recv_on p n acc r else (Throw (SystemError e), r)
    | Eof :: r => (Ok (acc ++ zeros n), Eof :: r)
    end
  end.

(** What recvfrom() into a buffer of [size] bytes makes of what is there. On
    Windows it fails if the datagram is longer. *)
Definition arrival (p : platform) (size : nat) (d : dgram) : dgram :=
  match p, d with
  | Windows, Dgram l => if Nat.ltb size (List.length l) then DErr WSAEMSGSIZE else d
  | _, _ => d
  end.
(** src/sockets/UDPSocket.cpp:69-79 *)
Definition udp_on (p : platform) (size : nat) (ds : list dgram) : outcome bytes :=
  match ds with
  | [] => Throw (SystemError (sys_again p))
  | d :: _ =>
    match arrival p size d with
    | Dgram l => Ok (firstn size l ++ zeros (size - List.length l))
    | DErr e => Throw (SystemError e)
    end
  end.

(** ** Discovery: src/DiscoveryManager.cpp:37-99, as MDisc.v *)
Definition disc_catch_on (p : platform) (acc : list entry) (o : outcome (list entry)) : outcome (list entry) :=
  match o with
  | Throw (SystemError e) => if negb (e =? discovery_end p) then Throw (SystemError e) else Ok acc
  | _ => o
  end.
Fixpoint disc_loop_on (h : heap) (p : platform) (acc : list entry) (ds : list dgram) : outcome (list entry) :=
  match bind (udp_on p EIP_MAX_PACKET_SIZE ds) (fun data => disc_reply h data acc), ds with
  | Ok acc', _ :: r => disc_loop_on h p acc' r
  | o, _ => disc_catch_on p acc o
  end.
Definition discover_on (h : heap) (p : platform) (k : dkernel) (broadcast : endpoint) (ds : list dgram)
  : outcome (list entry) * sent_to :=
  match dk_socket k with
  | Some e => (Throw (SystemError e), [])
  | None =>
    match dk_broadcast k with
    | Some e => (Throw (SystemError e), [])
    | None =>
      let data := encaps_pack list_identity_packet in
      let sent := if s_count (dk_send k) <? 0 then []
                  else [(ep_addr broadcast, firstn (Z.to_nat (s_count (dk_send k))) data)] in
      (_ <- send_check (zlen data) (dk_send k) ;; disc_loop_on h p [] ds, sent)
    end
  end.

(** ** select(): src/sockets/BaseSocket.cpp:119-151 *)

(** FD_SET. On Windows a set is an array of 64 sockets; a socket that is not in it
    is added at the end, and left out if the array is full. Otherwise it is an
    array of 1024 bits, and larger descriptors are written behind its end
    (MFd.v). *)
Definition WIN_SETSIZE : nat := 64.
Definition fd_set_win (fds : list Z) : list Z :=
  fold_left (fun set fd => if existsb (Z.eqb fd) set then set
                           else if Nat.ltb (List.length set) WIN_SETSIZE then set ++ [fd] else set) fds [].
Definition UNIX_SETSIZE : Z := 1024.
Definition fd_set_on (p : platform) (fds : list Z) : outcome (list Z) :=
  match p with
  | Windows => Ok (fd_set_win fds)
  | _ => if forallb (fun fd => fd <? UNIX_SETSIZE) fds then Ok fds else Undef UbOobWrite
  end.
(** What is there for sockets outside of the set is not reported (142-147). *)
Fixpoint reported {A} (set fds : list Z) (ready : list (option A)) : list (option A) :=
  match fds, ready with
  | fd :: fds', a :: r => (if existsb (Z.eqb fd) set then a else None) :: reported set fds' r
  | _, _ => []
  end.
(** [fds]: the descriptors of the sockets; [rounds]: what is there for each. *)
Definition select_on {W A} (p : platform) (handler : nat -> A -> st W unit) (fds : list Z) (rounds : list (sel_round A))
    (ending : sel_end) : st W unit :=
  match fds with
  | [] => fun w => (Undef UbDerefEnd, w)
  | _ =>
    match fd_set_on p fds with
    | Ok set => select_rounds handler (List.length fds) (map (fun r => mkRound (reported set fds (sr_ready r)) (sr_now r)) rounds) ending
    | Undef u => fun w => (Undef u, w)
    | Throw e => fun w => (Throw e, w)
    | Abort => fun w => (Abort, w)
    end
  end.

(** ** handleConnections: src/ConnectionManager.cpp:207-227, 239-256 *)
Definition on_readable_on (h : heap) (p : platform) (d : dgram) : st mgr unit := on_readable h (arrival p (Z.to_nat 8192) d).
(** [fds]: the descriptors of the sockets [m_socks] *)
Definition handle_on (h : heap) (p : platform) (fds : list Z) (rounds : list (sel_round dgram)) (ending : sel_end) (env : tick_env)
  : st mgr unit :=
  fun m => st_bind (select_on p (fun _ => on_readable_on h p) fds rounds ending) (fun _ => run_ticks env) m.
