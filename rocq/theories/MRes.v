(** Model of the descriptors behind sessions and discovery: the same code as in
    MSocket and MDisc, with the descriptors that socket() returns. Calls of recv()
    made by one Receive are recorded as one use. *)
From Verif Require Import Base MBuffer MEip MIdent MSocket MDisc MConn MFd.
Local Open Scope outcome_scope.

(** ** Discovery *)

(** src/DiscoveryManager.cpp:43-86: one recvfrom() in each turn *)
Fixpoint disc_loop_fd (h : heap) (fd : Z) (acc : list entry) (ds : list dgram) : outcome (list entry) * list fdev :=
  match ds with
  | [] => (disc_catch acc (bind (fst (udp_receive EIP_MAX_PACKET_SIZE [])) (fun _ => Ok acc)), [FUse fd])
  | d :: r =>
    match bind (fst (udp_receive EIP_MAX_PACKET_SIZE (d :: r))) (fun data => disc_reply h data acc) with
    | Ok acc' => let '(o, ev) := disc_loop_fd h fd acc' r in (o, FUse fd :: ev)
    | o => (disc_catch acc o, [FUse fd])
    end
  end.

(** The end of the scope of a local socket: destroyed on return and when an
    exception passes; not after undefined behaviour or the end of the program. *)
Definition leave_scope {A} (fd : Z) (o : outcome A) : list fdev :=
  match o with Ok _ | Throw _ => fd_destroy fd | _ => [] end.

(** src/DiscoveryManager.cpp:37-99: socket(), setsockopt() of SO_RCVTIMEO and of
    SO_BROADCAST, sendto(), the loop. [sock]: descriptor or errno. *)
Definition discover_fd (h : heap) (sock : Z + Z) (option_failed : failing) (sent : send_result) (broadcast : endpoint) (ds : list dgram)
  : outcome (list entry) * sent_to * list fdev :=
  match sock with
  | inr e => (Throw (SystemError e), [], [])
  | inl fd =>
    match option_failed with
    | Some e => (Throw (SystemError e), [], [FOpen fd; FUse fd; FUse fd] ++ fd_destroy fd)
    | None =>
      let data := encaps_pack list_identity_packet in
      let out := if s_count sent <? 0 then [] else [(ep_addr broadcast, firstn (Z.to_nat (s_count sent)) data)] in
      match send_check (zlen data) sent with
      | Ok _ =>
        let '(o, ev) := disc_loop_fd h fd [] ds in
        (o, out, [FOpen fd; FUse fd; FUse fd; FUse fd] ++ ev ++ leave_scope fd o)
      | Throw e => (Throw e, out, [FOpen fd; FUse fd; FUse fd; FUse fd] ++ fd_destroy fd)
      | Undef u => (Undef u, out, [FOpen fd; FUse fd; FUse fd; FUse fd])
      | Abort => (Abort, out, [FOpen fd; FUse fd; FUse fd; FUse fd])
      end
    end
  end.

(** ** Sessions *)

(** src/sockets/TCPSocket.cpp:64-96: connect(), select(), getsockopt() *)
Definition wait_events (fd : Z) (k : calls) : list fdev :=
  match k_connect k with
  | Some e =>
    if e =? EINPROGRESS then
      if 0 <? fst (k_select k) then [FUse fd; FUse fd; FUse fd] else [FUse fd; FUse fd]
    else [FUse fd]
  | None => [FUse fd]
  end.
(** src/sockets/TCPSocket.cpp:98-107: fcntl() twice *)
Definition blocking_events (fd : Z) (k : calls) : list fdev :=
  match k_getfl2 k with Some _ => [FUse fd] | None => [FUse fd; FUse fd] end.
(** src/sockets/TCPSocket.cpp:31-111: socket(), fcntl() twice, the [try] block;
    Close() without Shutdown() when an exception passes (110). *)
Definition connect_events (fd : Z) (k : calls) : list fdev :=
  match k_socket k with
  | Some _ => []
  | None =>
    match k_getfl1 k with
    | Some _ => [FOpen fd; FUse fd]
    | None =>
      match k_setfl1 k with
      | Some _ => [FOpen fd; FUse fd; FUse fd]
      | None =>
        [FOpen fd; FUse fd; FUse fd] ++ wait_events fd k
        ++ match tcp_connect_wait k with Ok _ => blocking_events fd k | _ => [] end
        ++ match tcp_connect_fd fd k with (Throw _, _) => [FClose fd] | _ => [] end
      end
    end
  end.

(** src/SessionInfo.cpp:47-52: send(), recv() for the header and, unless it
    announces no data, recv() for the data. *)
Definition exchange_events (h : heap) (p : peer) (fd : Z) (q : encaps) (w : net) : list fdev :=
  match net_send p (encaps_pack q) w with
  | (Ok _, w) =>
    FUse fd :: match net_receive HEADER_SIZE w with
               | (Ok header, _) =>
                 FUse fd :: match length_from_header h header with
                            | Ok len => if len =? 0 then [] else [FUse fd]
                            | _ => []
                            end
               | _ => [FUse fd]
               end
  | _ => [FUse fd]
  end.

(** src/SessionInfo.cpp:20-35: the socket, setsockopt() of SO_RCVTIMEO, the
    registration; the socket is destroyed when the latter throws. *)
Definition session_open_fd (h : heap) (fd : Z) (k : calls) (p : peer) (w : net) : outcome Z * net * list fdev :=
  match tcp_connect_fd fd k with
  | (Ok _, _) =>
    let '(o, w') := session_register h p w in
    (o, w', connect_events fd k ++ [FUse fd] ++ exchange_events h p fd register_packet w
            ++ match o with Throw _ => fd_destroy fd | _ => [] end)
  | (Throw e, _) => (Throw e, w, connect_events fd k)
  | (Undef u, _) => (Undef u, w, connect_events fd k)
  | (Abort, _) => (Abort, w, connect_events fd k)
  end.

(** src/SessionInfo.cpp:41-45 and the destructor of the socket
    (src/sockets/TCPSocket.cpp:121-125) *)
Definition session_close_fd (p : peer) (handle fd : Z) (w : net) : outcome unit * list fdev :=
  let o := fst (session_destroy p handle w) in (o, FUse fd :: leave_scope fd o).

(** ** Programs that use sessions and discovery *)

(** A session object: its handle, its descriptor, the other end and the network. *)
Record live := mkLive { lv_handle : Z; lv_fd : Z; lv_peer : peer; lv_net : net }.
(** Sessions are numbered as their construction is begun. [sock] of ROpen is
    what socket() returns if it does not fail (k_socket). *)
Inductive rcall :=
| ROpen (sock : Z) (k : calls) (p : peer) (w : net)
| RSend (i : nat) (q : encaps)
| RClose (i : nat)
| RDiscover (sock : Z + Z) (option_failed : failing) (sent : send_result) (broadcast : endpoint) (ds : list dgram).
Record rworld := mkRw { rw_next : nat; rw_live : nat -> option live; rw_ev : list fdev; rw_over : bool }.
Definition rstart : rworld := mkRw 0 (fun _ => None) [] false.

(** Undefined behaviour and std::terminate end the program. *)
Definition ends {A} (o : outcome A) : bool := match o with Ok _ | Throw _ => false | _ => true end.
(** One call; calls on sessions that do not exist are not made. *)
Definition rstep (h : heap) (c : rcall) (s : rworld) : rworld :=
  match c with
  | ROpen fd k p w =>
    let '(o, w', ev) := session_open_fd h fd k p w in
    mkRw (S (rw_next s))
      (match o with Ok handle => update (rw_live s) (rw_next s) (Some (mkLive handle fd p w')) | _ => rw_live s end)
      (rw_ev s ++ ev) (ends o)
  | RSend i q =>
    match rw_live s i with
    | None => s
    | Some v =>
      let '(o, w') := send_and_receive h (lv_peer v) (lv_handle v) q (lv_net v) in
      mkRw (rw_next s) (update (rw_live s) i (Some (mkLive (lv_handle v) (lv_fd v) (lv_peer v) w')))
        (rw_ev s ++ exchange_events h (lv_peer v) (lv_fd v) q (lv_net v)) (ends o)
    end
  | RClose i =>
    match rw_live s i with
    | None => s
    | Some v =>
      let '(o, ev) := session_close_fd (lv_peer v) (lv_handle v) (lv_fd v) (lv_net v) in
      mkRw (rw_next s) (update (rw_live s) i None) (rw_ev s ++ ev) (ends o)
    end
  | RDiscover sock b sent ep ds =>
    let '(o, _, ev) := discover_fd h sock b sent ep ds in mkRw (rw_next s) (rw_live s) (rw_ev s ++ ev) (ends o)
  end.
Fixpoint rrun (h : heap) (cs : list rcall) (s : rworld) : rworld :=
  match cs with
  | [] => s
  | c :: r => if rw_over s then s else rrun h r (rstep h c s)
  end.
