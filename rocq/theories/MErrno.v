(** Model: error numbers and log output of the sockets (src/sockets/*.cpp) and of
    the discovery (src/DiscoveryManager.cpp). MSocket and MDisc hand the error
    number of a failed call to the code directly; here it is in [errno], where
    anything that runs in between can change it (src/sockets/BaseSocket.cpp:54-60). *)
From Verif Require Import Base MBuffer MEip MSocket MIdent MDisc MLog.
Local Open Scope outcome_scope.

(** A thread: errno and the logger. Calls that succeed leave errno as it is, as
    those of Linux do. *)
Record thread := mkThread { t_errno : Z; t_log : logger }.
Definition set_errno (e : Z) (t : thread) : thread := mkThread e (t_log t).

(** What the printing of a message leaves in errno. An appender may call anything
    (the console writes to a file), so any function is possible. *)
Definition noise := logger -> level -> string -> Z -> Z.

(** A message, src/utils/Logger.cpp:14-22. Building the text does not change
    errno (memory exhaustion is left out). *)
Definition say (n : noise) (l : level) (pieces : list string) : st thread unit :=
  fun t =>
    let s := t_log t in
    let '(o, s') := log l pieces s in
    (o, mkThread (if negb (level_value (lg_level s) =? level_value OFF) && (level_value l <=? level_value (lg_level s))
                  then n s l (String.concat "" pieces) (t_errno t) else t_errno t) s').

(** A call that fails or not; src/sockets/BaseSocket.cpp:54-60. *)
Definition call_sys (f : failing) : st thread unit :=
  fun t => match f with None => (Ok tt, t) | Some e => let t1 := set_errno e t in (Throw (SystemError (t_errno t1)), t1) end.
(** the same with the result ignored *)
Definition call_ignored (f : failing) : st thread unit :=
  fun t => (Ok tt, match f with None => t | Some e => set_errno e t end).

(** What send() or sendto() does: it accepts some bytes, or it fails. *)
Inductive sending := Took (count : Z) | Refused (e : Z).

(** src/sockets/TCPSocket.cpp:127-139 and src/sockets/UDPSocket.cpp:53-67. The
    result -1 becomes 2^64 - 1 in the comparison. *)
Definition send_e (n : noise) (kind : string) (fd size : Z) (r : sending) : st thread unit :=
  st_bind (say n TRACE ["Send "; to_string size; " bytes from "; kind; " socket #"; to_string fd; "."]%string) (fun _ t =>
    match r with
    | Took count => (if count <? size then Throw (SystemError (t_errno t)) else Ok tt, t)
    | Refused e => (if 2 ^ 64 - 1 <? size then Throw (SystemError e) else Ok tt, set_errno e t)
    end).

(** src/sockets/UDPSocket.cpp:69-79 and 81-94: the message is written before the
    error is looked at. *)
Definition udp_receive_e (n : noise) (fd : Z) (size : nat) : st (thread * list dgram) bytes :=
  fun '(t, ds) =>
    let '(len, buf, t1, rest) :=
      match ds with
      | [] => (-1, zeros size, set_errno EAGAIN t, [])
      | Dgram l :: r => (Z.min (zlen l) (Z.of_nat size), firstn size l ++ zeros (size - List.length l), t, r)
      | DErr e :: r => (-1, zeros size, set_errno e t, r)
      end in
    let '(o, t2) := say n TRACE ["Received "; (if (len <? 0)%Z then "-1" else to_string len); " bytes from UDP socket #";
                                 to_string fd; "."]%string t1 in
    (_ <- o ;; if len <? 0 then Throw (SystemError (t_errno t2)) else Ok buf, (t2, rest)).

(** src/sockets/TCPSocket.cpp:141-169: lines 144-161 ([size - count] is [n], see
    MSocket). The error is looked at before anything is written. *)
Fixpoint recv_loop_e (ns : noise) (fd : Z) (n : nat) (acc : bytes) (segs : list seg) (t : thread)
  : outcome bytes * (thread * list seg) :=
  match n with
  | O => (Ok acc, (t, segs))
  | _ =>
    let received (len : nat) := say ns TRACE ["Received "; to_string (Z.of_nat len); " bytes from TCP socket #";
                                              to_string fd; "."]%string in
    match segs with
    | [] => let t1 := set_errno EAGAIN t in (Throw (SystemError (t_errno t1)), (t1, []))
    | Data l :: r =>
      if Nat.leb (List.length l) n then
        match l with
        | [] => recv_loop_e ns fd (n - List.length l) (acc ++ l) r t
        | _ =>
          match received (List.length l) t with
          | (Ok _, t1) => recv_loop_e ns fd (n - List.length l) (acc ++ l) r t1
          | (o, t1) => (_ <- o ;; Ok [], (t1, r))
          end
        end
      else let '(o, t1) := received n t in (_ <- o ;; Ok (acc ++ firstn n l), (t1, Data (skipn n l) :: r))
    | Err e :: r =>
      let t1 := set_errno e t in
      if t_errno t1 =? EINTR then recv_loop_e ns fd n acc r t1 else (Throw (SystemError (t_errno t1)), (t1, r))
    | Eof :: r => let '(o, t1) := received 0%nat t in (_ <- o ;; Ok acc, (t1, Eof :: r))
    end
  end.

(** lines 163-168: missing bytes are zeros in the buffer. *)
Definition tcp_receive_e (ns : noise) (fd : Z) (from : endpoint) (size : nat) : st (thread * list seg) bytes :=
  fun '(t, segs) =>
    match recv_loop_e ns fd size [] segs t with
    | (Ok got, (t1, segs1)) =>
      if negb (Nat.eqb size (List.length got)) then
        let '(o, t2) := say ns WARNING ["Received from "; ep_to_string from; " "; to_string (zlen got); " of ";
                                        to_string (Z.of_nat size)]%string t1 in
        (_ <- o ;; Ok (got ++ zeros (size - List.length got)), (t2, segs1))
      else (Ok got, (t1, segs1))
    | r => r
    end.

(** src/sockets/TCPSocket.cpp:31-111. shutdown() is not called if the constructor
    fails; [k_close] is the result of close() (line 107). The descriptor is in
    MSocket. *)
Definition tcp_connect_e (ns : noise) (fd : Z) (to : endpoint) (k : calls) (k_close : failing) : st thread unit :=
  st_bind (call_sys (k_socket k)) (fun _ =>
  st_bind (call_sys (k_getfl1 k)) (fun _ =>
  st_bind (call_sys (k_setfl1 k)) (fun _ =>
  st_bind (say ns DEBUG ["Opened TCP socket fd="; to_string fd]%string) (fun _ =>
  st_bind (say ns DEBUG ["Connecting to "; ep_to_string to]%string) (fun _ t =>
    match
      st_bind (fun t =>
        match k_connect k with
        | None => (Ok tt, t)
        | Some e =>
          let t1 := set_errno e t in
          if t_errno t1 =? EINPROGRESS then
            let '(res, err) := k_select k in
            let t2 := if res <? 0 then set_errno err t1 else t1 in
            if (res <? 0) && negb (t_errno t2 =? EINTR) then (Throw (SystemError (t_errno t2)), t2)
            else if 0 <? res then
              st_bind (call_sys (k_getsockopt k)) (fun _ t3 =>
                (if negb (k_soerr k =? 0) then Throw (SystemError (k_soerr k)) else Ok tt, t3)) t2
            else (Throw (SystemError ETIMEDOUT), t2)
          else (Throw (SystemError (t_errno t1)), t1)
        end) (fun _ =>
      st_bind (call_sys (k_getfl2 k)) (fun _ => call_sys (k_setfl2 k))) t
    with
    | (Throw e, t1) => (Throw e, snd (call_ignored k_close t1))
    | r => r
    end))))).

(** src/sockets/UDPSocket.cpp:29-51 and 47-51: what is done with a socket between
    its constructor and its destructor. [k_shutdown] and [k_close] are the results
    of the calls of the destructor (src/sockets/BaseSocket.cpp:38-52; shutdown() of
    an unconnected socket fails). *)
Definition with_udp {A} (ns : noise) (fd : Z) (k_socket k_shutdown k_close : failing) (body : st thread A) : st thread A :=
  st_bind (call_sys k_socket) (fun _ =>
  st_bind (say ns DEBUG ["Opened UDP socket fd="; to_string fd]%string) (fun _ t =>
    let '(o, t1) := body t in
    match o with
    | Undef _ | Abort => (o, t1)
    | _ => st_bind (say ns DEBUG ["Close UDP socket fd="; to_string fd]%string) (fun _ =>
           st_bind (call_ignored k_shutdown) (fun _ =>
           st_bind (call_ignored k_close) (fun _ t2 => (o, t2)))) t1
    end)).

(** src/DiscoveryManager.cpp:43-86, see MDisc. *)
Fixpoint disc_loop_e (ns : noise) (h : heap) (fd : Z) (acc : list entry) (ds : list dgram) (t : thread)
  : outcome (list entry) * thread :=
  match ds with
  | [] => let '(o, (t1, _)) := udp_receive_e ns fd EIP_MAX_PACKET_SIZE (t, []) in
          (disc_catch acc (bind o (fun _ => Ok acc)), t1)
  | d :: r =>
    let '(o, (t1, _)) := udp_receive_e ns fd EIP_MAX_PACKET_SIZE (t, d :: r) in
    match bind o (fun data => disc_reply h data acc) with
    | Ok acc' => disc_loop_e ns h fd acc' r t1
    | o' => (disc_catch acc o', t1)
    end
  end.

(** The calls of the discovery: socket(), setsockopt() of SO_RCVTIMEO and of
    SO_BROADCAST, sendto(), shutdown(), close(). *)
Record dcalls := mkDcalls {
  d_socket : failing; d_timeout : failing; d_broadcast : failing; d_send : sending; d_shutdown : failing; d_close : failing }.

(** src/DiscoveryManager.cpp:37-99, src/sockets/BaseSocket.cpp:78-89 *)
Definition discover_e (ns : noise) (h : heap) (fd : Z) (k : dcalls) (ds : list dgram) : st thread (list entry) :=
  with_udp ns fd (d_socket k) (d_shutdown k) (d_close k)
    (st_bind (call_ignored (d_timeout k)) (fun _ =>
     st_bind (call_sys (d_broadcast k)) (fun _ =>
     st_bind (send_e ns "UDP" fd (zlen (encaps_pack list_identity_packet)) (d_send k)) (fun _ =>
     disc_loop_e ns h fd [] ds)))).
