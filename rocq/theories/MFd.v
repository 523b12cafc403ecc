(** Model of the descriptors behind a connection manager: the same code as in
    MConn, with the descriptors that socket() returns. *)
From Verif Require Import Base MBuffer MEip MSocket MConnReq MConn.
Local Open Scope outcome_scope.

(** What happens to descriptors: returned by socket(), passed to another system
    call, passed to close(). *)
Inductive fdev := FOpen (fd : Z) | FUse (fd : Z) | FClose (fd : Z).

(** System calls of one forwardOpen: socket() for the sending socket
    (src/sockets/UDPSocket.cpp:32) and for the receiving one ([inl]: descriptor,
    [inr]: errno), setsockopt() and bind() (src/sockets/UDPBoundSocket.cpp:23, 29),
    the time, inet_aton. *)
Record fd_env := mkFdEnv {
  e_udp : Z + Z; e_rx : Z + Z; e_reuse : failing; e_bind : failing; e_now : Z; e_aton : string -> option Z }.
(** the same without descriptors *)
Definition plain_env (e : fd_env) : fo_env :=
  mkFoEnv (match e_udp e with inl _ => None | inr x => Some x end)
    (match e_rx e with inr x => Some x | inl _ => match e_reuse e with Some x => Some x | None => e_bind e end end)
    (e_now e) (e_aton e).

(** A manager with its descriptors: [f_conn] that of the socket of a connection
    object, [f_rx] those of the receiving sockets, in the order of [m_socks]. *)
Record fmgr := mkFm { f_m : mgr; f_conn : nat -> Z; f_rx : list Z }.
Definition with_m (f : fmgr) (m : mgr) : fmgr := mkFm m (f_conn f) (f_rx f).

(** src/sockets/UDPSocket.cpp:47-51: shutdown(), close() *)
Definition fd_destroy (fd : Z) : list fdev := [FUse fd; FClose fd].
(** Connections whose map entry is gone: the map has the only owning pointers. *)
Definition gone (l l' : list (Z * iocon)) : list (Z * iocon) :=
  filter (fun e => negb (existsb (fun e' => fst e' =? fst e) l')) l.
Definition destroyed (f : fmgr) (l : list (Z * iocon)) : list fdev := flat_map (fun e => fd_destroy (f_conn f (io_oid (snd e)))) l.

(** src/ConnectionManager.cpp:229-262, src/sockets/UDPBoundSocket.cpp:20-32. When
    the constructor of the derived class throws, the base class is destroyed. *)
Definition rx_socket (env : fd_env) (ep : endpoint) (f : fmgr) : outcome unit * fmgr * list fdev :=
  let m := f_m f in
  if existsb (same_key ep) (m_socks m) then (Ok tt, f, [])
  else match e_rx env with
       | inr e => (Throw (SystemError e), f, [])
       | inl fd =>
         match e_reuse env with
         | Some e => (Throw (SystemError e), f, FOpen fd :: FUse fd :: fd_destroy fd)
         | None =>
           match e_bind env with
           | Some e => (Throw (SystemError e), f, FOpen fd :: FUse fd :: FUse fd :: fd_destroy fd)
           | None => (Ok tt, mkFm (mkMgr (m_inc m) (m_map m) (m_socks m ++ [ep]) (m_log m)) (f_conn f) (f_rx f ++ [fd]),
                      [FOpen fd; FUse fd; FUse fd])
           end
         end
       end.

(** src/ConnectionManager.cpp:103-168. The new object is destroyed when an
    exception leaves the function and, since the caller gets a weak pointer only,
    when its key is taken. *)
Definition fo_answer_fd (h : heap) (env : fd_env) (host : string) (large : bool) (c : cparams) (resp : response)
    (gf : globals * fmgr) : outcome (option nat) * (globals * fmgr) * list fdev :=
  let '(g, f) := gf in
  if negb (r_status resp =? 0) then (Ok None, gf, [])
  else
    match (r <- fo_expand h (r_data resp) ;;
           mult <- fo_multiplier (c_multiplier c) ;;
           dest <- fo_dest h (e_aton env) host (r_items resp) ;;
           Ok (r, mult, dest)) with
    | Ok (r, mult, dest) =>
      match e_udp env with
      | inr e => (Throw (SystemError e), gf, [])
      | inl fd =>
        let io := fo_connection large c r mult (g_oid g) (e_now env) dest in
        let g' := mkGlobals (g_serial g) (g_o2t g) (g_t2o g) (S (g_oid g)) in
        let k := u16 (f_t2oId r) in
        match rx_socket env (ep_of_host (e_aton env) host EIP_DEFAULT_IMPLICIT_PORT) f with
        | (Ok _, f', ev) =>
          match map_find k (m_map (f_m f')) with
          | None => (Ok (Some (g_oid g)),
                     (g', mkFm (set_map (f_m f') (map_insert k io (m_map (f_m f')))) (update (f_conn f') (g_oid g) fd) (f_rx f')),
                     FOpen fd :: ev)
          | Some _ => (Ok (Some (g_oid g)), (g', f'), FOpen fd :: ev ++ fd_destroy fd)
          end
        | (Throw e, f', ev) => (Throw e, (g', f'), FOpen fd :: ev ++ fd_destroy fd)
        | (Undef u, f', ev) => (Undef u, (g', f'), FOpen fd :: ev ++ fd_destroy fd)
        | (Abort, f', ev) => (Abort, (g', f'), FOpen fd :: ev ++ fd_destroy fd)
        end
      end
    | Throw e => (Throw e, gf, [])
    | Undef u => (Undef u, gf, [])
    | Abort => (Abort, gf, [])
    end.
(** src/ConnectionManager.cpp:52-168 *)
Definition forward_open_fd {S} (h : heap) (use8 : bool) (si : session_if S) (host : string) (env : fd_env)
    (large : bool) (c : cparams) (w : globals * fmgr * S) : outcome (option nat) * (globals * fmgr * S) * list fdev :=
  let '(g, f, s) := w in
  match fo_prepare large (m_inc (f_m f)) c g with
  | Ok (c', g) =>
    match fo_request large c' with
    | Ok data =>
      let '(o, s) := send_request h si use8 (fo_service large) CM_PATH data [] s in
      match o with
      | Ok resp => let '(o, (g, f), ev) := fo_answer_fd h env host large c resp (g, f) in (o, (g, f, s), ev)
      | Throw e => (Throw e, (g, f, s), [])
      | Undef u => (Undef u, (g, f, s), [])
      | Abort => (Abort, (g, f, s), [])
      end
    | Throw e => (Throw e, (g, f, s), [])
    | Undef u => (Undef u, (g, f, s), [])
    | Abort => (Abort, (g, f, s), [])
    end
  | Throw e => (Throw e, w, [])
  | Undef u => (Undef u, w, [])
  | Abort => (Abort, w, [])
  end.

(** src/sockets/BaseSocket.cpp:120-151. FD_SET of a descriptor that is not below
    FD_SETSIZE writes outside the set (134). *)
Definition FD_SETSIZE : Z := 1024.
Definition settable (rx : list Z) : bool := forallb (fun fd => fd <? FD_SETSIZE) rx.
Fixpoint dispatch_fd (h : heap) (rx : list Z) (ready : list (option dgram)) (m : mgr) : outcome unit * mgr * list fdev :=
  match rx, ready with
  | [], _ | _, [] => (Ok tt, m, [])
  | _ :: rx', None :: r => dispatch_fd h rx' r m
  | fd :: rx', Some d :: r =>
    let '(o, m1) := on_readable h d m in
    match o with
    | Ok _ => let '(o2, m2, ev) := dispatch_fd h rx' r m1 in (o2, m2, FUse fd :: ev)
    | _ => (o, m1, [FUse fd])
    end
  end.
Fixpoint select_fd (h : heap) (rx : list Z) (rounds : list (sel_round dgram)) (ending : sel_end) (m : mgr)
  : outcome unit * mgr * list fdev :=
  match rounds with
  | [] => (match ending with SelQuiet => Ok tt | SelFail e => Throw (SystemError e) end, m, map FUse rx)
  | r :: rs =>
    let '(o, m1, ev) := dispatch_fd h rx (sr_ready r) m in
    match o with
    | Ok _ => let '(o2, m2, ev2) := select_fd h rx rs ending m1 in (o2, m2, map FUse rx ++ ev ++ ev2)
    | _ => (o, m1, map FUse rx ++ ev)
    end
  end.
(** src/ConnectionManager.cpp:207-227; a datagram is sent with the socket of its
    connection *)
Definition sending (f : fmgr) (e : event) : list fdev :=
  match e with EvSent oid _ _ => [FUse (f_conn f oid)] | _ => [] end.
Definition handle_fd (h : heap) (rounds : list (sel_round dgram)) (ending : sel_end) (env : tick_env) (f : fmgr)
  : outcome unit * fmgr * list fdev :=
  match f_rx f with
  | [] => (Undef UbDerefEnd, f, [])
  | _ =>
    if negb (settable (f_rx f)) then (Undef UbOobWrite, f, [])
    else
      let '(o, m1, ev) := select_fd h (f_rx f) rounds ending (f_m f) in
      match o with
      | Ok _ =>
        let '(o2, m2) := run_ticks env m1 in
        let '(_, _, sent) := ticks env (m_map m1) in
        (o2, with_m f m2, ev ++ flat_map (sending f) sent ++ destroyed f (gone (m_map m1) (m_map m2)))
      | _ => (o, with_m f m1, ev)
      end
  end.

(** Calls as in MConn, and the destruction of a manager: the sockets
    (src/ConnectionManager.h:79), then the connections (78). A new manager may
    take its place. *)
Inductive fcall (S : Type) :=
| FCOpen (use8 : bool) (si : session_if S) (host : string) (env : fd_env) (large : bool) (c : cparams)
| FCClose (use8 : bool) (si : session_if S) (oid : nat)
| FCHandle (rounds : list (sel_round dgram)) (ending : sel_end) (env : tick_env)
| FCData (oid : nat) (d : bytes)
| FCDestroy (inc : Z).
Arguments FCOpen {S} _ _ _ _ _ _.
Arguments FCClose {S} _ _ _.
Arguments FCHandle {S} _ _ _.
Arguments FCData {S} _ _.
Arguments FCDestroy {S} _.
Definition call_fd {S} (h : heap) (op : fcall S) (w : globals * fmgr * S) : outcome (option nat) * (globals * fmgr * S) * list fdev :=
  let '(g, f, s) := w in
  match op with
  | FCOpen use8 si host env large c => forward_open_fd h use8 si host env large c w
  | FCClose use8 si oid =>
    let '(o, (m, s)) := forward_close h use8 si (lock oid (f_m f)) (f_m f, s) in
    (omap (fun _ => None) o, (g, with_m f m, s), destroyed f (gone (m_map (f_m f)) (m_map m)))
  | FCHandle rounds ending env =>
    let '(o, f, ev) := handle_fd h rounds ending env f in (omap (fun _ => None) o, (g, f, s), ev)
  | FCData oid d => (Ok None, (g, with_m f (set_output oid d (f_m f)), s), [])
  | FCDestroy inc => (Ok None, (g, mkFm (mgr0 inc) (f_conn f) [], s), flat_map fd_destroy (f_rx f) ++ destroyed f (m_map (f_m f)))
  end.
Record fworld (S : Type) := mkFw { v_g : globals; v_f : nat -> fmgr; v_s : S; v_ev : list fdev }.
Arguments mkFw {S} _ _ _ _.
Arguments v_g {S} _.
Arguments v_f {S} _ _.
Arguments v_s {S} _.
Arguments v_ev {S} _.
Definition call_fw {S} (h : heap) (i : nat) (op : fcall S) (w : fworld S) : outcome (option nat) * fworld S :=
  let '(o, (g, f, s), ev) := call_fd h op (v_g w, v_f w i, v_s w) in (o, mkFw g (update (v_f w) i f) s (v_ev w ++ ev)).
Fixpoint run_fw {S} (h : heap) (ops : list (nat * fcall S)) (w : fworld S) : fworld S :=
  match ops with [] => w | (i, op) :: r => run_fw h r (snd (call_fw h i op w)) end.
Definition start_fw {S} (inc : nat -> Z) (s : S) : fworld S := mkFw globals0 (fun i => mkFm (mgr0 (inc i)) (fun _ => 0) []) s [].

(** src/sockets/TCPSocket.cpp:31-111 for the descriptor [fd]: when connect() has
    to be waited for, it is put into an fd_set (73). *)
Definition tcp_connect_fd (fd : Z) (k : calls) : outcome unit * descriptor :=
  match k_socket k, k_getfl1 k, k_setfl1 k, k_connect k with
  | None, None, None, Some e =>
    if (e =? EINPROGRESS) && (FD_SETSIZE <=? fd) then (Undef UbOobWrite, OpenFd (Z.lor (k_flags k) O_NONBLOCK)) else tcp_connect k
  | _, _, _, _ => tcp_connect k
  end.
