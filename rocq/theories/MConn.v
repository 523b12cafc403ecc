(** Model of src/ConnectionManager.cpp, src/IOConnection.cpp and
    BaseSocket::select. Log output is not modelled. Listeners are assumed not to
    throw and not to call the library; the send listener is an arbitrary
    function of the data, different for every call. *)
From Verif Require Import Base MBuffer MEip MSocket MConnReq.
Local Open Scope outcome_scope.

(** ** IOConnection *)

(** src/IOConnection.h:72-109 ([_t2o_timer] and [_t2oSequenceNumber] are never
    used; the listeners are inputs of [io_tick] or events). [io_oid] names the
    object: it stands for the address a weak_ptr points to. [io_dest] is the
    remote end point of [_socket]. [io_last] is in nanoseconds. *)
Record iocon := mkIo {
  io_oid : nat; io_o2tId : Z; io_t2oId : Z; io_o2tAPI : Z; io_t2oAPI : Z;
  io_o2tSize : Z; io_t2oSize : Z; io_o2tFixed : bool; io_t2oFixed : bool;
  io_o2tTimer : Z; io_mult : Z; io_tcount : Z; io_o2tSeq : Z; io_serial : Z;
  io_trigger : Z; io_o2tRTF : bool; io_t2oRTF : bool; io_seqCount : Z; io_path : bytes;
  io_vendor : Z; io_orig : Z; io_out : bytes; io_dest : endpoint; io_last : Z }.

(** What an observer sees: the receive listener is called, the close listener
    is called, a datagram is handed to sendto(). *)
Inductive event :=
| EvData (oid : nat) (header seq : Z) (data : bytes)
| EvClosed (oid : nat)
| EvSent (oid : nat) (dest : endpoint) (data : bytes).

(** the test of src/ConnectionManager.cpp:76-77, src/IOConnection.cpp:77-78, 117-118 *)
Definition has_seq (trigger : Z) : bool := (0 <? Z.land trigger 1) || (0 <? Z.land trigger 3).

(** src/IOConnection.cpp:52-54 *)
Definition io_set_output (c : iocon) (d : bytes) : iocon :=
  mkIo (io_oid c) (io_o2tId c) (io_t2oId c) (io_o2tAPI c) (io_t2oAPI c) (io_o2tSize c) (io_t2oSize c)
    (io_o2tFixed c) (io_t2oFixed c) (io_o2tTimer c) (io_mult c) (io_tcount c) (io_o2tSeq c) (io_serial c)
    (io_trigger c) (io_o2tRTF c) (io_t2oRTF c) (io_seqCount c) (io_path c) (io_vendor c) (io_orig c)
    d (io_dest c) (io_last c).
Definition io_set_tcount (c : iocon) (t : Z) : iocon :=
  mkIo (io_oid c) (io_o2tId c) (io_t2oId c) (io_o2tAPI c) (io_t2oAPI c) (io_o2tSize c) (io_t2oSize c)
    (io_o2tFixed c) (io_t2oFixed c) (io_o2tTimer c) (io_mult c) t (io_o2tSeq c) (io_serial c)
    (io_trigger c) (io_o2tRTF c) (io_t2oRTF c) (io_seqCount c) (io_path c) (io_vendor c) (io_orig c)
    (io_out c) (io_dest c) (io_last c).
(** the counters written by notifyTick *)
Definition io_set_tick (c : iocon) (tcount last timer seq count : Z) (out : bytes) : iocon :=
  mkIo (io_oid c) (io_o2tId c) (io_t2oId c) (io_o2tAPI c) (io_t2oAPI c) (io_o2tSize c) (io_t2oSize c)
    (io_o2tFixed c) (io_t2oFixed c) timer (io_mult c) tcount seq (io_serial c)
    (io_trigger c) (io_o2tRTF c) (io_t2oRTF c) count (io_path c) (io_vendor c) (io_orig c)
    out (io_dest c) last.

(** src/IOConnection.cpp:68-92. [data.begin() + pos] beyond the end is
    undefined. *)
Definition io_receive (h : heap) (c : iocon) (data : bytes) : outcome (iocon * list event) :=
  let b := buf_of data in
  '(hdr, b) <- (if io_t2oRTF c then get_u32 h b else Ok (0, b)) ;;
  '(seq, b) <- (if has_seq (io_trigger c) then get_u16 h b else Ok (0, b)) ;;
  if negb (buf_valid b) then Undef UbOobRead
  else
    let ioData := skipn (bpos b) data in
    if io_t2oFixed c && negb (zlen ioData =? io_t2oSize c) then Ok (c, [])
    else Ok (io_set_tcount c 0, [EvData (io_oid c) hdr seq ioData]).

(** src/IOConnection.cpp:94-142 at time [now] (nanoseconds); [hook] is the send
    listener, [sr] the result of sendto() for a datagram of the given size. Returned are the result (false: the
    connection is to be removed), the new object and the events. *)
Definition io_tick (now : Z) (hook : bytes -> bytes) (sr : Z -> send_result) (c : iocon)
  : outcome bool * iocon * list event :=
  let period := Z.quot (now - io_last c) 1000000 * 1000 in
  let tcount := u32 (io_tcount c + period) in
  if u32 (io_mult c * io_t2oAPI c) <? tcount then
    (Ok false, io_set_tcount c tcount, [EvClosed (io_oid c)])
  else
    let timer := u32 (io_o2tTimer c + period) in
    if io_o2tAPI c <=? timer then
      let seq := u32 (io_o2tSeq c + 1) in
      let addr := item_sequenced (io_o2tId c) seq in
      let count := if has_seq (io_trigger c) then u16 (io_seqCount c + 1) else io_seqCount c in
      let b := if has_seq (io_trigger c) then put_u16 buf_new count else buf_new in
      let b := if io_o2tRTF c then put_u32 b 1 else b in
      let out := hook (io_out c) in
      let c' := io_set_tick c tcount now 0 seq count out in
      if io_o2tFixed c && negb (zlen out =? io_o2tSize c) then (Ok true, c', [])
      else
        let packet := cp_pack [addr; item_connected (bdata (put_bytes b out))] in
        (omap (fun _ => true) (send_check (zlen packet) (sr (zlen packet))), c', [EvSent (io_oid c) (io_dest c) packet])
    else (Ok true, io_set_tick c tcount now timer (io_o2tSeq c) (io_seqCount c) (io_out c), []).

(** ** ConnectionManager *)

(** The function-local statics of forwardOpen, shared by all managers: the
    serial number counter (src/ConnectionManager.cpp:54) and the two id counters
    (61, 66), not initialised before their first use. [g_oid] is no program
    variable: it names the next IOConnection object. *)
Record globals := mkGlobals { g_serial : Z; g_o2t : option Z; g_t2o : option Z; g_oid : nat }.
Definition globals0 : globals := mkGlobals 0 None None 0.

(** src/ConnectionManager.h:77-82. [m_map] is the std::map in key order (keys
    are 16 bits wide); [m_socks] are the keys of [_socketMap], in the order of
    their creation (the code visits the sockets in key order; their handlers are
    the same, so this only names the datagrams of a round differently); [m_log]
    collects the events. *)
Record mgr := mkMgr { m_inc : Z; m_map : list (Z * iocon); m_socks : list endpoint; m_log : list event }.
Definition mgr0 (inc : Z) : mgr := mkMgr inc [] [] [].

Definition set_map (m : mgr) l := mkMgr (m_inc m) l (m_socks m) (m_log m).
Definition add_log (m : mgr) e := mkMgr (m_inc m) (m_map m) (m_socks m) (m_log m ++ e).

(** std::map<CipUint, ...>: find, insert (an existing key is kept), erase *)
Definition map_find (k : Z) (l : list (Z * iocon)) : option iocon :=
  option_map snd (find (fun e => fst e =? k) l).
Fixpoint map_insert (k : Z) (c : iocon) (l : list (Z * iocon)) : list (Z * iocon) :=
  match l with
  | [] => [(k, c)]
  | (k', c') :: r =>
    if k <? k' then (k, c) :: l else if k =? k' then l else (k', c') :: map_insert k c r
  end.
Definition map_erase (k : Z) (l : list (Z * iocon)) : list (Z * iocon) :=
  filter (fun e => negb (fst e =? k)) l.
Definition map_update (k : Z) (c : iocon) (l : list (Z * iocon)) : list (Z * iocon) :=
  map (fun e => if fst e =? k then (k, c) else e) l.

(** src/ConnectionManager.cpp:53-88: counters, ids, sizes. Incrementing the
    int counter at its maximum is undefined. *)
Definition nonzero (b : Z) : bool := negb (b =? 0).
Definition next_serial (g : globals) : outcome (Z * globals) :=
  if g_serial g =? 2147483647 then Undef UbSignedOverflow
  else Ok (u16 (g_serial g + 1), mkGlobals (g_serial g + 1) (g_o2t g) (g_t2o g) (g_oid g)).
Definition next_o2t (inc : Z) (g : globals) : Z * globals :=
  let cur := match g_o2t g with Some v => v | None => u16 (Z.shiftl inc 16) end in
  let v := u16 (cur + 1) in (v, mkGlobals (g_serial g) (Some v) (g_t2o g) (g_oid g)).
Definition next_t2o (inc : Z) (g : globals) : Z * globals :=
  let cur := match g_t2o g with Some v => v | None => u32 (Z.shiftl inc 16) end in
  let v := u32 (cur + 1) in (v, mkGlobals (g_serial g) (g_o2t g) (Some v) (g_oid g)).

Definition MULTICAST : Z := 1.
Definition P2P : Z := 2.

Definition fo_prepare (large : bool) (inc : Z) (c : cparams) (g : globals) : outcome (cparams * globals) :=
  '(serial, g) <- next_serial g ;;
  let '(o2tId, g) := if ncp_conn_type large (c_o2tParams c) =? MULTICAST then next_o2t inc g else (c_o2tId c, g) in
  let '(t2oId, g) := if ncp_conn_type large (c_t2oParams c) =? P2P then next_t2o inc g else (c_t2oId c, g) in
  let psize := u8 (zlen (c_path c) / 2 + zlen (c_path c) mod 2) in
  let o2t := if has_seq (c_trigger c) then u32 (c_o2tParams c + 2) else c_o2tParams c in
  let t2o := if has_seq (c_trigger c) then u32 (c_t2oParams c + 2) else c_t2oParams c in
  let o2t := if nonzero (c_o2tRTF c) then u32 (o2t + 4) else o2t in
  let t2o := if nonzero (c_t2oRTF c) then u32 (t2o + 4) else t2o in
  Ok (mkCParams (c_priorityTimeTick c) (c_timeoutTicks c) o2tId t2oId serial (c_vendor c) (c_origSerial c)
        (c_multiplier c) (c_o2tRPI c) o2t (c_t2oRPI c) t2o (c_trigger c) psize (c_o2tRTF c) (c_t2oRTF c) (c_path c), g).

(** lines 90-101 *)
Definition CM_PATH : epath := epath2 6 1.
Definition fo_service (large : bool) : Z := if large then 91 else 84.   (* 0x5B, 0x54 *)
Definition fo_request (large : bool) (c : cparams) : outcome bytes := if large then lfo_pack c else fo_pack c.

(** lines 111-129; [c] are the parameters as given by the caller (sizes and
    types, 70-71), the other fields are the same in the prepared ones. The
    multiplier is stored in 8 bits; shifting an int by 32 or more is undefined
    (shifting out of it is not, in C++20). *)
Definition fo_multiplier (m : Z) : outcome Z := if 32 <=? m then Undef UbShift else Ok (u8 (Z.shiftl 4 m)).
Definition fo_connection (large : bool) (c : cparams) (r : fo_response) (mult : Z) (oid : nat) (now : Z)
    (dest : endpoint) : iocon :=
  mkIo oid (f_o2tId r) (f_t2oId r) (f_o2tApi r) (f_t2oApi r)
        (ncp_size large (c_o2tParams c)) (ncp_size large (c_t2oParams c))
        (ncp_size_type large (c_o2tParams c) =? 0) (ncp_size_type large (c_t2oParams c) =? 0)
        0 mult 0 0 (f_serial r) (c_trigger c)
        (nonzero (c_o2tRTF c)) (nonzero (c_t2oRTF c)) 0 (c_path c) (c_vendor c) (c_origSerial c) [] dest now.

(** lines 131-149 *)
Definition EIP_DEFAULT_IMPLICIT_PORT : Z := 2222.
Definition fo_dest (h : heap) (aton : string -> option Z) (host : string) (items : list cpitem) : outcome endpoint :=
  match find (fun i => it_type i =? O2T_SOCKADDR_INFO) items with
  | Some i =>
    '(ep, _) <- get_endpoint h (buf_of (it_data i)) ;;
    Ok (if String.eqb (ep_host ep) "0.0.0.0"%string then ep_of_host aton host (ep_port ep) else ep)
  | None => Ok (ep_of_host aton host EIP_DEFAULT_IMPLICIT_PORT)
  end.

(** System calls of one forwardOpen: creating the sending socket
    (src/sockets/UDPSocket.cpp:32-35) and, if a socket for receiving is needed,
    creating and binding it (src/sockets/UDPBoundSocket.cpp:20-32); the time at
    which the object is created; inet_aton. *)
Record fo_env := mkFoEnv {
  v_udp : failing; v_bind : failing; v_now : Z; v_aton : string -> option Z }.

(** src/ConnectionManager.cpp:229-262 *)
Definition same_key (a b : endpoint) : bool := negb (ep_ltb a b) && negb (ep_ltb b a).
Definition find_or_create_socket (bindres : failing) (ep : endpoint) (m : mgr) : outcome unit * mgr :=
  if existsb (same_key ep) (m_socks m) then (Ok tt, m)
  else match bindres with
       | Some e => (Throw (SystemError e), m)
       | None => (Ok tt, mkMgr (m_inc m) (m_map m) (m_socks m ++ [ep]) (m_log m))
       end.

Definition checked (f : failing) : outcome unit :=
  match f with Some e => Throw (SystemError e) | None => Ok tt end.

(** lines 106-162: what happens with the answer *)
Definition fo_answer (h : heap) (env : fo_env) (host : string) (large : bool) (c : cparams) (resp : response)
    (gm : globals * mgr) : outcome (option nat) * (globals * mgr) :=
  let '(g, m) := gm in
  if negb (r_status resp =? 0) then (Ok None, gm)
  else
    match (r <- fo_expand h (r_data resp) ;;
           mult <- fo_multiplier (c_multiplier c) ;;
           dest <- fo_dest h (v_aton env) host (r_items resp) ;;
           _ <- checked (v_udp env) ;;
           Ok (r, fo_connection large c r mult (g_oid g) (v_now env) dest)) with
    | Ok (r, io) =>
      let g' := mkGlobals (g_serial g) (g_o2t g) (g_t2o g) (S (g_oid g)) in
      match find_or_create_socket (v_bind env) (ep_of_host (v_aton env) host EIP_DEFAULT_IMPLICIT_PORT) m with
      | (Ok _, m') => (Ok (Some (g_oid g)), (g', set_map m' (map_insert (u16 (f_t2oId r)) io (m_map m'))))
      | (Throw e, m') => (Throw e, (g', m'))
      | (Undef u, m') => (Undef u, (g', m'))
      | (Abort, m') => (Abort, (g', m'))
      end
    | Throw e => (Throw e, gm)
    | Undef u => (Undef u, gm)
    | Abort => (Abort, gm)
    end.

(** src/ConnectionManager.cpp:52-168. The result is the weak_ptr: None for a
    null pointer, otherwise the object's name; it is dead unless the object is
    in the map. [use8] belongs to the message router, [host] to the session. *)
Definition forward_open {S} (h : heap) (use8 : bool) (si : session_if S) (host : string) (env : fo_env)
    (large : bool) (c : cparams) : st (globals * mgr * S) (option nat) :=
  fun w =>
    let '(g, m, s) := w in
    match fo_prepare large (m_inc m) c g with
    | Ok (c', g) =>
      match fo_request large c' with
      | Ok data =>
        let '(o, s) := send_request h si use8 (fo_service large) CM_PATH data [] s in
        match o with
        | Ok resp => let '(o, (g, m)) := fo_answer h env host large c resp (g, m) in (o, (g, m, s))
        | Throw e => (Throw e, (g, m, s))
        | Undef u => (Undef u, (g, m, s))
        | Abort => (Abort, (g, m, s))
        end
      | Throw e => (Throw e, (g, m, s))
      | Undef u => (Undef u, (g, m, s))
      | Abort => (Abort, (g, m, s))
      end
    | Throw e => (Throw e, w)
    | Undef u => (Undef u, w)
    | Abort => (Abort, w)
    end.

(** weak_ptr::lock when only the manager owns connections *)
Definition lock (oid : nat) (m : mgr) : option iocon :=
  option_map snd (find (fun e => Nat.eqb (io_oid (snd e)) oid) (m_map m)).

(** src/ConnectionManager.cpp:175-205; the argument is the locked pointer. The
    assertion that the connection was found aborts (debug builds). *)
Definition forward_close {S} (h : heap) (use8 : bool) (si : session_if S) (ptr : option iocon)
  : st (mgr * S) unit :=
  fun w =>
    let '(m, s) := w in
    match ptr with
    | None => (Ok tt, w)
    | Some c =>
      let '(o, s) := send_request h si use8 78 CM_PATH      (* 0x4E *)
                       (fc_pack (u16 (io_serial c)) (io_vendor c) (io_orig c) (io_path c)) [] s in
      match o with
      | Ok _ =>
        let k := u16 (io_t2oId c) in
        (match map_find k (m_map m) with Some _ => Ok tt | None => Abort end,
         (set_map m (map_erase k (m_map m)), s))
      | Throw e => (Throw e, (m, s))
      | Undef u => (Undef u, (m, s))
      | Abort => (Abort, (m, s))
      end
    end.

(** The receive handler, src/ConnectionManager.cpp:239-256 *)
Definition on_readable (h : heap) (d : dgram) : st mgr unit :=
  fun m =>
    match fst (udp_receive (Z.to_nat 8192) [d]) with
    | Ok data =>
      match (items <- finished (cp_expand h data) ;;
             match nth_error items 0 with
             | None => Throw OutOfRange
             | Some i0 =>
               '(id, _) <- get_u32 h (buf_of (it_data i0)) ;;
               let k := u16 id in
               match map_find k (m_map m) with
               | None => Ok m
               | Some c =>
                 match nth_error items 1 with
                 | None => Throw OutOfRange
                 | Some i1 =>
                   '(c', ev) <- io_receive h c (it_data i1) ;;
                   Ok (add_log (set_map m (map_update k c' (m_map m))) ev)
                 end
               end
             end) with
      | Ok m' => (Ok tt, m')
      | Throw e => (Throw e, m)
      | Undef u => (Undef u, m)
      | Abort => (Abort, m)
      end
    | Throw e => (Throw e, m)
    | Undef u => (Undef u, m)
    | Abort => (Abort, m)
    end.

(** ** BaseSocket::select, src/sockets/BaseSocket.cpp:120-151 *)

(** What ::select() reports: rounds with something ready, each with what the
    ready sockets hold (in the order of the vector) and the time after the
    handlers have run, and the final call that finds nothing ready or fails. *)
Record sel_round (A : Type) := mkRound { sr_ready : list (option A); sr_now : Z }.
Arguments mkRound {A} _ _.
Arguments sr_ready {A} _.
Arguments sr_now {A} _.
Inductive sel_end := SelQuiet | SelFail (e : Z).

(** lines 142-147 *)
Fixpoint dispatch {W A} (handler : nat -> A -> st W unit) (i : nat) (n : nat) (ready : list (option A)) : st W unit :=
  match n, ready with
  | O, _ | _, [] => st_ret tt
  | S n', None :: r => dispatch handler (S i) n' r
  | S n', Some a :: r => st_bind (handler i a) (fun _ => dispatch handler (S i) n' r)
  end.
Fixpoint select_rounds {S A} (handler : nat -> A -> st S unit) (n : nat) (rounds : list (sel_round A))
    (ending : sel_end) : st S unit :=
  match rounds with
  | [] => match ending with SelQuiet => st_ret tt | SelFail e => st_throw (SystemError e) end
  | r :: rs => st_bind (dispatch handler 0 n (sr_ready r)) (fun _ => select_rounds handler n rs ending)
  end.
(** [n]: number of sockets; with none, the end iterator is dereferenced (121). *)
Definition bs_select {S A} (handler : nat -> A -> st S unit) (n : nat) (rounds : list (sel_round A))
    (ending : sel_end) : st S unit :=
  match n with O => fun s => (Undef UbDerefEnd, s) | _ => select_rounds handler n rounds ending end.
(** The timeouts given to the successive ::select() calls (line 129), for a
    timeout in milliseconds and times in nanoseconds. *)
Definition select_timeouts {A} (timeout start : Z) (rounds : list (sel_round A)) : list (Z * Z) :=
  map (fun t => portable_interval (Z.quot (start + timeout * 1000000 - t) 1000000))
      (start :: map sr_now rounds).

(** ** handleConnections, src/ConnectionManager.cpp:207-227 *)

(** Inputs of the ticks, by connection: time, send listener, sendto(). *)
Record tick_env := mkTick { t_now : nat -> Z; t_hook : nat -> bytes -> bytes; t_send : nat -> Z -> send_result }.

(** lines 218-222: keys to close, the map and the events after the loop *)
Fixpoint ticks (env : tick_env) (l : list (Z * iocon)) : outcome (list Z) * list (Z * iocon) * list event :=
  match l with
  | [] => (Ok [], [], [])
  | (k, c) :: r =>
    let o := io_oid c in
    let '(res, c', ev) := io_tick (t_now env o) (t_hook env o) (t_send env o) c in
    match res with
    | Ok alive =>
      let '(res', r', ev') := ticks env r in
      (omap (fun ks => if alive then ks else k :: ks) res', (k, c') :: r', ev ++ ev')
    | Throw e => (Throw e, (k, c') :: r, ev)
    | Undef u => (Undef u, (k, c') :: r, ev)
    | Abort => (Abort, (k, c') :: r, ev)
    end
  end.

Definition run_ticks (env : tick_env) : st mgr unit :=
  fun m =>
    let '(res, l, ev) := ticks env (m_map m) in
    let m' := add_log (set_map m l) ev in
    match res with
    | Ok ks => (Ok tt, set_map m' (fold_left (fun l k => map_erase k l) ks l))
    | Throw e => (Throw e, m')
    | Undef u => (Undef u, m')
    | Abort => (Abort, m')
    end.

Definition handle_connections (h : heap) (rounds : list (sel_round dgram)) (ending : sel_end) (env : tick_env)
  : st mgr unit :=
  fun m => st_bind (bs_select (fun _ => on_readable h) (List.length (m_socks m)) rounds ending)
                   (fun _ => run_ticks env) m.

(** src/ConnectionManager.cpp:264-266 *)
Definition has_open (m : mgr) : bool := negb (match m_map m with [] => true | _ => false end).

(** IOConnection::setDataToSend through a live pointer *)
Definition set_output (oid : nat) (d : bytes) (m : mgr) : mgr :=
  set_map m (map (fun e => if Nat.eqb (io_oid (snd e)) oid then (fst e, io_set_output (snd e) d) else e) (m_map m)).

(** ** Histories: the calls an application makes on its managers (named by
    numbers). Sessions and their state are arbitrary. *)
Inductive call (S : Type) :=
| COpen (use8 : bool) (si : session_if S) (host : string) (env : fo_env) (large : bool) (c : cparams)
| CClose (use8 : bool) (si : session_if S) (oid : nat)
| CHandle (rounds : list (sel_round dgram)) (ending : sel_end) (env : tick_env)
| CData (oid : nat) (d : bytes).
Arguments COpen {S} _ _ _ _ _ _.
Arguments CClose {S} _ _ _.
Arguments CHandle {S} _ _ _.
Arguments CData {S} _ _.

Definition call_mgr {S} (h : heap) (op : call S) : st (globals * mgr * S) (option nat) :=
  fun w =>
    let '(g, m, s) := w in
    match op with
    | COpen use8 si host env large c => forward_open h use8 si host env large c w
    | CClose use8 si oid =>
      let '(o, (m, s)) := forward_close h use8 si (lock oid m) (m, s) in (omap (fun _ => None) o, (g, m, s))
    | CHandle rounds ending env =>
      let '(o, m) := handle_connections h rounds ending env m in (omap (fun _ => None) o, (g, m, s))
    | CData oid d => (Ok None, (g, set_output oid d m, s))
    end.

Record world (S : Type) := mkWorld { w_g : globals; w_m : nat -> mgr; w_s : S }.
Arguments mkWorld {S} _ _ _.
Arguments w_g {S} _.
Arguments w_m {S} _ _.
Arguments w_s {S} _.
Definition update {A} (f : nat -> A) (i : nat) (a : A) : nat -> A := fun j => if Nat.eqb j i then a else f j.
Definition call_world {S} (h : heap) (i : nat) (op : call S) (w : world S) : outcome (option nat) * world S :=
  let '(o, (g, m, s)) := call_mgr h op (w_g w, w_m w i, w_s w) in (o, mkWorld g (update (w_m w) i m) s).
