(** Model: connections when there is not enough memory. *)
From Verif Require Import Base MBuffer MEip MSocket MConnReq MConn MMem.
Local Open Scope outcome_scope.

(** As in MMem: for each place that allocates, in the order they are reached, whether some
    allocation made there fails; and a state. Memory that listeners need is left out. *)
Definition low (W A : Type) : Type := list bool * W -> mres A * (list bool * W).
Definition l_ret {W A} (a : A) : low W A := fun x => (Done (Ok a), x).
Definition l_bind {W A B} (m : low W A) (k : A -> low W B) : low W B :=
  fun x => match m x with
           | (Done (Ok a), x') => k a x'
           | (Done (Throw e), x') => (Done (Throw e), x')
           | (Done (Undef u), x') => (Done (Undef u), x')
           | (Done Abort, x') => (Done Abort, x')
           | (NoMemory, x') => (NoMemory, x')
           end.
Definition l_lift {W A} (m : st W A) : low W A := fun '(fs, w) => let '(o, w') := m w in (Done o, (fs, w')).
(** A place that allocates. *)
Definition l_need {W} : low W unit := fun '(fs, w) => (if hd false fs then NoMemory else Done (Ok tt), (tl fs, w)).
(** A message without texts to be made: ~Logger (src/utils/Logger.cpp:18-22) copies the text
    if the level is shown; if that fails the program ends. *)
Definition l_message {W} (shown : bool) : low W unit :=
  fun '(fs, w) => if shown then (if hd false fs then Done Abort else Done (Ok tt), (tl fs, w)) else (Done (Ok tt), (fs, w)).

Section Low.
(** Which levels are shown. TRACE and DEBUG are not. *)
Variables info warning error : bool.
Variable h : heap.

(** src/IOConnection.cpp:94-142. The first place is line 114 (address
    item), the second lines 116-125 (a buffer), the last lines 134-137 (packet). *)
Definition l_tick (now : Z) (hook : bytes -> bytes) (sr : Z -> send_result) (c : iocon) (fs : list bool)
  : mres bool * list bool * iocon * list event :=
  let period := Z.quot (now - io_last c) 1000000 * 1000 in
  let tcount := u32 (io_tcount c + period) in
  if u32 (io_mult c * io_t2oAPI c) <? tcount then
    if warning && hd false fs then (Done Abort, tl fs, io_set_tcount c tcount, [])
    else (Done (Ok false), if warning then tl fs else fs, io_set_tcount c tcount, [EvClosed (io_oid c)])
  else
    let timer := u32 (io_o2tTimer c + period) in
    if io_o2tAPI c <=? timer then
      let seq := u32 (io_o2tSeq c + 1) in
      if hd false fs then (NoMemory, tl fs, io_set_tick c tcount now timer seq (io_seqCount c) (io_out c), [])
      else
        let fs := tl fs in
        let count := if has_seq (io_trigger c) then u16 (io_seqCount c + 1) else io_seqCount c in
        let front := has_seq (io_trigger c) || io_o2tRTF c in
        if front && hd false fs then (NoMemory, tl fs, io_set_tick c tcount now timer seq count (io_out c), [])
        else
          let fs := if front then tl fs else fs in
          let b := if has_seq (io_trigger c) then put_u16 buf_new count else buf_new in
          let b := if io_o2tRTF c then put_u32 b 1 else b in
          let out := hook (io_out c) in
          let c' := io_set_tick c tcount now 0 seq count out in
          if io_o2tFixed c && negb (zlen out =? io_o2tSize c) then
            if warning && hd false fs then (Done Abort, tl fs, c', [])
            else (Done (Ok true), if warning then tl fs else fs, c', [])
          else if hd false fs then (NoMemory, tl fs, c', [])
          else
            let packet := cp_pack [item_sequenced (io_o2tId c) seq; item_connected (bdata (put_bytes b out))] in
            (Done (omap (fun _ => true) (send_check (zlen packet) (sr (zlen packet)))), tl fs, c', [EvSent (io_oid c) (io_dest c) packet])
    else (Done (Ok true), fs, io_set_tick c tcount now timer (io_o2tSeq c) (io_seqCount c) (io_out c), []).

(** src/ConnectionManager.cpp:217-222: push_back of a key allocates, after
    the close listener was called. *)
Fixpoint l_ticks (env : tick_env) (l : list (Z * iocon)) (fs : list bool)
  : mres (list Z) * list bool * list (Z * iocon) * list event :=
  match l with
  | [] => (Done (Ok []), fs, [], [])
  | (k, c) :: r =>
    let o := io_oid c in
    let '(res, fs, c', ev) := l_tick (t_now env o) (t_hook env o) (t_send env o) c fs in
    match res with
    | Done (Ok alive) =>
      if negb alive && hd false fs then (NoMemory, tl fs, (k, c') :: r, ev)
      else
        let fs := if alive then fs else tl fs in
        let '(res', fs, r', ev') := l_ticks env r fs in
        (match res' with Done o => Done (omap (fun ks => if alive then ks else k :: ks) o) | NoMemory => NoMemory end,
         fs, (k, c') :: r', ev ++ ev')
    | Done (Throw e) => (Done (Throw e), fs, (k, c') :: r, ev)
    | Done (Undef u) => (Done (Undef u), fs, (k, c') :: r, ev)
    | Done Abort => (Done Abort, fs, (k, c') :: r, ev)
    | NoMemory => (NoMemory, fs, (k, c') :: r, ev)
    end
  end.
(** src/ConnectionManager.cpp:217-226 *)
Definition l_run_ticks (env : tick_env) : low mgr unit :=
  fun '(fs, m) =>
    let '(res, fs, l, ev) := l_ticks env (m_map m) fs in
    let m' := add_log (set_map m l) ev in
    match res with
    | Done (Ok ks) => (Done (Ok tt), (fs, set_map m' (fold_left (fun l k => map_erase k l) ks l)))
    | Done (Throw e) => (Done (Throw e), (fs, m'))
    | Done (Undef u) => (Done (Undef u), (fs, m'))
    | Done Abort => (Done Abort, (fs, m'))
    | NoMemory => (NoMemory, (fs, m'))
    end.

(** The connection a datagram is for, if it can be read. *)
Definition l_target (d : dgram) (m : mgr) : option (option iocon) :=
  match fst (udp_receive (Z.to_nat 8192) [d]) with
  | Ok data =>
    match (items <- finished (cp_expand h data) ;;
           match nth_error items 0 with
           | None => Throw OutOfRange
           | Some i0 => '(id, _) <- get_u32 h (buf_of (it_data i0)) ;; Ok (map_find (u16 id) (m_map m))
           end) with
    | Ok c => Some c
    | _ => None
    end
  | _ => None
  end.
(** src/ConnectionManager.cpp:239-256, src/sockets/UDPSocket.cpp:69-79, src/IOConnection.cpp:68-92. The first
    place is the buffer of Receive: if it fails the datagram is not read. The second is
    all else up to the call of the listener. Then there may be a message: the
    connection is not known (ERROR), or the size is not the fixed one (WARNING). *)
Definition l_readable (d : dgram) : low mgr unit :=
  fun '(fs, m) =>
    let '(o, m') := on_readable h d m in
    l_bind l_need (fun _ => l_bind l_need (fun _ =>
      match o with
      | Ok _ =>
        l_bind (match l_target d m with
                | Some None => l_message error
                | Some (Some _) => if Nat.eqb (List.length (m_log m')) (List.length (m_log m)) then l_message warning else l_ret tt
                | None => l_ret tt
                end) (fun _ '(fs, _) => (Done (Ok tt), (fs, m')))
      | _ => fun '(fs, _) => (Done o, (fs, m'))
      end)) (fs, m).

(** src/sockets/BaseSocket.cpp:120-151 as in MConn; nothing is allocated there *)
Fixpoint l_dispatch (n : nat) (ready : list (option dgram)) : low mgr unit :=
  match n, ready with
  | O, _ | _, [] => l_ret tt
  | S n', None :: r => l_dispatch n' r
  | S n', Some d :: r => l_bind (l_readable d) (fun _ => l_dispatch n' r)
  end.
Fixpoint l_rounds (n : nat) (rounds : list (sel_round dgram)) (ending : sel_end) : low mgr unit :=
  match rounds with
  | [] => l_lift (match ending with SelQuiet => st_ret tt | SelFail e => st_throw (SystemError e) end)
  | r :: rs => l_bind (l_dispatch n (sr_ready r)) (fun _ => l_rounds n rs ending)
  end.
(** src/ConnectionManager.cpp:207-227; the vector of sockets comes first *)
Definition l_handle (rounds : list (sel_round dgram)) (ending : sel_end) (env : tick_env) : low mgr unit :=
  fun '(fs, m) =>
    l_bind (match m_socks m with [] => l_ret tt | _ => l_need end) (fun _ =>
    l_bind (match m_socks m with [] => l_lift (fun s => (Undef UbDerefEnd, s)) | _ => l_rounds (List.length (m_socks m)) rounds ending end)
           (fun _ => l_run_ticks env)) (fs, m).

(** Requests over a session ([MMem.m_request] is one): service and data. *)
Section Requests.
Context {S : Type}.
Variable req : Z -> bytes -> low S response.
Definition l_req (service : Z) (data : bytes) : low (globals * mgr * S) response :=
  fun '(fs, (g, m, s)) => let '(o, (fs, s)) := req service data (fs, s) in (o, (fs, (g, m, s))).

(** src/ConnectionManager.cpp:106-168. A refusal is logged at level ERROR. Places: the
    answer is read; the object, its end point and its socket are made; the text of the end point; the
    receiving socket (src/ConnectionManager.cpp:229-262); the entry in the map. *)
Definition l_answer (env : fo_env) (host : string) (large : bool) (c : cparams) (resp : response)
  : low (globals * mgr * S) (option nat) :=
  if negb (r_status resp =? 0) then l_bind (l_message error) (fun _ => l_ret None)
  else
    l_bind l_need (fun _ =>
    l_bind (l_lift (st_lift (fo_expand h (r_data resp)))) (fun r =>
    l_bind (l_message info) (fun _ =>
    l_bind l_need (fun _ =>
    l_bind (l_lift (st_lift (mult <- fo_multiplier (c_multiplier c) ;;
                             dest <- fo_dest h (v_aton env) host (r_items resp) ;;
                             _ <- checked (v_udp env) ;; Ok (mult, dest)))) (fun '(mult, dest) =>
    l_bind l_need (fun _ =>
    l_bind (l_message info) (fun _ =>
    l_bind l_need (fun _ =>
    l_bind (l_lift (fun '(g, m, s) =>
              let '(o, m) := find_or_create_socket (v_bind env) (ep_of_host (v_aton env) host EIP_DEFAULT_IMPLICIT_PORT) m in
              (o, (mkGlobals (g_serial g) (g_o2t g) (g_t2o g) (Datatypes.S (g_oid g)), m, s)))) (fun _ =>
    l_bind l_need (fun _ '(fs, (g, m, s)) =>
      let k := u16 (f_t2oId r) in
      l_bind (match map_find k (m_map m) with Some _ => l_message error | None => l_ret tt end) (fun _ =>
      l_lift (fun _ => (Ok (Some (pred (g_oid g))),
        (g, set_map m (map_insert k (fo_connection large c r mult (pred (g_oid g)) (v_now env) dest) (m_map m)), s))))
        (fs, (g, m, s)))))))))))).

(** src/ConnectionManager.cpp:52-168; the request is packed before it is sent. *)
Definition l_open (env : fo_env) (host : string) (large : bool) (c : cparams) : low (globals * mgr * S) (option nat) :=
  l_bind (l_lift (fun '(g, m, s) =>
            match fo_prepare large (m_inc m) c g with
            | Ok (c', g') => (Ok c', (g', m, s))
            | Throw e => (Throw e, (g, m, s))
            | Undef u => (Undef u, (g, m, s))
            | Abort => (Abort, (g, m, s))
            end)) (fun c' =>
  l_bind l_need (fun _ =>
  l_bind (l_lift (st_lift (fo_request large c'))) (fun data =>
  l_bind (l_req (fo_service large) data) (fun resp =>
  l_answer env host large c resp)))).

(** src/ConnectionManager.cpp:175-205 *)
Definition l_close (ptr : option iocon) : low (globals * mgr * S) unit :=
  match ptr with
  | None => l_message warning
  | Some c =>
    l_bind l_need (fun _ =>
    l_bind (l_message info) (fun _ =>
    l_bind (l_req 78 (fc_pack (u16 (io_serial c)) (io_vendor c) (io_orig c) (io_path c))) (fun resp =>
    l_bind (if r_status resp =? 0 then l_ret tt else l_message warning) (fun _ =>
    l_lift (fun '(g, m, s) =>
      let k := u16 (io_t2oId c) in
      (match map_find k (m_map m) with Some _ => Ok tt | None => Abort end, (g, set_map m (map_erase k (m_map m)), s)))))))
  end.
End Requests.
End Low.
