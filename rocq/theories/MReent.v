(** Listeners that use the library: ConnectionManager::handleConnections
    (src/ConnectionManager.cpp:207-227, 239-256) and IOConnection
    (src/IOConnection.cpp:68-142) with listeners that call forwardOpen,
    largeForwardOpen, forwardClose and setDataToSend, or throw. Listeners that call
    handleConnections: MDeep; that replace listeners: MSlot. MConn.v models the
    same functions for listeners that do not call the library. *)
From Verif Require Import Base MBuffer MEip MSocket MConnReq MConn.
Local Open Scope outcome_scope.

(** What a listener does: a sequence of calls and perhaps an exception. *)
Inductive lcall (S : Type) :=
| LOpen (use8 : bool) (si : session_if S) (host : string) (env : fo_env) (large : bool) (c : cparams)
| LClose (use8 : bool) (si : session_if S) (oid : nat)
| LData (oid : nat) (d : bytes)
| LThrow (e : exn).
Arguments LOpen {S} _ _ _ _ _ _.
Arguments LClose {S} _ _ _.
Arguments LData {S} _ _.
Arguments LThrow {S} _.
(** The listeners of all connections (src/IOConnection.h:27-29, 105-107). They
    may look at everything. The send listener gets a reference to [_outputData];
    writing to it is the call [LData] with the connection's own name. *)
Definition view (S : Type) : Type := globals * mgr * S.
Record listeners (S : Type) := mkListeners {
  l_data : view S -> nat -> Z -> Z -> bytes -> list (lcall S);
  l_close : view S -> nat -> list (lcall S);
  l_send : view S -> nat -> bytes -> list (lcall S) }.
Arguments mkListeners {S} _ _ _.
Arguments l_data {S} _.
Arguments l_close {S} _.
Arguments l_send {S} _.

(** Running a listener; an exception leaves the listener. *)
Definition do_call {S} (h : heap) (c : lcall S) : st (view S) (option nat) :=
  match c with
  | LOpen use8 si host env large c => call_mgr h (COpen use8 si host env large c)
  | LClose use8 si oid => call_mgr h (CClose use8 si oid)
  | LData oid d => call_mgr h (CData oid d)
  | LThrow e => fun w => (Throw e, w)
  end.
Fixpoint react {S} (h : heap) (calls : list (lcall S)) : st (view S) unit :=
  match calls with
  | [] => st_ret tt
  | c :: r => st_bind (do_call h c) (fun _ => react h r)
  end.

(** src/ConnectionManager.cpp:239-256 and src/IOConnection.cpp:87-91: nothing is
    used after the receive listener, so it may close its connection (its own
    callable object is then destroyed while it runs; that it does not use its
    captures afterwards is assumed). *)
Definition hear {S} (h : heap) (L : listeners S) (d : dgram) : st (view S) unit :=
  fun '(g, m, s) =>
    let '(o, m') := on_readable h d m in
    let w := (g, m', s) in
    match o, skipn (List.length (m_log m)) (m_log m') with
    | Ok _, [EvData oid hdr seq data] => react h (l_data L w oid hdr seq data) w
    | _, _ => (o, w)
    end.

(** src/IOConnection.cpp:94-127, up to the call of a listener *)
Inductive phase := PhClose | PhSend | PhWait.
Definition tick_begin (now : Z) (c : iocon) : phase * iocon :=
  let period := Z.quot (now - io_last c) 1000000 * 1000 in
  let tcount := u32 (io_tcount c + period) in
  if u32 (io_mult c * io_t2oAPI c) <? tcount then (PhClose, io_set_tcount c tcount)
  else
    let timer := u32 (io_o2tTimer c + period) in
    if io_o2tAPI c <=? timer then
      (PhSend, io_set_tick c tcount now 0 (u32 (io_o2tSeq c + 1))
                 (if has_seq (io_trigger c) then u16 (io_seqCount c + 1) else io_seqCount c) (io_out c))
    else (PhWait, io_set_tick c tcount now timer (io_o2tSeq c) (io_seqCount c) (io_out c)).
(** src/IOConnection.cpp:128-138, after the send listener; the address item and
    the start of the data (108-122) hold the counters that were just set. *)
Definition tick_send (sr : Z -> send_result) (c : iocon) : outcome bool * list event :=
  if io_o2tFixed c && negb (zlen (io_out c) =? io_o2tSize c) then (Ok true, [])
  else
    let b := if has_seq (io_trigger c) then put_u16 buf_new (io_seqCount c) else buf_new in
    let b := if io_o2tRTF c then put_u32 b 1 else b in
    let packet := cp_pack [item_sequenced (io_o2tId c) (io_o2tSeq c); item_connected (bdata (put_bytes b (io_out c)))] in
    (omap (fun _ => true) (send_check (zlen packet) (sr (zlen packet))), [EvSent (io_oid c) (io_dest c) packet]).

(** The object at key [k] if it is still the object [oid]. *)
Definition still (k : Z) (oid : nat) (m : mgr) : option iocon :=
  match map_find k (m_map m) with
  | Some c => if Nat.eqb (io_oid c) oid then Some c else None
  | None => None
  end.

(** src/ConnectionManager.cpp:218-222 for one entry. When the listener has
    removed the entry, [entry] and the iterator of the loop dangle; after the
    send listener also the object itself is used. *)
Definition tick_entry {S} (h : heap) (L : listeners S) (env : tick_env) (k : Z) (c : iocon) : st (view S) bool :=
  fun '(g, m, s) =>
    let oid := io_oid c in
    match tick_begin (t_now env oid) c with
    | (PhWait, c1) => (Ok true, (g, set_map m (map_update k c1 (m_map m)), s))
    | (PhClose, c1) =>
      let w := (g, add_log (set_map m (map_update k c1 (m_map m))) [EvClosed oid], s) in
      st_bind (react h (l_close L w oid)) (fun _ '(g, m, s) =>
        (match still k oid m with Some _ => Ok false | None => Undef UbDangling end, (g, m, s))) w
    | (PhSend, c1) =>
      let w := (g, set_map m (map_update k c1 (m_map m)), s) in
      st_bind (react h (l_send L w oid (io_out c1))) (fun _ '(g, m, s) =>
        match still k oid m with
        | Some c2 => let '(o, ev) := tick_send (t_send env oid) c2 in (o, (g, add_log m ev, s))
        | None => (Undef UbDangling, (g, m, s))
        end) w
    end.

(** src/ConnectionManager.cpp:218-222 from the first key not below [k] on; the
    loop goes on to the next greater key of the map as it is then. [n] bounds the number of
    steps; keys have 16 bits, so 65536 are enough. *)
Fixpoint tick_loop {S} (h : heap) (L : listeners S) (env : tick_env) (n : nat) (k : Z) : st (view S) (list Z) :=
  match n with
  | O => st_ret []
  | Datatypes.S n' => fun w =>
    match find (fun e => k <=? fst e) (m_map (snd (fst w))) with
    | None => (Ok [], w)
    | Some (k', c) =>
      st_bind (tick_entry h L env k' c) (fun alive : bool =>
      st_bind (tick_loop h L env n' (k' + 1)) (fun ks =>
      st_ret (if alive then ks else k' :: ks))) w
    end
  end.
Definition listen_ticks {S} (h : heap) (L : listeners S) (env : tick_env) : st (view S) unit :=
  st_bind (tick_loop h L env (Z.to_nat 65536) 0) (fun ks '(g, m, s) =>
    (Ok tt, (g, set_map m (fold_left (fun l k => map_erase k l) ks (m_map m)), s))).

(** src/ConnectionManager.cpp:207-227; the sockets are those at the start. *)
Definition listen_connections {S} (h : heap) (L : listeners S) (rounds : list (sel_round dgram)) (ending : sel_end)
    (env : tick_env) : st (view S) unit :=
  fun w => st_bind (bs_select (fun _ => hear h L) (List.length (m_socks (snd (fst w)))) rounds ending)
                   (fun _ => listen_ticks h L env) w.
