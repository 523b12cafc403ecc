(** Specification of the connection manager. *)
From Verif Require Import Base MBuffer SBuffer MEip SEip MSocket MConnReq SConnReq MConn.

(** ** Opening: what goes to the target *)

(** Bytes in front of the application data: the sequence count of transport
    classes 1 to 3 and the run/idle header. *)
Definition overhead (trigger rtf : Z) : Z :=
  (if trigger mod 4 =? 0 then 0 else 2) + (if rtf =? 0 then 0 else 4).

(** The service and the parameters a target reads from a packet addressed to
    its Connection Manager (class 6, instance 1). *)
Definition names_cm (path : bytes) : bool :=
  bytes_eqb path [32; 6; 36; 1] || bytes_eqb path [33; 0; 6; 0; 37; 0; 1; 0].
Definition wire_open (p : encaps) : option (Z * cparams) :=
  match parse_rr (encaps_pack p) with
  | Some (mkRR _ _ [_; (178, r)]) =>
    match parse_request r with
    | Some (service, path, data) =>
      if names_cm path then
        option_map (fun c => (service, c)) (parse_fo (if service =? 91 then 4 else 2) data)
      else None
    | None => None
    end
  | _ => None
  end.

(** A caller's parameters that the wire format can carry. *)
Definition open_ok (c : cparams) : Prop := cparams_wf c /\ zlen (c_path c) <= 60000.

(** One open in a history: the incarnation id of the manager it is made on. *)
Record an_open := mkAnOpen { ao_inc : Z; ao_large : bool; ao_params : cparams }.

(** ids chosen by the originator *)
Definition is_p2p (o : an_open) : bool := part (ao_large o) FType (c_t2oParams (ao_params o)) =? 2.
Definition is_multicast (o : an_open) : bool := part (ao_large o) FType (c_o2tParams (ao_params o)) =? 1.
(** how many of the opens satisfy [f], and the incarnation id of the first *)
Definition count_of (f : an_open -> bool) (l : list an_open) : Z := zlen (filter f l).
Definition first_inc (l : list an_open) (o : an_open) : Z :=
  ao_inc (hd o (filter is_p2p (l ++ [o]))).

(** What the open [o] puts on the wire after the opens [before] (in a program
    that has just started). *)
Definition expected_open (before : list an_open) (o : an_open) : Z * cparams :=
  let c := ao_params o in
  let n := if ao_large o then 4 else 2 in
  let m := 256 ^ n in
  (if ao_large o then 91 else 84,
   mkCParams (c_priorityTimeTick c) (c_timeoutTicks c)
     (if is_multicast o then (1 + count_of is_multicast before) mod 65536 else c_o2tId c)
     (if is_p2p o then (65536 * first_inc before o + 1 + count_of is_p2p before) mod 2 ^ 32 else c_t2oId c)
     ((1 + zlen before) mod 65536) (c_vendor c) (c_origSerial c) (c_multiplier c)
     (c_o2tRPI c) (((c_o2tParams c + overhead (c_trigger c) (c_o2tRTF c)) mod 2 ^ 32) mod m)
     (c_t2oRPI c) (((c_t2oParams c + overhead (c_trigger c) (c_t2oRTF c)) mod 2 ^ 32) mod m)
     (c_trigger c) (((zlen (c_path c) + 1) / 2) mod 256) 0 0 (c_path c)).

(** Histories of calls whose sessions record what is sent. [the_opens]: the
    opens of a history; [sent_opens]: what each of them sent. *)
Definition recorded (op : call (list encaps)) : Prop :=
  match op with
  | COpen _ si _ _ _ c => is_u32 (si_handle si) /\ open_ok c
                          /\ exists answer, si = recording (si_handle si) answer
  | _ => True
  end.
Definition opens_of (inc : nat -> Z) (ops : list (nat * call (list encaps))) : list an_open :=
  flat_map (fun '(i, op) => match op with
                            | COpen _ _ _ _ large c => [mkAnOpen (inc i) large c]
                            | _ => []
                            end) ops.
Fixpoint sent_opens (h : heap) (ops : list (nat * call (list encaps))) (w : world (list encaps))
  : list (option (Z * cparams)) :=
  match ops with
  | [] => []
  | (i, op) :: r =>
    let w' := snd (call_world h i op w) in
    match op with
    | COpen _ _ _ _ _ _ => wire_open (last (w_s w') encaps0) :: sent_opens h r w'
    | _ => sent_opens h r w'
    end
  end.
(** the program start *)
Definition start (inc : nat -> Z) : world (list encaps) := mkWorld globals0 (fun i => mgr0 (inc i)) [].

(** ** One connection over time *)

(** What happens to a connection: ticks (time in nanoseconds, send listener,
    result of sendto), data items received (at some time), new output data. *)
Inductive io_op :=
| Tick (now : Z) (hook : bytes -> bytes) (sr : Z -> send_result)
| Recv (at_time : Z) (d : bytes)
| SetOut (d : bytes).

Inductive io_end := Open (c : iocon) | Closed | Broken.

Fixpoint io_run (h : heap) (ops : list io_op) (c : iocon) : io_end * list event :=
  match ops with
  | [] => (Open c, [])
  | Tick now hook sr :: r =>
    let '(res, c', ev) := io_tick now hook sr c in
    match res with
    | Ok false => (Closed, ev)
    | _ => let '(e, ev') := io_run h r c' in (e, ev ++ ev')
    end
  | Recv _ d :: r =>
    match io_receive h c d with
    | Ok (c', ev) => let '(e, ev') := io_run h r c' in (e, ev ++ ev')
    | _ => (Broken, [])
    end
  | SetOut d :: r => io_run h r (io_set_output c d)
  end.

(** What is negotiated for a connection. *)
Record io_spec := mkIoSpec {
  sp_oid : nat; sp_dest : endpoint; sp_o2tId : Z;
  sp_limit : Z;      (* timeout, microseconds *)
  sp_api : Z;        (* O2T interval, microseconds *)
  sp_o2tSize : option Z; sp_t2oSize : option Z;      (* fixed sizes *)
  sp_seq : bool; sp_o2tHead : bool; sp_t2oHead : bool }.

(** Time is counted in whole milliseconds between one tick and the next. *)
Record clock := mkClock {
  k_last : Z;        (* time of the last tick *)
  k_idle : Z;        (* milliseconds counted since the last accepted data *)
  k_since : Z;       (* milliseconds counted since the last transmission slot *)
  k_slots : Z;       (* number of slots *)
  k_out : bytes }.   (* output data *)

Definition fits (size : option Z) (d : bytes) : bool :=
  match size with Some n => zlen d =? n | None => true end.

(** Class 1 packet: sequenced address item with id and slot number; connected
    data item with sequence count, run/idle header (run), data. *)
Definition io_packet (s : io_spec) (k : Z) (out : bytes) : bytes :=
  let payload := (if sp_seq s then le 2 (k mod 65536) else [])
                 ++ (if sp_o2tHead s then [1; 0; 0; 0] else []) ++ out in
  le 2 2 ++ (le 2 32770 ++ le 2 8 ++ le 4 (sp_o2tId s) ++ le 4 (k mod 2 ^ 32))
         ++ (le 2 177 ++ le 2 (zlen payload mod 65536) ++ payload).

Fixpoint spec_run (s : io_spec) (ops : list io_op) (k : clock) : option clock * list event :=
  match ops with
  | [] => (Some k, [])
  | Tick now hook _ :: r =>
    let ms := (now - k_last k) / 1000000 in
    if sp_limit s <? 1000 * (k_idle k + ms) then (None, [EvClosed (sp_oid s)])
    else if sp_api s <=? 1000 * (k_since k + ms) then
      let n := k_slots k + 1 in
      let out := hook (k_out k) in
      let '(e, ev) := spec_run s r (mkClock now (k_idle k + ms) 0 n out) in
      (e, (if fits (sp_o2tSize s) out then [EvSent (sp_oid s) (sp_dest s) (io_packet s n out)] else []) ++ ev)
    else spec_run s r (mkClock now (k_idle k + ms) (k_since k + ms) (k_slots k) (k_out k))
  | Recv _ d :: r =>
    let head := if sp_t2oHead s then 4%nat else 0%nat in
    let body := skipn (head + (if sp_seq s then 2 else 0)) d in
    if fits (sp_t2oSize s) body then
      let '(e, ev) := spec_run s r (mkClock (k_last k) 0 (k_since k) (k_slots k) (k_out k)) in
      (e, EvData (sp_oid s) (if sp_t2oHead s then le_val (firstn 4 d) else 0)
                 (if sp_seq s then le_val (firstn 2 (skipn head d)) else 0) body :: ev)
    else spec_run s r k
  | SetOut d :: r => spec_run s r (mkClock (k_last k) (k_idle k) (k_since k) (k_slots k) d)
  end.

(** Time does not run backwards, ticks are not absurdly far apart (counters are
    32 bits wide and count microseconds), data items are long enough for their
    headers, output data fits a datagram. *)
Fixpoint sane (s : io_spec) (last : Z) (ops : list io_op) : Prop :=
  match ops with
  | [] => True
  | Tick now hook _ :: r =>
    last <= now /\ (forall d, zlen d <= 65000 -> zlen (hook d) <= 65000) /\ (now - last) / 1000000 * 1000 + Z.max (sp_limit s) (sp_api s) < 2 ^ 32 /\ sane s now r
  | Recv _ d :: r =>
    is_bytes d /\ (if sp_t2oHead s then 4 else 0) + (if sp_seq s then 2 else 0) <= zlen d /\ sane s last r
  | SetOut d :: r => zlen d <= 65000 /\ sane s last r
  end.

(** The negotiated values as the connection object stores them. *)
Definition spec_of (c : iocon) : io_spec :=
  mkIoSpec (io_oid c) (io_dest c) (io_o2tId c) (io_mult c * io_t2oAPI c) (io_o2tAPI c)
    (if io_o2tFixed c then Some (io_o2tSize c) else None) (if io_t2oFixed c then Some (io_t2oSize c) else None)
    (negb (io_trigger c mod 4 =? 0)) (io_o2tRTF c) (io_t2oRTF c).
(** a connection nothing has happened to yet *)
Definition fresh_io (c : iocon) : Prop :=
  io_tcount c = 0 /\ io_o2tTimer c = 0 /\ io_o2tSeq c = 0 /\ io_seqCount c = 0.
Definition io_wf (c : iocon) : Prop :=
  is_u32 (io_o2tId c) /\ is_u32 (io_o2tAPI c) /\ is_u32 (io_t2oAPI c) /\ is_u8 (io_mult c).

(** ** Histories of one manager *)

(** What a call does to the set of open connections, seen from outside: an open
    returned a pointer that is alive, a close of a live pointer returned, the
    close listener was called. *)
Inductive happening := Opened (oid : nat) | ClosedBy (oid : nat) | TimedOut (oid : nat).
Definition closings (ev : list event) : list nat :=
  flat_map (fun e => match e with EvClosed o => [o] | _ => [] end) ev.
Definition happened {S} (op : call S) (o : outcome (option nat)) (m m' : mgr) : list happening :=
  match op, o with
  | COpen _ _ _ _ _ _, Ok (Some oid) => match lock oid m' with Some _ => [Opened oid] | None => [] end
  | CClose _ _ oid, Ok _ => match lock oid m with Some _ => [ClosedBy oid] | None => [] end
  | CHandle _ _ _, _ => map TimedOut (closings (skipn (List.length (m_log m)) (m_log m')))
  | _, _ => []
  end.
(** All that happens to manager [i]. *)
Fixpoint happenings {S} (h : heap) (i : nat) (ops : list (nat * call S)) (w : world S) : list happening * world S :=
  match ops with
  | [] => ([], w)
  | (j, op) :: r =>
    let '(o, w') := call_world h j op w in
    let '(hs, w'') := happenings h i r w' in
    ((if Nat.eqb j i then happened op o (w_m w j) (w_m w' j) else []) ++ hs, w'')
  end.

(** sendto() is never short: it fails or takes the whole datagram. *)
Definition sends_whole {S} (op : call S) : Prop :=
  match op with
  | CHandle _ _ env => forall o n, s_count (t_send env o n) = n \/ s_count (t_send env o n) = -1 /\ n < 2 ^ 63
  | _ => True
  end.

(** ** Datagrams *)

(** The 8192 bytes a handler sees for a datagram. *)
Definition seen (l : bytes) : bytes :=
  firstn (Z.to_nat 8192) l ++ zeros (Z.to_nat 8192 - List.length l).
(** The items a receiver finds in them. *)
Definition carries (l : bytes) (items : list cpitem) : Prop :=
  exists count rest, is_u16 count /\ Forall item_wf items
    /\ seen l = le 2 count ++ items_bytes items ++ rest
    /\ (zlen items = count \/ zlen items < count /\ rest = []).
(** bytes in front of the data of a connection *)
Definition front (c : iocon) : Z := (if io_t2oRTF c then 4 else 0) + (if io_trigger c mod 4 =? 0 then 0 else 2).

(** Data in the order of the CIP specification: sequence count, run/idle header,
    application data. *)
Definition wire_data (with_seq with_head : bool) (seq hdr : Z) (data : bytes) : bytes :=
  (if with_seq then le 2 seq else []) ++ (if with_head then le 4 hdr else []) ++ data.

(** ** Reachable managers *)
Fixpoint run_calls {S} (h : heap) (ops : list (nat * call S)) (w : world S) : world S :=
  match ops with
  | [] => w
  | (j, op) :: r => run_calls h r (snd (call_world h j op w))
  end.
Definition new_world {S} (w : world S) : Prop := forall j, exists inc, w_m w j = mgr0 inc.
(** the counters and a manager after any history of calls on any managers with
    any sessions *)
Definition reachable (S : Type) (g : globals) (m : mgr) : Prop :=
  exists h ops (w : world S) i, new_world w /\ g = w_g (run_calls h ops w) /\ m = w_m (run_calls h ops w) i.

(** A connection object is what a request [c] (in the given form) and the reply
    [r] agreed on, and nothing has happened to it. *)
Definition agreed (large : bool) (c : cparams) (r : fo_response) (io : iocon) : Prop :=
  io_o2tId io = f_o2tId r /\ io_t2oId io = f_t2oId r /\ io_o2tAPI io = f_o2tApi r /\ io_t2oAPI io = f_t2oApi r
  /\ io_serial io = f_serial r
  /\ io_o2tSize io = part large FSize (c_o2tParams c) /\ io_t2oSize io = part large FSize (c_t2oParams c)
  /\ (io_o2tFixed io = true <-> part large FVar (c_o2tParams c) = 0)
  /\ (io_t2oFixed io = true <-> part large FVar (c_t2oParams c) = 0)
  /\ io_mult io = (4 * 2 ^ c_multiplier c) mod 256
  /\ io_trigger io = c_trigger c /\ (io_o2tRTF io = true <-> c_o2tRTF c <> 0) /\ (io_t2oRTF io = true <-> c_t2oRTF c <> 0)
  /\ io_path io = c_path c /\ io_vendor io = c_vendor c /\ io_orig io = c_origSerial c
  /\ io_out io = [] /\ fresh_io io.

(** ** Inactivity in real time *)

(** When the last data was accepted: [(time of the last tick before it, number
    of ticks after it)]; [last], [mark] and [n] describe what came before [ops]. *)
Fixpoint heard (s : io_spec) (ops : list io_op) (last mark n : Z) : Z * Z :=
  match ops with
  | [] => (mark, n)
  | Tick now _ _ :: r => heard s r now mark (n + 1)
  | Recv _ d :: r =>
    let body := skipn ((if sp_t2oHead s then 4 else 0) + (if sp_seq s then 2 else 0)) d in
    if fits (sp_t2oSize s) body then heard s r last last 0 else heard s r last mark n
  | SetOut _ :: r => heard s r last mark n
  end.

(** datagrams sent *)
Definition sent_data (ev : list event) : list bytes :=
  flat_map (fun e => match e with EvSent _ _ p => [p] | _ => [] end) ev.
