(** Specification: a connection and the target at its other end, over time. *)
From Verif Require Import Base MBuffer MEip MSocket MConnReq MConn SConn.

(** What happens, in the order of time (nanoseconds): the target sends the data
    item [d] at [t], and it gets to the originator's socket at [a];
    handleConnections ticks the connection at [t], and what it sends gets to the
    target at [a]; the application sets its output data. *)
Inductive lstep :=
| LSend (t a : Z) (d : bytes)
| LCall (t a : Z) (hook : bytes -> bytes) (sr : Z -> send_result)
| LOut (d : bytes).

(** The connection object with its events, what was done to it, the data items
    on their way to it (in order of arrival), and the times at which the target
    has heard (or will hear) of the connection. *)
Record loop := mkLoop {
  lp_end : io_end; lp_ev : list event; lp_ops : list io_op; lp_air : list (Z * bytes); lp_heard : list Z }.
Definition lp_new (c : iocon) (b : Z) : loop := mkLoop (Open c) [] [] [] [b].

(** At time [t] the target has given the connection up: nothing came for longer
    than its timeout [lim] after some time at which something came. *)
Definition gone (lim : Z) (hs : list Z) (t : Z) : bool :=
  existsb (fun x => (x + lim <? t) && negb (existsb (fun y => (x <? y) && (y <=? x + lim)) hs)) hs.

Fixpoint arrive (a : Z) (d : bytes) (l : list (Z * bytes)) : list (Z * bytes) :=
  match l with
  | [] => [(a, d)]
  | (a', d') :: r => if a <? a' then (a, d) :: l else (a', d') :: arrive a d r
  end.
(** something was sent and the socket took all of it *)
Definition taken (sr : Z -> send_result) (ev : list event) : bool :=
  existsb (fun e => match e with EvSent _ _ p => s_count (sr (zlen p)) =? zlen p | _ => false end) ev.

(** One step. The target sends only while it has not given up; a call receives
    what has arrived. *)
Definition lp_step (h : heap) (lim : Z) (l : loop) (x : lstep) : loop :=
  match x with
  | LSend t a d =>
    if gone lim (lp_heard l) t then l
    else mkLoop (lp_end l) (lp_ev l) (lp_ops l) (arrive a d (lp_air l)) (lp_heard l)
  | LCall t a hook sr =>
    match lp_end l with
    | Open c =>
      let ops := map (fun p => Recv 0 (snd p)) (filter (fun p => fst p <=? t) (lp_air l)) ++ [Tick t hook sr] in
      let '(e, ev) := io_run h ops c in
      mkLoop e (lp_ev l ++ ev) (lp_ops l ++ ops) (filter (fun p => t <? fst p) (lp_air l))
             (if taken sr ev then lp_heard l ++ [a] else lp_heard l)
    | _ => l
    end
  | LOut d =>
    match lp_end l with
    | Open c => mkLoop (Open (io_set_output c d)) (lp_ev l) (lp_ops l ++ [SetOut d]) (lp_air l) (lp_heard l)
    | _ => l
    end
  end.
Definition lp_run (h : heap) (lim : Z) (xs : list lstep) (l : loop) : loop := fold_left (lp_step h lim) xs l.

(** How the two ends and the network behave: the target sends at least every
    [p_send], handleConnections is called at least every [p_call] and at most
    every [p_least] milliseconds, nothing takes longer than [p_delay]. *)
Record pace := mkPace { p_send : Z; p_call : Z; p_least : Z; p_delay : Z }.

Definition head_of (s : io_spec) : nat := ((if sp_t2oHead s then 4 else 0) + (if sp_seq s then 2 else 0))%nat.
(** data in the negotiated format *)
Definition good_item (s : io_spec) (d : bytes) : Prop :=
  is_bytes d /\ (head_of s <= List.length d)%nat /\ fits (sp_t2oSize s) (skipn (head_of s) d) = true.
Definition good_out (s : io_spec) (d : bytes) : Prop := zlen d <= 65000 /\ fits (sp_o2tSize s) d = true.

(** Steps at this pace; the last call was at [call], the target last sent at
    [send]. *)
Fixpoint paced (s : io_spec) (p : pace) (call send : Z) (xs : list lstep) : Prop :=
  match xs with
  | [] => True
  | LSend t a d :: r =>
    call <= t /\ send <= t /\ t <= call + p_call p /\ t <= send + p_send p /\ t <= a <= t + p_delay p
    /\ good_item s d /\ paced s p call t r
  | LCall t a hook sr :: r =>
    call + 1000000 * p_least p <= t /\ send <= t /\ t <= call + p_call p /\ t <= send + p_send p /\ t <= a <= t + p_delay p
    /\ (forall d, zlen d <= 65000 -> zlen (hook d) <= 65000)
    /\ (forall d, fits (sp_o2tSize s) d = true -> fits (sp_o2tSize s) (hook d) = true)
    /\ (forall n, s_count (sr n) = n) /\ paced s p t send r
  | LOut d :: r => good_out s d /\ paced s p call send r
  end.

(** There is output data of the right size, or it is set first. *)
Definition has_out (c : iocon) (xs : list lstep) : Prop :=
  match xs with LOut _ :: _ => True | _ => good_out (spec_of c) (io_out c) end.

(** The timeouts leave room for this pace: the originator's (microseconds), and
    the target's [lim] (nanoseconds). Intervals counted in whole milliseconds are
    up to [(m + 1) / m] times too long if calls are [m] milliseconds apart. *)
Definition room_here (s : io_spec) (p : pace) : Prop :=
  0 <= p_send p /\ 0 <= p_delay p /\ 0 <= p_call p /\ p_send p + p_delay p + p_call p <= 1000 * sp_limit s
  /\ p_call p / 1000 + Z.max (sp_limit s) (sp_api s) < 2 ^ 32.
Definition room_there (s : io_spec) (p : pace) (lim : Z) : Prop :=
  (p_least p + 1) * (1000 * sp_api s) + p_least p * (p_call p + 2 * p_delay p) < p_least p * lim.

(** The application data sent and received. *)
Definition items_sent (xs : list lstep) : list bytes :=
  flat_map (fun x => match x with LSend _ _ d => [d] | _ => [] end) xs.
Definition received (ev : list event) : list bytes :=
  flat_map (fun e => match e with EvData _ _ _ d => [d] | _ => [] end) ev.
(** The network keeps the order. *)
Fixpoint in_order (a0 : Z) (xs : list lstep) : Prop :=
  match xs with
  | [] => True
  | LSend _ a _ :: r => a0 <= a /\ in_order a r
  | _ :: r => in_order a0 r
  end.
(** The datagrams of the slots from [n] on. *)
Fixpoint numbered (s : io_spec) (n : Z) (outs : list bytes) : list bytes :=
  match outs with [] => [] | o :: r => io_packet s n o :: numbered s (n + 1) r end.
