(** Who gets the datagrams: the managers of a host all receive at one port
    (src/ConnectionManager.cpp:154, 229-232). Everywhere else in this model
    handleConnections is given what its socket holds; here the packets on the network
    are the input, and the host hands them to the sockets. *)
From Verif Require Import Base MBuffer MEip MSocket MConnReq MConn.

(** A UDP packet: addresses of sender and receiver (numbers), the port it is sent to, and
    what it carries. *)
Record packet := mkPacket { k_from : Z; k_to : Z; k_port : Z; k_data : bytes }.

(** 224.0.0.0 to 239.255.255.255 *)
Definition is_group (a : Z) : bool := (224 * 16777216 <=? a) && (a <? 240 * 16777216).

(** A receiving socket is bound to all addresses of the host, at the port of its end
    point, with SO_REUSEADDR, and is made a member of no group
    (src/sockets/UDPBoundSocket.cpp:20-32, the only setsockopt besides SO_NOSIGPIPE and,
    for TCP, SO_RCVTIMEO). *)
Definition bound (port : Z) (m : mgr) : bool := existsb (fun e => ep_port e =? port) (m_socks m).

(** What the host does with a packet (this is the system, not the code): [me] is its address,
    [n] the number of managers on it, in this program and in others (one that is
    never polled stands for any other program at this port). A packet for the host goes to one of
    the sockets that are bound to its port ([pick]: SO_REUSEADDR allows several of
    them, and does not say which one). A packet for a group goes to all of them if some
    program of the host is a member of the group ([joined]: Linux, IP_MULTICAST_ALL), otherwise to none.
    Broadcasts are left out. *)
Definition listening {S} (n : nat) (port : Z) (w : world S) : list nat := filter (fun i => bound port (w_m w i)) (seq 0 n).
Definition receivers {S} (me : Z) (n : nat) (p : packet) (joined : bool) (pick : nat) (w : world S) : list nat :=
  let l := listening n (k_port p) w in
  if is_group (k_to p) then (if joined then l else [])
  else if k_to p =? me then match nth_error l (Nat.modulo pick (List.length l)) with Some i => [i] | None => [] end
  else [].

(** Calls, and packets that come in. Packets that are lost (on the network, or because the
    queue is full) do not occur. *)
Inductive nstep (S : Type) :=
| NCall (i : nat) (op : call S)
| NArrive (p : packet) (joined : bool) (pick : nat).
Arguments NCall {S} _ _.
Arguments NArrive {S} _ _ _.

(** The managers, and what is waiting at the socket of each (a manager has one, C48). *)
Record net (S : Type) := mkNet { n_w : world S; n_q : nat -> list bytes }.
Arguments mkNet {S} _ _.
Arguments n_w {S} _.
Arguments n_q {S} _ _.

(** How many of the waiting datagrams are read: the handler is called for one after the
    other (src/sockets/BaseSocket.cpp:120-151), until it throws. *)
Fixpoint eaten (h : heap) (m : mgr) (l : list bytes) : nat :=
  match l with
  | [] => 0
  | d :: r => match on_readable h (Dgram d) m with (Ok _, m') => S (eaten h m' r) | _ => 1 end
  end.

(** handleConnections reads what is waiting until ::select() finds nothing more
    (src/sockets/BaseSocket.cpp:148-150) or fails, after as many datagrams as the call has
    rounds (what is in them comes from the queue). src/sockets/UDPSocket.cpp:69-79: recvfrom() is not asked for the sender.
    Returned are also the datagrams that were read, with the manager. *)
Definition held (l : list bytes) : list (sel_round dgram) := map (fun d => mkRound [Some (Dgram d)] 0) l.
Definition net_step {S} (h : heap) (me : Z) (n : nat) (x : nstep S) (N : net S) : net S * list (nat * bytes) :=
  match x with
  | NCall i (CHandle rounds ending env) =>
    let l := match ending with SelQuiet => n_q N i | SelFail _ => firstn (List.length rounds) (n_q N i) end in
    let k := eaten h (w_m (n_w N) i) l in
    (mkNet (snd (call_world h i (CHandle (held l) ending env) (n_w N))) (update (n_q N) i (skipn k (n_q N i))),
     map (pair i) (firstn k (n_q N i)))
  | NCall i op => (mkNet (snd (call_world h i op (n_w N))) (n_q N), [])
  | NArrive p joined pick =>
    let l := receivers me n p joined pick (n_w N) in
    (mkNet (n_w N) (fun i => if existsb (Nat.eqb i) l then n_q N i ++ [k_data p] else n_q N i), [])
  end.
Fixpoint net_run {S} (h : heap) (me : Z) (n : nat) (xs : list (nstep S)) (N : net S) : net S * list (nat * bytes) :=
  match xs with
  | [] => (N, [])
  | x :: r => let '(N', e) := net_step h me n x N in let '(N'', e') := net_run h me n r N' in (N'', e ++ e')
  end.
(** Nothing is waiting at the start. *)
Definition net0 {S} (w : world S) : net S := mkNet w (fun _ => []).
