(** Specification: the part of a history that concerns one connection. *)
From Verif Require Import Base MBuffer SBuffer MEip SEip MSocket MConnReq SConnReq MConn SConn.

(** The datagram [l] brings the data [d] to the connection with T2O id [id]. *)
Definition brings (l : bytes) (id : Z) (d : bytes) : Prop :=
  exists i0 i1 items X rest, carries l (i0 :: i1 :: items) /\ is_u32 X /\ it_data i0 = le 4 X ++ rest
    /\ X mod 65536 = id mod 65536 /\ it_data i1 = d.
(** What a sequence of datagrams brings to it. *)
Inductive deliveries (id : Z) : list dgram -> list bytes -> Prop :=
| dl_none : deliveries id [] []
| dl_mine l r d ds : brings l id d -> deliveries id r ds -> deliveries id (Dgram l :: r) (d :: ds)
| dl_other l r ds : (forall d, ~ brings l id d) -> deliveries id r ds -> deliveries id (Dgram l :: r) ds.

(** The datagrams a call of handleConnections finds on the first [n] sockets, in
    order. *)
Definition arriving (n : nat) (rounds : list (sel_round dgram)) : list dgram :=
  flat_map (fun r => flat_map (fun x => match x with Some d => [d] | None => [] end) (firstn n (sr_ready r))) rounds.

(** What a call with result [o] does to the connection [oid] (T2O id [id]) of
    the manager it is made on, which has [n] sockets. A call of
    handleConnections that does not return has handled some of the datagrams
    and no tick. The time of a reception is not used. *)
Inductive feeds {S} (n oid : nat) (id : Z) : call S -> outcome (option nat) -> list io_op -> Prop :=
| fd_open use8 si host env large c o : feeds n oid id (COpen use8 si host env large c) o []
| fd_close use8 si p o : feeds n oid id (CClose use8 si p) o []
| fd_data d o : feeds n oid id (CData oid d) o [SetOut d]
| fd_other p d o : p <> oid -> feeds n oid id (CData p d) o []
| fd_handled rounds ending env r ds : deliveries id (arriving n rounds) ds ->
    feeds n oid id (CHandle rounds ending env) (Ok r)
      (map (Recv 0) ds ++ [Tick (t_now env oid) (t_hook env oid) (t_send env oid)])
| fd_failed rounds ending env o k ds : (forall r, o <> Ok r) -> deliveries id (firstn k (arriving n rounds)) ds ->
    feeds n oid id (CHandle rounds ending env) o (map (Recv 0) ds).

(** What a history does to the connection [oid] of manager [i], up to its end. *)
Inductive life {S} (h : heap) (i oid : nat) (id : Z) : list (nat * call S) -> world S -> list io_op -> Prop :=
| lf_end w : life h i oid id [] w []
| lf_gone ops w : lock oid (w_m w i) = None -> life h i oid id ops w []
| lf_call j op r w o w' xs ys : lock oid (w_m w i) <> None -> call_world h j op w = (o, w') ->
    (if Nat.eqb j i then feeds (List.length (m_socks (w_m w i))) oid id op o xs else xs = []) ->
    life h i oid id r w' ys -> life h i oid id ((j, op) :: r) w (xs ++ ys).

(** the events of one connection *)
Definition about (oid : nat) (ev : list event) : list event :=
  filter (fun e => match e with EvData o _ _ _ | EvClosed o | EvSent o _ _ => Nat.eqb o oid end) ev.

(** Datagrams consist of bytes. *)
Definition byte_grams {S} (op : call S) : Prop :=
  match op with
  | CHandle rounds _ _ =>
    Forall (fun r => Forall (fun x => match x with Some (Dgram l) => is_bytes l | _ => True end) (sr_ready r)) rounds
  | _ => True
  end.
