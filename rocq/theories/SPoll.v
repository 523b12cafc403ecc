(** Specification of how long handleConnections takes. *)
From Verif Require Import Base MBuffer MEip MSocket MConnReq MConn MPoll.

(** A round takes from each socket the first datagram, if it was there at [t], or
    nothing. *)
Inductive takes (t : Z) : list queue -> list (option dgram) -> list queue -> Prop :=
| takes_nil : takes t [] [] []
| takes_none q qs ready qs' : takes t qs ready qs' -> takes t (q :: qs) (None :: ready) (q :: qs')
| takes_one a d q qs ready qs' : a <= t -> takes t qs ready qs' -> takes t (((a, d) :: q) :: qs) (Some d :: ready) (q :: qs').
(** Rounds, one after the other, up to the time [lim]. *)
Inductive drained (lim : Z) : list queue -> list (sel_round dgram) -> list queue -> Prop :=
| drained_nil qs : drained lim qs [] qs
| drained_round t r qs qs1 rs qs' : t <= sr_now r -> sr_now r <= lim -> takes t qs (sr_ready r) qs1 ->
    drained lim qs1 rs qs' -> drained lim qs (r :: rs) qs'.

(** How long it takes to handle all that is in the queues, and what of it is
    there at [t]. *)
Definition load (cost : dgram -> Z) (q : queue) : Z := fold_right (fun e n => Z.max 0 (cost (snd e)) + n) 0 q.
Definition load_all (cost : dgram -> Z) (qs : list queue) : Z := load cost (List.concat qs).
Definition load_by (cost : dgram -> Z) (t : Z) (qs : list queue) : Z :=
  load cost (filter (fun e => fst e <=? t) (List.concat qs)).

(** Nothing that is there at [t] is left in front. *)
Definition empty_at (t : Z) (qs : list queue) : Prop :=
  Forall (fun q => match q with [] => True | (a, _) :: _ => t < a end) qs.

(** [n] datagrams, one every [period]. *)
Fixpoint flood (period c : Z) (d : dgram) (n : nat) : queue :=
  match n with O => [] | S n => (c, d) :: flood period (c + period) d n end.
(** A datagram that is for none of the connections. *)
Definition foreign (h : heap) (d : dgram) (m : mgr) : Prop := on_readable h d m = (Ok tt, m).
(** How often data are sent. *)
Definition sends_of (l : list event) : nat :=
  List.length (filter (fun e => match e with EvSent _ _ _ => true | _ => false end) l).
