(** Specification of how long calls take. *)
From Verif Require Import Base MBuffer SBuffer MEip MSocket SExn MDisc MTime SBound.

(** Without the times. *)
Definition untimed (evs : list (Z * seg)) : list seg := map snd evs.
(** The same stream in pieces of one byte. *)
Fixpoint atoms (segs : list seg) : list seg :=
  match segs with
  | [] => []
  | Data l :: r => map (fun x => Data [x]) l ++ atoms r
  | e :: r => e :: atoms r
  end.
(** [s] is [segs] in which the timeout has struck at most once. *)
Definition interrupted (segs s : list seg) : Prop :=
  s = segs \/ exists a b, segs = a ++ b /\ s = a ++ [Err 11] ++ b.

(** How often a signal interrupts the reception. *)
Fixpoint signals (evs : list (Z * seg)) : Z :=
  match evs with
  | [] => 0
  | (_, Err 4) :: r => 1 + signals r
  | _ :: r => signals r
  end.

(** What arrives consists of bytes. *)
Definition byte_times (evs : list (Z * seg)) : Prop := Forall (fun e => byte_seg (snd e)) evs.
Definition byte_tpeer (p : tpeer) : Prop := forall sent data c, byte_times (p sent data c).
Definition byte_tnet (w : tnet) : Prop := byte_times (tn_in w).

(** All sends return. *)
Definition sends_return (w : tnet) : Prop := Forall (fun x => snd x <> None) (tn_results w).
(** How long the next send takes. *)
Definition send_time (w : tnet) : Z :=
  match tn_results w with (_, Some d) :: _ => Z.max 0 d | _ => 0 end.
(** What is on the way after the next send of [got]. *)
Definition coming (p : tpeer) (w : tnet) (got : bytes) : list (Z * seg) :=
  tn_in w ++ p (tn_sent w) got (tn_clock w + send_time w).

(** Everything is there by [t]. *)
Definition there_by (t : Z) (evs : list (Z * seg)) : Prop := Forall (fun e => fst e <= t) evs.

(** One byte every [T] milliseconds. *)
Fixpoint drip (T c : Z) (l : bytes) : list (Z * seg) :=
  match l with [] => [] | x :: r => (c + T, Data [x]) :: drip T (c + T) r end.

(** How long the sends take that the world still has in store. *)
Definition pending (w : tnet) : Z :=
  fold_right (fun x n => match snd x with Some d => Z.max 0 d | None => 0 end + n) 0 (tn_results w).
(** The time, together with what is bound to pass: those sends, and [T] for each
    signal. *)
Definition due (T : Z) (w : tnet) : Z := tn_clock w + T * signals (tn_in w) + pending w.
(** Between [w] and [w'] there is no more time than [n] exchanges can take. *)
Definition within (T n : Z) (w w' : tnet) : Prop :=
  tn_clock w <= tn_clock w' /\ due T w' <= due T w + n * (T * 65559).
(** No signals. *)
Definition unsignalled (p : tpeer) : Prop := forall sent data c, signals (p sent data c) = 0.

(** The datagrams that come before a gap of more than [T], and when the last of
    them is taken. *)
Fixpoint heard (T c : Z) (ds : list (Z * dgram)) : list dgram :=
  match ds with
  | [] => []
  | (t, d) :: r => if t <=? c + T then d :: heard T (Z.max c t) r else []
  end.
Fixpoint heard_until (T c : Z) (ds : list (Z * dgram)) : Z :=
  match ds with
  | [] => c
  | (t, d) :: r => if t <=? c + T then heard_until T (Z.max c t) r else c
  end.
(** [n] datagrams, one every [T] milliseconds. *)
Fixpoint trickle (T c : Z) (d : dgram) (n : nat) : list (Z * dgram) :=
  match n with O => [] | S n => (c + T, d) :: trickle T (c + T) d n end.
