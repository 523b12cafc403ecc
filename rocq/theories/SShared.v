(** Specification of sessions used by several threads. *)
From Verif Require Import Base MEip MSocket MShared.

(** The packets sent, the threads that sent them and the threads that received
    first bytes, each in the order in which it happened; the calls that ended. *)
Fixpoint requests (ns : list note) : list encaps :=
  match ns with [] => [] | Handed _ q :: r => q :: requests r | _ :: r => requests r end.
Fixpoint senders (ns : list note) : list nat :=
  match ns with [] => [] | Handed t _ :: r => t :: senders r | _ :: r => senders r end.
Fixpoint readers (ns : list note) : list nat :=
  match ns with [] => [] | Began t :: r => t :: readers r | _ :: r => readers r end.
Fixpoint returns (ns : list note) : list (nat * outcome encaps) :=
  match ns with [] => [] | Returned t o :: r => (t, o) :: returns r | _ :: r => returns r end.

(** The packets thread [t] sent. *)
Fixpoint requests_of (t : nat) (ns : list note) : list encaps :=
  match ns with
  | [] => []
  | Handed t' q :: r => if Nat.eqb t' t then q :: requests_of t r else requests_of t r
  | _ :: r => requests_of t r
  end.

(** No call is going on. *)
Definition quiet (s : shared) : Prop := forall t, th_place (ts_threads s t) = Outside.

Definition who (e : event) : nat := match e with Go t => t | Late t => t end.

Section Runs.
Variables (h : heap) (p : peer) (handle : Z).

(** A lock around every call: no thread does anything while another one is in
    the middle of a call. *)
Fixpoint locked (s : shared) (es : list event) : Prop :=
  match es with
  | [] => True
  | e :: r => (forall t, t <> who e -> th_place (ts_threads s t) = Outside) /\ locked (step h p handle s e) r
  end.

(** A thread that has part of a reply. *)
Definition reading (s : shared) (t : nat) : Prop :=
  match th_place (ts_threads s t) with Outside => False | InHeader [] => False | _ => True end.
(** No call gets its first bytes while another one has part of its reply. *)
Fixpoint apart (s : shared) (es : list event) : Prop :=
  match es with
  | [] => True
  | e :: r => (readers (ts_notes (step h p handle s e)) <> readers (ts_notes s) -> forall t, ~ reading s t)
              /\ apart (step h p handle s e) r
  end.
End Runs.

(** The end of a call that shows neither undefined behaviour nor a failed
    assertion, and returns a packet only if status and handle are right. *)
Definition decent (handle : Z) (o : outcome encaps) : Prop :=
  match o with
  | Ok r => e_status r = 0 /\ (handle = 0 \/ e_handle r = handle)
  | Throw _ => True
  | Undef _ | Abort => False
  end.
