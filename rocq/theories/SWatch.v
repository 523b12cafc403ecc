(** Specification for C84 and C85: which failures a call must report. *)
From Verif Require Import Base MBuffer MEip SEip SObj SFault.
Local Open Scope Z_scope.

(** ** Failures of a session *)

(** How an exchange can fail. *)
Inductive failure := FThrow (e : exn) | FUndef (u : ub) | FAbort.
Definition failure_of {A} (o : outcome A) : option failure :=
  match o with
  | Ok _ => None
  | Throw e => Some (FThrow e)
  | Undef u => Some (FUndef u)
  | Abort => Some FAbort
  end.

(** A session with a note of the first exchange that failed, and of how often
    the session was used afterwards. *)
Record watch (S : Type) := mkWatch { wt_state : S; wt_failed : option failure; wt_since : nat }.
Arguments mkWatch {S} _ _ _.
Arguments wt_state {S} _.
Arguments wt_failed {S} _.
Arguments wt_since {S} _.
Definition fresh {S} (s : S) : watch S := mkWatch s None 0.
Definition watched {S} (si : session_if S) : session_if (watch S) :=
  mkSession (si_handle si) (fun p w =>
    let '(o, s) := si_exchange si p (wt_state w) in
    (o, match wt_failed w with
        | None => mkWatch s (failure_of o) 0
        | Some f => mkWatch s (Some f) (Datatypes.S (wt_since w))
        end)).

(** A failed exchange is the last, and the call ends with its failure. *)
Definition reported {A S} (o : outcome A) (w : watch S) : Prop :=
  match wt_failed w with
  | None => True
  | Some f => failure_of o = Some f /\ wt_since w = 0%nat
  end.

(** ** Refusals of a device *)

(** [new]: the requests a call made, with the answers. A refused request is the
    last, and the call ends with the exception for it; that exception has no
    other cause. *)
Definition refusal_reported {A} (new : trace) (o : outcome A) : Prop :=
  (Forall accepted new /\ o <> Throw (RuntimeError RtRequestFailed))
  \/ exists pre q a, new = pre ++ [(q, a)] /\ Forall accepted pre /\ a_status a <> 0
     /\ o = Throw (RuntimeError RtRequestFailed).
