(** Specification: what does not depend on the memory behind received data. *)
From Verif Require Import Base MBuffer MEip MConn.

(** The result of a read outside the received data. *)
Definition outside {A} (o : outcome A) : Prop := o = Undef UbOobRead.

(** [f] gives the same in every memory, unless it reads outside the data it was
    given when nothing lies there ([strict]). *)
Definition indep_outcome {A} (f : heap -> outcome A) : Prop :=
  ~ outside (f strict) -> forall h, f h = f strict.
(** The same for a function that also leaves an object: *)
Definition indep_object {X A} (f : heap -> X * outcome A) : Prop :=
  ~ outside (snd (f strict)) -> forall h, f h = f strict.
(** ... and for one that acts on a state: result and state. *)
Definition indep {S A} (m : heap -> st S A) : Prop :=
  forall s, ~ outside (fst (m strict s)) -> forall h, m h s = m strict s.

(** A session that itself works in the memory, such as one over TCP: *)
Definition indep_session {S} (si : heap -> session_if S) : Prop :=
  (forall h, si_handle (si h) = si_handle (si strict)) /\ forall p, indep (fun h => si_exchange (si h) p).

(** A history of calls on managers none of which reads outside. *)
Fixpoint inside_run {S} (ops : list (nat * call S)) (w : world S) : Prop :=
  match ops with
  | [] => True
  | (i, op) :: r => ~ outside (fst (call_world strict i op w)) /\ inside_run r (snd (call_world strict i op w))
  end.
