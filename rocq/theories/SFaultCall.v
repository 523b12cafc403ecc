(** Specification: fault listeners that throw. *)
From Verif Require Import Base MFault.

(** A listener that only throws or not, which may depend on the faults it has got before. *)
Definition refusing {W} (v : list fault -> fault -> option exn) : list fault -> fault -> st W unit :=
  fun c f w => (match v c f with Some e => Throw e | None => Ok tt end, w).
(** What such a listener gets of the faults [l]: up to the first one for which it throws. *)
Fixpoint taken (v : list fault -> fault -> option exn) (before l : list fault) : list fault * option exn :=
  match l with
  | [] => ([], None)
  | f :: r =>
    match v before f with
    | Some e => ([f], Some e)
    | None => let '(t, x) := taken v (before ++ [f]) r in (f :: t, x)
    end
  end.
