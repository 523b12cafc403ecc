(** Model: fault listeners of the PowerFlex 525 manager that throw or use the session. *)
From Verif Require Import Base MBuffer MEip MFile MIdent MParam MFault.
Local Open Scope outcome_scope.

Section Calls.
Context {W : Type}.
Variables (h : heap) (use8 : bool) (si : session_if W).
(** What the listener does with a fault, given the faults before it: it may make requests and throw.
    Listeners that replace themselves are not covered. *)
Variable listener : list fault -> fault -> st W unit.

(** src/vendor/ra/powerFlex525/DPIFaultManager.cpp:70; nothing catches exceptions *)
Definition call_listener (f : fault) : st (list fault * W) unit :=
  fun '(c, w) => let '(o, w) := listener c f w in (o, (c ++ [f], w)).
(** src/vendor/ra/powerFlex525/DPIFaultManager.cpp:55-71, as in MFault *)
Fixpoint call_loop (want : bool) (number : Z) (n : nat) : st (list fault * W) nat :=
  match n with
  | O => st_ret O
  | S n' =>
    (f <- lift (fault_read h use8 si number want) ;;
     if fd_code (fa_details f) =? 0 then st_ret O
     else
       descr <- st_lift (fault_description (fd_code (fa_details f))) ;;
       u <- call_listener (mkFault (fa_details f) descr) ;;
       k <- call_loop want (number + 1) n' ;;
       st_ret (S k))%st
  end.
(** src/vendor/ra/powerFlex525/DPIFaultManager.cpp:50-86 *)
Definition call_faults (clear want : bool) : st (list fault * W) unit :=
  (count <- call_loop want 1 10 ;;
   if clear && Nat.ltb 0 count then lift (write_command h use8 si CLEAR_FAULT_QUEUE) else st_ret tt)%st.
(** The application calls handleFaultParameters [n] times, whatever each call throws. *)
Fixpoint call_times (clear want : bool) (n : nat) (x : list fault * W) : list (outcome unit) * (list fault * W) :=
  match n with
  | O => ([], x)
  | S n' => let '(o, x) := call_faults clear want x in let '(os, x) := call_times clear want n' x in (o :: os, x)
  end.
End Calls.
