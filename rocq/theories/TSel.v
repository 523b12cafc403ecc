(** Property C50 for handlers that may fail. *)
From Verif Require Import Base MBuffer MEip MSocket MConn PIo2 PSel.

(** Any handlers: they run in order, once per ready socket and round, up to the
    first that fails; how it failed is how the call ends. *)
Theorem C50_handlers : forall W A (handler : nat -> A -> st W unit) n rounds ending w, n <> 0%nat ->
  bs_select handler n rounds ending w
  = match one_by_one handler (flat_map (fun r => ready_calls 0 n (sr_ready r)) rounds) w with
    | (Ok _, w') => (match ending with SelQuiet => Ok tt | SelFail e => Throw (SystemError e) end, w')
    | failed => failed
    end.
Proof. exact @select_each. Qed.
Print Assumptions C50_handlers.
Example C50_handlers_example :
  let handler (i a : nat) (w : list nat) := if Nat.eqb a 6 then (Throw OutOfRange, w) else (Ok tt, w ++ [a]) in
  bs_select handler 3 [mkRound [Some 5; None; Some 4]%nat 1; mkRound [None; Some 6; Some 7]%nat 1] SelQuiet [] = (Throw OutOfRange, [5; 4]%nat).
Proof. reflexivity. Qed.
