(** Proofs about BaseSocket::select with handlers that fail. *)
From Verif Require Import Base MBuffer MEip MSocket MConn PIo2.

(** The calls in [l] one after the other, up to the first that fails. *)
Fixpoint one_by_one {W A} (handler : nat -> A -> st W unit) (l : list (nat * A)) (w : W) : outcome unit * W :=
  match l with
  | [] => (Ok tt, w)
  | (i, a) :: r => match handler i a w with
                   | (Ok _, w') => one_by_one handler r w'
                   | failed => failed
                   end
  end.
Lemma one_by_one_app {W A} (handler : nat -> A -> st W unit) l1 l2 : forall w,
  one_by_one handler (l1 ++ l2) w = match one_by_one handler l1 w with (Ok _, w') => one_by_one handler l2 w' | r => r end.
Proof.
  induction l1 as [|[i a] r IH]; intros w; cbn [app one_by_one]; [reflexivity|].
  destruct (handler i a w) as [[[]|e|u|] w']; auto.
Qed.
Lemma dispatch_each {W A} (handler : nat -> A -> st W unit) : forall ready i n w,
  dispatch handler i n ready w = one_by_one handler (ready_calls i n ready) w.
Proof.
  induction ready as [|[a|] r IH]; intros i n w; destruct n; cbn [dispatch ready_calls one_by_one]; try reflexivity.
  - unfold st_bind. destruct (handler i a w) as [[[]|e|u|] w']; auto.
  - apply IH.
Qed.
Lemma select_each {W A} (handler : nat -> A -> st W unit) n rounds ending w : n <> 0%nat ->
  bs_select handler n rounds ending w
  = match one_by_one handler (flat_map (fun r => ready_calls 0 n (sr_ready r)) rounds) w with
    | (Ok _, w') => (match ending with SelQuiet => Ok tt | SelFail e => Throw (SystemError e) end, w')
    | failed => failed
    end.
Proof.
  intros N. unfold bs_select. destruct n as [|n]; [contradiction|]. clear N. revert w.
  induction rounds as [|r rs IH]; intros w; cbn [select_rounds flat_map].
  - destruct ending; reflexivity.
  - unfold st_bind. rewrite dispatch_each, one_by_one_app. destruct (one_by_one handler (ready_calls 0 (S n) (sr_ready r)) w) as [[[]|e|u|] w']; auto.
Qed.
