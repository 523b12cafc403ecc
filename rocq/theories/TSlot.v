(** Listeners that replace listeners: C102. *)
From Verif Require Import Base MBuffer SBuffer PBase MEip SEip MSocket SSocket MConnReq SConnReq MConn SConn PConnMap PConnTop SLife PLife MReent SReent PReent
  MSlot SSlot PSlot.

(** Every call goes to the callable that was assigned last, at any time and
    however the call of handleConnections ends. *)
Theorem C102_latest : forall S h (bodies : view S -> nat -> nat -> larg -> list (act S)) rounds ending env s0 w s l o w' s' l',
  latest s0 l -> (forall oid k, s oid k = assigned s0 oid k l) ->
  slot_connections h bodies rounds ending env (w, (s, l)) = (o, (w', (s', l'))) ->
  (exists new, l' = l ++ new) /\ latest s0 l' /\ forall oid k, s' oid k = assigned s0 oid k l'.
Proof.
  intros S h bodies rounds ending env s0 w s l o w' s' l' L A E. split; [exact (slot_grows h bodies env rounds ending _ _ _ E)|].
  exact (slot_latest h bodies env s0 rounds ending (w, (s, l)) o (w', (s', l')) (conj L A) E).
Qed.
Print Assumptions C102_latest.
(** Nothing has happened and the slots are as they were: [s0] any, [l] empty. *)
Example C102_latest_ex : latest (receiving 2) [] /\ forall oid k, receiving 2 oid k = assigned (receiving 2) oid k [].
Proof. split; [intros [|? ?] ? ? ? ? ? E; discriminate|reflexivity]. Qed.

(** The listeners of a connection that are set, and that nobody empties, are
    called for exactly the datagrams and the timeout of that connection, each once and
    in order, whoever replaces them by what. *)
Theorem C102_made : forall S h (bodies : view S -> nat -> nat -> larg -> list (act S)) rounds ending env oid g m s sl l o g' m' s' sl' l',
  slotted S g m -> fills bodies oid -> (forall k, exists f, sl oid k = Holds f) ->
  slot_connections h bodies rounds ending env (g, m, s, (sl, l)) = (o, (g', m', s', (sl', l'))) ->
  exists events new, m_log m' = m_log m ++ events /\ l' = l ++ new
    /\ calls_for oid (made_calls new) = calls_for oid (announced_calls events).
Proof.
  intros S h bodies rounds ending env oid g m s sl l o g' m' s' sl' l' R F H E. apply slotted_inv in R.
  exact (proj2 (slot_made h bodies env oid F rounds ending (g, m, s, (sl, l)) o (g', m', s', (sl', l')) (conj R H) E)).
Qed.
Print Assumptions C102_made.

(** What a callable assigns to listeners of a connection that it does not close
    is what they hold when it returns; the others stay as they were. *)
Theorem C102_replaced : forall S h (bodies : view S -> nat -> nat -> larg -> list (act S)) oid k a f p j g m s sl l g' m' s' sl' l',
  slotted S g m -> sl oid k = Holds f -> lock p m <> None ->
  (forall use8 si, ~ In (ACall (LClose use8 si p)) (bodies (g, m, s) f oid a)) ->
  fire h bodies oid k a (g, m, s, (sl, l)) = (Ok tt, (g', m', s', (sl', l'))) ->
  (forall before x after, bodies (g, m, s) f oid a = before ++ ASet p j x :: after -> (forall y, ~ In (ASet p j y) after) -> sl' p j = x)
  /\ ((forall y, ~ In (ASet p j y) (bodies (g, m, s) f oid a)) -> sl' p j = sl p j).
Proof. intros S h bodies oid k a f p j g m s sl l g' m' s' sl' l' R. apply fire_sets. eapply slotted_inv; eassumption. Qed.
Print Assumptions C102_replaced.

(** Callables that replace nothing and use no captures are the listeners of C77
    (so C77 to C80 hold of them). *)
Theorem C102_same : forall S h (bodies : view S -> nat -> nat -> larg -> list (act S)) rounds ending env w s l,
  steadfast bodies -> (forall oid k, s oid k <> Empty) ->
  exists l', slot_connections h bodies rounds ending env (w, (s, l))
    = let '(o, w') := listen_connections h (holding bodies s) rounds ending env w in (o, (w', (s, l'))).
Proof.
  intros S h bodies rounds ending env w s l St Ne. destruct (slot_same h bodies env s St Ne rounds ending w l) as [l' E]. exists l'.
  refine (eq_trans E _). now destruct (listen_connections _ _ _ _ _ _).
Qed.
Print Assumptions C102_same.
Definition echo (w : view (list encaps)) (f oid : nat) (a : larg) : list (act (list encaps)) :=
  match a with GotData _ _ d => [ACall (LData oid d)] | _ => [] end.
Example C102_same_ex : steadfast echo /\ (forall oid k, receiving 0 oid k <> Empty).
Proof.
  split; [|intros [] []; discriminate]. intros w f oid a x J. destruct a; cbn in J; [|contradiction..]. destruct J as [<-|[]]. eauto.
Qed.

(** No callable uses its captures after it has replaced itself or closed its
    connection, and no close or send listener closes the connection it is
    called for: then nothing is used after it was destroyed, unless a call that a callable
    makes does so. The full claim, without the restrictions, is false. *)
Theorem C102_safe_partial : forall S h (bodies : view S -> nat -> nat -> larg -> list (act S)) rounds ending env g m s x w,
  slotted S g m -> careful bodies -> courteous bodies ->
  slot_connections h bodies rounds ending env (g, m, s, x) = (Undef UbDangling, w) -> call_ends h bodies (Undef UbDangling).
Proof.
  intros S h bodies rounds ending env g m s x w R Ca Co E. apply slotted_inv in R.
  exact (proj2 (slot_safe h bodies env rounds ending (g, m, s, x) _ w Ca Co R E) eq_refl).
Qed.
Print Assumptions C102_safe_partial.
(** The same for the exception of an empty listener. *)
Theorem C102_called_partial : forall S h (bodies : view S -> nat -> nat -> larg -> list (act S)) rounds ending env v s l w,
  never_empties bodies -> (forall oid k, s oid k <> Empty) ->
  slot_connections h bodies rounds ending env (v, (s, l)) = (Throw BadCall, w) -> call_ends h bodies (Throw BadCall).
Proof.
  intros S h bodies rounds ending env v s l w Ne I E.
  exact (proj2 (slot_called h bodies env Ne rounds ending (v, (s, l)) _ w I E) eq_refl).
Qed.
Print Assumptions C102_called_partial.

(** A receive listener sets another one and then uses its captures. *)
Theorem C102_refuted : exists g m s (bodies : view (list encaps) -> nat -> nat -> larg -> list (act (list encaps))) sl rounds env w,
  reachable (list encaps) g m /\ sl 0%nat ForData = Holds 0
  /\ (forall w oid a, bodies w 0%nat oid a = [ASet oid ForData (Holds 1); AUse]) /\ (forall w oid a, bodies w 1%nat oid a = [AUse])
  /\ slot_connections strict bodies rounds SelQuiet env (g, m, s, (sl, [])) = (Undef UbDangling, w).
Proof.
  destruct replaces_itself as [w E]. exists (w_g after1), (w_m after1 0%nat), (w_s after1), handover, (receiving 0), two_grams, (at_ms 5), w.
  split; [exact after1_reach|]. split; [reflexivity|]. split; [reflexivity|]. split; [reflexivity|exact E].
Qed.
Print Assumptions C102_refuted.
(** A receive listener closes its connection and then uses its captures. *)
Theorem C102_close_refuted : exists g m s (bodies : view (list encaps) -> nat -> nat -> larg -> list (act (list encaps))) sl rounds env w f,
  reachable (list encaps) g m /\ sl 0%nat ForData = Holds f
  /\ (forall w oid a, exists u si, bodies w f oid a = [ACall (LClose u si oid); AUse])
  /\ slot_connections strict bodies rounds SelQuiet env (g, m, s, (sl, [])) = (Undef UbDangling, w).
Proof.
  destruct closes_itself as [w E]. exists (w_g after1), (w_m after1 0%nat), (w_s after1), handover, (receiving 3), two_grams, (at_ms 5), w, 3%nat.
  split; [exact after1_reach|]. split; [reflexivity|]. split; [intros; do 2 eexists; reflexivity|exact E].
Qed.
Print Assumptions C102_close_refuted.
(** A receive listener that removes itself (an empty std::function): the next
    datagram of the connection ends handleConnections with an exception. *)
Theorem C102_empty_refuted : exists g m s (bodies : view (list encaps) -> nat -> nat -> larg -> list (act (list encaps))) sl rounds env w f,
  reachable (list encaps) g m /\ sl 0%nat ForData = Holds f
  /\ (forall w oid a, bodies w f oid a = [ASet oid ForData Empty])
  /\ slot_connections strict bodies rounds SelQuiet env (g, m, s, (sl, [])) = (Throw BadCall, w).
Proof.
  destruct empties_itself as [w E]. exists (w_g after1), (w_m after1 0%nat), (w_s after1), handover, (receiving 4), two_grams, (at_ms 5), w, 4%nat.
  split; [exact after1_reach|]. split; [reflexivity|]. split; [reflexivity|exact E].
Qed.
Print Assumptions C102_empty_refuted.

(** A receive listener hands over to another one as its last act: the second
    datagram goes to that one. The hypotheses of the theorems above are met. *)
Definition relay (w : view (list encaps)) (f oid : nat) (a : larg) : list (act (list encaps)) :=
  match f, a with 0%nat, GotData _ _ _ => [AUse; ASet oid ForData (Holds 1)] | _, _ => [AUse] end.
Example C102_example :
  slotted (list encaps) (w_g after1) (w_m after1 0%nat) /\ careful relay /\ courteous relay /\ never_empties relay /\ fills relay 0
  /\ lock 0 (w_m after1 0%nat) <> None
  /\ exists v s, slot_connections strict relay two_grams SelQuiet (at_ms 5) (view_1, ((fun _ _ => Holds 0), []))
     = (Ok tt, (v, (s, [HCall 0 ForData 0 (GotData 0 1 [9]); HSet 0 ForData (Holds 1); HCall 0 ForData 1 (GotData 0 2 [8])]))).
Proof.
  split; [exact (reachable_slotted _ _ _ after1_reach)|]. split.
  { intros w f oid a before after d E J [[x ->]|(u & si & ->)]; unfold relay in E;
      destruct f as [|f]; [destruct a as [hdr seq dt|dt|]| |destruct a as [hdr seq dt|dt|]|];
      destruct before as [|b1 [|b2 [|b3 before]]]; inv E; cbn in J; intuition discriminate. }
  split. { intros w f oid a u si _ J. unfold relay in J. destruct f; [destruct a|]; cbn in J; intuition discriminate. }
  split. { intros w f p a oid k J. unfold relay in J. destruct f; [destruct a|]; cbn in J; intuition discriminate. }
  split. { intros w f p a k x J. unfold relay in J. destruct f; [destruct a|]; cbn in J; repeat (destruct J as [J|J]; try discriminate; try contradiction). inv J. eauto. }
  split; [intros X; vm_compute in X; discriminate|].
  destruct (slot_fuel strict relay (at_ms 5)) as [n F]. rewrite F. clear F. do 2 eexists. vm_compute. reflexivity.
Qed.
