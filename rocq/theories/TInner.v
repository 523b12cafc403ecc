(** Listeners that call handleConnections and replace listeners: C110. *)
From Verif Require Import Base MBuffer SBuffer PBase MEip SEip MSocket SSocket MConnReq SConnReq MConn SConn PConnMap PConnTop SLife PLife MReent SReent PReent
  MDeep SDeep PDeep MSlot SSlot PSlot MInner SInner PInner PInner2 PInner3 PInner4.

(** Callables that make no inner calls are those of C102. *)
Theorem C110_flat : forall S h (bodies : view S -> nat -> nat -> larg -> list (act S)) n rounds ending env g m s x, nested S g m ->
  nest h (flat bodies) (Datatypes.S n) rounds ending env (g, m, s, x) = slot_connections h bodies rounds ending env (g, m, s, x).
Proof. intros S h bodies n rounds ending env g m s x R. apply nested_inv in R. exact (handle_flat h bodies _ rounds ending env (g, m, s, x) R). Qed.
Print Assumptions C110_flat.
(** Callables that replace nothing and use no captures are the listeners of C93. *)
Theorem C110_lasting : forall S h (bodies : view S -> nat -> nat -> larg -> list (xact S)) n rounds ending env w s l,
  lasting bodies -> (forall oid k, s oid k <> Empty) ->
  exists l', nest h bodies n rounds ending env (w, (s, l))
    = let '(o, w') := deep h (xholding bodies s) n rounds ending env w in (o, (w', (s, l'))).
Proof.
  intros S h bodies n rounds ending env w s l St Ne. destruct (nest_lasts h bodies s St Ne n rounds ending env w l) as [l' E]. exists l'.
  refine (eq_trans E _). now destruct (deep _ _ _ _ _ _ _).
Qed.
Print Assumptions C110_lasting.
Definition poll (w : view (list encaps)) (f oid : nat) (a : larg) : list (xact (list encaps)) :=
  match a with GotData _ _ [9] => [XAct (ACall (LData oid [1])); XHandle next_gram SelQuiet (at_ms 5)] | _ => [] end.
Example C110_same_example : nested (list encaps) (w_g after1) (w_m after1 0%nat) /\ lasting poll /\ (forall oid k, receiving 0 oid k <> Empty)
  /\ exists v, nest strict poll 2 first_gram SelQuiet (at_ms 5) (view_1, (receiving 0, []))
     = (Ok tt, (v, (receiving 0, [HCall 0 ForData 0 (GotData 0 1 [9]); HCall 0 ForData 0 (GotData 0 2 [8])]))).
Proof.
  split; [exact (reachable_nested _ _ _ after1_reach)|]. split.
  { intros w f oid a d J. unfold poll in J. repeat match type of J with In _ (match ?y with _ => _ end) => destruct y end;
      cbn [In] in J; repeat (destruct J as [J|J]); try contradiction; inv J. eauto. }
  split; [intros [] []; discriminate|].
  destruct (nest_fuel strict poll) as [n F]. rewrite F. clear F. eexists. vm_compute. reflexivity.
Qed.

(** Every call goes to the callable that was assigned last, also those made and
    assigned during inner calls, however the call of handleConnections ends. *)
Theorem C110_latest : forall S h (bodies : view S -> nat -> nat -> larg -> list (xact S)) n rounds ending env s0 g m s sl l o w' sl' l',
  nested S g m -> latest s0 l -> (forall oid k, sl oid k = assigned s0 oid k l) ->
  nest h bodies n rounds ending env (g, m, s, (sl, l)) = (o, (w', (sl', l'))) ->
  (exists new, l' = l ++ new) /\ latest s0 l' /\ forall oid k, sl' oid k = assigned s0 oid k l'.
Proof.
  intros S h bodies n rounds ending env s0 g m s sl l o w' sl' l' R L A E. apply nested_inv in R. split.
  - exact (proj2 (proj1 (proj2 (nest_keeps h bodies n rounds ending env (g, m, s, (sl, l)) _ _ R E)))).
  - exact (proj1 (nest_latest h bodies s0 n rounds ending env (g, m, s, (sl, l)) o (w', (sl', l')) (conj L A) E)).
Qed.
Print Assumptions C110_latest.

(** The listeners of a connection that are set, and that nobody empties, are
    called for exactly the datagrams and the timeouts announced for that connection, each
    once and in order, in inner calls too. *)
Theorem C110_made : forall S h (bodies : view S -> nat -> nat -> larg -> list (xact S)) n rounds ending env oid g m s sl l o g' m' s' sl' l',
  nested S g m -> xfills bodies oid -> (forall k, exists f, sl oid k = Holds f) ->
  nest h bodies n rounds ending env (g, m, s, (sl, l)) = (o, (g', m', s', (sl', l'))) ->
  exists events new, m_log m' = m_log m ++ events /\ l' = l ++ new
    /\ calls_for oid (made_calls new) = calls_for oid (announced_calls events).
Proof.
  intros S h bodies n rounds ending env oid g m s sl l o g' m' s' sl' l' R F H E. apply nested_inv in R.
  exact (proj1 (proj2 (nest_made h bodies oid n F rounds ending env (g, m, s, (sl, l)) o (g', m', s', (sl', l')) (conj R H) E))).
Qed.
Print Assumptions C110_made.
Example C110_made_example : xfills resting 0 /\ exists v s, nest strict resting 2 first_gram SelQuiet (at_ms 5) (view_1, ((fun _ _ => Holds 3), []))
  = (Ok tt, (v, (s, [HCall 0 ForData 3 (GotData 0 1 [9]); HSet 0 ForData (Holds 2); HCall 0 ForData 2 (GotData 0 2 [8])])))
    /\ announced_calls (m_log (snd (fst v))) = [(0%nat, GotData 0 1 [9]); (0%nat, GotData 0 2 [8])].
Proof.
  split.
  { intros w f p a k x J. apply resting_acts, waiting_acts in J as [_ [J|[J|(r & v & J)]]]; inv J. eauto. }
  destruct (nest_fuel strict resting) as [n F]. rewrite F. clear F. do 2 eexists. split; [vm_compute; reflexivity|]. vm_compute. reflexivity.
Qed.

(** Only receive listeners call handleConnections, no close or send listener
    closes its own connection, and no callable uses its captures after it has
    replaced itself, closed its connection or called handleConnections: then nothing
    is used after it was destroyed, unless a call that a callable makes does so. The
    full claim, without the restrictions, is false. *)
Theorem C110_safe_partial : forall S h (bodies : view S -> nat -> nat -> larg -> list (xact S)) n rounds ending env g m s x w,
  nested S g m -> xcalm bodies -> xcourteous bodies -> xcareful bodies -> prudent bodies ->
  nest h bodies n rounds ending env (g, m, s, x) = (Undef UbDangling, w) -> xcall_ends h bodies (Undef UbDangling).
Proof.
  intros S h bodies n rounds ending env g m s x w R Cm Co Ca Pr E. apply nested_inv in R.
  exact (proj2 (proj2 (nest_safe h bodies n Ca Pr Cm Co rounds ending env (g, m, s, x) _ w R E)) ltac:(discriminate) eq_refl).
Qed.
Print Assumptions C110_safe_partial.
(** The same for the exception of an empty listener. *)
Theorem C110_called_partial : forall S h (bodies : view S -> nat -> nat -> larg -> list (xact S)) n rounds ending env v s l w,
  xnever_empties bodies -> (forall oid k, s oid k <> Empty) ->
  nest h bodies n rounds ending env (v, (s, l)) = (Throw BadCall, w) -> xcall_ends h bodies (Throw BadCall).
Proof.
  intros S h bodies n rounds ending env v s l w Ne I E.
  exact (proj2 (proj2 (nest_called h bodies n Ne rounds ending env (v, (s, l)) _ w I E)) ltac:(discriminate) eq_refl).
Qed.
Print Assumptions C110_called_partial.
Example C110_example : nested (list encaps) (w_g after1) (w_m after1 0%nat)
  /\ (xcalm resting /\ xcourteous resting /\ xcareful resting /\ prudent resting /\ xnever_empties resting) /\ (forall oid k, receiving 3 oid k <> Empty)
  /\ exists v s, nest strict resting 2 first_gram SelQuiet (at_ms 5) (view_1, (receiving 3, []))
     = (Ok tt, (v, (s, [HCall 0 ForData 3 (GotData 0 1 [9]); HSet 0 ForData (Holds 2); HCall 0 ForData 2 (GotData 0 2 [8])]))).
Proof.
  split; [exact (reachable_nested _ _ _ after1_reach)|]. split; [exact resting_ok|]. split; [intros [] []; discriminate|exact resting_runs].
Qed.

(** A callable that uses its captures last, whatever it has done before: if it
    returns, its connection is still there and nobody has assigned to its slot
    since it was called. *)
Theorem C110_use : forall S h (bodies : view S -> nat -> nat -> larg -> list (xact S)) n oid k a f before g m s sl l g' m' s' sl' l',
  nested S g m -> sl oid k = Holds f -> lock oid m <> None -> bodies (g, m, s) f oid a = before ++ [XAct AUse] ->
  xfire h bodies (nest h bodies n) oid k a (g, m, s, (sl, l)) = (Ok tt, (g', m', s', (sl', l'))) ->
  lock oid m' <> None /\ exists new, l' = l ++ HCall oid k f a :: new /\ forall x, ~ In (HSet oid k x) new.
Proof. intros S h bodies n oid k a f before g m s sl l g' m' s' sl' l' R. apply nested_inv in R. now apply fire_use. Qed.
Print Assumptions C110_use.
(** A callable that calls handleConnections and then uses its captures: if in
    the inner call its connection goes or somebody assigns to its slot, this is
    undefined behaviour. *)
Theorem C110_lost : forall S h (bodies : view S -> nat -> nat -> larg -> list (xact S)) n oid k a f rounds ending env after g m s sl l g' m' s' sl' l',
  nested S g m -> sl oid k = Holds f -> bodies (g, m, s) f oid a = XHandle rounds ending env :: XAct AUse :: after ->
  nest h bodies n rounds ending env (g, m, s, (sl, l ++ [HCall oid k f a])) = (Ok tt, (g', m', s', (sl', l'))) ->
  (lock oid m' = None \/ exists new x, l' = l ++ HCall oid k f a :: new /\ In (HSet oid k x) new) ->
  xfire h bodies (nest h bodies n) oid k a (g, m, s, (sl, l)) = (Undef UbDangling, (g', m', s', (sl', l'))).
Proof. intros S h bodies n oid k a f rounds ending env after g m s sl l g' m' s' sl' l' R. apply nested_inv in R. now apply fire_lost. Qed.
Print Assumptions C110_lost.
(** Both cases: one waits until the connection has timed out, one until it is replaced. *)
Example C110_lost_example :
  (exists g' m' s' sl', nest strict waiting 1 [] SelQuiet (at_ms 70) (view_1, (receiving 0, [HCall 0 ForData 0 (GotData 0 1 [9])]))
     = (Ok tt, (g', m', s', (sl', [HCall 0 ForData 0 (GotData 0 1 [9])]))) /\ lock 0 m' = None)
  /\ (exists v' sl', nest strict waiting 1 next_gram SelQuiet (at_ms 5) (view_1, (receiving 1, [HCall 0 ForData 1 (GotData 0 1 [9])]))
     = (Ok tt, (v', (sl', [HCall 0 ForData 1 (GotData 0 1 [9]); HCall 0 ForData 1 (GotData 0 2 [8]); HSet 0 ForData (Holds 2)])))).
Proof.
  destruct (nest_fuel strict waiting) as [n F]. rewrite F. clear F. split.
  - do 4 eexists. split; [vm_compute; reflexivity|]. vm_compute. reflexivity.
  - do 2 eexists. vm_compute. reflexivity.
Qed.
(** A receive listener that hears of other data first: its captures are still there. *)
Definition hears_more (w : view (list encaps)) (f oid : nat) (a : larg) : list (xact (list encaps)) :=
  match a with GotData _ _ [9] => [XHandle next_gram SelQuiet (at_ms 5); XAct AUse] | _ => [] end.
Example C110_use_example : lock 0 (snd (fst view_1)) <> None
  /\ hears_more view_1 0 0 (GotData 0 1 [9]) = [XHandle next_gram SelQuiet (at_ms 5)] ++ [XAct AUse]
  /\ exists w, xfire strict hears_more (nest strict hears_more 1) 0 ForData (GotData 0 1 [9]) (view_1, (receiving 0, [])) = (Ok tt, w).
Proof.
  split; [intros X; vm_compute in X; discriminate|]. split; [reflexivity|].
  destruct (nest_fuel strict hears_more) as [n F]. rewrite F. clear F. eexists. vm_compute. reflexivity.
Qed.

(** A receive listener calls handleConnections and then uses its captures; its
    connection times out in the inner call. *)
Theorem C110_refuted : exists g m s (bodies : view (list encaps) -> nat -> nat -> larg -> list (xact (list encaps))) n sl rounds env w f,
  reachable (list encaps) g m /\ xcalm bodies /\ xcourteous bodies /\ xcareful bodies /\ sl 0%nat ForData = Holds f
  /\ (forall w oid hdr seq d, exists env, bodies w f oid (GotData hdr seq d) = [XHandle [] SelQuiet env; XAct AUse])
  /\ nest strict bodies n rounds SelQuiet env (g, m, s, (sl, [])) = (Undef UbDangling, w).
Proof.
  destruct times_out as [w E]. destruct waiting_ok as (A & B & C & _).
  exists (w_g after1), (w_m after1 0%nat), (w_s after1), waiting, 2%nat, (receiving 0), first_gram, (at_ms 5), w, 0%nat.
  split; [exact after1_reach|]. split; [exact A|]. split; [exact B|]. split; [exact C|]. split; [reflexivity|]. split; [intros; eexists; reflexivity|exact E].
Qed.
Print Assumptions C110_refuted.
(** A receive listener calls handleConnections and then uses its captures; in
    the inner call it is called again for the next datagram and replaces
    itself. No single run of it both replaces itself and uses its captures. *)
Theorem C110_replaced_refuted : exists g m s (bodies : view (list encaps) -> nat -> nat -> larg -> list (xact (list encaps))) n sl rounds env w f,
  reachable (list encaps) g m /\ xcalm bodies /\ xcourteous bodies /\ xcareful bodies /\ sl 0%nat ForData = Holds f
  /\ (forall w oid a x k, In (XAct (ASet oid k x)) (bodies w f oid a) -> bodies w f oid a = [XAct (ASet oid ForData (Holds 2))])
  /\ nest strict bodies n rounds SelQuiet env (g, m, s, (sl, [])) = (Undef UbDangling, w).
Proof.
  destruct is_replaced as [w E]. destruct waiting_ok as (A & B & C & _).
  exists (w_g after1), (w_m after1 0%nat), (w_s after1), waiting, 2%nat, (receiving 1), first_gram, (at_ms 5), w, 1%nat.
  split; [exact after1_reach|]. split; [exact A|]. split; [exact B|]. split; [exact C|]. split; [reflexivity|]. split; [|exact E].
  intros v oid a x k J. destruct (waiting_1 v oid a) as [X|[X|X]]; rewrite X in J |- *; [destruct J as [J|[J|[]]]; discriminate|reflexivity|destruct J].
Qed.
Print Assumptions C110_replaced_refuted.
