(** Proofs for C110: captures after inner calls, and programs. *)
From Verif Require Import Base MBuffer SBuffer PBase PBuffer MEip SEip PEip
  MSocket SSocket PSocket MConnReq SConnReq PConnReq MConn SConn PConnOpen PConnMap PIo PConnCall PConnCall2 PConnHist PIo2 PConnTop PIoTop SLife PLife
  MReent SReent PReent MDeep SDeep PDeep MSlot SSlot PSlot MInner SInner PInner PInner2 PInner3.
Local Open Scope outcome_scope.

(** ** Captures *)
Lemma reassigned_iff oid k l : reassigned oid k l = true <-> exists x, In (HSet oid k x) l.
Proof.
  unfold reassigned. rewrite existsb_exists. split.
  - intros ([p j x|] & J & E); [|discriminate]. apply andb_prop in E as [A B]. apply Nat.eqb_eq in A as ->. apply lkind_eqb_iff in B as ->. eauto.
  - intros [x J]. exists (HSet oid k x). split; [assumption|]. rewrite Nat.eqb_refl. now apply lkind_eqb_iff.
Qed.
Lemma skip_front {A} (l r : list A) : skipn (List.length l) (l ++ r) = r.
Proof. now rewrite skipn_app, skipn_all, Nat.sub_diag. Qed.
Lemma perform_use {S} h (bodies : view S -> nat -> nat -> larg -> list (xact S)) n oid k before : forall gone g m s sl l g' m' s' sl' l', mgr_inv g m ->
  (gone = false -> lock oid m <> None) ->
  xperform h (nest h bodies n) oid k gone (before ++ [XAct AUse]) (g, m, s, (sl, l)) = (Ok tt, (g', m', s', (sl', l'))) ->
  gone = false /\ lock oid m' <> None /\ exists new, l' = l ++ new /\ forall x, ~ In (HSet oid k x) new.
Proof.
  induction before as [|a r IH]; intros gone g m s sl l g' m' s' sl' l' I G E.
  - cbn [app xperform do_xact] in E. unfold st_bind, do_act in E. destruct gone; [discriminate|]. unfold st_ret in E. inv E.
    split; [reflexivity|]. split; [auto|]. exists []. rewrite app_nil_r. split; auto.
  - rewrite <- app_comm_cons in E. cbn [xperform] in E. unfold st_bind in E. destruct a as [a|r1 e1 v1]; cbn [do_xact] in E.
    + destruct a as [c|p j x|]; cbn [do_act] in E.
      * destruct (do_call h c (g, m, s)) as [o2 [[g2 m2] s2]] eqn:C. destruct (lcall_log h c g m s _ _ _ _ I C) as [I2 _].
        destruct o2 as [q|e|u|]; cbn [omap bind fst snd] in E; try discriminate.
        match type of E with xperform _ _ _ _ ?b _ _ = _ => assert (G2 : b = false -> lock oid m2 <> None) end;
          [intros Y; apply orb_false_iff in Y as [_ Y]; now destruct (lock oid m2)|].
        destruct (IH _ _ _ _ _ _ _ _ _ _ _ I2 G2 E) as (A & B & D).
        apply orb_false_iff in A as [A _]. auto.
      * cbn [fst snd] in E. destruct (lock p m) as [cp|] eqn:Lp.
        -- match type of E with xperform _ _ _ _ ?b _ _ = _ => assert (G2 : b = false -> lock oid m <> None) end;
             [intros Y; apply orb_false_iff in Y as [Y _]; auto|].
           destruct (IH _ _ _ _ _ _ _ _ _ _ _ I G2 E) as (A & B & new & -> & D).
           apply orb_false_iff in A as [A A2]. split; [assumption|]. split; [assumption|]. exists (HSet p j x :: new). split; [now rewrite <- app_assoc|].
           intros y [Y|J]; [|exact (D y J)]. inv Y. rewrite Nat.eqb_refl in A2. cbn [andb] in A2. now rewrite (proj2 (lkind_eqb_iff k k) eq_refl) in A2.
        -- exact (IH _ _ _ _ _ _ _ _ _ _ _ I G E).
      * destruct gone; [discriminate|]. exact (IH _ _ _ _ _ _ _ _ _ _ _ I G E).
    + destruct (nest h bodies n r1 e1 v1 (g, m, s, (sl, l))) as [o2 [[[g2 m2] s2] [sl2 l2]]] eqn:N.
      destruct (nest_keeps h bodies n _ _ _ (g, m, s, (sl, l)) _ _ I N) as (I2 & [_ [hs X]] & _). cbn [fst snd] in X. subst l2.
      destruct o2 as [[]|e|u|]; cbn [omap bind fst snd] in E; try discriminate. rewrite skip_front in E.
      match type of E with xperform _ _ _ _ ?b _ _ = _ => assert (G2 : b = false -> lock oid m2 <> None) end;
          [intros Y; apply orb_false_iff in Y as [_ Y]; now destruct (lock oid m2)|].
        destruct (IH _ _ _ _ _ _ _ _ _ _ _ I2 G2 E) as (A & B & new & -> & D).
      apply orb_false_iff in A as [A _]. apply orb_false_iff in A as [A A2]. split; [assumption|]. split; [assumption|].
      exists (hs ++ new). split; [now rewrite app_assoc|]. intros x J. apply in_app_or in J as [J|J]; [|exact (D x J)].
      enough (reassigned oid k hs = true) by congruence. apply reassigned_iff. eauto.
Qed.
Lemma fire_use {S} h (bodies : view S -> nat -> nat -> larg -> list (xact S)) n oid k a f before g m s sl l g' m' s' sl' l' : mgr_inv g m ->
  sl oid k = Holds f -> lock oid m <> None -> bodies (g, m, s) f oid a = before ++ [XAct AUse] ->
  xfire h bodies (nest h bodies n) oid k a (g, m, s, (sl, l)) = (Ok tt, (g', m', s', (sl', l'))) ->
  lock oid m' <> None /\ exists new, l' = l ++ HCall oid k f a :: new /\ forall x, ~ In (HSet oid k x) new.
Proof.
  intros I H Lk B E. unfold xfire in E. rewrite H, B in E.
  destruct (perform_use h bodies n oid k before _ _ _ _ _ _ _ _ _ _ _ I (fun _ => Lk) E) as (_ & L & new & -> & D).
  split; [assumption|]. exists new. split; [now rewrite <- app_assoc|assumption].
Qed.
Lemma fire_lost {S} h (bodies : view S -> nat -> nat -> larg -> list (xact S)) n oid k a f rounds ending env after g m s sl l g' m' s' sl' l' : mgr_inv g m ->
  sl oid k = Holds f -> bodies (g, m, s) f oid a = XHandle rounds ending env :: XAct AUse :: after ->
  nest h bodies n rounds ending env (g, m, s, (sl, l ++ [HCall oid k f a])) = (Ok tt, (g', m', s', (sl', l'))) ->
  (lock oid m' = None \/ exists new x, l' = l ++ HCall oid k f a :: new /\ In (HSet oid k x) new) ->
  xfire h bodies (nest h bodies n) oid k a (g, m, s, (sl, l)) = (Undef UbDangling, (g', m', s', (sl', l'))).
Proof.
  intros I H B N X. unfold xfire. rewrite H, B. cbn [xperform do_xact]. unfold st_bind. cbv beta.
  match goal with |- context [nest h bodies n rounds ending env ?w] => replace (nest h bodies n rounds ending env w) with (Ok tt, (g', m', s', (sl', l'))) by (symmetry; exact N) end.
  cbn [omap bind fst snd].
  match goal with |- context [do_act _ _ _ ?b _] => assert (Y : b = true) end.
  { cbn [orb]. destruct X as [X|(new & x & -> & J)]; [rewrite X; apply orb_true_r|].
    replace (l ++ HCall oid k f a :: new) with ((l ++ [HCall oid k f a]) ++ new) by now rewrite <- app_assoc. rewrite skip_front.
    rewrite (proj2 (reassigned_iff oid k new)); [reflexivity|eauto]. }
  rewrite Y. reflexivity.
Qed.

(** ** Programs *)
Definition xticks_fuel {S} h (bodies : view S -> nat -> nat -> larg -> list (xact S)) inner env (f : nat) : st svw unit :=
  st_bind (xtick_loop h bodies inner env f 0) (fun ks '(g, m, s, x) =>
    (Ok tt, (g, set_map m (fold_left (fun l k => map_erase k l) ks (m_map m)), s, x))).
Fixpoint nest_with {S} (h : heap) (bodies : view S -> nat -> nat -> larg -> list (xact S)) (f n : nat)
  (rounds : list (sel_round dgram)) (ending : sel_end) (env : tick_env) : st (svw (S := S)) unit :=
  match n with
  | O => fun w => (Abort, w)
  | Datatypes.S n' => fun w =>
    st_bind (bs_select (fun _ => xhear h bodies (nest_with h bodies f n')) (List.length (m_socks (snd (fst (fst w))))) rounds ending)
            (fun _ => xticks_fuel h bodies (nest_with h bodies f n') env f) w
  end.
Lemma nest_with_is {S} h (bodies : view S -> nat -> nat -> larg -> list (xact S)) f n : Z.of_nat f = 65536 -> nest_with h bodies f n = nest h bodies n.
Proof.
  intros E. assert (F : Z.to_nat 65536 = f) by (rewrite <- E; apply Nat2Z.id). clear E.
  induction n as [|n IH]; [reflexivity|]. cbn [nest_with nest]. rewrite IH. unfold xhandle, xticks, xticks_fuel. rewrite F. reflexivity.
Qed.
Lemma nest_fuel {S} h (bodies : view S -> nat -> nat -> larg -> list (xact S)) :
  exists f, forall n, nest h bodies n = nest_with h bodies (Datatypes.S (Datatypes.S (Datatypes.S f))) n.
Proof.
  destruct a_fuel as [k F]. assert (K : exists n, k = Datatypes.S (Datatypes.S (Datatypes.S n))).
  { destruct k as [|[|[|n]]]; [lia..|eauto]. }
  destruct K as [f ->]. exists f. intros n. now rewrite nest_with_is.
Qed.
(** Receive listeners. 0 waits for a while and then uses its captures. 1 waits
    for the next data if it gets 9, and then uses its captures; otherwise it hands over to 2.
    2 only uses its captures. 3 uses its captures, hands over to 2 and then waits for the next data. *)
Definition next_gram : list (sel_round dgram) := [mkRound [Some (Dgram (gram 0x10007 [2; 0; 8]))] 0].
Definition first_gram : list (sel_round dgram) := [mkRound [Some (Dgram (gram 0x10007 [1; 0; 9]))] 0].
Definition waiting (w : view (list encaps)) (f oid : nat) (a : larg) : list (xact (list encaps)) :=
  match f, a with
  | 0%nat, GotData _ _ _ => [XHandle [] SelQuiet (at_ms 70); XAct AUse]
  | 1%nat, GotData _ _ [9] => [XHandle next_gram SelQuiet (at_ms 5); XAct AUse]
  | 1%nat, GotData _ _ _ => [XAct (ASet oid ForData (Holds 2))]
  | 2%nat, GotData _ _ _ => [XAct AUse]
  | 3%nat, GotData _ _ _ => [XAct AUse; XAct (ASet oid ForData (Holds 2)); XHandle next_gram SelQuiet (at_ms 5)]
  | _, _ => []
  end.
Lemma times_out : exists w, nest strict waiting 2 first_gram SelQuiet (at_ms 5) (view_1, (receiving 0, [])) = (Undef UbDangling, w).
Proof. destruct (nest_fuel strict waiting) as [n F]. rewrite F. clear F. eexists. vm_compute. reflexivity. Qed.
Lemma is_replaced : exists w, nest strict waiting 2 first_gram SelQuiet (at_ms 5) (view_1, (receiving 1, [])) = (Undef UbDangling, w).
Proof. destruct (nest_fuel strict waiting) as [n F]. rewrite F. clear F. eexists. vm_compute. reflexivity. Qed.
Lemma hands_over_first : exists v s, nest strict waiting 2 first_gram SelQuiet (at_ms 5) (view_1, (receiving 3, []))
  = (Ok tt, (v, (s, [HCall 0 ForData 3 (GotData 0 1 [9]); HSet 0 ForData (Holds 2); HCall 0 ForData 2 (GotData 0 2 [8])]))).
Proof. destruct (nest_fuel strict waiting) as [n F]. rewrite F. clear F. do 2 eexists. vm_compute. reflexivity. Qed.
Lemma waiting_acts w f oid a x : In x (waiting w f oid a) ->
  kind_of a = ForData /\ (x = XAct AUse \/ x = XAct (ASet oid ForData (Holds 2)) \/ exists r v, x = XHandle r SelQuiet v).
Proof.
  intros J. destruct a as [hdr sq d|d|]; unfold waiting in J; repeat match type of J with In _ (match ?y with _ => _ end) => destruct y end;
    cbn [In] in J; repeat (destruct J as [<-|J]); try contradiction; (split; [reflexivity|eauto]).
Qed.
Ltac peel := repeat match goal with E : _ = ?b ++ _ :: _ |- _ => is_var b; destruct b; cbn [app] in E;
  [first [discriminate E|injection E; clear E; intros; subst]..] end.
Lemma waiting_ok : xcalm waiting /\ xcourteous waiting /\ xcareful waiting /\ xnever_empties waiting.
Proof.
  split; [|split; [|split]].
  - intros w f oid a r e v N J. apply waiting_acts in J as [J _]. contradiction.
  - intros w f oid a u si N J. apply waiting_acts in J as [J _]. contradiction.
  - intros w f oid a before after d E J D. 
    assert (X : d = AUse \/ d = ASet oid ForData (Holds 2)).
    { assert (K : In (XAct d) (waiting w f oid a)) by (rewrite E; apply in_or_app; now left).
      apply waiting_acts in K as [_ [K|[K|(r & v & K)]]]; inv K; auto. }
    destruct X as [-> | ->]; [destruct D as [[x D]|(u & si & D)]; discriminate|].
    destruct a as [hdr sq dt|dt|]; unfold waiting in E;
      repeat match type of E with (match ?y with _ => _ end) = _ => destruct y end;
      peel; cbn [In] in J; repeat (destruct J as [J|J]); try discriminate; try contradiction.
  - intros w f p a oid k J. apply waiting_acts in J as [_ [J|[J|(r & v & J)]]]; inv J.
Qed.
Lemma waiting_1 w oid a : waiting w 1 oid a = [XHandle next_gram SelQuiet (at_ms 5); XAct AUse]
  \/ waiting w 1 oid a = [XAct (ASet oid ForData (Holds 2))] \/ waiting w 1 oid a = [].
Proof.
  destruct a as [hdr sq d|d|]; [|right; right; reflexivity..].
  assert (D : d = [9] \/ waiting w 1 oid (GotData hdr sq d) = [XAct (ASet oid ForData (Holds 2))]).
  { unfold waiting. repeat match goal with |- context [match ?y with _ => _ end] => is_var y; destruct y end; auto. }
  destruct D as [->|D]; [left; reflexivity|right; left; exact D].
Qed.
(** [waiting] without the two that are not prudent *)
Definition resting (w : view (list encaps)) (f oid : nat) (a : larg) : list (xact (list encaps)) :=
  match f with 2%nat | 3%nat => waiting w f oid a | _ => [] end.
Lemma resting_acts w f oid a : incl (resting w f oid a) (waiting w f oid a).
Proof. intros x J. destruct f as [|[|[|[|?]]]]; cbn [resting] in J; try contradiction; exact J. Qed.
Lemma resting_ok : xcalm resting /\ xcourteous resting /\ xcareful resting /\ prudent resting /\ xnever_empties resting.
Proof.
  destruct waiting_ok as (A & B & C & D). split; [|split; [|split; [|split]]].
  - intros w f oid a r e v N J. apply resting_acts in J. exact (A _ _ _ _ _ _ _ N J).
  - intros w f oid a u si N J. apply resting_acts in J. exact (B _ _ _ _ _ _ N J).
  - intros w f oid a before after d E J. destruct f as [|[|[|[|?]]]]; cbn [resting] in E;
      try (now destruct before); exact (C _ _ _ _ _ _ _ E J).
  - intros w f oid a before after r e v E J.
    destruct f as [|[|[|[|?]]]]; destruct a; cbn [resting waiting] in E; 
      peel; cbn [In] in J; repeat (destruct J as [J|J]); try discriminate; try contradiction.
  - intros w f p a oid k J. apply resting_acts in J. exact (D _ _ _ _ _ _ J).
Qed.
Lemma resting_runs : exists v s, nest strict resting 2 first_gram SelQuiet (at_ms 5) (view_1, (receiving 3, []))
  = (Ok tt, (v, (s, [HCall 0 ForData 3 (GotData 0 1 [9]); HSet 0 ForData (Holds 2); HCall 0 ForData 2 (GotData 0 2 [8])]))).
Proof. destruct (nest_fuel strict resting) as [n F]. rewrite F. clear F. do 2 eexists. vm_compute. reflexivity. Qed.
