(** Proofs about MObjLog. *)
From Verif Require Import Base PBase MBuffer SBuffer PBuffer MEip SEip SObj PObj MStatus PStatus MLog SText PText MMsg SMsg SErrno PErrno MFile MIdent MParam MFault MYaskawa MExample PExample MFileLog SFileLog PFileLog PFileLog2 MObjLog SObjLog.
Local Open Scope Z_scope.
Ltac Zify.zify_post_hook ::= Z.div_mod_to_equations.

(** ** Without the log *)
Definition drops {W A} (m : st (W * list message) A) (n : st W A) : Prop :=
  forall w l, exists o w' lg, n w = (o, w') /\ m (w, l) = (o, (w', l ++ lg)).
Lemma drops_ret {W A} (a : A) : @drops W A (st_ret a) (st_ret a).
Proof. intros w l. exists (Ok a), w, []. now rewrite app_nil_r. Qed.
Lemma drops_lift {W A} (a : outcome A) : @drops W A (st_lift a) (st_lift a).
Proof. intros w l. exists a, w, []. now rewrite app_nil_r. Qed.
Lemma drops_throw {W A} e : @drops W A (st_throw e) (st_throw e).
Proof. intros w l. exists (Throw e), w, []. now rewrite app_nil_r. Qed.
Lemma drops_bind {W A B} (m : st (W * list message) A) n (k : A -> st (W * list message) B) k' :
  drops m n -> (forall a, drops (k a) (k' a)) -> drops (st_bind m k) (st_bind n k').
Proof.
  intros M K w l. destruct (M w l) as (o & w1 & l1 & E1 & E2). unfold st_bind. rewrite E1, E2.
  destruct o as [a|e|u|]; [|exists (Throw e), w1, l1; now split|exists (Undef u), w1, l1; now split|exists Abort, w1, l1; now split].
  destruct (K a w1 (l ++ l1)) as (o & w2 & l2 & E3 & E4). exists o, w2, (l1 ++ l2). now rewrite app_assoc.
Qed.
Lemma drops_put {W B} m (k : st (W * list message) B) k' : drops k k' -> drops (st_bind (put m) (fun _ => k)) k'.
Proof.
  intros K w l. destruct (K w (l ++ [m])) as (o & w2 & l2 & E3 & E4). exists o, w2, ([m] ++ l2).
  split; [assumption|]. unfold st_bind, put. now rewrite E4, <- app_assoc.
Qed.
Lemma drops_early {W A B} (x : outcome A) (k : A -> st (W * list message) B) n :
  match x with
  | Ok a => drops (k a) n
  | Throw e => forall w, n w = (Throw e, w)
  | Undef u => forall w, n w = (Undef u, w)
  | Abort => forall w, n w = (Abort, w)
  end -> drops (st_bind (st_lift x) k) n.
Proof.
  intros H w l. unfold st_bind, st_lift. destruct x as [a|e|u|]; [exact (H w l)|..].
  all: eexists _, _, []; rewrite app_nil_r; (split; [apply H|reflexivity]).
Qed.

Section Drop.
Context {W : Type}.
Variables (h : heap) (use8 : bool) (si : session_if W).

Lemma drops_ask service path : drops (ask_logged h use8 si service path []) (ask h use8 si service path).
Proof.
  intros w l. unfold ask_logged, ask. destruct (send_request _ _ _ _ _ _ _ w) as [o w']. eexists _, _, _. split; reflexivity.
Qed.
Lemma drops_identity n : drops (identity_logged h use8 si n) (identity_read h use8 si n).
Proof.
  intros w l. unfold identity_logged, identity_read, ask_logged, st_bind.
  destruct (send_request _ _ _ _ _ _ _ w) as [o w']. destruct o as [r|e|u|]; cbn [bind].
  2-4: eexists _, _, _; split; reflexivity.
  destruct (r_status r =? GSC_SUCCESS).
  - unfold st_lift. destruct (get_identity h n (buf_of (r_data r))) as [[i b]|e|u|]; cbn [bind omap fst].
    + rewrite Tauto.if_same. eexists _, _, _. split; reflexivity.
    + eexists _, _, _; split; reflexivity.
    + eexists _, _, _; split; reflexivity.
    + eexists _, _, _; split; reflexivity.
  - eexists _, _, _. split; reflexivity.
Qed.
Lemma drops_scaling id n : forall first, drops (scaling_logged h use8 si id first n) (ask_scaling h use8 si id first n).
Proof.
  induction n as [|n IH]; intros first; cbn [scaling_logged ask_scaling]; [apply drops_ret|].
  apply drops_bind; [apply drops_ask|]. intros a. apply drops_bind; [apply IH|]. intros b. apply drops_ret.
Qed.
(** The descriptor is the first part of what is read. *)
Lemma descriptor_first id full size d :
  match param_descriptor h size d with
  | Ok v => match param_attributes h id full size d with
            | Ok p => pa_scalable p = negb (Z.land v SUPPORTS_SCALING =? 0) /\ pa_readonly p = negb (Z.land v READ_ONLY =? 0)
            | _ => True
            end
  | Throw e => param_attributes h id full size d = Throw e
  | Undef u => param_attributes h id full size d = Undef u
  | Abort => param_attributes h id full size d = Abort
  end.
Proof.
  unfold param_descriptor, param_attributes.
  destruct (get_bytes h size _) as [[v b]| | |]; cbn [bind]; try reflexivity.
  destruct (get_u8 h b) as [[n b1]| | |]; cbn [bind]; try reflexivity.
  destruct (get_bytes h _ b1) as [[x b2]| | |]; cbn [bind]; try reflexivity.
  destruct (get_u16 h b2) as [[ds b3]| | |]; cbn [bind]; try reflexivity.
  destruct (get_u8 h b3) as [[t b4]| | |]; cbn [bind]; try reflexivity. cbv zeta.
  destruct full; [|split; reflexivity].
  repeat match goal with |- context [bind ?m _] => match m with bind _ _ => fail 1 | _ => destruct m as [[]| | |]; cbn [bind]; try exact Logic.I end end.
  split; reflexivity.
Qed.
Lemma drops_param id full : drops (param_logged h use8 si id full) (param_read h use8 si id full).
Proof.
  unfold param_logged, param_read. apply drops_put. apply drops_bind; [apply drops_ask|]. intros d.
  apply drops_bind; [apply drops_lift|]. intros size. apply drops_bind; [apply drops_ask|]. intros d2.
  pose proof (descriptor_first id full (Z.to_nat size) d2) as F. apply drops_early.
  destruct (param_descriptor h (Z.to_nat size) d2) as [v|e|u|].
  2-4: intros w; unfold st_bind, st_lift; now rewrite F.
  apply drops_put. apply drops_bind; [apply drops_lift|]. intros p.
  intros w l. set (n := if full && pa_scalable p then _ else st_ret p). set (m := if full && pa_scalable p then _ else st_ret p).
  assert (D : drops m n).
  { unfold m, n. destruct (_ && _); [|apply drops_ret]. apply drops_bind; [apply drops_scaling|]. intros x. apply drops_lift. }
  clearbody m n. destruct (D w l) as (o & w1 & l1 & E1 & E2). unfold st_bind. rewrite E2, E1.
  destruct o as [a|e|u|]; [|eexists _, _, _; split; reflexivity..]. cbn [put st_ret]. rewrite <- app_assoc. eexists _, _, _. split; reflexivity.
Qed.
Lemma drops_detail n : drops (detail_logged h use8 si n) (fault_detail h use8 si n).
Proof. apply drops_bind; [apply drops_ask|]. intros a. apply drops_lift. Qed.
Lemma drops_fault n want : drops (fault_logged h use8 si n want) (fault_read h use8 si n want).
Proof.
  unfold fault_logged, fault_read. destruct (fault_params n) as [[[[a b] c] e]|]; [|apply drops_throw].
  apply drops_bind; [apply drops_detail|]. intros code. destruct (_ && _); [|apply drops_ret].
  apply drops_bind; [apply drops_detail|]. intros v. apply drops_bind; [apply drops_detail|]. intros v2.
  apply drops_bind; [apply drops_detail|]. intros v3. apply drops_ret.
Qed.
Lemma drops_command c : drops (command_logged h use8 si c) (write_command h use8 si c).
Proof.
  intros w l. unfold command_logged, write_command, ask_logged, st_bind. destruct (send_request _ _ _ _ _ _ _ w) as [o w'].
  destruct o as [r|e|u|]; cbn [bind]; try (eexists _, _, _; split; reflexivity).
  destruct (r_status r =? GSC_SUCCESS); cbn [negb]; eexists _, _, _; split; reflexivity.
Qed.
Lemma drops_fault_object id : drops (fault_object_logged h use8 si id) (fault_object_read h use8 si id).
Proof. apply drops_bind; [apply drops_ask|]. intros a. apply drops_lift. Qed.
Lemma drops_update p w l : exists o p' w' lg, update_value h use8 si (p, w) = (o, (p', w'))
  /\ update_logged h use8 si (p, (w, l)) = (o, (p', (w', l ++ lg))).
Proof.
  unfold update_value, update_logged. destruct (pa_router p).
  - destruct (drops_ask GET_ATTRIBUTE_SINGLE (epath3 PARAMETER_CLASS_ID (pa_id p) ATTR_VALUE) w l) as (o & w1 & l1 & E1 & E2).
    rewrite E1, E2. destruct (bind o _) as [[v b]| | |]; eexists _, _, _, _; split; reflexivity.
  - eexists _, _, _, []. rewrite app_nil_r. split; reflexivity.
Qed.

(** The fault manager: the listener's record is the same. *)
Definition drops2 {A} (m : st (list fault * (W * list message)) A) (n : st (list fault * W) A) : Prop :=
  forall c w l, exists o c' w' lg, n (c, w) = (o, (c', w')) /\ m (c, (w, l)) = (o, (c', (w', l ++ lg))).
Lemma drops2_ret {A} (a : A) : drops2 (st_ret a) (st_ret a).
Proof. intros c w l. exists (Ok a), c, w, []. now rewrite app_nil_r. Qed.
Lemma drops2_lift {A} (a : outcome A) : drops2 (st_lift a) (st_lift a).
Proof. intros c w l. exists a, c, w, []. now rewrite app_nil_r. Qed.
Lemma drops2_notify f : drops2 (notify f) (notify f).
Proof. intros c w l. eexists _, _, _, []. rewrite app_nil_r. split; reflexivity. Qed.
Lemma drops2_up {A} (m : st (W * list message) A) n : drops m n -> drops2 (lift m) (lift n).
Proof. intros D c w l. destruct (D w l) as (o & w1 & l1 & E1 & E2). exists o, c, w1, l1. unfold lift. now rewrite E1, E2. Qed.
Lemma drops2_bind {A B} (m : st (list fault * (W * list message)) A) n (k : A -> st (list fault * (W * list message)) B) k' :
  drops2 m n -> (forall a, drops2 (k a) (k' a)) -> drops2 (st_bind m k) (st_bind n k').
Proof.
  intros M K c w l. destruct (M c w l) as (o & c1 & w1 & l1 & E1 & E2). unfold st_bind. rewrite E1, E2.
  destruct o as [a|e|u|]; [|eexists _, _, _, _; split; reflexivity..].
  destruct (K a c1 w1 (l ++ l1)) as (o & c2 & w2 & l2 & E3 & E4). exists o, c2, w2, (l1 ++ l2). now rewrite app_assoc.
Qed.
Lemma drops_loop want n : forall number, drops2 (loop_logged h use8 si want number n) (fault_loop h use8 si want number n).
Proof.
  induction n as [|n IH]; intros number; cbn [loop_logged fault_loop]; [apply drops2_ret|].
  apply drops2_bind; [apply drops2_up, drops_fault|]. intros f. destruct (_ =? 0); [apply drops2_ret|].
  apply drops2_bind; [apply drops2_lift|]. intros ds. apply drops2_bind; [apply drops2_notify|]. intros u.
  apply drops2_bind; [apply IH|]. intros k. apply drops2_ret.
Qed.
Lemma drops_handle clear want : drops2 (handle_logged h use8 si clear want) (handle_faults h use8 si clear want).
Proof.
  apply drops2_bind; [apply drops_loop|]. intros k c w l.
  assert (D : drops2 (if clear && Nat.ltb 0 k then lift (command_logged h use8 si CLEAR_FAULT_QUEUE) else st_ret tt)
                     (if clear && Nat.ltb 0 k then lift (write_command h use8 si CLEAR_FAULT_QUEUE) else st_ret tt)).
  { destruct (_ && _); [apply drops2_up, drops_command|apply drops2_ret]. }
  unfold st_bind at 1. destruct (Nat.ltb 0 k); cbn [lift put st_ret].
  - destruct (D c w (l ++ [count_message k])) as (o & c1 & w1 & l1 & E1 & E2). exists o, c1, w1, ([count_message k] ++ l1).
    now rewrite app_assoc.
  - exact (D c w l).
Qed.
End Drop.

(** ** Exchanges *)
Lemma tells_app l1 t1 l2 t2 : tells l1 t1 -> tells l2 t2 -> tells (l1 ++ l2) (t1 ++ t2).
Proof. induction 1; intros T; cbn [app]; [assumption|apply TellsDone; auto|apply TellsRefused; auto]. Qed.
Lemma status_tells s a more : answer_wf a -> tells_refusal (ERROR, status_text (mkResp s (a_status a) (a_addl a) (a_data a) more)) a.
Proof.
  intros (A & B & _). unfold is_words in B. destruct (additional_ok _ B) as (ds & E & F). exists ds. split; [assumption|].
  unfold status_text. cbn [r_status r_addl]. now rewrite E.
Qed.

Section Told.
Context {S : Type}.
Variables (trc : S -> trace) (lgs : S -> list message) (p : message -> bool).
Definition told {A} (m : st S A) : Prop :=
  forall s o s', m s = (o, s') -> exists new lg, trc s' = trc s ++ new /\ lgs s' = lgs s ++ lg /\ tells (filter p lg) new.
Lemma told_pure {A} (o : outcome A) : told (fun s => (o, s)).
Proof. intros s o' s' E. inv E. exists [], []. rewrite !app_nil_r. repeat split. constructor. Qed.
Lemma told_bind {A B} (m : st S A) (k : A -> st S B) : told m -> (forall a, told (k a)) -> told (st_bind m k).
Proof.
  intros M K s o s' E. unfold st_bind in E. destruct (m s) as [o1 s1] eqn:E1. destruct (M _ _ _ E1) as (n1 & l1 & T1 & L1 & P1).
  destruct o1 as [a|e|u|].
  2-4: inv E; exists n1, l1; repeat (split; [assumption|]); assumption.
  destruct (K a _ _ _ E) as (n2 & l2 & T2 & L2 & P2). exists (n1 ++ n2), (l1 ++ l2).
  rewrite T2, T1, L2, L1, !app_assoc. repeat (split; [reflexivity|]). rewrite filter_app. now apply tells_app.
Qed.
End Told.

(** *** The clients, with a device *)
Section Served.
Context {D : Type}.
Variables (h : heap) (use8 : bool) (handle : Z) (dev : device D).
Hypotheses (Hh : is_u32 handle) (Hd : device_wf dev).
Let si := served handle dev.
Variable p : message -> bool.
Hypothesis (Pr : forall s q, p (request_message s q) = true) (Pe : forall r, p (ERROR, status_text r) = true).
Definition trc0 (s : D * trace * list message) : trace := snd (fst s).
Definition lgs0 (s : D * trace * list message) : list message := snd s.
Notation told0 := (told trc0 lgs0 p).

Lemma told_ask3 service c n a data : 0 <= service < 128 -> 0 <= c < 256 -> 0 <= a < 256 -> sendable use8 n -> is_bytes data -> zlen data <= 60000 ->
  told0 (ask_logged h use8 si service (epath3 c n a) data).
Proof.
  intros S C A N B L [[d tr] l] o s' E. unfold ask_logged in E. set (q := mkReq service [(KClass, c); (KInst, n); (KAttr, a)] data).
  destruct (dev d q) as [x d'] eqn:X. pose proof (Hd d q) as Wx. rewrite X in Wx. cbn [fst] in Wx.
  unfold si in E. rewrite (served3 h use8 handle dev service c n a data d tr x d') in E by assumption. cbn [bind r_status r_data] in E.
  assert (T : tells_request (request_message service (epath3 c n a)) q)
    by (apply tells3; unfold is_u8; try lia; apply N).
  inv E. eexists [(q, x)], _. split; [reflexivity|]. split; [reflexivity|]. unfold GSC_SUCCESS.
  cbn [filter]. rewrite Pr. destruct (Z.eqb_spec (a_status x) 0) as [Z0|Z0].
  - apply TellsDone; [assumption..|apply TellsNothing].
  - cbn [filter]. rewrite Pe. apply TellsRefused; [assumption|assumption|now apply status_tells|apply TellsNothing].
Qed.
Lemma told_ask2 service c n data : 0 <= service < 128 -> 0 <= c < 256 -> sendable use8 n -> is_bytes data -> zlen data <= 60000 ->
  told0 (ask_logged h use8 si service (epath2 c n) data).
Proof.
  intros S C N B L [[d tr] l] o s' E. unfold ask_logged in E. set (q := mkReq service [(KClass, c); (KInst, n)] data).
  destruct (dev d q) as [x d'] eqn:X. pose proof (Hd d q) as Wx. rewrite X in Wx. cbn [fst] in Wx.
  unfold si in E. rewrite (served2 h use8 handle dev service c n data d tr x d') in E by assumption. cbn [bind r_status r_data] in E.
  assert (T : tells_request (request_message service (epath2 c n)) q)
    by (apply tells2; unfold is_u8; try lia; apply N).
  inv E. eexists [(q, x)], _. split; [reflexivity|]. split; [reflexivity|]. unfold GSC_SUCCESS.
  cbn [filter]. rewrite Pr. destruct (Z.eqb_spec (a_status x) 0) as [Z0|Z0].
  - apply TellsDone; [assumption..|apply TellsNothing].
  - cbn [filter]. rewrite Pe. apply TellsRefused; [assumption|assumption|now apply status_tells|apply TellsNothing].
Qed.
Lemma told_put m : p m = false -> told0 (put m).
Proof.
  intros F [[d tr] l] o s' E. inv E. exists [], [m]. rewrite app_nil_r. split; [reflexivity|]. split; [reflexivity|].
  cbn [filter]. rewrite F. apply TellsNothing.
Qed.
Hint Resolve told_pure : core.
Lemma told_attr id n : 0 <= n < 256 -> sendable use8 id -> forall c, 0 <= c < 256 -> told0 (ask_logged h use8 si GET_ATTRIBUTE_SINGLE (epath3 c id n) []).
Proof. intros N I c C. apply told_ask3; try assumption; unfold GET_ATTRIBUTE_SINGLE; try lia; [constructor|cbn; lia]. Qed.
Lemma told_identity n : told0 (identity_logged h use8 si n).
Proof.
  apply told_bind; [|intros d; apply told_pure]. apply told_ask2; unfold GET_ATTRIBUTE_ALL, IDENTITY_CLASS_ID; try lia; [|constructor|cbn; lia].
  split; [unfold is_u16; lia|lia].
Qed.
Lemma told_param id full : (forall m, fst m = DEBUG -> p m = false) -> sendable use8 id -> told0 (param_logged h use8 si id full).
Proof.
  intros Pd I. unfold param_logged.
  apply told_bind; [now apply told_put, Pd|intros _].
  apply told_bind; [apply told_attr; unfold ATTR_DATA_SIZE, PARAMETER_CLASS_ID; lia || assumption|intros d].
  apply told_bind; [apply told_pure|intros size].
  apply told_bind; [apply told_ask2; unfold GET_ATTRIBUTE_ALL, PARAMETER_CLASS_ID; try lia; [assumption|constructor|cbn; lia]|intros d2].
  apply told_bind; [apply told_pure|intros v].
  apply told_bind; [now apply told_put, Pd|intros _].
  apply told_bind; [apply told_pure|intros q].
  apply told_bind.
  - destruct (_ && _); [|apply told_pure]. apply told_bind; [|intros d3; apply told_pure].
    assert (G : forall n first, 0 <= first -> first + Z.of_nat n <= 256 -> told0 (scaling_logged h use8 si id first n)).
    { induction n as [|n IH]; intros first F L; cbn [scaling_logged]; [apply told_pure|].
      apply told_bind; [apply told_attr; unfold PARAMETER_CLASS_ID; lia || assumption|]. intros d3.
      apply told_bind; [apply IH; lia|]. intros r. apply told_pure. }
    apply G; unfold ATTR_SCALING_MULTIPLIER, ATTR_SCALING_OFFSET; lia.
  - intros q2. apply told_bind; [now apply told_put, Pd|intros _]. apply told_pure.
Qed.
Lemma told_fault_object id : sendable use8 id -> told0 (fault_object_logged h use8 si id).
Proof. intros I. apply told_bind; [apply told_attr; unfold DPI_FAULT_CLASS_ID; lia || assumption|intros d; apply told_pure]. Qed.
Lemma told_detail n : sendable use8 n -> told0 (detail_logged h use8 si n).
Proof. intros I. apply told_bind; [apply told_attr; lia || assumption|intros d; apply told_pure]. Qed.
Lemma told_fault n want : use8 = false -> told0 (fault_logged h use8 si n want).
Proof.
  intros U. unfold fault_logged. destruct (fault_params n) as [[[[a b] c] e]|] eqn:F; [|apply told_pure].
  assert (S : sendable use8 a /\ sendable use8 b /\ sendable use8 c /\ sendable use8 e).
  { unfold fault_params in F. repeat match type of F with context [match ?x with _ => _ end] => destruct x; try discriminate F end;
      injection F as <- <- <- <-; repeat split; unfold is_u16; try lia; congruence. }
  destruct S as (Sa & Sb & Sc & Se).
  apply told_bind; [now apply told_detail|intros code]. destruct (_ && _); [|apply told_pure].
  apply told_bind; [now apply told_detail|intros v]. apply told_bind; [now apply told_detail|intros v2].
  apply told_bind; [now apply told_detail|intros v3]. apply told_pure.
Qed.
Lemma told_command c : is_u8 c -> told0 (command_logged h use8 si c).
Proof.
  intros C. apply told_bind; [|intros d; apply told_pure].
  apply told_ask3; unfold SET_ATTRIBUTE_SINGLE, DPI_FAULT_CLASS_ID; try lia; try (cbn; lia).
  - split; [unfold is_u16; lia|lia].
  - constructor; [exact C|constructor].
Qed.
End Served.

(** ** The fault manager *)
Section Faults.
Context {D : Type}.
Variables (h : heap) (handle : Z) (dev : device D).
Hypotheses (Hh : is_u32 handle) (Hd : device_wf dev).
Let si := served handle dev.
Variable p : message -> bool.
Hypothesis (Pr : forall s q, p (request_message s q) = true) (Pe : forall r, p (ERROR, status_text r) = true) (Pc : forall k, p (count_message k) = false).
Definition trc2 (s : list fault * (D * trace * list message)) : trace := trc0 (snd s).
Definition lgs2 (s : list fault * (D * trace * list message)) : list message := lgs0 (snd s).
Lemma told_up {A} (m : st (D * trace * list message) A) : told trc0 lgs0 p m -> told trc2 lgs2 p (lift m).
Proof. intros T [c s] o [c' s'] E. unfold lift in E. destruct (m s) as [o1 s1] eqn:M. inv E. exact (T _ _ _ M). Qed.
Lemma told_handle clear want : told trc2 lgs2 p (handle_logged h false si clear want).
Proof.
  unfold handle_logged. apply told_bind.
  - assert (G : forall n number, told trc2 lgs2 p (loop_logged h false si want number n)).
    { induction n as [|n IH]; intros number; cbn [loop_logged]; [apply told_pure|].
      apply told_bind; [apply told_up, told_fault; auto|intros f]. destruct (_ =? 0); [apply told_pure|].
      apply told_bind; [apply told_pure|intros ds]. apply told_bind; [|intros u].
      { intros [c s] o s' E. inv E. exists [], []. rewrite !app_nil_r. repeat split. constructor. }
      apply told_bind; [apply IH|intros k; apply told_pure]. }
    apply G.
  - intros k. apply told_bind.
    + destruct (Nat.ltb 0 k); [apply told_up, told_put, Pc|apply told_pure].
    + intros _. destruct (_ && _); [apply told_up, told_command; auto; unfold is_u8, CLEAR_FAULT_QUEUE; lia|apply told_pure].
Qed.
End Faults.

Lemma filter_filter_and {A} (f g : A -> bool) l : filter g (filter f l) = filter (fun x => f x && g x) l.
Proof. induction l as [|x l IH]; [reflexivity|]. cbn [filter]. destruct (f x); cbn [filter andb]; now rewrite IH. Qed.
