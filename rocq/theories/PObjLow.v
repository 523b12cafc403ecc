(** Proofs about the Identity and Parameter Object clients when there is not enough memory. *)
From Verif Require Import Base MBuffer SBuffer MEip SEip SObj MFile MIdent MParam MFault SFault MMem MLow SLow PLow MFileLow SFileLow
  MFaultLow SFaultLow PFaultLow MObjLow SObjLow.
Local Open Scope Z_scope.
Ltac inv H := inversion H; subst; clear H.

Section Sim.
Variable error : bool.
Variable h : heap.
Variable use8 : bool.
Context {W : Type}.
Variable si : session_if W.
Variable req : Z -> epath -> bytes -> low W response.
Hypothesis R : asks_as h use8 si req.

Lemma sim_ask copied service path : sim (ol_ask error req copied service path) (ask h use8 si service path).
Proof.
  apply (sim_ext _ (st_bind (send_request h si use8 service path [] []) (fun r =>
    if r_status r =? GSC_SUCCESS then st_ret (r_data r) else st_throw (RuntimeError RtRequestFailed)))).
  - apply sim_bind; [intros fs w; exact (R service path [] fs w)|]. intros r.
    apply sim_skip; [destruct copied; [apply sim_need|apply sim_ret]|]. intros [].
    destruct (r_status r =? GSC_SUCCESS); [|apply (sim_refused error)]. apply sim_skip; [apply sim_need|]. intros []. apply sim_ret.
  - intros w. unfold ask, st_bind. destruct (send_request h si use8 service path [] [] w) as [[r|e|u|] w1]; cbn [bind]; try reflexivity.
    now destruct (r_status r =? GSC_SUCCESS).
Qed.
Lemma sim_scaling id : forall n first, sim (ol_scaling error req id first n) (ask_scaling h use8 si id first n).
Proof.
  induction n as [|n IH]; intros first; cbn [ol_scaling ask_scaling]; [apply sim_ret|].
  apply sim_bind; [apply sim_ask|]. intros d. apply sim_bind; [apply IH|]. intros r. apply sim_ret.
Qed.
Lemma sim_param id full : sim (ol_param error h req id full) (param_read h use8 si id full).
Proof.
  unfold ol_param, param_read. apply sim_skip; [apply sim_need|]. intros []. apply sim_bind; [apply sim_ask|]. intros d.
  apply sim_bind; [apply sim_lift|]. intros size. apply sim_skip; [apply sim_need|]. intros []. apply sim_bind; [apply sim_ask|]. intros d2.
  apply sim_skip; [apply sim_need|]. intros []. apply sim_bind; [apply sim_lift|]. intros p. destruct (full && pa_scalable p); [|apply sim_ret].
  apply sim_bind; [apply sim_scaling|]. intros d3. apply sim_skip; [apply sim_need|]. intros []. apply sim_lift.
Qed.
Lemma sim_identity instance : sim (ol_identity error h req instance) (identity_read h use8 si instance).
Proof.
  unfold ol_identity. apply sim_skip; [apply sim_need|]. intros [].
  apply (sim_ext _ (st_bind (ask h use8 si GET_ATTRIBUTE_ALL (epath2 IDENTITY_CLASS_ID 1)) (fun d => st_lift (omap fst (get_identity h instance (buf_of d)))))).
  - apply sim_bind; [apply sim_ask|]. intros d. apply sim_skip; [apply sim_need|]. intros []. apply sim_lift.
  - intros w. unfold identity_read, ask, st_bind, st_lift. destruct (send_request h si use8 _ _ [] [] w) as [[r|e|u|] w1]; cbn [bind]; try reflexivity.
    destruct (r_status r =? GSC_SUCCESS); [|reflexivity]. cbn [bind]. destruct (get_identity h instance (buf_of (r_data r))) as [[i b]|e|u|]; cbn; try reflexivity.
    now destruct (buf_valid b).
Qed.
Lemma sim_update : sim (ol_update error h req) (update_value h use8 si).
Proof.
  intros fs [p w]. unfold ol_update, update_value. destruct (pa_router p).
  2:{ split; [intros o fs' w' E N; now inv E|]. intros En. exists fs. auto. }
  assert (S : sim (l_bind (ol_ask error req false GET_ATTRIBUTE_SINGLE (epath3 PARAMETER_CLASS_ID (pa_id p) ATTR_VALUE)) (fun d =>
      l_lift (st_lift (omap fst (get_bytes h (List.length (pa_value p)) (buf_of d))))))
    (st_bind (ask h use8 si GET_ATTRIBUTE_SINGLE (epath3 PARAMETER_CLASS_ID (pa_id p) ATTR_VALUE)) (fun d =>
      st_lift (omap fst (get_bytes h (List.length (pa_value p)) (buf_of d)))))).
  { apply sim_bind; [apply sim_ask|]. intros d. apply sim_lift. }
  specialize (S fs w). remember (l_bind _ _) as L eqn:EL. clear EL. unfold st_bind, st_lift in S.
  destruct (ask h use8 si GET_ATTRIBUTE_SINGLE _ w) as [o1 w1]. destruct S as [S1 S2]. split.
  - intros o fs' w' E N. destruct (L (fs, w)) as [[o2|] [f2 w2]]; [|discriminate].
    specialize (S1 o2 f2 w2 eq_refl). destruct o2 as [v|e|u|]; inv E; try congruence; specialize (S1 ltac:(discriminate));
      destruct o1 as [d|e1|u1|]; cbn [bind] in *; inv S1; try reflexivity;
      destruct (get_bytes h (List.length (pa_value p)) (buf_of d)) as [[v1 b1]|e1|u1|]; cbn in *; congruence.
  - intros En. destruct (S2 En) as (f2 & E2 & ->). exists f2. split; [exact E2|].
    destruct o1 as [d|e1|u1|]; cbn [bind fst snd]; try reflexivity.
    destruct (get_bytes h (List.length (pa_value p)) (buf_of d)) as [[v1 b1]|e1|u1|]; reflexivity.
Qed.
End Sim.

Lemma update_keeps error h W (req : Z -> epath -> bytes -> low W response) fs p w r fs' p' w' :
  ol_update error h req (fs, (p, w)) = (r, (fs', (p', w'))) -> r <> Done (Ok tt) -> p' = p.
Proof.
  unfold ol_update. intros E N. destruct (pa_router p); [|now inv E]. remember (l_bind _ _) as L eqn:EL.
  destruct (L (fs, w)) as [[[v|e|u|]|] [f2 w2]]; inv E; congruence.
Qed.

(** ** Requests *)
Section Only.
Context {W : Type}.
Notation note := (Z * epath * bytes)%type.
Variable P : note -> Prop.
Notation only := (@asks_only W _ P).

Lemma only_same {A} (L : low (list note * W) A) : (forall x, snd (snd (L x)) = snd x) -> only L.
Proof.
  intros H fs l w r fs' l' w' E. specialize (H (fs, (l, w))). rewrite E in H. cbn in H. inv H. exists []. rewrite app_nil_r. auto.
Qed.
Lemma only_ret {A} (a : A) : only (l_ret a).
Proof. apply only_same. reflexivity. Qed.
Lemma only_lift {A} (o : outcome A) : only (l_lift (st_lift o)).
Proof. apply only_same. now intros [fs w]. Qed.
Lemma only_need : only l_need.
Proof. apply only_same. now intros [fs w]. Qed.
Lemma only_message s : only (l_message s).
Proof. apply only_same. intros [fs w]. now destruct s. Qed.
Lemma only_bind {A B} (L : low (list note * W) A) (k : A -> low (list note * W) B) : only L -> (forall a, only (k a)) -> only (l_bind L k).
Proof.
  intros H K fs l w r fs' l' w' E. unfold l_bind in E. destruct (L (fs, (l, w))) as [o1 [f1 [l1 w1]]] eqn:E1.
  destruct (H _ _ _ _ _ _ _ E1) as (m1 & -> & F1). destruct o1 as [[a|e|u|]|]; [|inv E; eauto..].
  destruct (K a _ _ _ _ _ _ _ E) as (m2 & -> & F2). exists (m1 ++ m2). rewrite app_assoc. split; [reflexivity|]. now apply Forall_app.
Qed.
Variable error : bool.
Variable h : heap.
Variable req : Z -> epath -> bytes -> low W response.
Lemma only_req service path data : P (service, path, data) -> only (noted req service path data).
Proof.
  intros H fs l w r fs' l' w' E. unfold noted in E. destruct (req service path data (fs, w)) as [o [f1 w1]]. inv E.
  exists [(service, path, data)]. auto.
Qed.
Lemma only_refused {A} : only (@fm_refused error (list note * W) A).
Proof. apply only_bind; [apply only_message|]. intros []. apply only_bind; [apply only_need|]. intros []. exact (only_lift (Throw _)). Qed.
Lemma only_ask copied service path : P (service, path, []) -> only (ol_ask error (noted req) copied service path).
Proof.
  intros H. apply only_bind; [now apply only_req|]. intros r. apply only_bind; [destruct copied; [apply only_need|apply only_ret]|]. intros [].
  destruct (_ =? _); [|apply only_refused]. apply only_bind; [apply only_need|]. intros []. apply only_ret.
Qed.
Lemma only_scaling id : (forall a, P (14, epath3 15 id a, [])) -> forall n first, only (ol_scaling error (noted req) id first n).
Proof.
  intros H. induction n as [|n IH]; intros first; cbn [ol_scaling]; [apply only_ret|]. apply only_bind; [now apply only_ask|]. intros d.
  apply only_bind; [apply IH|]. intros r. apply only_ret.
Qed.
End Only.

Lemma param_only error h W (req : Z -> epath -> bytes -> low W response) id full : asks_only (reads_of 15 id) (ol_param error h (noted req) id full).
Proof.
  assert (S : forall a, reads_of 15 id (14, epath3 15 id a, [])) by (intros a; cbn; auto 6).
  apply only_bind; [apply only_need|]. intros []. apply only_bind; [now apply only_ask|]. intros d. apply only_bind; [apply only_lift|]. intros size.
  apply only_bind; [apply only_need|]. intros []. apply only_bind; [apply only_ask; cbn; auto 6|]. intros d2. apply only_bind; [apply only_need|]. intros [].
  apply only_bind; [apply only_lift|]. intros p. destruct (_ && _); [|apply only_ret]. apply only_bind; [now apply only_scaling|]. intros d3.
  apply only_bind; [apply only_need|]. intros []. apply only_lift.
Qed.
Lemma identity_only error h W (req : Z -> epath -> bytes -> low W response) instance : asks_only (reads_of 1 1) (ol_identity error h (noted req) instance).
Proof.
  apply only_bind; [apply only_need|]. intros []. apply only_bind; [apply only_ask; cbn; auto 6|]. intros d.
  apply only_bind; [apply only_need|]. intros []. apply only_lift.
Qed.
Lemma update_only error h W (req : Z -> epath -> bytes -> low W response) fs p l w r fs' p' l' w' :
  ol_update error h (noted req) (fs, (p, (l, w))) = (r, (fs', (p', (l', w')))) -> l' = l \/ l' = l ++ [(14, epath3 15 (pa_id p) 1, [])].
Proof.
  unfold ol_update. intros E. destruct (pa_router p); [|inv E; now left].
  set (L := l_bind _ _) in E. assert (O : l_bind (ol_ask error (noted req) false GET_ATTRIBUTE_SINGLE (epath3 PARAMETER_CLASS_ID (pa_id p) ATTR_VALUE))
     (fun d => l_lift (st_lift (omap fst (get_bytes h (List.length (pa_value p)) (buf_of d))))) = L) by reflexivity.
  destruct (L (fs, (l, w))) as [o [f1 [l1 w1]]] eqn:E1. right.
  assert (X : l1 = l ++ [(14, epath3 15 (pa_id p) 1, [])]).
  { rewrite <- O in E1. clear E O L. unfold l_bind at 1 in E1. unfold ol_ask at 1 in E1. unfold l_bind at 1 in E1. unfold noted in E1.
    change GET_ATTRIBUTE_SINGLE with 14 in E1. change PARAMETER_CLASS_ID with 15 in E1. change ATTR_VALUE with 1 in E1.
    destruct (req 14 (epath3 15 (pa_id p) 1) [] (fs, w)) as [[[a|e|u|]|] [f2 w2]]; [|now inv E1..].
    unfold l_bind at 1, l_ret at 1 in E1. destruct (r_status a =? GSC_SUCCESS).
    - unfold l_bind, l_need in E1. destruct (hd false f2); [now inv E1|]. cbn in E1. now inv E1.
    - unfold fm_refused, l_bind, l_message, l_need in E1. destruct error; [destruct (hd false f2); [now inv E1|]|]; cbn in E1;
        match type of E1 with context [hd false ?f] => destruct (hd false f) end; now inv E1. }
  destruct o as [[v|e|u|]|]; inv E; reflexivity.
Qed.

(** ** Failing allocations are not passed over *)
Section Heeds.
Variable error : bool.
Variable h : heap.
Context {W : Type}.
Variable req : Z -> epath -> bytes -> low W response.
Hypothesis R : forall service path data, heeds (req service path data).
Lemma heeds_ask copied service path : heeds (ol_ask error req copied service path).
Proof.
  apply heeds_bind; [apply R|]. intros r. apply heeds_bind; [destruct copied; [apply heeds_need|apply heeds_ret]|]. intros []. destruct (_ =? _).
  - apply heeds_bind; [apply heeds_need|]. intros []. apply heeds_ret.
  - apply heeds_bind; [apply heeds_message|]. intros []. apply heeds_bind; [apply heeds_need|]. intros []. apply heeds_lift.
Qed.
Lemma heeds_scaling id : forall n first, heeds (ol_scaling error req id first n).
Proof.
  induction n as [|n IH]; intros first; cbn [ol_scaling]; [apply heeds_ret|]. apply heeds_bind; [apply heeds_ask|]. intros d.
  apply heeds_bind; [apply IH|]. intros r. apply heeds_ret.
Qed.
Lemma heeds_param id full : heeds (ol_param error h req id full).
Proof.
  apply heeds_bind; [apply heeds_need|]. intros []. apply heeds_bind; [apply heeds_ask|]. intros d. apply heeds_bind; [apply heeds_lift|]. intros size.
  apply heeds_bind; [apply heeds_need|]. intros []. apply heeds_bind; [apply heeds_ask|]. intros d2. apply heeds_bind; [apply heeds_need|]. intros [].
  apply heeds_bind; [apply heeds_lift|]. intros p. destruct (_ && _); [|apply heeds_ret]. apply heeds_bind; [apply heeds_scaling|]. intros d3.
  apply heeds_bind; [apply heeds_need|]. intros []. apply heeds_lift.
Qed.
Lemma heeds_identity instance : heeds (ol_identity error h req instance).
Proof.
  apply heeds_bind; [apply heeds_need|]. intros []. apply heeds_bind; [apply heeds_ask|]. intros d.
  apply heeds_bind; [apply heeds_need|]. intros []. apply heeds_lift.
Qed.
Lemma heeds_update : heeds (ol_update error h req).
Proof.
  intros fs [p w] a fs' w' E. unfold ol_update in E. destruct (pa_router p); [|discriminate].
  assert (H : heeds (l_bind (ol_ask error req false GET_ATTRIBUTE_SINGLE (epath3 PARAMETER_CLASS_ID (pa_id p) ATTR_VALUE))
     (fun d => l_lift (st_lift (omap fst (get_bytes h (List.length (pa_value p)) (buf_of d))))))) by (apply heeds_bind; [apply heeds_ask|intros d; apply heeds_lift]).
  remember (l_bind _ _) as L eqn:EL. clear EL. destruct (L (fs, w)) as [[[v|e|u|]|] [f2 w2]] eqn:E1; inv E. exact (H _ _ _ _ _ E1).
Qed.
End Heeds.

(** ** The requests are a beginning of those made with enough memory *)
Section Begins.
Context {W : Type}.
Notation note := (Z * epath * bytes)%type.
Definition follows {A} (L : low (list note * W) A) : Prop := forall fs fs0 l w r fs' l' w', enough fs0 -> L (fs, (l, w)) = (r, (fs', (l', w'))) ->
  exists r0 f0 l0 w0, L (fs0, (l, w)) = (r0, (f0, (l0, w0))) /\ enough f0 /\ (exists more, l' = l ++ more) /\ (exists more, l0 = l' ++ more)
  /\ forall a, r = Done (Ok a) -> r0 = r /\ l0 = l' /\ w0 = w'.

Lemma follows_sim {A} (L : low (list note * W) A) : (forall x, snd (snd (L x)) = snd x) -> forall M, sim L M -> follows L.
Proof.
  intros H M R fs fs0 l w r fs' l' w' En E. destruct (R fs0 (l, w)) as [_ R2]. destruct (R2 En) as (f0 & En0 & E0).
  pose proof (H (fs0, (l, w))) as H0. rewrite E0 in H0. cbn in H0. destruct (R fs (l, w)) as [R1 _].
  specialize (H (fs, (l, w))). rewrite E in H. cbn in H. inv H. destruct (M (l, w)) as [o x] eqn:EM. cbn in *. subst x.
  exists (Done o), f0, l, w. split; [exact E0|]. split; [exact En0|]. split; [exists []; now rewrite app_nil_r|]. split; [exists []; now rewrite app_nil_r|].
  intros a ->. specialize (R1 _ _ _ E ltac:(discriminate)). inv R1. auto.
Qed.
Lemma follows_ret {A} (a : A) : follows (l_ret a).
Proof. eapply follows_sim; [reflexivity|apply sim_ret]. Qed.
Lemma follows_lift {A} (o : outcome A) : follows (l_lift (st_lift o)).
Proof. eapply follows_sim; [now intros [fs w]|apply sim_lift]. Qed.
Lemma follows_need : follows l_need.
Proof. eapply follows_sim; [now intros [fs w]|apply sim_need]. Qed.
Lemma follows_message s : follows (l_message s).
Proof. eapply follows_sim; [intros [fs w]; now destruct s|apply sim_message]. Qed.
Lemma follows_bind {A B} (L : low (list note * W) A) (k : A -> low (list note * W) B) : follows L -> (forall a, follows (k a)) -> follows (l_bind L k).
Proof.
  intros H K fs fs0 l w r fs' l' w' En E. unfold l_bind in *. destruct (L (fs, (l, w))) as [o1 [f1 [l1 w1]]] eqn:E1.
  destruct (H _ fs0 _ _ _ _ _ _ En E1) as (r0 & f0 & l0 & w0 & E0 & En0 & [m1 M1] & [m2 M2] & S).
  assert (C : (exists a, o1 = Done (Ok a)) \/ (r <> r \/ (l' = l1 /\ forall a, r <> Done (Ok a)))).
  { destruct o1 as [[a|e|u|]|]; [eauto|right; right; inv E; split; [reflexivity|discriminate]..]. }
  destruct C as [[a ->]|[C|[-> N]]]; [| congruence |].
  - destruct (S a eq_refl) as (-> & -> & ->). rewrite E0. destruct (K a _ f0 _ _ _ _ _ _ En0 E) as (r2 & f2 & l2 & w2 & E2 & En2 & [m3 M3] & [m4 M4] & S2).
    exists r2, f2, l2, w2. repeat split; auto; [exists (m1 ++ m3); now rewrite M3, M1, app_assoc|eauto|..]; now apply (S2 _ H0).
  - rewrite E0. assert (D : exists r2 f2 l2 w2 m3, match r0 with Done (Ok a) => k a (f0, (l0, w0)) | Done (Throw e) => (Done (Throw e), (f0, (l0, w0)))
        | Done (Undef u) => (Done (Undef u), (f0, (l0, w0))) | Done Abort => (Done Abort, (f0, (l0, w0))) | NoMemory => (NoMemory, (f0, (l0, w0))) end
        = (r2, (f2, (l2, w2))) /\ enough f2 /\ l2 = l0 ++ m3).
    { destruct r0 as [[a|e|u|]|]; [|do 4 eexists; exists []; rewrite app_nil_r; auto..].
      destruct (k a (f0, (l0, w0))) as [r2 [f2 [l2 w2]]] eqn:E2.
      destruct (K a _ f0 _ _ _ _ _ _ En0 E2) as (r3 & f3 & l3 & w3 & E3 & En3 & [m3 M3] & _). rewrite E2 in E3. inv E3. do 5 eexists. eauto. }
    destruct D as (r2 & f2 & l2 & w2 & m3 & E2 & En2 & M3). exists r2, f2, l2, w2. split; [exact E2|]. split; [exact En2|]. split; [eauto|].
    split; [exists (m2 ++ m3); now rewrite M3, M2, app_assoc|]. intros a Ea. now elim (N a).
Qed.
Variable error : bool.
Variable h : heap.
Variable use8 : bool.
Variable si : session_if W.
Variable req : Z -> epath -> bytes -> low W response.
Hypothesis R : asks_as h use8 si req.
Lemma follows_req service path data : follows (noted req service path data).
Proof.
  intros fs fs0 l w r fs' l' w' En E. unfold noted in *. destruct (R service path data fs0 w) as [_ R2]. destruct (R2 En) as (f0 & En0 & ->).
  destruct (req service path data (fs, w)) as [o [f1 w1]] eqn:E1. destruct (R service path data fs w) as [R1 _]. inv E.
  do 4 eexists. split; [reflexivity|]. split; [exact En0|]. split; [eauto|]. split; [exists []; now rewrite app_nil_r|].
  intros a ->. now rewrite (R1 _ _ _ E1 ltac:(discriminate)).
Qed.
Lemma follows_refused {A} : follows (@fm_refused error (list note * W) A).
Proof. apply follows_bind; [apply follows_message|]. intros []. apply follows_bind; [apply follows_need|]. intros []. exact (follows_lift (Throw _)). Qed.
Lemma follows_ask copied service path : follows (ol_ask error (noted req) copied service path).
Proof.
  apply follows_bind; [apply follows_req|]. intros r. apply follows_bind; [destruct copied; [apply follows_need|apply follows_ret]|]. intros [].
  destruct (_ =? _); [|apply follows_refused]. apply follows_bind; [apply follows_need|]. intros []. apply follows_ret.
Qed.
Lemma follows_scaling id : forall n first, follows (ol_scaling error (noted req) id first n).
Proof.
  induction n as [|n IH]; intros first; cbn [ol_scaling]; [apply follows_ret|]. apply follows_bind; [apply follows_ask|]. intros d.
  apply follows_bind; [apply IH|]. intros r. apply follows_ret.
Qed.
Lemma follows_param id full : follows (ol_param error h (noted req) id full).
Proof.
  apply follows_bind; [apply follows_need|]. intros []. apply follows_bind; [apply follows_ask|]. intros d. apply follows_bind; [apply follows_lift|]. intros size.
  apply follows_bind; [apply follows_need|]. intros []. apply follows_bind; [apply follows_ask|]. intros d2. apply follows_bind; [apply follows_need|]. intros [].
  apply follows_bind; [apply follows_lift|]. intros p. destruct (_ && _); [|apply follows_ret]. apply follows_bind; [apply follows_scaling|]. intros d3.
  apply follows_bind; [apply follows_need|]. intros []. apply follows_lift.
Qed.
Lemma follows_identity instance : follows (ol_identity error h (noted req) instance).
Proof.
  apply follows_bind; [apply follows_need|]. intros []. apply follows_bind; [apply follows_ask|]. intros d.
  apply follows_bind; [apply follows_need|]. intros []. apply follows_lift.
Qed.
Lemma follows_begins {A} (L : low (list note * W) A) : follows L -> begins_as L.
Proof.
  intros H fs fs0 w En. destruct (L (fs, ([], w))) as [r [f1 [l1 w1]]] eqn:E.
  destruct (H _ fs0 _ _ _ _ _ _ En E) as (r0 & f0 & l0 & w0 & -> & _ & _ & M & _). exact M.
Qed.
End Begins.

(** ** Calls made again *)
Section Again.
Variable error : bool.
Variable h : heap.
Variable use8 : bool.
Context {W : Type}.
Variable si : session_if W.
Hypothesis D : steady h use8 si.
Definition same_end {A} (M : st W A) : Prop := forall w w', fst (M w) = fst (M w').
Lemma same_lift {A} (o : outcome A) : same_end (st_lift o).
Proof. intros w w'. reflexivity. Qed.
Lemma same_bind {A B} (M : st W A) (k : A -> st W B) : same_end M -> (forall a, same_end (k a)) -> same_end (st_bind M k).
Proof.
  intros H K w w'. unfold st_bind. specialize (H w w'). destruct (M w) as [o x], (M w') as [o' x']. cbn in H. subst o'. destruct o; try reflexivity. apply K.
Qed.
Lemma same_ask service path : same_end (ask h use8 si service path).
Proof.
  intros w w'. unfold ask. pose proof (D service path w w') as H. destruct (send_request _ _ _ _ _ _ _ w) as [o x], (send_request _ _ _ _ _ _ _ w') as [o' x'].
  cbn in H. now subst o'.
Qed.
Lemma same_scaling id : forall n first, same_end (ask_scaling h use8 si id first n).
Proof.
  induction n as [|n IH]; intros first; [exact (same_lift (Ok []))|]. cbn [ask_scaling]. apply same_bind; [apply same_ask|]. intros d.
  apply same_bind; [apply IH|]. intros r. exact (same_lift (Ok _)).
Qed.
Lemma same_param id full : same_end (param_read h use8 si id full).
Proof.
  unfold param_read. apply same_bind; [apply same_ask|]. intros d. apply same_bind; [apply same_lift|]. intros size. apply same_bind; [apply same_ask|].
  intros d2. apply same_bind; [apply same_lift|]. intros p. destruct (_ && _); [|exact (same_lift (Ok p))].
  apply same_bind; [apply same_scaling|]. intros d3. apply same_lift.
Qed.
Lemma same_identity instance : same_end (identity_read h use8 si instance).
Proof.
  intros w w'. unfold identity_read. pose proof (D GET_ATTRIBUTE_ALL (epath2 IDENTITY_CLASS_ID 1) w w') as H.
  destruct (send_request _ _ _ _ _ _ _ w) as [o x], (send_request _ _ _ _ _ _ _ w') as [o' x']. cbn in H. now subst o'.
Qed.
Lemma same_update p w w' : fst (update_value h use8 si (p, w)) = fst (update_value h use8 si (p, w'))
  /\ fst (snd (update_value h use8 si (p, w))) = fst (snd (update_value h use8 si (p, w'))).
Proof.
  unfold update_value. destruct (pa_router p); [|auto]. pose proof (same_ask GET_ATTRIBUTE_SINGLE (epath3 PARAMETER_CLASS_ID (pa_id p) ATTR_VALUE) w w') as H.
  destruct (ask _ _ _ _ _ w) as [o x], (ask _ _ _ _ _ w') as [o' x']. cbn in H. subst o'. destruct (bind _ _) as [[v b]|e|u|]; auto.
Qed.
Variable req : Z -> epath -> bytes -> low W response.
Hypothesis R : asks_as h use8 si req.
Lemma again_param id full fs0 w w1 : enough fs0 -> fst (ol_param error h req id full (fs0, w1)) = Done (fst (param_read h use8 si id full w)).
Proof.
  intros En. destruct (sim_param error h use8 si req R id full fs0 w1) as [_ H]. destruct (H En) as (f & _ & ->). cbn. f_equal. apply same_param.
Qed.
Lemma again_identity instance fs0 w w1 : enough fs0 -> fst (ol_identity error h req instance (fs0, w1)) = Done (fst (identity_read h use8 si instance w)).
Proof.
  intros En. destruct (sim_identity error h use8 si req R instance fs0 w1) as [_ H]. destruct (H En) as (f & _ & ->). cbn. f_equal. apply same_identity.
Qed.
Lemma again_update fs0 p w w1 : enough fs0 -> fst (ol_update error h req (fs0, (p, w1))) = Done (fst (update_value h use8 si (p, w)))
  /\ fst (snd (snd (ol_update error h req (fs0, (p, w1))))) = fst (snd (update_value h use8 si (p, w))).
Proof.
  intros En. destruct (sim_update error h use8 si req R fs0 (p, w1)) as [_ H]. destruct (H En) as (f & _ & ->). destruct (same_update p w1 w) as [S1 S2].
  cbn [fst snd]. now rewrite S1, S2.
Qed.
End Again.
