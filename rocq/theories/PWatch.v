(** Proofs for C84 and C85. *)
From Verif Require Import Base MBuffer SBuffer PBase MEip SEip SObj PObj MFile SFile MIdent MParam SParam MFault SFault MConnReq SConnReq MConn SConn MYaskawa SWatch.
Local Open Scope Z_scope.

(** ** Failures *)
Section Honest.
Context {S : Type}.

(** Calls over a state that contains a watched session. *)
Definition honest {X A} (view : X -> watch S) (m : st X A) : Prop :=
  forall x, wt_failed (view x) = None -> reported (fst (m x)) (view (snd (m x))).

Lemma honest_ret {X A} (view : X -> watch S) (a : A) : honest view (st_ret a).
Proof. intros x H. unfold reported, st_ret; cbn [fst snd]. now rewrite H. Qed.
Lemma honest_lift {X A} (view : X -> watch S) (m : outcome A) : honest view (st_lift m).
Proof. intros x H. unfold reported, st_lift; cbn [fst snd]. now rewrite H. Qed.
Lemma honest_throw {X A} (view : X -> watch S) e : honest view (@st_throw X A e).
Proof. intros x H. unfold reported, st_throw; cbn [fst snd]. now rewrite H. Qed.
Lemma honest_bind {X A B} (view : X -> watch S) (m : st X A) (k : A -> st X B) :
  honest view m -> (forall a, honest view (k a)) -> honest view (st_bind m k).
Proof.
  intros M K x H. specialize (M x H). unfold st_bind. destruct (m x) as [[a|e|u|] x']; cbn [fst snd] in *; try exact M.
  apply K. unfold reported in M. destruct (wt_failed (view x')); [destruct M as [M _]; discriminate M|reflexivity].
Qed.

Variable si : session_if S.
Lemma honest_exchange p : honest (fun w => w) (si_exchange (watched si) p).
Proof.
  intros w H. unfold watched; cbn [si_exchange]. destruct (si_exchange si p (wt_state w)) as [o s]. cbn [fst snd].
  unfold reported. rewrite H. cbn [wt_failed wt_since]. destruct (failure_of o); auto.
Qed.
Lemma honest_send h use8 service path data extra : honest (fun w => w) (send_request h (watched si) use8 service path data extra).
Proof.
  intros w H. unfold send_request. pose proof (honest_exchange (request_packet (si_handle (watched si)) use8 service path data extra) w H) as E.
  destruct (si_exchange _ _ _) as [[a|e|u|] w']; cbn [fst snd] in *; try exact E.
  unfold reported in *. destruct (wt_failed w'); [destruct E as [E _]; discriminate E|exact I].
Qed.
Lemma honest_ysend h service path data extra : honest (fun w => w) (ysend_request h (watched si) service path data extra).
Proof.
  intros w H. unfold ysend_request. pose proof (honest_exchange (yrequest_packet (si_handle (watched si)) service path data extra) w H) as E.
  destruct (si_exchange _ _ _) as [[a|e|u|] w']; cbn [fst snd] in *; try exact E.
  unfold reported in *. destruct (wt_failed w'); [destruct E as [E _]; discriminate E|exact I].
Qed.
(** The usual form: the result of a request is used without the session. *)
Lemma honest_then {A B} (m : st (watch S) A) (k : A -> outcome B) : honest (fun w => w) m ->
  honest (fun w => w) (fun w => let '(o, w) := m w in (bind o k, w)).
Proof.
  intros M w H. specialize (M w H). destruct (m w) as [[a|e|u|] w']; cbn [fst snd bind] in *; try exact M.
  unfold reported in *. destruct (wt_failed w'); [destruct M as [M _]; discriminate M|exact I].
Qed.

Lemma honest_identity h use8 instance : honest (fun w => w) (identity_read h use8 (watched si) instance).
Proof. unfold identity_read. apply honest_then, honest_send. Qed.
Lemma honest_ask h use8 service path : honest (fun w => w) (ask h use8 (watched si) service path).
Proof. unfold ask. apply honest_then, honest_send. Qed.
Lemma honest_scaling h use8 id n : forall first, honest (fun w => w) (ask_scaling h use8 (watched si) id first n).
Proof.
  induction n as [|n IH]; intros first; cbn [ask_scaling]; [apply honest_ret|].
  apply honest_bind; [apply honest_ask|]. intros d. apply honest_bind; [apply IH|]. intros r. apply honest_ret.
Qed.
Lemma honest_param h use8 id full : honest (fun w => w) (param_read h use8 (watched si) id full).
Proof.
  unfold param_read. apply honest_bind; [apply honest_ask|]. intros d.
  apply honest_bind; [apply honest_lift|]. intros size. apply honest_bind; [apply honest_ask|]. intros d2.
  apply honest_bind; [apply honest_lift|]. intros p. destruct (full && pa_scalable p); [|apply honest_ret].
  apply honest_bind; [apply honest_scaling|]. intros d3. apply honest_lift.
Qed.
Lemma honest_open h use8 id : honest (fun w => w) (file_open h use8 (watched si) id).
Proof. unfold file_open. apply honest_then, honest_send. Qed.
Lemma honest_detail h use8 n : honest (fun w => w) (fault_detail h use8 (watched si) n).
Proof. unfold fault_detail. apply honest_bind; [apply honest_ask|]. intros d. apply honest_lift. Qed.
Lemma honest_fault h use8 n want : honest (fun w => w) (fault_read h use8 (watched si) n want).
Proof.
  unfold fault_read. destruct (fault_params n) as [[[[a b] c] d]|]; [|apply honest_throw].
  apply honest_bind; [apply honest_detail|]. intros code. destruct (negb (code =? 0) && want); [|apply honest_ret].
  do 3 (apply honest_bind; [apply honest_detail|]; intros ?). apply honest_ret.
Qed.
Lemma honest_command h use8 c : honest (fun w => w) (write_command h use8 (watched si) c).
Proof. unfold write_command. apply honest_then, honest_send. Qed.
Lemma honest_fault_object h use8 id : honest (fun w => w) (fault_object_read h use8 (watched si) id).
Proof. unfold fault_object_read. apply honest_bind; [apply honest_ask|]. intros d. apply honest_lift. Qed.

(** Calls of objects: the object is beside the session. *)
Lemma honest_side {X A} (m : st (watch S) A) : honest (fun w => w) m ->
  honest (fun x : X * watch S => snd x) (fun '(c, w) => let '(o, w) := m w in (o, (c, w))).
Proof.
  intros M [c w] H. cbn [snd] in *. specialize (M w H). destruct (m w) as [o w']. exact M.
Qed.
Lemma honest_faults h use8 clear want : honest (fun x => snd x) (handle_faults h use8 (watched si) clear want).
Proof.
  unfold handle_faults. apply honest_bind.
  - generalize 10%nat. generalize 1. intros number n. revert number. induction n as [|n IH]; intros number; cbn [fault_loop]; [apply honest_ret|].
    apply honest_bind; [apply honest_side, honest_fault|]. intros f. destruct (fd_code (fa_details f) =? 0); [apply honest_ret|].
    apply honest_bind; [apply honest_lift|]. intros descr.
    apply honest_bind. { intros [c w] H. unfold notify, reported; cbn [fst snd] in *. now rewrite H. }
    intros []. apply honest_bind; [apply IH|]. intros k. apply honest_ret.
  - intros count. destruct (clear && Nat.ltb 0 count); [|apply honest_ret]. apply honest_side, honest_command.
Qed.

(** ... and it does not change. *)
Definition steady {X A} (m : st (X * watch S) A) : Prop := forall x w, wt_failed w = None ->
  match wt_failed (snd (snd (m (x, w)))) with
  | None => True
  | Some _ => fst (snd (m (x, w))) = x
  end.
Lemma update_reports h use8 : honest (fun x => snd x) (update_value h use8 (watched si)).
Proof.
  intros [p w] H. cbn [snd] in H. unfold update_value. destruct (pa_router p); [|unfold reported; cbn [fst snd]; now rewrite H].
  pose proof (honest_ask h use8 GET_ATTRIBUTE_SINGLE (epath3 PARAMETER_CLASS_ID (pa_id p) ATTR_VALUE) w H) as E.
  destruct (ask _ _ _ _ _ _) as [[d|e|u|] w']; cbn [fst snd bind] in *; try exact E.
  assert (N : wt_failed w' = None) by (unfold reported in E; destruct (wt_failed w'); [destruct E as [E _]; discriminate E|reflexivity]).
  destruct (get_bytes _ _ _) as [[v b]|?|?|]; unfold reported; cbn [fst snd]; now rewrite N.
Qed.
Lemma update_steady h use8 : steady (update_value h use8 (watched si)).
Proof.
  intros p w H. unfold update_value. destruct (pa_router p); [|cbn [fst snd]; now rewrite H].
  pose proof (honest_ask h use8 GET_ATTRIBUTE_SINGLE (epath3 PARAMETER_CLASS_ID (pa_id p) ATTR_VALUE) w H) as E.
  destruct (ask _ _ _ _ _ _) as [[d|e|u|] w']; cbn [fst snd bind] in *; try (destruct (wt_failed w'); auto; fail).
  assert (N : wt_failed w' = None) by (unfold reported in E; destruct (wt_failed w'); [destruct E as [E _]; discriminate E|reflexivity]).
  destruct (get_bytes _ _ _) as [[v b]|?|?|]; cbn [fst snd]; now rewrite N.
Qed.
Lemma begin_reports h use8 handler : honest (fun x => snd x) (begin_upload h use8 (watched si) handler)
  /\ steady (begin_upload h use8 (watched si) handler).
Proof.
  assert (G : forall f w, wt_failed w = None ->
    reported (fst (begin_upload h use8 (watched si) handler (f, w))) (snd (snd (begin_upload h use8 (watched si) handler (f, w))))
    /\ match wt_failed (snd (snd (begin_upload h use8 (watched si) handler (f, w)))) with None => True
       | Some _ => fst (snd (begin_upload h use8 (watched si) handler (f, w))) = f end).
  { intros f w H. unfold begin_upload.
    destruct (fo_state f); try (unfold reported; cbn [fst snd]; rewrite H; tauto).
    match goal with |- context[send_request ?a ?b ?c ?d ?e ?g ?i w] =>
      pose proof (honest_send a c d e g i w H) as E; destruct (send_request a b c d e g i w) as [[r|x|u|] w'] end;
      cbn [fst snd bind] in *; try (split; [exact E|destruct (wt_failed w'); auto]).
    assert (N : wt_failed w' = None) by (unfold reported in E; destruct (wt_failed w'); [destruct E as [E _]; discriminate E|reflexivity]).
    destruct (initiated _ _ _ _); unfold reported; cbn [fst snd]; rewrite N; tauto. }
  split; [intros [f w] H; now apply G|intros f w H; now apply G].
Qed.
Lemma transfers_report h use8 : honest (fun x => snd x) (handle_transfers h use8 (watched si))
  /\ steady (handle_transfers h use8 (watched si)).
Proof.
  assert (G : forall f w, wt_failed w = None ->
    reported (fst (handle_transfers h use8 (watched si) (f, w))) (snd (snd (handle_transfers h use8 (watched si) (f, w))))
    /\ match wt_failed (snd (snd (handle_transfers h use8 (watched si) (f, w)))) with None => True
       | Some _ => fst (snd (handle_transfers h use8 (watched si) (f, w))) = f end).
  { intros f w H. unfold handle_transfers.
    destruct (fo_state f); try (unfold reported; cbn [fst snd]; rewrite H; tauto).
    match goal with |- context[send_request ?a ?b ?c ?d ?e ?g ?i w] =>
      pose proof (honest_send a c d e g i w H) as E; destruct (send_request a b c d e g i w) as [[r|x|u|] w'] end;
      cbn [fst snd bind] in *; try (split; [exact E|destruct (wt_failed w'); auto]).
    assert (N : wt_failed w' = None) by (unfold reported in E; destruct (wt_failed w'); [destruct E as [E _]; discriminate E|reflexivity]).
    destruct (transferred _ _ _ _ _ _ _ _) as [[? ?]|?|?|]; unfold reported; cbn [fst snd]; rewrite N; tauto. }
  split; [intros [f w] H; now apply G|intros f w H; now apply G].
Qed.

(** Managers: no connection comes or goes. *)
Lemma open_reports h use8 host env large c g m s :
  let r := forward_open h use8 (watched si) host env large c (g, m, fresh s) in
  reported (fst r) (snd (snd r))
  /\ (wt_failed (snd (snd r)) <> None -> snd (fst (snd r)) = m).
Proof.
  cbv zeta. unfold forward_open.
  destruct (fo_prepare large (m_inc m) c g) as [[c' g']|?|?|]; try (cbn [fst snd]; split; [exact I|reflexivity]).
  destruct (fo_request large c') as [data|?|?|]; try (cbn [fst snd]; split; [exact I|reflexivity]).
  match goal with |- context[send_request ?a ?b ?c ?d ?e ?g ?i ?w] =>
    pose proof (honest_send a c d e g i w eq_refl) as E; destruct (send_request a b c d e g i w) as [[r|x|u|] w'] end;
    cbn [fst snd] in *; try (split; [exact E|reflexivity]).
  assert (N : wt_failed w' = None) by (unfold reported in E; destruct (wt_failed w'); [destruct E as [E _]; discriminate E|reflexivity]).
  destruct (fo_answer _ _ _ _ _ _ _) as [o [g2 m2]]. unfold reported; cbn [fst snd]. rewrite N. split; [exact I|congruence].
Qed.
Lemma close_reports h use8 ptr m s :
  let r := forward_close h use8 (watched si) ptr (m, fresh s) in
  reported (fst r) (snd (snd r)) /\ (wt_failed (snd (snd r)) <> None -> fst (snd r) = m).
Proof.
  cbv zeta. unfold forward_close. destruct ptr as [c|]; [|cbn [fst snd]; split; [exact I|reflexivity]].
  match goal with |- context[send_request ?a ?b ?c ?d ?e ?g ?i ?w] =>
    pose proof (honest_send a c d e g i w eq_refl) as E; destruct (send_request a b c d e g i w) as [[r|x|u|] w'] end;
    cbn [fst snd] in *; try (split; [exact E|reflexivity]).
  assert (N : wt_failed w' = None) by (unfold reported in E; destruct (wt_failed w'); [destruct E as [E _]; discriminate E|reflexivity]).
  unfold reported; cbn [fst snd]. rewrite N. split; [exact I|congruence].
Qed.
End Honest.

(** ** Refusals *)
Definition calm {A} (o : outcome A) : Prop := o <> Throw (RuntimeError RtRequestFailed).
Lemma calm_ok {A} (a : A) : calm (Ok a). Proof. discriminate. Qed.
Lemma calm_bind {A B} (m : outcome A) (k : A -> outcome B) : calm m -> (forall a, calm (k a)) -> calm (bind m k).
Proof. intros M K. unfold calm in *. destruct m; cbn [bind]; auto; congruence. Qed.
Lemma calm_fetch h b : calm (fetch h b).
Proof. unfold calm, fetch. destruct (nth_error _ _); [discriminate|]. destruct (h _); discriminate. Qed.
Lemma calm_bytes h n : forall b, calm (get_bytes h n b).
Proof.
  induction n as [|n IH]; intros b; cbn [get_bytes]; [apply calm_ok|].
  apply calm_bind; [apply calm_fetch|]. intros [x b']. apply calm_bind; [apply IH|]. intros [y b'']. apply calm_ok.
Qed.
Ltac calm := repeat match goal with
  | |- calm (Ok _) => apply calm_ok
  | |- calm (get_u8 _ _) => unfold get_u8
  | |- calm (get_u16 _ _) => unfold get_u16
  | |- calm (get_u32 _ _) => unfold get_u32; cbv zeta
  | |- calm (get_u64 _ _) => unfold get_u64; cbv zeta
  | |- calm (get_s16 _ _) => unfold get_s16
  | |- calm (get_rev _ _) => unfold get_rev
  | |- calm (get_short_string _ _) => unfold get_short_string
  | |- calm (omap _ _) => unfold omap
  | |- calm (fetch _ _) => apply calm_fetch
  | |- calm (get_bytes _ _ _) => apply calm_bytes
  | |- calm (bind _ _) => apply calm_bind
  | |- forall x : _ * _, _ => intros [? ?]
  | |- forall x, _ => intros ?
  | |- calm (if ?c then _ else _) => destruct c
  | |- calm (Throw _) => discriminate
  end.
Lemma calm_attributes h id full size d : calm (param_attributes h id full size d).
Proof. unfold param_attributes; cbv zeta. calm. Qed.
Lemma calm_scaling h p d : calm (param_scaling h p d).
Proof. unfold param_scaling. calm. Qed.
Lemma calm_identity h i b : calm (get_identity h i b).
Proof. unfold get_identity. calm. Qed.
Lemma calm_decode h d : calm (decode_fault h d).
Proof. unfold decode_fault. calm. Qed.

Section Refusals.
Context {D : Type}.
Variables (h : heap) (use8 : bool) (handle : Z) (dev : device D).
Hypothesis Hh : is_u32 handle.
Hypothesis Hd : device_wf dev.
Let si := served handle dev.

Definition notices {X A} (view : X -> D * trace) (m : st X A) : Prop :=
  forall x, exists new, snd (view (snd (m x))) = snd (view x) ++ new /\ refusal_reported new (fst (m x)).
Lemma notices_ret {X A} (view : X -> D * trace) (a : A) : notices view (st_ret a).
Proof. intros x. exists []. rewrite app_nil_r. split; [reflexivity|]. left. split; [constructor|discriminate]. Qed.
Lemma notices_lift {X A} (view : X -> D * trace) (m : outcome A) : calm m -> notices view (st_lift m).
Proof. intros C x. exists []. rewrite app_nil_r. split; [reflexivity|]. left. split; [constructor|exact C]. Qed.
Lemma notices_bind {X A B} (view : X -> D * trace) (m : st X A) (k : A -> st X B) :
  notices view m -> (forall a, notices view (k a)) -> notices view (st_bind m k).
Proof.
  intros M K x. destruct (M x) as (new & T & R). unfold st_bind. destruct (m x) as [o x'] eqn:E; cbn [fst snd] in *.
  assert (F : (forall a, o <> Ok a) -> refusal_reported new (match o with Ok a => fst (k a x') | Throw e => Throw e | Undef u => Undef u | Abort => Abort end)).
  { intros N. destruct R as [[R1 R2]|(pre & q & a & R1 & R2 & R3 & R4)].
    - left. split; [assumption|]. destruct o; [now destruct (N a)|congruence|discriminate..].
    - right. exists pre, q, a. repeat split; try assumption. rewrite R4. reflexivity. }
  destruct o as [a|e|u|]; try (exists new; split; [exact T|apply F; discriminate]).
  destruct (K a x') as (new2 & T2 & R2). exists (new ++ new2). rewrite T2, T, app_assoc. split; [reflexivity|].
  destruct R as [[R1 _]|(? & ? & ? & _ & _ & _ & R)]; [|discriminate R].
  destruct R2 as [[R2 R3]|(pre & q & b & R2 & R3 & R4 & R5)].
  - left. split; [now apply Forall_app|assumption].
  - right. exists (new ++ pre), q, b. rewrite R2, app_assoc. repeat split; try assumption. now apply Forall_app.
Qed.
Lemma notices_side {X A} (m : st (D * trace) A) : notices (fun w => w) m ->
  notices (fun x : X * (D * trace) => snd x) (fun '(c, w) => let '(o, w) := m w in (o, (c, w))).
Proof.
  intros M [c w]. destruct (M w) as (new & T & R). exists new. destruct (m w) as [o w']. exact (conj T R).
Qed.

(** One request and what is made of a success. *)
Lemma notices_request {A} service i data (k : response -> outcome A) : i <> Ids0 -> 0 <= service < 128 -> ids_sendable use8 i ->
  is_bytes data -> zlen data <= 60000 ->
  (forall r, r_status r = 0 -> calm (k r)) -> (forall r, r_status r <> 0 -> k r = Throw (RuntimeError RtRequestFailed)) ->
  notices (fun w => w) (fun w => let '(o, w) := send_request h si use8 service (build i) data [] w in (bind o k, w)).
Proof.
  intros N V I B L K1 K2 [d tr]. pose proof (Hd d (mkReq service (ids_list i) data)) as W.
  destruct (dev d (mkReq service (ids_list i) data)) as [a d'] eqn:E. cbn [fst] in W.
  unfold si. rewrite (served_request h use8 handle dev service i data d tr a d') by assumption.
  cbn [fst snd bind]. eexists. split; [reflexivity|].
  destruct (Z.eq_dec (a_status a) 0) as [Z|Z].
  - left. split; [repeat constructor; exact Z|]. apply K1. exact Z.
  - right. exists [], (mkReq service (ids_list i) data), a. split; [reflexivity|]. split; [constructor|]. split; [exact Z|]. apply K2. exact Z.
Qed.
Lemma ask_notices service i : i <> Ids0 -> 0 <= service < 128 -> ids_sendable use8 i ->
  notices (fun w => w) (ask h use8 si service (build i)).
Proof.
  intros N V I. unfold ask. apply notices_request; try assumption; try (cbn; lia); try constructor.
  - intros r Z. rewrite Z. apply calm_ok.
  - intros r Z. unfold GSC_SUCCESS. destruct (Z.eqb_spec (r_status r) 0); [contradiction|reflexivity].
Qed.
Lemma attr_notices id c n : 0 <= c < 256 -> 0 <= n < 256 -> sendable use8 id -> notices (fun w => w) (ask h use8 si GET_ATTRIBUTE_SINGLE (epath3 c id n)).
Proof. intros C N I. apply (ask_notices 14 (Ids3 c id n)); [discriminate|lia|now apply sendable3]. Qed.

Lemma identity_notices instance : notices (fun w => w) (identity_read h use8 si instance).
Proof.
  unfold identity_read. apply (notices_request 1 (Ids2 1 1)); [discriminate|lia| |constructor|cbn; lia| |].
  - apply sendable2; [lia|]. split; [unfold is_u16; lia|lia].
  - intros r Z. rewrite Z. cbn [GSC_SUCCESS Z.eqb]. apply calm_bind; [apply calm_identity|]. intros [i b]. destruct (negb _); apply calm_ok.
  - intros r Z. unfold GSC_SUCCESS. destruct (Z.eqb_spec (r_status r) 0); [contradiction|reflexivity].
Qed.
Lemma param_notices id full : sendable use8 id -> notices (fun w => w) (param_read h use8 si id full).
Proof.
  intros I. unfold param_read. apply notices_bind; [apply attr_notices; unfold PARAMETER_CLASS_ID, ATTR_DATA_SIZE; lia || assumption|]. intros d.
  apply notices_bind; [apply notices_lift; calm|]. intros size.
  apply notices_bind; [apply (ask_notices 1 (Ids2 15 id)); [discriminate|lia|apply sendable2; [lia|assumption]]|]. intros d2.
  apply notices_bind; [apply notices_lift, calm_attributes|]. intros p. destruct (full && pa_scalable p); [|apply notices_ret].
  apply notices_bind; [|intros d3; apply notices_lift, calm_scaling].
  assert (G : forall n first, 0 <= first -> first + Z.of_nat n <= 256 -> notices (fun w => w) (ask_scaling h use8 si id first n)).
  { induction n as [|n IH]; intros first F L; cbn [ask_scaling]; [apply notices_ret|].
    apply notices_bind; [apply attr_notices; unfold PARAMETER_CLASS_ID; lia || assumption|]. intros d3.
    apply notices_bind; [apply IH; lia|]. intros r. apply notices_ret. }
  apply G; unfold ATTR_SCALING_MULTIPLIER, ATTR_SCALING_OFFSET; lia.
Qed.
Lemma update_notices p : pa_router p = true -> sendable use8 (pa_id p) -> forall d tr,
  exists new, snd (snd (snd (update_value h use8 si (p, (d, tr))))) = tr ++ new
  /\ refusal_reported new (fst (update_value h use8 si (p, (d, tr)))).
Proof.
  intros R I d tr. unfold update_value. rewrite R.
  destruct (attr_notices (pa_id p) PARAMETER_CLASS_ID ATTR_VALUE ltac:(unfold PARAMETER_CLASS_ID; lia) ltac:(unfold ATTR_VALUE; lia) I (d, tr))
    as (new & T & N). exists new. cbn [snd] in T.
  destruct (ask _ _ _ _ _ _) as [[x|e|u|] w']; cbn [fst snd bind] in *.
  - destruct (get_bytes h _ _) as [[v b]|e|u|] eqn:G; cbn [fst snd]; (split; [exact T|]);
      (left; split; [destruct N as [[N _]|(? & ? & ? & _ & _ & _ & N)]; [exact N|discriminate N]|]); try discriminate.
    rewrite <- G || idtac. intros X. pose proof (calm_bytes h (List.length (pa_value p)) (buf_of x)) as C. rewrite G in C. apply C. congruence.
  - split; [exact T|]. destruct N as [[N1 N2]|(pre & q & a & N1 & N2 & N3 & N4)]; [left; split; [assumption|congruence]|].
    right. exists pre, q, a. repeat split; try assumption. congruence.
  - split; [exact T|]. destruct N as [[N1 N2]|(? & ? & ? & _ & _ & _ & N)]; [|discriminate N]. left. split; [assumption|discriminate].
  - split; [exact T|]. destruct N as [[N1 N2]|(? & ? & ? & _ & _ & _ & N)]; [|discriminate N]. left. split; [assumption|discriminate].
Qed.
Lemma file_notices id : sendable use8 id -> notices (fun w => w) (file_open h use8 si id).
Proof.
  intros I. unfold file_open. apply (notices_request 14 (Ids3 55 id 1)); [discriminate|lia| |constructor|cbn; lia| |].
  - now apply sendable3.
  - intros r Z. unfold synced. rewrite Z. cbn [GSC_SUCCESS Z.eqb]. calm.
  - intros r Z. unfold synced, GSC_SUCCESS. destruct (Z.eqb_spec (r_status r) 0); [contradiction|reflexivity].
Qed.
Lemma fault_object_notices id : sendable use8 id -> notices (fun w => w) (fault_object_read h use8 si id).
Proof.
  intros I. unfold fault_object_read. apply notices_bind; [apply attr_notices; unfold DPI_FAULT_CLASS_ID; lia || assumption|].
  intros d. apply notices_lift, calm_decode.
Qed.
Lemma command_notices c : is_u8 c -> notices (fun w => w) (write_command h use8 si c).
Proof.
  intros C. unfold write_command. apply (notices_request 16 (Ids3 151 0 3)); [discriminate|lia| | |cbn; lia| |].
  - apply sendable3; [lia|lia|]. split; [unfold is_u16; lia|lia].
  - constructor; [assumption|constructor].
  - intros r Z. rewrite Z. apply calm_ok.
  - intros r Z. unfold GSC_SUCCESS. destruct (Z.eqb_spec (r_status r) 0); [contradiction|reflexivity].
Qed.
Hypothesis H8 : use8 = false.
Lemma params_small number a b c d : fault_params number = Some (a, b, c, d) -> is_u16 a /\ is_u16 b /\ is_u16 c /\ is_u16 d.
Proof.
  unfold fault_params, is_u16. intros E.
  repeat match type of E with context[match ?x with _ => _ end] => destruct x; try discriminate E end; inv E; lia.
Qed.
Lemma detail_notices n : is_u16 n -> notices (fun w => w) (fault_detail h use8 si n).
Proof.
  intros N. unfold fault_detail. apply notices_bind; [apply attr_notices; [lia|lia|split; [assumption|congruence]]|].
  intros d. apply notices_lift. calm.
Qed.
Lemma fault_notices number want : notices (fun w => w) (fault_read h use8 si number want).
Proof.
  unfold fault_read. destruct (fault_params number) as [[[[a b] c] d]|] eqn:E.
  - apply params_small in E. apply notices_bind; [apply detail_notices; tauto|]. intros code.
    destruct (negb (code =? 0) && want); [|apply notices_ret].
    do 3 (apply notices_bind; [apply detail_notices; tauto|]; intros ?). apply notices_ret.
  - intros w. exists []. rewrite app_nil_r. split; [reflexivity|]. left. split; [constructor|discriminate].
Qed.
Lemma faults_notice clear want : notices (fun x => snd x) (handle_faults h use8 si clear want).
Proof.
  unfold handle_faults. apply notices_bind.
  - generalize 10%nat. generalize 1. intros number n. revert number. induction n as [|n IH]; intros number; cbn [fault_loop]; [apply notices_ret|].
    apply notices_bind; [apply notices_side, fault_notices|]. intros f. destruct (fd_code (fa_details f) =? 0); [apply notices_ret|].
    apply notices_bind; [apply notices_lift; unfold fault_description; destruct (MFault.map_find _ _); discriminate|]. intros descr.
    apply notices_bind. { intros [c w]. exists []. rewrite app_nil_r. split; [reflexivity|]. left. split; [constructor|discriminate]. }
    intros []. apply notices_bind; [apply IH|]. intros k. apply notices_ret.
  - intros count. destruct (clear && Nat.ltb 0 count); [|apply notices_ret]. apply notices_side, command_notices. unfold is_u8, CLEAR_FAULT_QUEUE; lia.
Qed.
End Refusals.
