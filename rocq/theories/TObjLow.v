(** The Identity and Parameter Object clients when there is not enough memory: C122. *)
From Verif Require Import Base MBuffer SBuffer MEip SEip SObj MFile MIdent MParam MSocket SSocket MMem SMem MLow SLow PLow SFileLow
  MFaultLow SFaultLow PFaultLow MObjLow SObjLow PObjLow PHost.

(** With enough memory the objects are read, and updated, as in the rest of the model. *)
Theorem C122_enough : forall error h W use8 (si : session_if W) req fs w, asks_as h use8 si req -> enough fs ->
  (forall id full, exists fs', enough fs' /\ ol_param error h req id full (fs, w)
     = (Done (fst (param_read h use8 si id full w)), (fs', snd (param_read h use8 si id full w))))
  /\ (forall p, exists fs', enough fs' /\ ol_update error h req (fs, (p, w))
     = (Done (fst (update_value h use8 si (p, w))), (fs', snd (update_value h use8 si (p, w)))))
  /\ forall instance, exists fs', enough fs' /\ ol_identity error h req instance (fs, w)
     = (Done (fst (identity_read h use8 si instance w)), (fs', snd (identity_read h use8 si instance w))).
Proof.
  intros error h W use8 si req fs w R E. split; [|split].
  - intros id full. now apply (sim_param error h use8 si req R id full fs w).
  - intros p. now apply (sim_update error h use8 si req R fs (p, w)).
  - intros instance. now apply (sim_identity error h use8 si req R instance fs w).
Qed.
Print Assumptions C122_enough.
(** Whatever memory there is: a call that is not ended by std::bad_alloc, and does not end the program, ends as there. *)
Theorem C122_ends : forall error h W use8 (si : session_if W) req fs w, asks_as h use8 si req ->
  (forall id full o fs' w', ol_param error h req id full (fs, w) = (Done o, (fs', w')) -> o <> Abort -> param_read h use8 si id full w = (o, w'))
  /\ (forall p o fs' w', ol_update error h req (fs, (p, w)) = (Done o, (fs', w')) -> o <> Abort -> update_value h use8 si (p, w) = (o, w'))
  /\ forall instance o fs' w', ol_identity error h req instance (fs, w) = (Done o, (fs', w')) -> o <> Abort -> identity_read h use8 si instance w = (o, w').
Proof.
  intros error h W use8 si req fs w R. split; [|split].
  - intros id full. apply (sim_param error h use8 si req R id full fs w).
  - intros p. apply (sim_update error h use8 si req R fs (p, w)).
  - intros instance. apply (sim_identity error h use8 si req R instance fs w).
Qed.
Print Assumptions C122_ends.
(** An update that fails, for want of memory or otherwise, leaves the parameter as it was. *)
Theorem C122_kept : forall error h W (req : Z -> epath -> bytes -> low W response) fs p w r fs' p' w',
  ol_update error h req (fs, (p, w)) = (r, (fs', (p', w'))) -> r <> Done (Ok tt) -> p' = p.
Proof. exact update_keeps. Qed.
Print Assumptions C122_kept.
(** However the calls end, they only read, each from its own object; an update asks once at most. *)
Theorem C122_reads : forall error h W (req : Z -> epath -> bytes -> low W response),
  (forall id full, asks_only (reads_of 15 id) (ol_param error h (noted req) id full))
  /\ (forall instance, asks_only (reads_of 1 1) (ol_identity error h (noted req) instance))
  /\ forall fs p l w r fs' p' l' w', ol_update error h (noted req) (fs, (p, (l, w))) = (r, (fs', (p', (l', w')))) ->
     l' = l \/ l' = l ++ [(14, epath3 15 (pa_id p) 1, [])].
Proof. intros error h W req. split; [apply param_only|]. split; [apply identity_only|]. apply update_only. Qed.
Print Assumptions C122_reads.
(** The requests made before a call ends are a beginning of those it makes with enough memory: none is skipped, repeated or
    made instead of another. *)
Theorem C122_begins : forall error h W use8 (si : session_if W) req, asks_as h use8 si req ->
  (forall id full, begins_as (ol_param error h (noted req) id full)) /\ forall instance, begins_as (ol_identity error h (noted req) instance).
Proof.
  intros error h W use8 si req R. split; intros; eapply follows_begins; [now apply follows_param with (1 := R)|now apply follows_identity with (1 := R)].
Qed.
Print Assumptions C122_begins.
(** If the device answers reads as before, a call that ended for want of memory can be made again: it has the result, and gives
    the object the value, that it would have had at first. *)
Theorem C122_again : forall error h W use8 (si : session_if W) req fs fs0 w fs1 w1, asks_as h use8 si req -> steady h use8 si -> enough fs0 ->
  (forall id full, ol_param error h req id full (fs, w) = (NoMemory, (fs1, w1)) ->
     fst (ol_param error h req id full (fs0, w1)) = Done (fst (param_read h use8 si id full w)))
  /\ (forall instance, ol_identity error h req instance (fs, w) = (NoMemory, (fs1, w1)) ->
     fst (ol_identity error h req instance (fs0, w1)) = Done (fst (identity_read h use8 si instance w)))
  /\ forall p p1, ol_update error h req (fs, (p, w)) = (NoMemory, (fs1, (p1, w1))) ->
     fst (ol_update error h req (fs0, (p1, w1))) = Done (fst (update_value h use8 si (p, w)))
     /\ fst (snd (snd (ol_update error h req (fs0, (p1, w1))))) = fst (snd (update_value h use8 si (p, w))).
Proof.
  intros error h W use8 si req fs fs0 w fs1 w1 R D En. split; [|split].
  - intros id full _. now apply again_param.
  - intros instance _. now apply again_identity.
  - intros p p1 E. rewrite (update_keeps _ _ _ _ _ _ _ _ _ _ _ E ltac:(discriminate)). now apply again_update.
Qed.
Print Assumptions C122_again.
(** A failing allocation is not passed over. *)
Theorem C122_heeded : forall error h W (req : Z -> epath -> bytes -> low W response), (forall service path data, heeds (req service path data)) ->
  (forall id full, heeds (ol_param error h req id full)) /\ heeds (ol_update error h req) /\ forall instance, heeds (ol_identity error h req instance).
Proof. intros error h W req R. split; [|split]; intros; [now apply heeds_param|now apply heeds_update|now apply heeds_identity]. Qed.
Print Assumptions C122_heeded.

(** A parameter of two bytes with the value 5; then 6. *)
Definition answers : list answer := [done [2]; done [5; 0; 0; 0; 0; 199]; done [6; 0]].
Definition to_device : Z -> epath -> bytes -> low (list answer * trace) response :=
  fun service path data => l_lift (send_request strict (served 1 scripted) false service path data []).
Lemma to_device_asks : asks_as strict false (served 1 scripted) to_device.
Proof. intros service path data fs s. apply sim_lift. Qed.
Definition read1 := ol_param true strict to_device 7 false ([], (answers, [])).
Example C122_read_case : exists p, fst read1 = Done (Ok p) /\ pa_value p = [5; 0] /\ pa_router p = true
  /\ exists fs w, ol_update true strict to_device ([true], (p, snd (snd read1))) = (NoMemory, (fs, (p, w)))
  /\ exists fs w, ol_update true strict to_device ([], (p, snd (snd read1))) = (Done (Ok tt), (fs, (pa_set_value p [6; 0], w))).
Proof.
  eexists. split; [vm_compute; reflexivity|]. split; [reflexivity|]. split; [reflexivity|]. do 2 eexists. split; [vm_compute; reflexivity|].
  do 2 eexists. vm_compute. reflexivity.
Qed.
Example C122_reads_case : exists fs l w, ol_param true strict (noted to_device) 7 false ([false; false; false; true], ([], (answers, []))) = (NoMemory, (fs, (l, w)))
  /\ l = [(14, epath3 15 7 6, []); (1, epath2 15 7, [])].
Proof. do 3 eexists. split; vm_compute; reflexivity. Qed.
Example C122_begins_case : asks_as strict false (served 1 scripted) to_device
  /\ fst (snd (snd (ol_param true strict (noted to_device) 7 false ([false; false; true], ([], (answers, [])))))) = [(14, epath3 15 7 6, [])]
  /\ fst (snd (snd (ol_param true strict (noted to_device) 7 false ([], ([], (answers, [])))))) = [(14, epath3 15 7 6, []); (1, epath2 15 7, [])].
Proof. split; [exact to_device_asks|]. split; vm_compute; reflexivity. Qed.
(** A device with a parameter of two bytes. *)
Definition constant : device unit := fun d q => (done (if q_service q =? 1 then [5; 0; 0; 0; 0; 199] else [2; 0]), d).
Definition to_constant : Z -> epath -> bytes -> low (unit * trace) response :=
  fun service path data => l_lift (send_request strict (served 1 constant) false service path data []).
Example C122_again_case : steady strict false (served 1 constant) /\ asks_as strict false (served 1 constant) to_constant
  /\ (exists x, ol_param true strict to_constant 7 false (repeat false 3 ++ [true], (tt, [])) = (NoMemory, x))
  /\ exists p, fst (param_read strict false (served 1 constant) 7 false (tt, [])) = Ok p /\ pa_value p = [5; 0].
Proof.
  split; [|split; [intros service path data fs s; apply sim_lift|split; [eexists; vm_compute; reflexivity|eexists; split; vm_compute; reflexivity]]].
  intros service path [[] w] [[] w']. unfold send_request, served, constant. cbn [si_exchange si_handle]. now destruct (asked _).
Qed.
Example C122_heeded_case : (forall service path data, heeds (to_device service path data))
  /\ exists p x, ol_param true strict to_device 7 false (repeat false 6 ++ [true], (answers, [])) = (Done (Ok p), ([true], x)).
Proof. split; [intros service path data; apply heeds_lift|]. do 2 eexists. vm_compute. reflexivity. Qed.
(** The message about a request that the device refused ends the program. *)
Theorem C122_message_refuted : exists W (w w' : W) use8 (si : session_if W) req fs', asks_as strict use8 si req
  /\ fst (param_read strict use8 si 7 false w) = Throw (RuntimeError RtRequestFailed)
  /\ ol_param true strict req 7 false ([false; true], w) = (Done Abort, (fs', w')).
Proof.
  exists (list answer * trace)%type, ([failed 5], []). eexists. exists false, (served 1 scripted), to_device. eexists.
  split; [exact to_device_asks|]. split; vm_compute; reflexivity.
Qed.
Print Assumptions C122_message_refuted.
(** Over a TCP session: an update of one parameter ends for want of memory before its reply is read; the next update, of
    another one, gives that the value of the first. *)
Definition value_of (data : bytes) : encaps := reply_packet 1 14 (done [nth 45 data 0 mod 256]).
Definition values : peer := fun _ data => [Data (encaps_pack (value_of data))].
Definition short (id : Z) (v : bytes) : param := mkParam id false false false id v 198 [] [] [] [0] [0] [0] 1 1 1 0 0 true.
Definition over_tcp (p : peer) : Z -> epath -> bytes -> low net response := fun service path data => m_request false true strict p 1 true service path data [].
Definition update1 := ol_update true strict (over_tcp values) ([false; false; false; true], (short 3 [0], mkNet [] [] [])).
Lemma values_answer : answering values (fun _ => value_of).
Proof.
  intros log data. unfold values. cbn [stream ending_of]. rewrite app_nil_r. split; [|now split].
  unfold value_of. apply reply_packet_wf; [unfold is_u32; lia|lia|].
  assert (L : 0 <= nth 45 data 0 mod 256 < 256) by (apply Z.mod_pos_bound; lia).
  unfold answer_wf, done, is_u8. cbn [a_status a_addl a_data]. split; [lia|]. split; [constructor|]. split; [reflexivity|].
  split; [repeat constructor; unfold is_u8; lia|cbn; lia].
Qed.
Theorem C122_other_refuted : exists p reply fs f1 f2 f3 w1 w2 w3, answering p reply
  /\ ol_update true strict (over_tcp p) ([], (short 4 [0], mkNet [] [] [])) = (Done (Ok tt), (f1, (short 4 [4], w1)))
  /\ ol_update true strict (over_tcp p) (fs, (short 3 [0], mkNet [] [] [])) = (NoMemory, (f2, (short 3 [0], w2)))
  /\ ol_update true strict (over_tcp p) ([], (short 4 [0], w2)) = (Done (Ok tt), (f3, (short 4 [3], w3))).
Proof.
  exists values, (fun _ => value_of), [false; false; false; true]. do 3 eexists. eexists. exists (snd (snd (snd update1))). eexists.
  split; [exact values_answer|]. split; [vm_compute; reflexivity|]. split; vm_compute; reflexivity.
Qed.
Print Assumptions C122_other_refuted.
