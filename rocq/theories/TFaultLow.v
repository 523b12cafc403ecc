(** Property of the fault manager of the PowerFlex 525 when there is not enough memory: C119. *)
From Verif Require Import Base MBuffer SBuffer MEip SEip SObj MFile MIdent MParam MFault SFault MMem MLow SLow PLow MFileLow SFileLow MFaultLow SFaultLow PFaultLow.
Local Open Scope Z_scope.

(** ** C119 faults when there is not enough memory *)

(** With enough memory nothing is different. *)
Theorem C119_enough : forall info error h W use8 (si : session_if W) req clear want fs x, asks_as h use8 si req -> enough fs ->
  exists fs', fm_handle info error h req clear want (fs, x) = (Done (fst (handle_faults h use8 si clear want x)), (fs', snd (handle_faults h use8 si clear want x))).
Proof.
  intros info error h W use8 si req clear want fs x R En. destruct (sim_handle info error h use8 si req R clear want fs x) as [_ X]. destruct (X En) as (f1 & _ & Y). now exists f1.
Qed.
Print Assumptions C119_enough.
(** The call can only end as it does with enough memory, throw std::bad_alloc, or end the program. *)
Theorem C119_ends : forall info error h W use8 (si : session_if W) req clear want fs x o fs' x', asks_as h use8 si req ->
  fm_handle info error h req clear want (fs, x) = (Done o, (fs', x')) -> o <> Abort -> handle_faults h use8 si clear want x = (o, x').
Proof.
  intros info error h W use8 si req clear want fs x o fs' x' R E N. destruct (sim_handle info error h use8 si req R clear want fs x) as [X _]. eapply X; eauto.
Qed.
Print Assumptions C119_ends.
(** However it ends: the listener gets the first of the faults that it gets with enough memory. *)
Theorem C119_prefix : forall info error h W use8 (si : session_if W) req clear want fs calls w r fs' calls' w', asks_as h use8 si req ->
  fm_handle info error h req clear want (fs, (calls, w)) = (r, (fs', (calls', w'))) ->
  exists rest, fst (snd (handle_faults h use8 si clear want (calls, w))) = calls' ++ rest.
Proof. intros info error h W use8 si req clear want fs calls w r fs' calls' w' R. exact (handle_parts info error h use8 si req R clear want fs calls w r fs' calls' w'). Qed.
Print Assumptions C119_prefix.
(** However it ends: the queue is cleared only when configured, as the last thing, and after the listener has got all the
    faults; what was not handed over is not lost. Other requests only read. *)
Theorem C119_cleared : forall info error h W use8 (si : session_if W) req clear want fs w r fs' calls asked w', asks_as h use8 si req ->
  fm_handle info error h (noted req) clear want (fs, ([], ([], w))) = (r, (fs', (calls, (asked, w')))) ->
  exists rs last, asked = rs ++ last /\ Forall reads rs
  /\ (last = [] \/ last = [(16, epath3 151 0 3, [2])] /\ clear = true /\ calls <> [] /\ calls = fst (snd (handle_faults h use8 si clear want ([], w)))).
Proof. intros info error h W use8 si req clear want fs w r fs' calls asked w' R E. exact (handle_notes info error h req use8 si clear want fs w r fs' calls asked w' R E). Qed.
Print Assumptions C119_cleared.
(** An allocation that fails before the first request: nothing is asked for and no fault is handed over. *)
Theorem C119_first : forall info error h W (req : Z -> epath -> bytes -> low W response) clear want fs x,
  fm_handle info error h req clear want (true :: fs, x) = (NoMemory, (fs, x)).
Proof. intros info error h W req clear want fs [c w]. reflexivity. Qed.
Print Assumptions C119_first.

(** No failing allocation is passed over: when the call returns, none failed at any place it came to. *)
Theorem C119_heeded : forall info error h W (req : Z -> epath -> bytes -> low W response) clear want, (forall service path data, heeds (req service path data)) ->
  heeds (fm_handle info error h req clear want).
Proof. exact handle_heeds. Qed.
Print Assumptions C119_heeded.

(** A drive with one fault until its queue is cleared. *)
Definition one_until_cleared : device bool := fun there q =>
  match q with
  | mkReq 16 _ _ => (done [], false)
  | mkReq _ [_; (_, 7); _] _ => (done [if there then 5 else 0; 0], there)
  | _ => (done [0; 0], there)
  end.
Definition to_drive : Z -> epath -> bytes -> low (bool * trace) response :=
  fun service path data => l_lift (send_request strict (served 1 one_until_cleared) false service path data []).
Example C119_asks : asks_as strict false (served 1 one_until_cleared) to_drive.
Proof. intros service path data fs s. exact (sim_lift (send_request strict (served 1 one_until_cleared) false service path data []) fs s). Qed.
Example C119_heeded_case : (forall service path data, heeds (to_drive service path data))
  /\ exists x, fm_handle true true strict to_drive true false (repeat false 6 ++ [false; true], ([], (true, []))) = (Done (Ok tt), ([true], x)).
Proof. split; [intros service path data; apply heeds_lift|]. eexists. vm_compute. reflexivity. Qed.
(** No memory for the command: the call throws, and the next call hands over the same fault again. With enough memory it is
    handed over once. *)
Theorem C119_twice_refuted : exists req x1 x2 f, asks_as strict false (served 1 one_until_cleared) req
  /\ fm_handle false false strict req true false ([false; false; false; false; false; true], ([], (true, []))) = (NoMemory, ([], x1))
  /\ fm_handle false false strict req true false ([], x1) = (Done (Ok tt), ([], x2))
  /\ fst x2 = [f; f]
  /\ fst (snd (handle_faults strict false (served 1 one_until_cleared) true false
       (snd (handle_faults strict false (served 1 one_until_cleared) true false ([], (true, [])))))) = [f].
Proof.
  exists to_drive. do 3 eexists. split; [exact C119_asks|]. split; [vm_compute; reflexivity|]. split; [vm_compute; reflexivity|]. split; vm_compute; reflexivity.
Qed.
Print Assumptions C119_twice_refuted.
(** If messages at level INFO are shown, the program may end. *)
Theorem C119_message_refuted : exists req x, asks_as strict false (served 1 one_until_cleared) req
  /\ fm_handle true false strict req true false ([false; false; false; false; false; true], ([], (true, []))) = (Done Abort, ([], x)).
Proof. exists to_drive. eexists. split; [exact C119_asks|vm_compute; reflexivity]. Qed.
Print Assumptions C119_message_refuted.

(** With enough memory: two parameters are read, the fault is handed over, the queue is cleared. *)
Example C119_case : exists c w, fm_handle true true strict (noted to_drive) true false ([], ([], ([], (true, []))))
  = (Done (Ok tt), ([], ([c], ([(14, epath3 15 7 1, []); (14, epath3 15 8 1, []); (16, epath3 151 0 3, [2])], w)))) /\ fst w = false.
Proof. do 2 eexists. split; vm_compute; reflexivity. Qed.
Example C119_prefix_case : exists c x, fm_handle true true strict to_drive true false ([false; false; false; false; true], ([], (true, []))) = (NoMemory, ([], ([c], x))).
Proof. do 2 eexists. vm_compute. reflexivity. Qed.
