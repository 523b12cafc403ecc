(** Property of file uploads when there is not enough memory: C117. *)
From Verif Require Import Base MBuffer SBuffer MEip SEip SObj MFile SFile PFile MMem MLow SLow PLow MFileLow SFileLow PFileLow.
Local Open Scope Z_scope.

(** ** C117 file uploads when there is not enough memory *)

(** With enough memory nothing is different. *)
Theorem C117_enough : forall info warning error h W use8 (si : session_if W) req handler id fs f w, asks_as h use8 si req -> enough fs ->
  (exists fs', fl_open warning h req id (fs, w) = (Done (fst (file_open h use8 si id w)), (fs', snd (file_open h use8 si id w))))
  /\ (exists fs', fl_begin info warning error h req handler (fs, (f, w))
      = (Done (fst (begin_upload h use8 si handler (f, w))), (fs', snd (begin_upload h use8 si handler (f, w)))))
  /\ (exists fs', fl_transfer warning error h req (fs, (f, w))
      = (Done (fst (handle_transfers h use8 si (f, w))), (fs', snd (handle_transfers h use8 si (f, w)))))
  /\ fst (fl_destroy (fs, (f, w))) = Done (Ok tt).
Proof.
  intros info warning error h W use8 si req handler id fs f w R En. split; [|split; [|split]].
  - destruct (sim_open warning h use8 si req R id fs w) as [_ X]. destruct (X En) as (f1 & _ & Y). now exists f1.
  - destruct (sim_begin info warning error h use8 si req R handler fs (f, w)) as [_ X]. destruct (X En) as (f1 & _ & Y). now exists f1.
  - destruct (sim_transfer warning error h use8 si req R fs (f, w)) as [_ X]. destruct (X En) as (f1 & _ & Y). now exists f1.
  - unfold fl_destroy. destruct (fo_state f); try reflexivity. now rewrite (enough_hd fs En).
Qed.
Print Assumptions C117_enough.

(** A call can only end as it does with enough memory, throw std::bad_alloc, or end the program. *)
Theorem C117_ends : forall info warning error h W use8 (si : session_if W) req handler id fs f w fs', asks_as h use8 si req ->
  (forall o w', fl_open warning h req id (fs, w) = (Done o, (fs', w')) -> o <> Abort -> file_open h use8 si id w = (o, w'))
  /\ (forall o x', fl_begin info warning error h req handler (fs, (f, w)) = (Done o, (fs', x')) -> o <> Abort -> begin_upload h use8 si handler (f, w) = (o, x'))
  /\ (forall o x', fl_transfer warning error h req (fs, (f, w)) = (Done o, (fs', x')) -> o <> Abort -> handle_transfers h use8 si (f, w) = (o, x')).
Proof.
  intros info warning error h W use8 si req handler id fs f w fs' R. split; [|split].
  - intros o w' E N. destruct (sim_open warning h use8 si req R id fs w) as [X _]. eapply X; eauto.
  - intros o x' E N. destruct (sim_begin info warning error h use8 si req R handler fs (f, w)) as [X _]. eapply X; eauto.
  - intros o x' E N. destruct (sim_transfer warning error h use8 si req R fs (f, w)) as [X _]. eapply X; eauto.
Qed.
Print Assumptions C117_ends.

(** beginUpload that throws std::bad_alloc leaves the object as it was. *)
Theorem C117_begin : forall info warning error h W (req : Z -> epath -> bytes -> low W response) handler fs f w fs' f' w',
  fl_begin info warning error h req handler (fs, (f, w)) = (NoMemory, (fs', (f', w'))) -> f' = f.
Proof. intros info warning error h W req handler fs f w fs' f' w' E. exact (begin_leaves info warning error h req handler f _ _ _ _ _ _ E). Qed.
Print Assumptions C117_begin.
(** handleTransfers that throws std::bad_alloc calls no handler, and leaves the object as it was or, if
    the file came to its end with the wrong size, with the data of the last packet. Full statement: as it was. *)
Theorem C117_transfer_partial : forall warning error h W (req : Z -> epath -> bytes -> low W response) size tsize content number handler fs f w fs' f' w',
  fo_state f = FUpload size tsize content number handler ->
  fl_transfer warning error h req (fs, (f, w)) = (NoMemory, (fs', (f', w'))) ->
  f' = f \/ exists data, zlen (content ++ data) <> size /\ f' = mkFile (fo_id f) (FUpload size tsize (content ++ data) number handler) (fo_calls f).
Proof.
  intros warning error h W req size tsize content number handler fs f w fs' f' w' S E.
  destruct (transfer_leaves warning error h req f _ _ _ _ _ S _ _ _ _ _ _ E) as [->|(r & a & b & c & d & _ & -> & N & _)]; [now left|right]. exists d. now split.
Qed.
Print Assumptions C117_transfer_partial.

(** If the adapter sends a packet as often as it is asked for, a program that repeats a call that threw gets the file
    as it is, once, and before that the handler is not called. Files of at most 256 packets. *)
Theorem C117_again : forall warning error h W (req : Z -> epath -> bytes -> low W response) F T crc handler fss f w os f' w',
  1 <= T <= 255 -> List.length crc = 2%nat -> zlen F <= 256 * T -> resends (fo_id f) F (Z.to_nat T) crc req ->
  fo_state f = FUpload (zlen F) T [] 0 handler ->
  fl_calls warning error h req fss (f, w) = (os, (f', w')) ->
  (In (Done (Ok false)) os -> fo_calls f' = fo_calls f ++ [mkCall handler 0 F])
  /\ (~ In (Done (Ok false)) os -> fo_calls f' = fo_calls f /\ exists n number, fo_state f' = FUpload (zlen F) T (firstn n F) number handler).
Proof.
  intros warning error h W req F T crc handler fss f w os f' w' HT LC LF RS S E.
  assert (C : coming (fo_id f) F T handler (fo_calls f) f) by (exists 0%nat; split; [|now left]; split; [reflexivity|split; [reflexivity|exact S]]).
  destruct (again_calls warning error h req (fo_id f) F T crc handler (fo_calls f) HT LC LF RS fss f w os f' w' C E) as [[A B]|[A (k & (_ & B & D) & _)]].
  - split; [auto|]. intros N. now destruct N.
  - split; [intros N; now destruct A|]. intros _. split; [exact B|]. eauto.
Qed.
Print Assumptions C117_again.

(** An adapter that announces two bytes and sends one, as often as it is asked. *)
Definition short_file : device unit := fun _ q => (if q_service q =? 79 then done [0; 4; 7; 1; 2] else done [2; 0; 0; 0; 10], tt).
Definition over {D} (dev : device D) : Z -> epath -> bytes -> low (D * trace) response :=
  fun service path data => l_lift (send_request strict (served 1 dev) false service path data []).
Definition loaded : fobj := mkFile 200 FLoaded [].
Definition begun {D} (dev : device D) (d : D) := snd (snd (fl_begin true true true strict (over dev) 9 ([], (loaded, (d, []))))).
Definition failing (n : nat) : list bool := repeat false n ++ [true].
(** Its byte is handed over twice as a complete file; with enough memory the wrong size is noticed. *)
Theorem C117_doubled_refuted : exists req x os x', asks_as strict false (served 1 short_file) req
  /\ snd (snd (fl_begin true true true strict req 9 ([], (loaded, (tt, []))))) = x
  /\ fl_calls true true strict req [failing 6; []] x = (os, x') /\ os = [NoMemory; Done (Ok false)]
  /\ fo_calls (fst x') = [mkCall 9 0 [7; 7]]
  /\ fo_calls (fst (snd (fl_calls true true strict req [[]] x))) = [mkCall 9 32 []].
Proof.
  exists (over short_file), (begun short_file tt). do 2 eexists. split; [|split; [reflexivity|split; [vm_compute; reflexivity|split; [reflexivity|split; vm_compute; reflexivity]]]].
  intros service path data fs s. exact (sim_lift (send_request strict (served 1 short_file) false service path data []) fs s).
Qed.
Print Assumptions C117_doubled_refuted.
(** An adapter that follows the protocol but does not send packets again: the upload fails. *)
Theorem C117_lost_refuted : exists F T crc req x os x', asks_as strict false (served 1 (uploader 200 F T crc)) req
  /\ snd (snd (fl_begin true true true strict req 9 ([], (loaded, (None, []))))) = x
  /\ fl_calls true true strict req [failing 1; []] x = (os, x') /\ os = [NoMemory; Done (Ok true)]
  /\ fo_calls (fst x') = [mkCall 9 32 []]
  /\ fo_calls (fst (snd (fl_calls true true strict req [[]] x))) = [mkCall 9 0 F].
Proof.
  exists [1; 2; 3], 10, [0; 0], (over (uploader 200 [1; 2; 3] 10 [0; 0])), (begun (uploader 200 [1; 2; 3] 10 [0; 0]) None). do 2 eexists.
  split; [|split; [reflexivity|split; [vm_compute; reflexivity|split; [reflexivity|split; vm_compute; reflexivity]]]].
  intros service path data fs s. exact (sim_lift (send_request strict (served 1 (uploader 200 [1; 2; 3] 10 [0; 0])) false service path data []) fs s).
Qed.
Print Assumptions C117_lost_refuted.
(** Destroying an object in the middle of an upload ends the program, whatever is shown of the log. *)
Theorem C117_destroy_refuted : exists x, snd (snd (fl_begin false false false strict (over short_file) 9 ([], (loaded, (tt, []))))) = x
  /\ fst (fl_destroy ([true], x)) = Done Abort.
Proof. eexists. split; [vm_compute; reflexivity|reflexivity]. Qed.
Print Assumptions C117_destroy_refuted.

(** The message that the size is wrong ends the program if it is shown and cannot be copied; a call that shows no errors
    goes on. *)
Theorem C117_message_refuted : exists x x1 x2, snd (snd (fl_begin true true true strict (over short_file) 9 ([], (loaded, (tt, []))))) = x
  /\ fl_transfer true true strict (over short_file) (failing 8, x) = (Done Abort, x1)
  /\ fl_transfer true false strict (over short_file) (failing 8, x) = (Done (Ok false), x2).
Proof. eexists. do 2 eexists. split; [vm_compute; reflexivity|]. split; vm_compute; reflexivity. Qed.
Print Assumptions C117_message_refuted.

(** An adapter that sends packets again; a file of 25 bytes, six calls of which three fail. *)
Definition file25 : bytes := map Z.of_nat (seq 1 25).
Definition ask25 : Z -> epath -> bytes -> low unit response :=
  fun _ _ data => l_bind l_need (fun _ => l_ret (mkResp 0 0 [] (file_packet file25 10 [0; 0] (Z.to_nat (hd 0 data))) [])).
Example C117_resends : resends 200 file25 (Z.to_nat 10) [0; 0] ask25.
Proof.
  intros n fs s r x N E. unfold ask25, l_bind, l_need in E. destruct (hd false fs); [discriminate|]. inversion E. split; reflexivity.
Qed.
Example C117_again_case : exists x, fl_calls true true strict ask25 [[]; failing 6; failing 1; []; failing 4; []] (mkFile 200 (FUpload 25 10 [] 0 9) [], tt)
  = ([Done (Ok true); NoMemory; NoMemory; Done (Ok true); NoMemory; Done (Ok false)], x) /\ fo_calls (fst x) = [mkCall 9 0 file25].
Proof. eexists. split; vm_compute; reflexivity. Qed.
Example C117_begin_case : exists x, fl_begin true true true strict (over short_file) 9 (failing 3, (loaded, (tt, []))) = (NoMemory, x).
Proof. eexists. vm_compute. reflexivity. Qed.
