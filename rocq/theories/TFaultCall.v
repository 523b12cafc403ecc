(** Property of fault listeners of the PowerFlex 525 manager that throw or use the session: C120. *)
From Verif Require Import Base MBuffer SBuffer MEip SEip SObj MFile MIdent MParam MFault SFault PFault MFaultCall SFaultCall PFaultCall.
Local Open Scope Z_scope.

(** ** C120 fault listeners that throw *)

(** Listeners that neither throw nor use the session are those of C64. *)
Theorem C120_passive : forall h W use8 (si : session_if W) listener clear want x, (forall c f (w : W), listener c f w = (Ok tt, w)) ->
  call_faults h use8 si listener clear want x = handle_faults h use8 si clear want x.
Proof. intros h W use8 si listener clear want x S. exact (silent h use8 si listener clear want x S). Qed.
Print Assumptions C120_passive.

(** A listener that throws, for whatever fault it likes and whatever it has got before: it has got exactly the faults up to
    that one, and the exception comes out of the call. If it does not throw, all is as with listeners that never do. *)
Theorem C120_throws : forall h W use8 (si : session_if W) v clear want calls w o faults w' got thrown,
  handle_faults h use8 si clear want (calls, w) = (o, (calls ++ faults, w')) -> taken v calls faults = (got, thrown) ->
  match thrown with
  | None => got = faults /\ call_faults h use8 si (refusing v) clear want (calls, w) = (o, (calls ++ faults, w'))
  | Some e => exists w2, call_faults h use8 si (refusing v) clear want (calls, w) = (Throw e, (calls ++ got, w2))
  end.
Proof. intros h W use8 si v clear want calls w o faults w' got thrown. exact (refusing_all h use8 si v clear want calls w o faults w' got thrown). Qed.
Print Assumptions C120_throws.

(** When the listener has thrown, nothing was asked of the drive except for parameters: its queue was not cleared. *)
Theorem C120_kept : forall D h handle (dev : device D), is_u32 handle ->
  forall v clear want calls d (tr : trace) o faults w' got e calls' d' tr',
  handle_faults h false (served handle dev) clear want (calls, (d, tr)) = (o, (calls ++ faults, w')) -> taken v calls faults = (got, Some e) ->
  call_faults h false (served handle dev) (refusing v) clear want (calls, (d, tr)) = (Throw e, (calls', (d', tr'))) ->
  calls' = calls ++ got /\ exists reads, tr' = tr ++ reads /\ Forall reading reads.
Proof. intros D h handle dev H. exact (refusing_kept h handle dev H). Qed.
Print Assumptions C120_kept.

(** Three faults; the listener throws for the second one when it sees it for the first time. *)
Definition three : drive := mkDrive (fun n => if n =? 7 then 5 else if n =? 8 then 12 else if n =? 9 then 7 else 0) [].
Definition once (c : list fault) (f : fault) : option exn := if Nat.eqb (List.length c) 1 then Some OutOfRange else None.
(** The next call hands over from the first fault again: the ones that the listener took without an exception come
    twice. *)
Theorem C120_again_refuted : exists d v x os calls w, drive_wf d /\ x = ([], (d, []))
  /\ call_times strict false (served 7 drive_device) (refusing v) true false 2 x = (os, (calls, w))
  /\ os = [Throw OutOfRange; Ok tt]
  /\ v [] (hd (mkFault (mkDetails 0 0 fzero fzero fzero) no_description) calls) = None
  /\ map (fun f => fd_number (fa_details f)) calls = [1; 2; 1; 2; 3] /\ dr_commands (fst w) = [2].
Proof.
  exists three, once. do 4 eexists. split.
  { intros n. unfold three, dr_value. repeat (destruct (n =? _); [unfold is_u16; lia|]). unfold is_u16; lia. }
  split; [reflexivity|]. split; [vm_compute; reflexivity|]. split; [reflexivity|]. split; [reflexivity|]. split; reflexivity.
Qed.
Print Assumptions C120_again_refuted.

(** A drive with a queue of codes that the command empties, and a listener that sends the command itself. *)
Definition queue : device (list Z) := fun q r =>
  match r with
  | mkReq 16 _ [2] => (done [], [])
  | mkReq _ [_; (_, 7); _] _ => (done [nth 0 q 0; 0], q)
  | mkReq _ [_; (_, 8); _] _ => (done [nth 1 q 0; 0], q)
  | mkReq _ [_; (_, 9); _] _ => (done [nth 2 q 0; 0], q)
  | _ => (done [0; 0], q)
  end.
Definition clearing : list fault -> fault -> st (list Z * trace) unit := fun _ _ => write_command strict false (served 7 queue) CLEAR_FAULT_QUEUE.
(** Each fault is read just before it is handed over, so the others are lost, whether the manager clears the queue or not. *)
Theorem C120_cleared_refuted : exists listener, forall clear, exists calls w,
  call_faults strict false (served 7 queue) listener clear false ([], ([5; 12; 7], [])) = (Ok tt, (calls, w))
  /\ map (fun f => fd_code (fa_details f)) calls = [5]
  /\ map (fun f => fd_code (fa_details f)) (fst (snd (handle_faults strict false (served 7 queue) clear false ([], ([5; 12; 7], []))))) = [5; 12; 7].
Proof. exists clearing. intros [|]; do 2 eexists; (split; [vm_compute; reflexivity|]; split; [reflexivity|vm_compute; reflexivity]). Qed.
Print Assumptions C120_cleared_refuted.

Example C120_case : exists faults w got e, handle_faults strict false (served 7 drive_device) true false ([], (three, [])) = (Ok tt, ([] ++ faults, w))
  /\ List.length faults = 3%nat /\ taken once [] faults = (got, Some e) /\ List.length got = 2%nat.
Proof. do 4 eexists. split; [vm_compute; reflexivity|]. split; [reflexivity|]. split; reflexivity. Qed.
