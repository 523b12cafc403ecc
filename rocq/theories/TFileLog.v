(** Property of the messages of file objects: C96. *)
From Verif Require Import Base MBuffer SBuffer MEip SEip SObj PObj MFile SFile PFile MSync MLog SText MMsg SErrno PErrno MFileLog SFileLog PFileLog PFileLog2.
Local Open Scope Z_scope.

(** ** C96 the log of a file object *)

(** What is not finished in the log about an object id is the state the object
    is in; after its end, and after a constructor that throws, nothing is. *)
Theorem C96_state : forall W h use8 (si : session_if W) id w l o w1 l1, is_u16 id -> told_states id l = [] ->
  file_open_logged h use8 si id (w, l) = (o, (w1, l1)) ->
  match o with
  | Ok f => forall ops os f' w2 l2, fops_logged h use8 si ops (f, w1, l1) = (os, (f', w2, l2)) ->
            told_states id l2 = [name_of (state_code (fo_state f'))] /\ told_states id (l2 ++ destroyed_log f') = []
  | Throw _ => told_states id l1 = []
  | _ => True
  end.
Proof.
  intros W h use8 si id w l o w1 l1 V T E. destruct (open_told _ _ _ _ _ _ _ _ _ V E) as [_ O]. specialize (O T).
  destruct o as [f| | |]; [|assumption|exact Logic.I..]. destruct O as [<- O]. intros ops os f' w2 l2 E2.
  destruct (fops_told _ _ _ _ _ _ _ _ _ _ _ V E2) as (I & A & _). specialize (A O). split; [now rewrite A, state_name_ok|].
  rewrite told_app, A. unfold destroyed_log. rewrite I. cbn [fold_left]. now apply after_stop.
Qed.
Print Assumptions C96_state.

(** Object 258 (0x0102), loaded; the upload of one byte; the reply to
    a second request is refused. *)
Definition log_answers : list answer := [done [2]; done [1; 0; 0; 0; 255]; done [0; 4; 9; 7; 7]; failed 5; done [5]].
Definition log_life : list message :=
  match file_open_logged strict false (served 7 scripted) 258 ((log_answers, []), []) with
  | (Ok f, (w, l)) =>
    let '(_, (f, _, l)) := fops_logged strict false (served 7 scripted) [FoBegin 3; FoTransfer; FoTransfer; FoSync; FoTransfer] (f, w, l) in
    l ++ destroyed_log f
  | _ => []
  end.
Example C96_life : log_life =
  [(DEBUG, "FileObject=102 <UNKNOWN> Start"); (INFO, "Send request: service=0xe epath=[classId=55 objectId=258 attributeId=1]");
   (DEBUG, "FileObject=102 <FILE_LOADED> Start"); (TRACE, "FileObject=102 <UNKNOWN> Stop");
   (INFO, "FileObject=102 <FILE_LOADED> Initiate upload"); (INFO, "Send request: service=0x4b epath=[classId=55 objectId=258]");
   (DEBUG, "FileObject=102 <TRANSFER_UPLOAD_IN_PROGRESS> Start"); (TRACE, "FileObject=102 <FILE_LOADED> Stop");
   (INFO, "Send request: service=0x4f epath=[classId=55 objectId=258]");
   (DEBUG, "FileObject=102 <TRANSFER_UPLOAD_IN_PROGRESS> Receive transfer packet type=4");
   (INFO, "Send request: service=0x4f epath=[classId=55 objectId=258]");
   (ERROR, "Message Router error=0x" ++ String (ascii_of_nat 5) " additional statuses ");
   (INFO, "Send request: service=0xe epath=[classId=55 objectId=258 attributeId=1]");
   (WARNING, "FileObject=102 <TRANSFER_UPLOAD_IN_PROGRESS> File is uploading. We need to re-initialize the uploading");
   (DEBUG, "FileObject=102 <FILE_LOADED> Start"); (TRACE, "FileObject=102 <TRANSFER_UPLOAD_IN_PROGRESS> Stop");
   (TRACE, "FileObject=102 <FILE_LOADED> Stop")]%string
  /\ told_states 258 log_life = [] /\ told_states 258 (firstn 14 log_life) = ["TRANSFER_UPLOAD_IN_PROGRESS"%string].
Proof. split; [vm_compute; reflexivity|]. split; vm_compute; reflexivity. Qed.
Example C96_throw : let '(o, (_, l)) := file_open_logged strict false (served 7 scripted) 258 (([done [4]], []), []) in
  o = Throw (RuntimeError RtFileState) /\ told_states 258 l = [] /\ List.length l = 3%nat.
Proof. vm_compute. repeat split. Qed.

(** With the messages everything else is as without; the log only grows. *)
Theorem C96_plain : forall W h use8 (si : session_if W) id w l,
  (exists m, file_open_logged h use8 si id (w, l) = (fst (file_open h use8 si id w), (snd (file_open h use8 si id w), l ++ m)))
  /\ forall f ops, exists m,
     fops_logged h use8 si ops (f, w, l) = (fst (fops_run h use8 si ops (f, w)), (snd (fops_run h use8 si ops (f, w)), l ++ m)).
Proof.
  intros W h use8 si id w l. split; [|intros; apply fops_plain]. unfold file_open_logged. destruct (file_open h use8 si id w) as [o w']. now eexists.
Qed.
Print Assumptions C96_plain.
Example C96_plain_example : match file_open_logged strict false (served 7 scripted) 258 (([done [2]; done [1]], []), []) with
  | (Ok f, (w, l)) => fst (fops_logged strict false (served 7 scripted) [FoBegin 3; FoSync] (f, w, l)) = [Undef UbOobRead]
  | _ => False
  end.
Proof. vm_compute. reflexivity. Qed.

(** At no point during a call is the object without a state. *)
Theorem C96_always : forall W h use8 (si : session_if W) x f w l n, is_u16 (fo_id f) ->
  told_states (fo_id f) l = [name_of (state_code (fo_state f))] ->
  told_states (fo_id f) (l ++ firstn n (fop_log h use8 si x (f, w))) <> [].
Proof. intros W h use8 si x f w l n V T. apply fop_live; [assumption|]. now rewrite T, state_name_ok. Qed.
Print Assumptions C96_always.
(** The name in the messages is the one of the code (src/FileObject.h:24-34). *)
Theorem C96_names : forall s, In (state_code s, state_name s)
  [(0, "NONEXISTENT"); (1, "FILE_EMPTY"); (2, "FILE_LOADED"); (3, "TRANSFER_UPLOAD_INITIATED"); (4, "TRANSFER_DOWNLOAD_INITIATED");
   (5, "TRANSFER_UPLOAD_IN_PROGRESS"); (6, "TRANSFER_DOWNLOAD_IN_PROGRESS"); (255, "UNKNOWN")]%string.
Proof. destruct s; cbn; tauto. Qed.
Print Assumptions C96_names.
Example C96_always_example : told_states 258 (firstn 7 log_life) = [name_of 2; name_of 5].
Proof. vm_compute. reflexivity. Qed.

(** Objects with different ids do not disturb each other. *)
Theorem C96_apart : forall W h use8 (si : session_if W) id id' w l o w1 l1, is_u16 id -> id' <> id ->
  file_open_logged h use8 si id (w, l) = (o, (w1, l1)) ->
  told_states id' l1 = told_states id' l
  /\ forall f ops os f' w l w2 l2, fo_id f = id -> fops_logged h use8 si ops (f, w, l) = (os, (f', w2, l2)) ->
     told_states id' l2 = told_states id' l /\ told_states id' (l2 ++ destroyed_log f') = told_states id' l.
Proof.
  intros W h use8 si id id' w l o w1 l1 V N E. destruct (open_told _ _ _ _ _ _ _ _ _ V E) as [O _]. split; [now apply O|].
  intros f ops os f' w0 l0 w2 l2 <- E2. destruct (fops_told _ _ _ _ _ _ _ _ _ _ _ V E2) as (I & _ & B).
  split; [now apply B|]. rewrite told_app, B by assumption. unfold destroyed_log. rewrite I. cbn [fold_left]. now apply after_other; auto.
Qed.
Print Assumptions C96_apart.
Example C96_apart_example : told_states 259 ((DEBUG, "FileObject=103 <FILE_EMPTY> Start"%string) :: log_life) = ["FILE_EMPTY"%string].
Proof. vm_compute. reflexivity. Qed.

(** The handler calls without a file and the messages at level ERROR match one
    by one. *)
Theorem C96_errors : forall W h use8 (si : session_if W) id w f w1 l1 ops os f' w2 l2, is_u16 id ->
  file_open_logged h use8 si id (w, []) = (Ok f, (w1, l1)) -> fops_logged h use8 si ops (f, w1, l1) = (os, (f', w2, l2)) ->
  Forall2 (explains id) (at_level ERROR l2) (failures (fo_calls f')).
Proof.
  intros W h use8 si id w f w1 l1 ops os f' w2 l2 V E E2. destruct (opened _ _ _ _ _ _ _ _ _ E) as (<- & C & K & A).
  destruct (fops_errors _ _ _ _ _ _ _ _ _ _ _ V K E2) as (m & -> & new & C' & F & _). rewrite C in C'. cbn [app] in C'. rewrite C'.
  rewrite at_level_app, (A l1 eq_refl). exact F.
Qed.
Print Assumptions C96_errors.
Example C96_errors_example : exists m, at_level ERROR log_life = [m] /\ explains 258 m (mkCall 3 5 []).
Proof.
  eexists. split; [vm_compute; reflexivity|]. split; [reflexivity|]. left. exists EmptyString. reflexivity.
Qed.
(** The same for the calls of one round. *)
Theorem C96_errors_call : forall W h use8 (si : session_if W) x f w o f' w', is_u16 (fo_id f) -> fo_state f <> FUnknown ->
  fop_run h use8 si x (f, w) = (o, (f', w')) ->
  exists new, fo_calls f' = fo_calls f ++ new
  /\ Forall2 (explains (fo_id f)) (at_level ERROR (fop_log h use8 si x (f, w))) (failures new).
Proof. intros. destruct (fop_errors h use8 si x f w o f' w') as (new & A & B & _); try assumption. now exists new. Qed.
Print Assumptions C96_errors_call.

(** The requests in the log are those the adapter gets, in this order. *)
Theorem C96_requests : forall D h use8 handle (dev : device D) id d o d1 tr1 l1,
  is_u32 handle -> device_wf dev -> sendable use8 id ->
  file_open_logged h use8 (served handle dev) id ((d, []), []) = (o, ((d1, tr1), l1)) ->
  Forall2 tells_request (filter is_request l1) (map fst tr1)
  /\ forall f ops os f' d2 tr2 l2, o = Ok f -> fops_logged h use8 (served handle dev) ops (f, (d1, tr1), l1) = (os, (f', (d2, tr2), l2)) ->
     Forall2 tells_request (filter is_request l2) (map fst tr2).
Proof.
  intros D h use8 handle dev id d o d1 tr1 l1 H Wd S E. destruct (open_requests h use8 handle dev H Wd _ _ _ _ _ _ _ _ S E) as [P Q].
  specialize (P (Forall2_nil _)). split; [exact P|]. intros f ops os f' d2 tr2 l2 -> E2. destruct (Q f eq_refl) as [<- N].
  exact (fops_requests h use8 handle dev H Wd _ _ _ _ _ _ _ _ _ _ S N E2 P).
Qed.
Print Assumptions C96_requests.
Example C96_requests_example : List.length (filter is_request log_life) = 5%nat
  /\ tells_request (INFO, "Send request: service=0xe epath=[classId=55 objectId=258 attributeId=1]"%string) (state_request 258).
Proof.
  split; [vm_compute; reflexivity|]. exists "e"%string, "[classId=55 objectId=258 attributeId=1]"%string.
  split; [vm_compute; repeat split; discriminate|]. split; [|reflexivity].
  exists "55"%string, "258"%string, "1"%string. repeat split; try discriminate; intros r Er; inversion Er.
Qed.

(** Packets, an upload that is begun, and an object that is uploading. *)
Theorem C96_packet : forall D h use8 handle (dev : device D) f d tr a d' size T content k hid num ty rest,
  is_u32 handle -> sendable use8 (fo_id f) -> fo_state f = FUpload size T content k hid -> is_u8 k ->
  dev d (transfer_request (fo_id f) k) = (a, d') -> answer_wf a -> a_status a = 0 -> a_data a = num :: ty :: rest ->
  exists t m, numeral t ty /\ at_level DEBUG (transfer_log h use8 (served handle dev) f (d, tr)) = [m]
    /\ says (fo_id f) 5 ("Receive transfer packet type=" ++ t) (DEBUG, m).
Proof. exact @packet_told. Qed.
Print Assumptions C96_packet.
Theorem C96_begin : forall W h use8 (si : session_if W) hid f w, is_u16 (fo_id f) -> state_code (fo_state f) = 2 ->
  exists m more, begin_log h use8 si hid f w = m :: more /\ fst m = INFO /\ says (fo_id f) 2 "Initiate upload" m.
Proof. exact @begins. Qed.
Print Assumptions C96_begin.
Theorem C96_uploading : forall D h use8 handle (dev : device D) f d tr a d' code rest,
  is_u32 handle -> sendable use8 (fo_id f) -> dev d (state_request (fo_id f)) = (a, d') -> answer_wf a ->
  a_status a = 0 -> a_data a = code :: rest ->
  exists l, at_level WARNING (fop_log h use8 (served handle dev) FoSync (f, (d, tr))) = l
  /\ ((code = 3 \/ code = 5) -> exists m, l = [m]
        /\ says (fo_id f) (state_code (fo_state f)) "File is uploading. We need to re-initialize the uploading" (WARNING, m))
  /\ (code <> 3 -> code <> 5 -> l = []).
Proof. exact @resync_told. Qed.
Print Assumptions C96_uploading.
Example C96_single_hypotheses : is_u32 7 /\ sendable false 258 /\ is_u8 0
  /\ scripted [done [0; 4; 9; 7; 7]] (transfer_request 258 0) = (done [0; 4; 9; 7; 7], [])
  /\ scripted [done [5]] (state_request 258) = (done [5], []) /\ answer_wf (done [0; 4; 9; 7; 7]) /\ answer_wf (done [5]).
Proof.
  split; [unfold is_u32; lia|]. split; [split; [unfold is_u16; lia|discriminate]|]. split; [unfold is_u8; lia|].
  split; [reflexivity|]. split; [reflexivity|].
  split; (apply done_wf; [repeat constructor; unfold is_u8; lia|vm_compute; discriminate]).
Qed.

(** A call that is not possible does nothing; what is said about it. *)
Theorem C96_idle : forall W h use8 (si : session_if W) x f w,
  is_u16 (fo_id f) -> fo_state f <> FUnknown -> impossible x (state_code (fo_state f)) ->
  fop_run h use8 si x (f, w) = (Ok false, (f, w))
  /\ match remark x (state_code (fo_state f)) with
     | Some (l, t) => exists m, fop_log h use8 si x (f, w) = [m] /\ fst m = l /\ says (fo_id f) (state_code (fo_state f)) t m
     | None => fop_log h use8 si x (f, w) = []
     end.
Proof. exact @idle. Qed.
Print Assumptions C96_idle.
Example C96_idle_example : impossible (FoBegin 3) 1 /\ impossible FoTransfer 0
  /\ fop_log strict false (served 7 scripted) (FoBegin 3) (mkFile 258 FEmpty [], ([], []))
     = [(WARNING, "FileObject=102 <FILE_EMPTY> File cannot be uploaded"%string)].
Proof. split; [discriminate|]. split; [discriminate|]. vm_compute. reflexivity. Qed.
(** It is not true that a call without effect is always mentioned: a loaded
    object has nothing to transfer and does not say so. *)
Theorem C96_silent_refuted : exists f, fo_state f <> FUnknown /\ is_u16 (fo_id f)
  /\ forall W h use8 (si : session_if W) w,
     fop_run h use8 si FoTransfer (f, w) = (Ok false, (f, w)) /\ fop_log h use8 si FoTransfer (f, w) = [].
Proof. exists (mkFile 258 FLoaded []). split; [discriminate|]. split; [unfold is_u16; cbn; lia|]. split; reflexivity. Qed.
Print Assumptions C96_silent_refuted.
(** Nor is it true that an upload is initiated when the log says so: the second
    beginUpload says that it does, but sends nothing and drops the handler. *)
Theorem C96_again_refuted : exists f hid m, fo_state f <> FUnknown /\ is_u16 (fo_id f)
  /\ says (fo_id f) 5 "Initiate upload of file again" m
  /\ forall W h use8 (si : session_if W) w,
     fop_run h use8 si (FoBegin hid) (f, w) = (Ok false, (f, w)) /\ fop_log h use8 si (FoBegin hid) (f, w) = [m].
Proof.
  exists (mkFile 258 (FUpload 10 5 [] 0 3) []), 4%nat, (INFO, "FileObject=102 <TRANSFER_UPLOAD_IN_PROGRESS> Initiate upload of file again"%string).
  split; [discriminate|]. split; [unfold is_u16; cbn; lia|]. split; [reflexivity|]. split; reflexivity.
Qed.
Print Assumptions C96_again_refuted.
