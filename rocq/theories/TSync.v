(** Properties of file objects that are synchronised again: C89. *)
From Verif Require Import Base MBuffer SBuffer PBase PBuffer MEip SEip SObj PObj MFile SFile PFile MSync SSync PSync.

(** ** C89 synchronising again *)

(** Whatever state the object is in, one request is made; the object follows
    the state of the adapter, or an exception is thrown and it is as before.
    No handler is called. *)
Theorem C89_state : forall D h use8 handle (dev : device D) f d tr a d' code rest,
  is_u32 handle -> sendable use8 (fo_id f) -> dev d (state_request (fo_id f)) = (a, d') -> answer_wf a ->
  a_status a = 0 -> a_data a = code :: rest ->
  exists o f', file_sync h use8 (served handle dev) (f, (d, tr)) = (o, (f', (d', tr ++ [(state_request (fo_id f), a)])))
  /\ match client_state code with
     | Some s => o = Ok tt /\ state_code (fo_state f') = s /\ fo_id f' = fo_id f /\ fo_calls f' = fo_calls f
     | None => (exists e, o = Throw (RuntimeError e)) /\ f' = f
     end.
Proof. exact @sync_state. Qed.
Print Assumptions C89_state.
(** In the middle of an upload: the file has been emptied; a state the client
    does not know. *)
Definition fixed_device (a : answer) : device unit := fun _ _ => (a, tt).
Example C89_state_example :
  let f := mkFile 200 (FUpload 4 2 [1; 2] 1 9) [mkCall 9 16 []] in
  is_u32 7 /\ sendable false (fo_id f) /\ answer_wf (done [1]) /\ answer_wf (done [6])
  /\ file_sync strict false (served 7 (fixed_device (done [1]))) (f, (tt, []))
     = (Ok tt, (mkFile 200 FEmpty [mkCall 9 16 []], (tt, [(state_request 200, done [1])])))
  /\ file_sync strict false (served 7 (fixed_device (done [6]))) (f, (tt, []))
     = (Throw (RuntimeError RtFileState), (f, (tt, [(state_request 200, done [6])]))).
Proof.
  cbv zeta. split; [unfold is_u32; lia|]. split; [split; [unfold is_u16; cbn; lia|discriminate]|].
  split; [apply done_wf; [repeat constructor; unfold is_u8; lia|cbn; lia]|].
  split; [apply done_wf; [repeat constructor; unfold is_u8; lia|cbn; lia]|]. split; vm_compute; reflexivity.
Qed.

Theorem C89_error : forall D h use8 handle (dev : device D) f d tr a d',
  is_u32 handle -> sendable use8 (fo_id f) -> dev d (state_request (fo_id f)) = (a, d') -> answer_wf a -> a_status a <> 0 ->
  exists e, file_sync h use8 (served handle dev) (f, (d, tr))
            = (Throw (RuntimeError e), (f, (d', tr ++ [(state_request (fo_id f), a)]))).
Proof. exact @sync_error. Qed.
Print Assumptions C89_error.

Theorem C89_no_reply : forall W h use8 (si : session_if W) f w e w',
  (forall p, si_exchange si p w = (Throw e, w')) -> file_sync h use8 si (f, w) = (Throw e, (f, w')).
Proof. exact @sync_fails. Qed.
Print Assumptions C89_no_reply.
Example C89_error_example :
  let f := mkFile 200 (FUpload 4 2 [1; 2] 1 9) [] in
  a_status (failed 5) <> 0 /\ answer_wf (failed 5)
  /\ file_sync strict false (served 7 (fixed_device (failed 5))) (f, (tt, []))
     = (Throw (RuntimeError RtRequestFailed), (f, (tt, [(state_request 200, failed 5)])))
  /\ file_sync strict false (mkSession 7 (fun _ (w : nat) => (Throw (SystemError 110), S w))) (f, 3%nat)
     = (Throw (SystemError 110), (f, 4%nat)).
Proof.
  cbv zeta. split; [discriminate|]. split; [unfold answer_wf; cbn; unfold is_u8, is_words, is_bytes; repeat match goal with |- _ /\ _ => split end; try lia; constructor|].
  split; vm_compute; reflexivity.
Qed.

(** Whatever has happened to the object and to the adapter before: after
    synchronising, an upload with a new handler delivers the file. (C73: without
    synchronising it does not.) *)
Theorem C89_again : forall h use8 handle id F T crc,
  is_u32 handle -> sendable use8 id -> is_bytes F -> zlen F < 2 ^ 32 -> 1 <= T <= 255 ->
  is_bytes crc -> List.length crc = 2%nat ->
  let si := served handle (uploader id F T crc) in
  forall f k tr hid, fo_id f = id ->
  exists f1 f2 f3 n trn w1 w2, file_sync h use8 si (f, (k, tr)) = (Ok tt, (f1, w1))
  /\ fo_state f1 = FLoaded
  /\ begin_upload h use8 si hid (f1, w1) = (Ok tt, (f2, w2)) /\ fo_calls f2 = fo_calls f
  /\ (forall m, (n <= m)%nat -> transfer_loop h use8 si m (f2, w2) = (Ok false, (f3, (Some n, trn))))
  /\ fo_calls f3 = fo_calls f ++ [mkCall hid 0 F]
  /\ List.length trn = (List.length tr + 2 + n)%nat /\ Z.of_nat n = pieces (zlen F) T.
Proof. exact again. Qed.
Print Assumptions C89_again.
(** after a complete upload: compare C73_refuted *)
Example C89_again_example :
  let si := served 1 (uploader 200 [1; 2; 3] 2 [170; 85]) in
  let s1 := snd (upload strict false si 9 5 (mkFile 200 FLoaded [], (None, []))) in
  fo_state (fst s1) = FUpload 3 2 [1; 2; 3] 1 9
  /\ fo_calls (fst (snd (upload strict false si 10 5 (snd (file_sync strict false si s1)))))
     = [mkCall 9 0 [1; 2; 3]; mkCall 10 0 [1; 2; 3]].
Proof. cbv zeta. split; vm_compute; reflexivity. Qed.

(** Any calls in any order, against an adapter that follows the protocol: none
    of them fails, every handler call is about a beginUpload that was made, the
    content is never anything but the file, and it is delivered at most once
    per beginUpload. *)
Theorem C89_any_order : forall h use8 handle id F T crc,
  is_u32 handle -> sendable use8 id -> is_bytes F -> zlen F < 2 ^ 32 -> 1 <= T <= 255 ->
  is_bytes crc -> List.length crc = 2%nat ->
  let si := served handle (uploader id F T crc) in
  forall l f k tr, fo_id f = id -> state_code (fo_state f) <> 5 ->
  exists os f' w' cs, fops_run h use8 si l (f, (k, tr)) = (os, (f', w'))
  /\ List.length os = List.length l /\ Forall (fun o => exists b, o = Ok b) os
  /\ fo_id f' = id /\ fo_calls f' = fo_calls f ++ cs
  /\ Forall (told F) cs
  /\ (List.length (filter succeeded cs) <= List.length (begins l))%nat
  /\ Forall (fun c => In (hc_handler c) (begins l)) cs.
Proof. exact any_history. Qed.
Print Assumptions C89_any_order.

(** A file of three bytes in pieces of two: an upload is given up after one
    transfer; the next one is completed and then driven too far. *)
Example C89_any_order_example :
  let si := served 1 (uploader 200 [1; 2; 3] 2 [170; 85]) in
  let r := fops_run strict false si
             [FoTransfer; FoBegin 9; FoTransfer; FoSync; FoBegin 10; FoBegin 11; FoTransfer; FoTransfer; FoTransfer; FoSync; FoTransfer]
             (mkFile 200 FLoaded [mkCall 3 16 []], (None, [])) in
  fst r = [Ok false; Ok false; Ok true; Ok false; Ok false; Ok false; Ok true; Ok false; Ok true; Ok false; Ok false]
  /\ fo_calls (fst (snd r)) = [mkCall 3 16 []; mkCall 10 0 [1; 2; 3]; mkCall 10 32 []].
Proof. cbv zeta. split; vm_compute; reflexivity. Qed.

(** Any session: an upload that is under way when the object is synchronised is
    forgotten. Its handler is not told, neither then nor by any later call,
    unless it is given to beginUpload again. *)
Theorem C89_abandoned : forall W h use8 (si : session_if W) l f w f1 w1 os f' w',
  file_sync h use8 si (f, w) = (Ok tt, (f1, w1)) -> fops_run h use8 si l (f1, w1) = (os, (f', w')) ->
  exists cs, fo_calls f' = fo_calls f ++ cs /\ Forall (fun c => In (hc_handler c) (begins l)) cs.
Proof. exact @abandoned. Qed.
Print Assumptions C89_abandoned.
Example C89_abandoned_example :
  let si := served 1 (uploader 200 [1; 2; 3] 2 [170; 85]) in
  let s0 := snd (fops_run strict false si [FoBegin 9; FoTransfer] (mkFile 200 FLoaded [], (None, []))) in
  fo_state (fst s0) = FUpload 3 2 [1; 2] 1 9
  /\ fst (file_sync strict false si s0) = Ok tt
  /\ fo_calls (fst (snd (fops_run strict false si [FoTransfer; FoBegin 10; FoTransfer; FoTransfer] (snd (file_sync strict false si s0)))))
     = [mkCall 10 0 [1; 2; 3]].
Proof. cbv zeta. repeat split; vm_compute; reflexivity. Qed.

(** As with the constructor (C51), a successful reply without the state byte is
    not rejected: the byte behind the empty vector decides. *)
Theorem C89_refuted : exists (dev : device unit) a, answer_wf a /\ a_status a = 0
  /\ dev tt (state_request 200) = (a, tt)
  /\ fst (file_sync strict false (served 7 dev) (mkFile 200 FLoaded [], (tt, []))) = Undef UbOobRead
  /\ (forall b : bool, exists h, fst (snd (file_sync h false (served 7 dev) (mkFile 200 (FUpload 4 2 [1; 2] 1 9) [], (tt, []))))
        = mkFile 200 (if b then FNonExistent else FLoaded) []).
Proof.
  exists (fixed_device (done [])), (done []). split; [apply done_wf; [constructor|vm_compute; discriminate]|].
  split; [reflexivity|]. split; [reflexivity|]. split; [vm_compute; reflexivity|].
  intros b. exists (fun _ _ => Some (if b then 0 else 2)). destruct b; vm_compute; reflexivity.
Qed.
Print Assumptions C89_refuted.
