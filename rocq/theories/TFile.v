(** Properties of the file object client: C51 - C55, C73. *)
From Verif Require Import Base MBuffer SBuffer PBase PBuffer MEip SEip SObj PObj MFile SFile PFile PFile2.

(** ** C51 state synchronisation *)

(** A reply with a state: one request was made, and the object is in the
    matching state or an exception is thrown. *)
Theorem C51_state : forall D h use8 handle (dev : device D) id d tr a d' code rest,
  is_u32 handle -> sendable use8 id -> dev d (state_request id) = (a, d') -> answer_wf a ->
  a_status a = 0 -> a_data a = code :: rest ->
  exists r, file_open h use8 (served handle dev) id (d, tr) = (r, (d', tr ++ [(state_request id, a)]))
  /\ match client_state code with
     | Some s => exists f, r = Ok f /\ state_code (fo_state f) = s /\ fo_id f = id /\ fo_calls f = []
     | None => exists e, r = Throw (RuntimeError e)
     end.
Proof. exact @file_open_state. Qed.
Print Assumptions C51_state.

Definition state_device (a : answer) : device unit := fun _ _ => (a, tt).
Example C51_example :
  fst (file_open strict false (served 7 (state_device (done [3]))) 200 (tt, [])) = Ok (mkFile 200 FLoaded [])
  /\ fst (file_open strict true (served 7 (state_device (done [4]))) 200 (tt, [])) = Throw (RuntimeError RtFileState).
Proof. split; vm_compute; reflexivity. Qed.

Theorem C51_error : forall D h use8 handle (dev : device D) id d tr a d',
  is_u32 handle -> sendable use8 id -> dev d (state_request id) = (a, d') -> answer_wf a -> a_status a <> 0 ->
  exists e, file_open h use8 (served handle dev) id (d, tr)
            = (Throw (RuntimeError e), (d', tr ++ [(state_request id, a)])).
Proof. exact @file_open_error. Qed.
Print Assumptions C51_error.
Example C51_error_hypotheses : is_u32 7 /\ sendable false 200 /\ state_device (failed 5) tt (state_request 200) = (failed 5, tt)
  /\ answer_wf (failed 5) /\ a_status (failed 5) <> 0.
Proof.
  split; [unfold is_u32; lia|]. split; [split; [unfold is_u16; lia|discriminate]|]. split; [reflexivity|].
  split; [|discriminate]. unfold answer_wf; cbn; unfold is_u8, is_words, is_bytes; repeat match goal with |- _ /\ _ => split end; try lia; constructor.
Qed.

Theorem C51_no_reply : forall W h use8 (si : session_if W) id w e w',
  (forall p, si_exchange si p w = (Throw e, w')) -> file_open h use8 si id w = (Throw e, w').
Proof. exact @file_open_fails. Qed.
Print Assumptions C51_no_reply.

Example C51_error_example :
  fst (file_open strict false (served 7 (state_device (failed 5))) 200 (tt, [])) = Throw (RuntimeError RtRequestFailed)
  /\ file_open strict false (mkSession 7 (fun _ (w : nat) => (Throw (SystemError 110), S w))) 200 3%nat
     = (Throw (SystemError 110), 4%nat).
Proof. split; vm_compute; reflexivity. Qed.

(** A successful reply without the state byte is neither rejected nor does it
    name a state: the code reads the byte behind the empty vector. *)
Theorem C51_refuted : exists (dev : device unit) a, answer_wf a /\ a_status a = 0
  /\ dev tt (state_request 200) = (a, tt)
  /\ fst (file_open strict false (served 7 dev) 200 (tt, [])) = Undef UbOobRead.
Proof. exists (state_device (done [])), (done []). split; [apply done_wf; [constructor|vm_compute; discriminate]|]. repeat split; vm_compute; reflexivity. Qed.
Print Assumptions C51_refuted.

(** ** C52 complete upload *)

(** For every file [F] and piece size [T]: opening the object, beginUpload and
    calling handleTransfers until it returns false takes [pieces] transfers
    and calls the handler once, with SUCCESS and [F]. *)
Theorem C52_upload : forall h use8 handle id F T crc hid,
  is_u32 handle -> sendable use8 id -> is_bytes F -> zlen F < 2 ^ 32 -> 1 <= T <= 255 ->
  is_bytes crc -> List.length crc = 2%nat -> forall tr,
  let si := served handle (uploader id F T crc) in
  exists f0 f1 f2 n trn w0 w1, file_open h use8 si id (None, tr) = (Ok f0, w0)
  /\ begin_upload h use8 si hid (f0, w0) = (Ok tt, (f1, w1)) /\ fo_calls f1 = []
  /\ (forall m, (n <= m)%nat -> transfer_loop h use8 si m (f1, w1) = (Ok false, (f2, (Some n, trn))))
  /\ fo_calls f2 = [mkCall hid 0 F]
  /\ List.length trn = (List.length tr + 2 + n)%nat /\ Z.of_nat n = pieces (zlen F) T.
Proof. exact upload_complete. Qed.
Print Assumptions C52_upload.

(** five bytes in pieces of two; an empty file; a file that is longer than 256
    pieces, so that the transfer numbers wrap *)
Definition upload_demo (F : bytes) (T : Z) (n : nat) : outcome bool * list hcall :=
  let si := served 1 (uploader 200 F T [170; 85]) in
  match file_open strict false si 200 (None, []) with
  | (Ok f, w) => let '(o, (f', _)) := upload strict false si 9 n (f, w) in (o, fo_calls f')
  | (Throw e, _) => (Throw e, [])
  | (Undef u, _) => (Undef u, [])
  | (Abort, _) => (Abort, [])
  end.
Example C52_example :
  upload_demo [1; 2; 3; 4; 5] 2 3 = (Ok false, [mkCall 9 0 [1; 2; 3; 4; 5]])
  /\ upload_demo [] 255 1 = (Ok false, [mkCall 9 0 []])
  /\ upload_demo (repeat 7 300) 1 300 = (Ok false, [mkCall 9 0 (repeat 7 300)])
  /\ upload_demo [1; 2; 3; 4; 5] 2 2 = (Ok true, []).
Proof. repeat split; vm_compute; reflexivity. Qed.

(** ** C53 errors *)

(** Every upload, against any device and for any number of transfers, in an
    execution without out-of-bounds reads: the handler is called exactly as the
    answers of the device say. When the loop ends by an exception, the last
    answer had no effect. *)
Theorem C53_reported : forall D use8 handle (dev : device D) f hid d tr a d1 size T more n,
  is_u32 handle -> sendable use8 (fo_id f) -> device_wf dev ->
  fo_state f = FLoaded ->
  dev d (initiate_request (fo_id f)) = (a, d1) -> a_status a = 0 ->
  is_u32 size -> a_data a = le 4 size ++ T :: more ->
  exists o f' d' ts, upload strict use8 (served handle dev) hid n (f, (d, tr))
                     = (o, (f', (d', tr ++ (initiate_request (fo_id f), a) :: ts)))
  /\ Forall (fun e => exists m, fst e = transfer_request (fo_id f) m) ts
  /\ match o with
     | Ok true => exists k content calls, uploading size T (map snd ts) k content calls
                    /\ fo_calls f' = fo_calls f ++ map (fun '(s, c) => mkCall hid s c) calls
     | Ok false => exists calls, uploaded size T (map snd ts) calls
                    /\ fo_calls f' = fo_calls f ++ map (fun '(s, c) => mkCall hid s c) calls
     | _ => exists l0 b k content calls, map snd ts = l0 ++ [b]
              /\ uploading size T l0 k content calls
              /\ fo_calls f' = fo_calls f ++ map (fun '(s, c) => mkCall hid s c) calls
     end.
Proof. exact @upload_any. Qed.
Print Assumptions C53_reported.
(** The hypotheses: an announced size of 4 in pieces of 2; then one transfer
    refused, one accepted. *)
Example C53_reported_example :
  let a := done (le 4 4 ++ [2]) in
  is_u32 1 /\ sendable false 200 /\ a_status a = 0 /\ is_u32 4 /\ a_data a = le 4 4 ++ 2 :: []
  /\ (exists d', scripted [a; failed 16; done [1; 2; 4; 5; 6; 170; 85]] (initiate_request 200) = (a, d'))
  /\ fst (snd (upload strict false (served 1 scripted) 9 2
        (mkFile 200 FLoaded [], ([a; failed 16; done [0; 0; 4; 5]], []))))
     = mkFile 200 (FUpload 4 2 [4; 5] 1 9) [mkCall 9 16 []].
Proof.
  cbv zeta. split; [unfold is_u32; lia|]. split; [split; [unfold is_u16; lia|discriminate]|]. split; [reflexivity|].
  split; [unfold is_u32; lia|]. split; [reflexivity|]. split; [eexists; reflexivity|vm_compute; reflexivity].
Qed.

(** Whatever the handler is told in an upload, whatever calls were made before: SUCCESS comes with content of the announced
    size, put together from the pieces of the successful answers; anything else
    is an error code with empty content. *)
Theorem C53_told : forall D use8 handle (dev : device D) f hid d tr a d1 size T more n o f' d' tr' cs c,
  is_u32 handle -> sendable use8 (fo_id f) -> device_wf dev ->
  fo_state f = FLoaded ->
  dev d (initiate_request (fo_id f)) = (a, d1) -> a_status a = 0 ->
  is_u32 size -> a_data a = le 4 size ++ T :: more ->
  upload strict use8 (served handle dev) hid n (f, (d, tr)) = (o, (f', (d', tr'))) ->
  fo_calls f' = fo_calls f ++ cs -> In c cs ->
  hc_handler c = hid /\
  ((hc_status c <> 0 /\ hc_content c = []) \/
  (hc_status c = 0 /\ zlen (hc_content c) = size /\ exists ps ts, hc_content c = concat ps /\ tr' = tr ++ (initiate_request (fo_id f), a) :: ts
   /\ Forall2 (fun p b => exists n ty rest, a_data b = n :: ty :: p ++ rest) ps
              (filter (fun b => a_status b =? 0) (map snd ts)))).
Proof. exact @upload_told. Qed.
Print Assumptions C53_told.

Theorem C53_refused : forall D h use8 handle (dev : device D) f hid d tr a d1 n,
  is_u32 handle -> sendable use8 (fo_id f) -> device_wf dev -> fo_state f = FLoaded ->
  dev d (initiate_request (fo_id f)) = (a, d1) -> a_status a <> 0 ->
  upload h use8 (served handle dev) hid (S n) (f, (d, tr))
  = (Ok false, (mkFile (fo_id f) FLoaded (fo_calls f ++ [mkCall hid (a_status a) []]),
                (d1, tr ++ [(initiate_request (fo_id f), a)]))).
Proof. exact @upload_refused. Qed.
Print Assumptions C53_refused.
Example C53_refused_example : a_status (failed 16) <> 0
  /\ upload strict false (served 1 (state_device (failed 16))) 9 3 (mkFile 200 FLoaded [], (tt, []))
     = (Ok false, (mkFile 200 FLoaded [mkCall 9 16 []], (tt, [(initiate_request 200, failed 16)]))).
Proof. split; [discriminate|vm_compute; reflexivity]. Qed.

(** a wrong number, a wrong size, an error status, a missing piece *)
Definition script_demo (h : heap) (l : list answer) (n : nat) : outcome bool * list hcall :=
  let '(o, (f', _)) := upload h false (served 1 scripted) 9 n (mkFile 200 FLoaded [], (l, [])) in (o, fo_calls f').
Definition announce (size T : Z) : answer := done (le 4 size ++ [T]).
Example C53_example :
  script_demo strict [announce 5 2; done [0; 0; 1; 2]; done [2; 1; 3; 4]] 5 = (Ok false, [mkCall 9 32 []])
  /\ script_demo strict [announce 5 2; done [0; 0; 1; 2]; done [1; 2; 5; 170; 85]] 5 = (Ok false, [mkCall 9 32 []])
  /\ script_demo strict [announce 4 2; done [0; 0; 1; 2]; failed 16; done [1; 2; 4; 5; 170; 85]] 5
     = (Ok false, [mkCall 9 16 []; mkCall 9 0 [1; 2; 4; 5]])
  /\ script_demo strict [failed 16] 5 = (Ok false, [mkCall 9 16 []])
  /\ script_demo strict [announce 5 2; done [0; 3]] 5 = (Throw (RuntimeError RtFileTransferStatus), [])
  /\ script_demo strict [announce 5 2; done [0; 2; 1]] 5 = (Throw LengthError, []).
Proof. repeat split; vm_compute; reflexivity. Qed.

(** A FIRST packet shorter than the transfer size is filled up with whatever
    lies behind the reply, and the handler is told SUCCESS about it. *)
Theorem C53_refuted : exists (h : heap) l, Forall answer_wf l
  /\ script_demo strict l 5 = (Undef UbOobRead, [])
  /\ script_demo h l 5 = (Ok false, [mkCall 9 0 [1; 2; 222; 222; 222; 3]])
  /\ Forall (fun a => ~ In 222 (a_data a)) l.
Proof.
  exists (fun _ _ => Some 222), [announce 6 5; done [0; 0; 1; 2]; done [1; 2; 3; 170; 85]].
  split; [|split; [vm_compute; reflexivity|split; [vm_compute; reflexivity|]]].
  - repeat constructor; cbn; unfold is_u8; try lia; vm_compute; discriminate.
  - repeat constructor; cbn; intuition lia.
Qed.
Print Assumptions C53_refuted.

(** ** C54 the handler is called at most once *)

(** Strongest true part: in an upload, the handler is called once for each
    answer with an error status, and once more when the upload ends. So
    it is called at most once if no transfer is refused. *)
Theorem C54_calls_partial : forall D use8 handle (dev : device D) f hid d tr a d1 size T more n o f' d' tr',
  is_u32 handle -> sendable use8 (fo_id f) -> device_wf dev ->
  fo_state f = FLoaded ->
  dev d (initiate_request (fo_id f)) = (a, d1) -> a_status a = 0 ->
  is_u32 size -> a_data a = le 4 size ++ T :: more ->
  upload strict use8 (served handle dev) hid n (f, (d, tr)) = (o, (f', (d', tr'))) ->
  exists ts, tr' = tr ++ (initiate_request (fo_id f), a) :: ts
  /\ (o = Ok false -> List.length (fo_calls f') = (List.length (fo_calls f) + S (errors (map snd ts)))%nat)
  /\ (o = Ok true -> List.length (fo_calls f') = (List.length (fo_calls f) + errors (map snd ts))%nat)
  /\ (List.length (fo_calls f') <= List.length (fo_calls f) + S (errors (map snd ts)))%nat.
Proof. exact @upload_count. Qed.
Print Assumptions C54_calls_partial.

Example C54_example :
  script_demo strict [announce 4 2; done [0; 0; 1; 2]; done [1; 2; 4; 5; 170; 85]] 9 = (Ok false, [mkCall 9 0 [1; 2; 4; 5]]).
Proof. vm_compute; reflexivity. Qed.

(** A device that has gone into an error state: the handler is called once per
    transfer and the loop never ends by itself. *)
Theorem C54_refuted : exists (dev : device (list answer)) d, device_wf dev /\
  forall n, exists f' w, upload strict false (served 1 dev) 9 n (mkFile 200 FLoaded [], (d, [])) = (Ok true, (f', w))
  /\ fo_calls f' = repeat (mkCall 9 16 []) n /\ List.length (snd w) = S n.
Proof. exact failing_device. Qed.
Print Assumptions C54_refuted.

(** ** C55 other states *)
Theorem C55_transfers : forall W h use8 (si : session_if W) f w, state_code (fo_state f) <> 5 ->
  handle_transfers h use8 si (f, w) = (Ok false, (f, w)).
Proof. exact @transfers_idle. Qed.
Print Assumptions C55_transfers.
Example C55_transfers_example : state_code (fo_state (mkFile 200 FLoaded [])) <> 5
  /\ handle_transfers strict false (served 7 (state_device (done [1]))) (mkFile 200 FLoaded [], (tt, []))
     = (Ok false, (mkFile 200 FLoaded [], (tt, []))).
Proof. split; [discriminate|reflexivity]. Qed.

Theorem C55_begin : forall W h use8 (si : session_if W) hid f w, state_code (fo_state f) <> 2 ->
  begin_upload h use8 si hid (f, w) = (Ok tt, (f, w)).
Proof. exact @begin_idle. Qed.
Print Assumptions C55_begin.

Example C55_example :
  match file_open strict false (served 7 (state_device (done [1]))) 200 (tt, []) with
  | (Ok f, w) => state_code (fo_state f) <> 5 /\ state_code (fo_state f) <> 2
  | _ => False
  end.
Proof. vm_compute. split; discriminate. Qed.

(** ** C73 another upload *)

(** After an upload has begun, however it ended, beginUpload does nothing: no
    request, and the new handler is never called by it. *)
Theorem C73_ignored_partial : forall D use8 handle (dev : device D) f hid d tr a d1 size T more n o f' w hid2,
  is_u32 handle -> sendable use8 (fo_id f) -> device_wf dev ->
  fo_state f = FLoaded ->
  dev d (initiate_request (fo_id f)) = (a, d1) -> a_status a = 0 ->
  is_u32 size -> a_data a = le 4 size ++ T :: more ->
  upload strict use8 (served handle dev) hid n (f, (d, tr)) = (o, (f', w)) ->
  begin_upload strict use8 (served handle dev) hid2 (f', w) = (Ok tt, (f', w)).
Proof. exact @upload_again. Qed.
Print Assumptions C73_ignored_partial.
Example C73_ignored_example :
  let si := served 1 (uploader 200 [1; 2; 3] 2 [170; 85]) in
  let r := upload strict false si 9 5 (mkFile 200 FLoaded [], (None, [])) in
  fst r = Ok false /\ begin_upload strict false si 10 (snd r) = (Ok tt, snd r)
  /\ fo_calls (fst (snd r)) = [mkCall 9 0 [1; 2; 3]].
Proof. split; [|split]; vm_compute; reflexivity. Qed.

(** A refused one can be repeated. *)
Theorem C73_after_refusal : forall D h use8 handle (dev : device D) f hid hid2 d tr a d1 n,
  is_u32 handle -> sendable use8 (fo_id f) -> device_wf dev -> fo_state f = FLoaded ->
  dev d (initiate_request (fo_id f)) = (a, d1) -> a_status a <> 0 ->
  exists f' w, upload h use8 (served handle dev) hid (S n) (f, (d, tr)) = (Ok false, (f', w))
  /\ fo_state f' = FLoaded
  /\ exists q b, snd (snd (snd (begin_upload h use8 (served handle dev) hid2 (f', w))))
               = snd w ++ [(q, b)] /\ q = initiate_request (fo_id f).
Proof. exact @upload_after_refusal. Qed.
Print Assumptions C73_after_refusal.
Example C73_after_refusal_example :
  let si := served 1 (state_device (failed 16)) in
  let r := upload strict false si 9 3 (mkFile 200 FLoaded [], (tt, [])) in
  fst r = Ok false /\ fo_calls (fst (snd (begin_upload strict false si 10 (snd r)))) = [mkCall 9 16 []; mkCall 10 16 []].
Proof. split; vm_compute; reflexivity. Qed.

(** Uploading the same file a second time with the same object: the second
    handler is never called. *)
Theorem C73_refuted : exists F T, is_bytes F /\ 1 <= T <= 255 /\
  let si := served 1 (uploader 200 F T [170; 85]) in
  exists f1 w1, upload strict false si 9 5 (mkFile 200 FLoaded [], (None, [])) = (Ok false, (f1, w1))
  /\ fo_calls f1 = [mkCall 9 0 F]
  /\ forall n, exists o f2 w2, upload strict false si 10 n (f1, w1) = (o, (f2, w2))
     /\ forall c, In c (fo_calls f2) -> hc_handler c = 9%nat.
Proof. exact second_upload. Qed.
Print Assumptions C73_refuted.
