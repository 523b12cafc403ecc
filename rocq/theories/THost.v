(** Property C76: clients of a device behind a TCP connection. *)
From Verif Require Import Base MBuffer SBuffer MEip SEip SObj PObj MSocket SSocket MFile SFile MIdent MParam MFault
  SHost PFile PHost.

(** One request: any service below 128 on any path of up to three segments. *)
Theorem C76_request : forall D (p : peer) handle (dev : device D) d h use8 service i data w,
  hosts p handle dev d -> device_wf dev -> is_u32 handle -> idle w ->
  i <> Ids0 -> 0 <= service < 128 -> ids_wf i -> (use8 = true -> ids_small i) ->
  is_bytes data -> zlen data <= 60000 ->
  same_run handle dev d (send_request h (live_session h p handle) use8 service (build i) data [])
    (send_request h (served handle dev) use8 service (build i) data []) w.
Proof.
  intros D p handle dev d h use8 service i data w HP HD HH I N S W1 W2 B L.
  exact (like_request p handle dev d HP HD HH h use8 service i data N S (conj W1 W2) B L w I).
Qed.
Print Assumptions C76_request.
Definition fixed_device (a : answer) : device unit := fun _ _ => (a, tt).
Lemma fixed_wf a : answer_wf a -> device_wf (fixed_device a).
Proof. intros W d q. exact W. Qed.
(** A device that gives the same answer to everything, over a connection that
    delivers one byte at a time. *)
Definition live_demo (a : answer) : session_if net :=
  live_session strict (host_peer bytewise 7 (fixed_device a) tt) 7.
Example C76_request_example :
  let dev := fixed_device (done [5; 6]) in
  hosts (host_peer bytewise 7 dev tt) 7 dev tt /\ device_wf dev /\ is_u32 7 /\ idle (mkNet [] [] [])
  /\ fst (send_request strict (live_demo (done [5; 6])) false 14 (build (Ids3 1 1 1)) [] [] (mkNet [] [] []))
     = Ok (mkResp 142 0 [] [5; 6] []).
Proof.
  cbv zeta. split; [apply (host_peer_hosts bytewise 7 _ tt bytewise_ok)|].
  split; [apply fixed_wf, done_wf; [repeat (apply Forall_cons; [unfold is_u8; lia|]); constructor|vm_compute; discriminate]|].
  split; [unfold is_u32; lia|]. split; [split; [reflexivity|split; reflexivity]|]. vm_compute. reflexivity.
Qed.

(** The object clients *)
Theorem C76_identity : forall D (p : peer) handle (dev : device D) d h use8 n w,
  hosts p handle dev d -> device_wf dev -> is_u32 handle -> idle w ->
  same_run handle dev d (identity_read h use8 (live_session h p handle) n) (identity_read h use8 (served handle dev) n) w.
Proof. intros D p handle dev d h use8 n w HP HD HH. exact (like_identity p handle dev d HP HD HH h use8 n w). Qed.
Print Assumptions C76_identity.
Example C76_identity_example : exists o,
  fst (identity_read strict false (live_demo (done (le 2 1 ++ le 2 2 ++ le 2 3 ++ [4; 5] ++ le 2 6 ++ le 4 7 ++ [2; 72; 105]))) 1 (mkNet [] [] []))
  = Ok o /\ id_vendor o = 1 /\ id_serial o = 7.
Proof. eexists. split; [vm_compute; reflexivity|split; reflexivity]. Qed.

Theorem C76_parameter : forall D (p : peer) handle (dev : device D) d h use8 id full w,
  hosts p handle dev d -> device_wf dev -> is_u32 handle -> sendable use8 id -> idle w ->
  same_run handle dev d (param_read h use8 (live_session h p handle) id full) (param_read h use8 (served handle dev) id full) w.
Proof. intros D p handle dev d h use8 id full w HP HD HH S. exact (like_param p handle dev d HP HD HH h use8 id full S w). Qed.
Print Assumptions C76_parameter.
Example C76_parameter_example :
  fst (param_read strict false (live_demo (failed 5)) 3 true (mkNet [] [] [])) = Throw (RuntimeError RtRequestFailed).
Proof. vm_compute. reflexivity. Qed.

Theorem C76_value : forall D (p : peer) handle (dev : device D) d h use8 x w,
  hosts p handle dev d -> device_wf dev -> is_u32 handle -> sendable use8 (pa_id x) -> idle w ->
  same_run_with handle dev d (update_value h use8 (live_session h p handle)) (update_value h use8 (served handle dev)) x w.
Proof. intros D p handle dev d h use8 x w HP HD HH. exact (like_update p handle dev d HP HD HH h use8 x w). Qed.
Print Assumptions C76_value.
Example C76_value_example :
  let x := mkParam 3 false false false 0 [0] 0 [] [] [] [0] [0] [0] 1 1 1 0 0 true in
  sendable false (pa_id x)
  /\ pa_value (fst (snd (update_value strict false (live_demo (done [77])) (x, mkNet [] [] [])))) = [77].
Proof. split; [split; [cbn; unfold is_u16; lia|discriminate]|vm_compute; reflexivity]. Qed.

Theorem C76_file : forall D (p : peer) handle (dev : device D) d h use8 id w,
  hosts p handle dev d -> device_wf dev -> is_u32 handle -> sendable use8 id -> idle w ->
  same_run handle dev d (file_open h use8 (live_session h p handle) id) (file_open h use8 (served handle dev) id) w.
Proof. intros D p handle dev d h use8 id w HP HD HH S. exact (like_file_open p handle dev d HP HD HH h use8 id S w). Qed.
Print Assumptions C76_file.
Example C76_file_example :
  fst (file_open strict false (live_demo (done [2])) 200 (mkNet [] [] [])) = Ok (mkFile 200 FLoaded []).
Proof. vm_compute. reflexivity. Qed.

Theorem C76_upload : forall D (p : peer) handle (dev : device D) d h use8 hid n f w,
  hosts p handle dev d -> device_wf dev -> is_u32 handle -> file_ok use8 f -> idle w ->
  same_run_with handle dev d (upload h use8 (live_session h p handle) hid n) (upload h use8 (served handle dev) hid n) f w.
Proof.
  intros D p handle dev d h use8 hid n f w HP HD HH K I.
  exact (proj1 (like_upload p handle dev d HP HD HH h use8 hid n f w K I)).
Qed.
Print Assumptions C76_upload.
Example C76_upload_example : file_ok false (mkFile 200 FLoaded [])
  /\ fst (upload strict false (live_demo (failed 16)) 9 3 (mkFile 200 FLoaded [], mkNet [] [] [])) = Ok false.
Proof. split; [split; [split; [cbn; unfold is_u16; lia|discriminate]|exact I]|vm_compute; reflexivity]. Qed.

Theorem C76_transfer : forall D (p : peer) handle (dev : device D) d h use8 f w,
  hosts p handle dev d -> device_wf dev -> is_u32 handle -> file_ok use8 f -> idle w ->
  same_run_with handle dev d (handle_transfers h use8 (live_session h p handle)) (handle_transfers h use8 (served handle dev)) f w.
Proof.
  intros D p handle dev d h use8 f w HP HD HH K I.
  exact (proj1 (like_transfers p handle dev d HP HD HH h use8 f w K I)).
Qed.
Print Assumptions C76_transfer.
Example C76_transfer_example : file_ok false (mkFile 200 (FUpload 2 2 [] 0 9) [])
  /\ fst (snd (handle_transfers strict false (live_demo (done [0; 2; 5; 6; 170; 85])) (mkFile 200 (FUpload 2 2 [] 0 9) [], mkNet [] [] [])))
     = mkFile 200 (FUpload 2 2 [5; 6] 0 9) [mkCall 9 0 [5; 6]].
Proof. split; [split; [split; [cbn; unfold is_u16; lia|discriminate]|cbn; unfold is_u8; lia]|vm_compute; reflexivity]. Qed.

(** The fault clients; their parameter numbers need 16-bit segments. *)
Theorem C76_faults : forall D (p : peer) handle (dev : device D) d h clear want calls w,
  hosts p handle dev d -> device_wf dev -> is_u32 handle -> idle w ->
  same_run_with handle dev d (handle_faults h false (live_session h p handle) clear want)
    (handle_faults h false (served handle dev) clear want) calls w.
Proof.
  intros D p handle dev d h clear want calls w HP HD HH.
  exact (like_faults p handle dev d HP HD HH h clear want calls w).
Qed.
Print Assumptions C76_faults.
Example C76_faults_example :
  fst (handle_faults strict false (live_demo (done [0; 0])) true true ([], mkNet [] [] [])) = Ok tt.
Proof. vm_compute. reflexivity. Qed.

Theorem C76_fault_object : forall D (p : peer) handle (dev : device D) d h use8 id w,
  hosts p handle dev d -> device_wf dev -> is_u32 handle -> sendable use8 id -> idle w ->
  same_run handle dev d (fault_object_read h use8 (live_session h p handle) id) (fault_object_read h use8 (served handle dev) id) w.
Proof. intros D p handle dev d h use8 id w HP HD HH S. exact (like_fault_object p handle dev d HP HD HH h use8 id S w). Qed.
Print Assumptions C76_fault_object.
Example C76_fault_object_example : sendable false 2 /\ exists o,
  fst (fault_object_read strict false (live_demo (done (le 2 81 ++ [3; 4] ++ repeat 65 16 ++ le 8 9 ++ le 2 2))) 2 (mkNet [] [] [])) = Ok o
  /\ fo2_code o = 81 /\ fo2_real o = true.
Proof. split; [split; [unfold is_u16; lia|discriminate]|]. eexists. split; [vm_compute; reflexivity|split; reflexivity]. Qed.

(** From the first byte to the last: registering a session, opening the file
    object, uploading the file and closing the session. *)
Theorem C76_session : forall (p : peer) handle h use8 id F T crc hid,
  is_u32 handle -> sendable use8 id -> is_bytes F -> zlen F < 2 ^ 32 -> 1 <= T <= 255 ->
  is_bytes crc -> List.length crc = 2%nat ->
  registers p handle -> hosts p handle (uploader id F T crc) None ->
  exists w1 f0 w2 f2 w3 w4 n,
    session_register h p (mkNet [] [] []) = (Ok handle, w1)
    /\ file_open h use8 (live_session h p handle) id w1 = (Ok f0, w2)
    /\ (forall m, (n <= m)%nat -> upload h use8 (live_session h p handle) hid m (f0, w2) = (Ok false, (f2, w3)))
    /\ fo_calls f2 = [mkCall hid 0 F] /\ Z.of_nat n = pieces (zlen F) T
    /\ session_destroy p handle w3 = (Ok tt, w4).
Proof. exact upload_session. Qed.
Print Assumptions C76_session.
(** [C76_peers] and the example below it: a device with a file of five bytes. *)

(** Such peers exist, for every device and every way to cut the replies. *)
Theorem C76_peers : forall D split handle (dev : device D) d,
  (forall l, stream (split l) = l /\ ending_of (split l) = Silent) ->
  hosts (host_peer split handle dev d) handle dev d /\ registers (host_peer split handle dev d) handle.
Proof. exact @host_peer_hosts. Qed.
Print Assumptions C76_peers.
Example C76_example :
  let dev := uploader 200 [1; 2; 3; 4; 5] 2 [170; 85] in
  let p := host_peer bytewise 7 dev None in
  (hosts p 7 dev None /\ registers p 7 /\ device_wf dev /\ idle (mkNet [] [] []))
  /\ fst (st_bind (session_register strict p) (fun hd =>
         st_bind (file_open strict false (live_session strict p hd) 200) (fun f =>
         fun w => let '(o, (f', w')) := upload strict false (live_session strict p hd) 9 3 (f, w) in
                  (b <- o ;; Ok (b, fo_calls f'), w')))%outcome (mkNet [] [] []))
     = Ok (false, [mkCall 9 0 [1; 2; 3; 4; 5]]).
Proof.
  intros dev p. split.
  - destruct (host_peer_hosts bytewise 7 dev None bytewise_ok) as [A B].
    split; [exact A|]. split; [exact B|]. split; [|split; [reflexivity|split; reflexivity]].
    apply uploader_wf; try reflexivity; try lia; repeat (apply Forall_cons; [unfold is_u8; lia|]); constructor.
  - vm_compute. reflexivity.
Qed.
