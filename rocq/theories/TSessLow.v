(** Requests over a real session when there is not enough memory: C121. *)
From Verif Require Import Base MBuffer SBuffer PBase MEip SEip SObj MSocket SSocket PSocket MConnReq SConnReq MConn PConnTop MMem SMem PMem PHost
  MLow SLow PLow MFileLow SFileLow SSessLow PSessLow.

(** Requests over a TCP session, as the theorems C116, C117 and C119 ask for them: a request that ends,
    ends as if there were memory, and leaves the network so; with enough memory it does end. *)
Theorem C121_session : forall info warning h p handle use8,
  asks_as h use8 (live_session h p handle) (fun service path data => m_request info warning h p handle use8 service path data [])
  /\ runs_as h use8 (live_session h p handle) (fun service data => m_request info warning h p handle use8 service CM_PATH data []).
Proof. intros. split; [apply live_asks|apply live_runs]. Qed.
Print Assumptions C121_session.
(** Where every reply has been read, a request that ends has the reply to itself, and every reply has been
    read again. *)
Theorem C121_next : forall info warning h p reply handle use8 service path data extra fs fs' w w' o, answering p reply -> n_results w = [] -> unread w [] ->
  m_request info warning h p handle use8 service path data extra (fs, w) = (Done o, (fs', w')) -> o <> Abort ->
  let q := request_packet handle use8 service path data extra in
  o = taken h handle (reply (n_sent w) (encaps_pack q)) /\ unread w' [] /\ sent_now w w' q.
Proof. exact request_next. Qed.
Print Assumptions C121_next.
(** Where a reply has been left unread, a request that ends has that one, and leaves its own unread. So does
    the one after it, and so on. *)
Theorem C121_late : forall info warning h p reply handle use8 service path data extra fs fs' w w' o r0, answering p reply -> n_results w = [] -> well_formed r0 ->
  unread w (encaps_pack r0) ->
  m_request info warning h p handle use8 service path data extra (fs, w) = (Done o, (fs', w')) -> o <> Abort ->
  let q := request_packet handle use8 service path data extra in
  o = taken h handle r0 /\ unread w' (encaps_pack (reply (n_sent w) (encaps_pack q))) /\ sent_now w w' q.
Proof. exact request_late. Qed.
Print Assumptions C121_late.

(** A device whose answers say how many packets came before: to a Forward_Open with an id made of the number
    and the client's id and serial number,
    to everything else with the number. *)
Definition counts (log : list bytes) (data : bytes) : encaps :=
  let n := Z.of_nat (List.length log) mod 16 in
  reply_packet 1 84 (mkAns 0 [] (if Nat.ltb 70 (List.length data)
    then fo_reply_bytes (mkFoResp (100 + n) (0x10001 + n) (1 + n) 342 0x12345678 10000 10000 0 []) 0 [] else [n])).
Definition counter : peer := fun log data => [Data (encaps_pack (counts log data))].
Definition live : Z -> bytes -> low net response := fun service data => m_request false true strict counter 1 false service CM_PATH data [].
Definition opening (x : list bool * (globals * mgr * net)) := l_open false true strict live (env_ok 0) "10.0.0.1" false (class1 1 0) x.
Definition try1 := opening ([false; false; false; false; true], (globals0, mgr0 1, mkNet [] [] [])).
Definition try2 := opening ([], snd (snd try1)).
Definition net_of (x : mres (option nat) * (list bool * (globals * mgr * net))) : net := snd (snd (snd x)).
Definition mgr_of (x : mres (option nat) * (list bool * (globals * mgr * net))) : mgr := snd (fst (snd (snd x))).
Definition body (n : Z) : bytes := [0; 0; 0; 0; 0; 0; n; 0; 1; 0; n; 0; 86; 1; 120; 86; 52; 18; 0; 0; 0; 0; 16; 39; 0; 0; 6; 66; 16; 39; 0; 0; 6; 66; 1; 4;
  32; 4; 36; 151; 44; 150; 44; 100].
Lemma counter_answers : answering counter counts.
Proof.
  intros log data. unfold counter. cbn [stream ending_of]. rewrite app_nil_r. split; [|now split].
  unfold counts. apply reply_packet_wf; [unfold is_u32; lia|lia|].
  assert (L : 0 <= Z.of_nat (List.length log) mod 16 < 16) by (apply Z.mod_pos_bound; lia).
  unfold answer_wf, is_u8. cbn [a_status a_addl a_data]. split; [lia|]. split; [constructor|]. split; [reflexivity|].
  destruct (Nat.ltb _ _).
  - unfold fo_reply_bytes. cbn [f_o2tId f_t2oId f_serial f_vendor f_origSerial f_o2tApi f_t2oApi f_replySize f_reply].
    split; [|unfold zlen; rewrite !app_length, !le_length; cbn; lia].
    repeat (apply is_bytes_app; split); try apply le_bytes; repeat constructor; unfold is_u8; lia.
  - split; [repeat constructor; unfold is_u8; lia|cbn; lia].
Qed.
(** A Forward_Open ends for want of memory before its reply is read. The next one has the reply to the first: the manager
    has the connection that the target opened first, with the ids 100 and 0x10001. The ids of the second, 101 and
    0x10002, are in the reply that has not been read. *)
Theorem C121_open_refuted : exists p reply fs g1 m1 w1 f1 g2 m2 w2 f2, answering p reply
  /\ (let req service data := m_request false true strict p 1 false service CM_PATH data [] in
      l_open false true strict req (env_ok 0) "10.0.0.1" false (class1 1 0) (fs, (globals0, mgr0 1, mkNet [] [] [])) = (NoMemory, (f1, (g1, m1, w1)))
      /\ l_open false true strict req (env_ok 0) "10.0.0.1" false (class1 1 0) ([], (g1, m1, w1)) = (Done (Ok (Some 0%nat)), (f2, (g2, m2, w2))))
  /\ m_map m1 = [] /\ map (fun e => (fst e, io_o2tId (snd e))) (m_map m2) = [(1, 100)]
  /\ exists q1 q2, n_sent w2 = [encaps_pack q1; encaps_pack q2]
     /\ (exists r, taken strict 1 (reply [] (encaps_pack q1)) = Ok r /\ firstn 8 (r_data r) = [100; 0; 0; 0; 1; 0; 1; 0])
     /\ (exists r, taken strict 1 (reply [encaps_pack q1] (encaps_pack q2)) = Ok r /\ firstn 8 (r_data r) = [101; 0; 0; 0; 2; 0; 1; 0])
     /\ unread w2 (encaps_pack (reply [encaps_pack q1] (encaps_pack q2))).
Proof.
  exists counter, counts, [false; false; false; false; true].
  exists (fst (fst (snd (snd try1)))), (mgr_of try1), (net_of try1), (fst (snd try1)), (fst (fst (snd (snd try2)))), (mgr_of try2), (net_of try2), (fst (snd try2)).
  split; [exact counter_answers|]. split; [split; vm_compute; reflexivity|]. split; [vm_compute; reflexivity|]. split; [vm_compute; reflexivity|].
  exists (request_packet 1 false 84 CM_PATH (body 1) []), (request_packet 1 false 84 CM_PATH (body 2) []).
  split; [vm_compute; reflexivity|]. split; [eexists; split; vm_compute; reflexivity|]. split; [eexists; split; vm_compute; reflexivity|].
  split; vm_compute; reflexivity.
Qed.
Print Assumptions C121_open_refuted.
(** An attribute is read without memory for the reply; another one that is read then has the value of the first. *)
Definition reading (attribute : Z) (x : list bool * net) := m_request false true strict counter 1 false 14 (epath3 1 1 attribute) [] [] x.
Definition read1 := reading 1 ([false; false; false; true], mkNet [] [] []).
Theorem C121_value_refuted : exists p reply fs w1 f1 f2 w2 r, answering p reply
  /\ m_request false true strict p 1 false 14 (epath3 1 1 1) [] [] (fs, mkNet [] [] []) = (NoMemory, (f1, w1))
  /\ m_request false true strict p 1 false 14 (epath3 1 1 2) [] [] ([], w1) = (Done (Ok r), (f2, w2))
  /\ Ok r = taken strict 1 (reply [] (encaps_pack (request_packet 1 false 14 (epath3 1 1 1) [] [])))
  /\ Ok r <> taken strict 1 (reply (n_sent w1) (encaps_pack (request_packet 1 false 14 (epath3 1 1 2) [] []))).
Proof.
  exists counter, counts, [false; false; false; true], (snd (snd read1)), (fst (snd read1)). do 3 eexists.
  split; [exact counter_answers|]. split; [vm_compute; reflexivity|]. split; [vm_compute; reflexivity|]. split; [vm_compute; reflexivity|].
  intros E. vm_compute in E. discriminate.
Qed.
Print Assumptions C121_value_refuted.

(** Hypotheses: the session at its start; after a request whose reply was not read. *)
Example C121_next_case : answering counter counts /\ n_results (mkNet [] [] []) = [] /\ unread (mkNet [] [] []) []
  /\ exists r x, reading 1 ([false; false], mkNet [] [] []) = (Done (Ok r), x) /\ r_data r = [0].
Proof. split; [exact counter_answers|]. split; [reflexivity|]. split; [split; reflexivity|]. do 2 eexists. split; vm_compute; reflexivity. Qed.
Example C121_late_case : n_results (snd (snd read1)) = [] /\ well_formed (counts [] [])
  /\ unread (snd (snd read1)) (encaps_pack (counts [] []))
  /\ exists r x, reading 2 ([], snd (snd read1)) = (Done (Ok r), x) /\ r_data r = [0].
Proof.
  split; [vm_compute; reflexivity|]. split; [apply (counter_answers [] [])|]. split; [split; vm_compute; reflexivity|].
  do 2 eexists. split; vm_compute; reflexivity.
Qed.
