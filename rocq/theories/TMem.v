(** Sessions when there is not enough memory: C112. *)
From Verif Require Import Base MBuffer SBuffer PBase MEip SEip MSocket SSocket PSocket MMem SMem PMem.

(** A device whose replies carry 1, 2, 2, ... *)
Definition numbered (log : list bytes) (_ : bytes) : encaps := mkEncaps CMD_SEND_RR_DATA 1 5 0 (zeros 8) 0 [if Nat.eqb (List.length log) 0 then 1 else 2].
Definition device : peer := fun log data => [Data (encaps_pack (numbered log data))].
Definition asking : encaps := rr_data_packet 5 0 [].
Definition fresh_net : net := mkNet [] [] [].
Lemma device_answers : answering device numbered.
Proof.
  intros log data. unfold device. cbn [stream ending_of]. rewrite app_nil_r. split; [|now split].
  unfold numbered, well_formed, encaps_wf, is_u16, is_u32. cbn [e_command e_length e_handle e_status e_context e_options e_data].
  destruct (Nat.eqb (List.length log) 0); repeat split; try (unfold CMD_SEND_RR_DATA; lia); repeat constructor; unfold is_u8; lia.
Qed.

(** With enough memory everything is as in the rest of the model. *)
Theorem C112_same : forall info warning h p handle fs w, plenty fs ->
  (forall q, exists fs', plenty fs' /\ m_exchange warning h p handle q (fs, w)
     = (Done (fst (send_and_receive h p handle q w)), (fs', snd (send_and_receive h p handle q w))))
  /\ (forall use8 service path data extra, let run := send_request h (live_session h p handle) use8 service path data extra w in
     exists fs', plenty fs' /\ m_request info warning h p handle use8 service path data extra (fs, w) = (Done (fst run), (fs', snd run)))
  /\ (exists fs', plenty fs' /\ m_register info warning h p (fs, w) = (Done (fst (session_register h p w)), (fs', snd (session_register h p w))))
  /\ (exists fs', plenty fs' /\ m_destroy info p handle (fs, w) = (Done (fst (session_destroy p handle w)), (fs', snd (session_destroy p handle w)))).
Proof.
  intros info warning h p handle fs w P. split; [|split; [|split]].
  - intros q. now apply agrees_exchange.
  - intros use8 service path data extra run. now apply agrees_request.
  - now apply agrees_register.
  - now apply agrees_destroy.
Qed.
Print Assumptions C112_same.
Example C112_same_example : plenty [false; false] /\ fst (m_exchange true strict device 5 asking ([false; false], fresh_net)) = Done (Ok (numbered [] [])).
Proof. split; [repeat constructor|]. vm_compute. reflexivity. Qed.

(** Where memory can run out in an exchange, and what is left unread then. *)
Theorem C112_where : forall warning h p reply handle q f0 f1 f2 f3 f4 fs w, answering p reply -> n_results w = [] -> unread w [] ->
  let r := reply (n_sent w) (encaps_pack q) in e_data r <> [] ->
  exists w1 w2 w3, (sent_now w w1 q /\ unread w1 (encaps_pack r)) /\ (sent_now w w2 q /\ unread w2 (e_data r)) /\ (sent_now w w3 q /\ unread w3 [])
    /\ m_exchange warning h p handle q (f0 :: f1 :: f2 :: f3 :: f4 :: fs, w)
       = (if f0 then (NoMemory, (f1 :: f2 :: f3 :: f4 :: fs, w))
          else if f1 then (NoMemory, (f2 :: f3 :: f4 :: fs, w1))
          else if f2 then (NoMemory, (f3 :: f4 :: fs, w2))
          else if f3 then (NoMemory, (f4 :: fs, w2))
          else if f4 then (NoMemory, (fs, w3))
          else (Done (verdict handle r), (fs, w3))).
Proof. exact where_exact. Qed.
Print Assumptions C112_where.
(** In general: the exchange throws std::bad_alloc or ends as the reply says. *)
Theorem C112_throws : forall warning h p reply handle q fs w, answering p reply -> n_results w = [] -> unread w [] ->
  let r := reply (n_sent w) (encaps_pack q) in
  exists o fs' w', m_exchange warning h p handle q (fs, w) = (o, (fs', w'))
    /\ (o = NoMemory /\ w' = w
        \/ sent_now w w' q /\ (o = Done (verdict handle r) /\ unread w' []
            \/ o = NoMemory /\ (unread w' (encaps_pack r) \/ unread w' (e_data r) \/ unread w' []))).
Proof. exact where_left. Qed.
Print Assumptions C112_throws.
Example C112_where_example : answering device numbered /\ n_results fresh_net = [] /\ unread fresh_net [] /\ e_data (numbered [] []) <> []
  /\ map (fun k => (fst (m_exchange true strict device 5 asking (repeat false k ++ [true], fresh_net)),
                    stream (n_in (snd (snd (m_exchange true strict device 5 asking (repeat false k ++ [true], fresh_net))))))) [0; 1; 2; 3; 4; 5]%nat
     = [(NoMemory, []); (NoMemory, encaps_pack (numbered [] [])); (NoMemory, [1]); (NoMemory, [1]); (NoMemory, []); (Done (Ok (numbered [] [])), [])].
Proof. split; [apply device_answers|]. split; [reflexivity|]. split; [split; reflexivity|]. split; [discriminate|]. vm_compute. reflexivity. Qed.

(** As long as everything that came has been read after each exchange, each one
    gets the reply to its own packet or throws std::bad_alloc. Not so otherwise
    (C112_shifted and C112_refuted). *)
Theorem C112_paired_partial : forall warning h p reply handle qs x, answering p reply -> n_results (snd x) = [] -> unread (snd x) [] ->
  in_step warning h p handle qs x -> right_answers warning h p reply handle qs x.
Proof. intros warning h p reply handle qs x A. now apply in_step_right. Qed.
Print Assumptions C112_paired_partial.
Example C112_paired_example : in_step true strict device 5 [asking; asking; asking] ([true; false; false; false; false; true; false], fresh_net)
  /\ fst (m_exchanges true strict device 5 [asking; asking; asking] ([true; false; false; false; false; true; false], fresh_net))
     = [NoMemory; NoMemory; Done (Ok (numbered [[]] []))].
Proof. split; [repeat (split; [split; vm_compute; reflexivity|]); exact Logic.I|vm_compute; reflexivity]. Qed.

(** Once the reply has been left, each later exchange gets the reply to the packet
    before its own, with enough memory and for as long as the session is used. *)
Theorem C112_shifted : forall warning h p reply handle qs fs w r0, answering p reply -> plenty fs -> n_results w = [] -> well_formed r0 ->
  unread w (encaps_pack r0) ->
  exists fs' w', m_exchanges warning h p handle qs (fs, w)
    = (map (fun r => Done (verdict handle r)) (firstn (List.length qs) (r0 :: replies reply (n_sent w) qs)), (fs', w'))
    /\ unread w' (encaps_pack (last (replies reply (n_sent w) qs) r0)).
Proof. intros warning h p reply handle qs fs w r0 A. now apply shifted. Qed.
Print Assumptions C112_shifted.
Example C112_shifted_example : let w := snd (snd (m_exchange true strict device 5 asking ([false; true], fresh_net))) in
  n_results w = [] /\ unread w (encaps_pack (numbered [] [])) /\ well_formed (numbered [] [])
  /\ fst (m_exchanges true strict device 5 [asking; asking; asking] ([], w)) = [Done (Ok (numbered [] [])); Done (Ok (numbered [[]] [])); Done (Ok (numbered [[]] []))].
Proof.
  split; [vm_compute; reflexivity|]. split; [split; vm_compute; reflexivity|]. split; [apply (device_answers [] [])|]. vm_compute. reflexivity.
Qed.

(** A request ends as its exchange does, or for want of memory before or after it;
    if INFO is shown it can end the program before anything is sent. *)
Theorem C112_request : forall info warning h p handle use8 service path data extra fs w,
  exists o fs' w', m_request info warning h p handle use8 service path data extra (fs, w) = (o, (fs', w'))
    /\ (w' = w /\ (o = NoMemory \/ o = Done Abort /\ info = true)
        \/ (exists fs1 o1, m_exchange warning h p handle (request_packet handle use8 service path data extra) (fs1, w) = (o1, (fs', w'))
           /\ ends_like o1 o)
        \/ exists fs1 fs2 r, m_exchange warning h p handle (request_packet handle use8 service path data extra) (fs1, w) = (Done (Ok r), (fs2, w'))
           /\ (o = NoMemory \/ o = Done (reply_response h r))).
Proof. exact request_cases. Qed.
Print Assumptions C112_request.
(** Exactly: the message first, then the request is packed, exchanged and read. *)
Theorem C112_request_places : forall info warning h p handle use8 service path data extra f0 f1 f2 fs w,
  m_request info warning h p handle use8 service path data extra (f0 :: f1 :: f2 :: fs, w)
  = told info f0 f1 (f2 :: fs) w (fun r => if hd false r then (NoMemory, (tl r, w))
      else answered h (m_exchange warning h p handle (request_packet handle use8 service path data extra) (tl r, w))).
Proof. exact request_exact. Qed.
Print Assumptions C112_request_places.
(** Registering: what is sent, and how it ends. *)
Theorem C112_register : forall info warning h p reply fs w, answering p reply -> n_results w = [] -> unread w [] ->
  let r := reply (n_sent w) (encaps_pack register_packet) in
  exists o fs' w', m_register info warning h p (fs, w) = (o, (fs', w'))
    /\ (o = NoMemory /\ (w' = w \/ sent_now w w' register_packet)
        \/ sent_now w w' register_packet /\ unread w' []
           /\ (o = Done (if e_status r =? 0 then Ok (e_handle r) else Throw (RuntimeError RtSessionStatus)) \/ o = Done Abort /\ info = true /\ e_status r = 0)).
Proof. exact register_cases. Qed.
Print Assumptions C112_register.
Theorem C112_register_places : forall info warning h p fs w,
  m_register info warning h p (fs, w)
  = (if hd false fs then (NoMemory, (tl fs, w))
     else match m_exchange warning h p 0 register_packet (tl fs, w) with
          | (Done (Ok r), (f, w')) =>
            if e_status r =? 0 then (if info && hd false f then (Done Abort, (tl f, w')) else (Done (Ok (e_handle r)), (if info then tl f else f, w')))
            else (Done (Throw (RuntimeError RtSessionRegister)), (f, w'))
          | (Done (Throw e), x) => (Done (Throw e), x)
          | (Done (Undef u), x) => (Done (Undef u), x)
          | (Done Abort, x) => (Done Abort, x)
          | (NoMemory, x) => (NoMemory, x)
          end).
Proof. exact register_exact. Qed.
Print Assumptions C112_register_places.
(** Receiving when the peer closes the connection: there is a warning. *)
Theorem C112_ended : forall warning n f0 f1 f2 fs w, (0 < n)%nat -> (List.length (stream (n_in w)) < n)%nat -> ending_of (n_in w) = Closed ->
  m_receive warning n (f0 :: f1 :: f2 :: fs, w)
  = (if f0 then (NoMemory, (f1 :: f2 :: fs, w))
     else let '(o, w') := net_receive n w in
          match o with
          | Ok d => told warning f1 f2 fs w' (fun r => (Done (Ok d), (r, w')))
          | Throw e => (Done (Throw e), (f1 :: f2 :: fs, w'))
          | Undef u => (Done (Undef u), (f1 :: f2 :: fs, w'))
          | Abort => (Done Abort, (f1 :: f2 :: fs, w'))
          end).
Proof. intros. apply receive_ended; [assumption|now apply ended_closed]. Qed.
Print Assumptions C112_ended.
(** And none otherwise. *)
Theorem C112_not_ended : forall warning n f0 fs w, (0 < n)%nat -> ending_of (n_in w) <> Closed ->
  m_receive warning n (f0 :: fs, w) = (if f0 then (NoMemory, (fs, w)) else let '(o, w') := net_receive n w in (Done o, (fs, w'))).
Proof. exact receive_quiet. Qed.
Print Assumptions C112_not_ended.
Example C112_ended_example : fst (m_receive true 4 ([false; true; false], mkNet [] [Data [1]; Eof] [])) = NoMemory
  /\ fst (m_receive true 4 ([false; false; true], mkNet [] [Data [1]; Eof] [])) = Done Abort.
Proof. split; vm_compute; reflexivity. Qed.
(** The destructor never throws: without memory it ends the program, before the
    session is unregistered or, if INFO is shown, after. *)
Theorem C112_destroy : forall info p handle fs w, n_results w = [] ->
  exists o fs' w', m_destroy info p handle (fs, w) = (Done o, (fs', w'))
    /\ (o = Abort /\ w' = w /\ hd false fs = true
        \/ n_sent w' = n_sent w ++ [encaps_pack (unregister_packet handle)] /\ hd false fs = false
           /\ o = (if info && hd false (tl fs) then Abort else Ok tt)).
Proof. exact destroy_cases. Qed.
Print Assumptions C112_destroy.
Example C112_register_example : fst (m_register true true strict device ([], fresh_net)) = Done (Ok 5)
  /\ fst (m_register false true strict device ([true], fresh_net)) = NoMemory
  /\ fst (m_request false false strict device 5 false 1 (mkPath 1 1 1 2) [] [] ([true], fresh_net)) = NoMemory
  /\ fst (m_destroy true device 5 ([false; false], fresh_net)) = Done (Ok tt).
Proof. vm_compute. repeat split. Qed.

(** After std::bad_alloc the session answers with the wrong reply. *)
Theorem C112_refuted : exists p reply q fs fs1 fs2 w w1 w2 r, answering p reply /\ n_results w = [] /\ unread w []
  /\ m_exchange false strict p 5 q (fs, w) = (NoMemory, (fs1, w1)) /\ plenty fs1
  /\ m_exchange false strict p 5 q (fs1, w1) = (Done (Ok r), (fs2, w2))
  /\ r = reply (n_sent w) (encaps_pack q) /\ r <> reply (n_sent w1) (encaps_pack q).
Proof.
  destruct (m_exchange false strict device 5 asking ([false; true], fresh_net)) as [o1 [f1 w1]] eqn:E1.
  destruct (m_exchange false strict device 5 asking (f1, w1)) as [o2 [f2 w2]] eqn:E2.
  exists device, numbered, asking, [false; true], f1, f2, fresh_net, w1, w2, (numbered [] []).
  split; [apply device_answers|]. split; [reflexivity|]. split; [split; reflexivity|].
  rewrite E1, E2. vm_compute in E1. inv E1. vm_compute in E2. inv E2. split; [reflexivity|]. split; [constructor|]. split; [reflexivity|]. split; [reflexivity|]. discriminate.
Qed.
Print Assumptions C112_refuted.
(** Or with a packet that the device has never sent: the data of a reply. *)
Definition inside : encaps := mkEncaps CMD_SEND_RR_DATA 0 5 0 (zeros 8) 0 [].
Definition outside : encaps := mkEncaps CMD_SEND_RR_DATA 24 5 0 (zeros 8) 0 (encaps_pack inside).
Theorem C112_garbage_refuted : exists p reply q fs fs1 fs2 w w1 w2 r, answering p reply /\ n_results w = [] /\ unread w []
  /\ m_exchange false strict p 5 q (fs, w) = (NoMemory, (fs1, w1)) /\ plenty fs1
  /\ m_exchange false strict p 5 q (fs1, w1) = (Done (Ok r), (fs2, w2))
  /\ forall log data, r <> reply log data.
Proof.
  set (dev := (fun _ _ => [Data (encaps_pack outside)]) : peer).
  destruct (m_exchange false strict dev 5 asking ([false; false; true], fresh_net)) as [o1 [f1 w1]] eqn:E1.
  destruct (m_exchange false strict dev 5 asking (f1, w1)) as [o2 [f2 w2]] eqn:E2.
  exists dev, (fun _ _ => outside), asking, [false; false; true], f1, f2, fresh_net, w1, w2, inside.
  split.
  { intros log data. split; [|split; reflexivity]. split; [|reflexivity]. unfold encaps_wf, outside, is_u16, is_u32, CMD_SEND_RR_DATA.
    cbn [e_command e_length e_handle e_status e_context e_options e_data].
    do 4 (split; [lia|]). split; [reflexivity|]. split; [|split; [lia|]]; vm_compute; repeat constructor; discriminate. }
  split; [reflexivity|]. split; [split; reflexivity|].
  rewrite E1, E2. vm_compute in E1. inv E1. vm_compute in E2. inv E2. split; [reflexivity|]. split; [constructor|]. split; [reflexivity|]. intros _ _. discriminate.
Qed.
Print Assumptions C112_garbage_refuted.
(** And the program can end: in the destructor, the session still registered, and
    in a request because of its message. *)
Theorem C112_ends_refuted : (exists p fs fs' w, m_destroy false p 5 (fs, w) = (Done Abort, (fs', w)) /\ In true fs)
  /\ exists p path fs fs' w, m_request true false strict p 5 false 1 path [] [] (fs, w) = (Done Abort, (fs', w)) /\ In true fs.
Proof.
  split.
  - exists device, [true], [], fresh_net. split; [reflexivity|now left].
  - exists device, (mkPath 1 1 1 2), [false; true], [], fresh_net. split; [reflexivity|right; now left].
Qed.
Print Assumptions C112_ends_refuted.
