(** Independence of the memory behind received data: C90. *)
From Verif Require Import Base MBuffer SBuffer MEip SEip SObj PObj MFile SFile MSync MYaskawa MIdent MParam MReal MFault MSocket SSocket
  MConnReq SConnReq MConn SConn PConnMap PConnTop MReent MDisc SDisc PDisc SDet PDet.

(** ** C90 no influence of the memory behind received data *)

Theorem C90_wire :
  (forall d, indep_outcome (fun h => length_from_header h d)) /\
  (forall p d, indep_object (fun h => encaps_expand h p d)) /\
  (forall d, indep_object (fun h => cp_expand h d)) /\
  (forall r d, indep_object (fun h => response_expand h r d)) /\
  (forall d, indep_object (fun h => epath_expand h d)) /\
  (forall d, indep_object (fun h => ypath_expand h d)) /\
  (forall d, indep_outcome (fun h => fo_expand h d)).
Proof. exact det_wire. Qed.
Print Assumptions C90_wire.
(** An item that ends early: an exception when nothing lies behind, and so
    whatever lies behind. A length field that lies behind matters. *)
Example C90_wire_example :
  ~ outside (snd (response_expand strict response0 [142; 0; 0; 1; 5])) /\ snd (response_expand strict response0 [142; 0; 0; 1; 5]) <> Ok tt
  /\ outside (snd (cp_expand strict [1])) /\ snd (cp_expand (fun _ _ => Some 0) [1]) <> snd (cp_expand strict [1]).
Proof. repeat split; vm_compute; discriminate. Qed.

Theorem C90_typed :
  (forall t d, indep_outcome (fun h => encode_value h t d)) /\
  (forall A t p d, indep_outcome (fun h => get_eng A h t p d)) /\
  (forall t d, indep_outcome (fun h => encode_real h t d)) /\
  (forall t p d, indep_outcome (fun h => get_eng_real h t p d)).
Proof. exact det_typed. Qed.
Print Assumptions C90_typed.
(** Two bytes are two bytes; of one byte the memory makes what it likes. *)
Example C90_typed_example :
  encode_value strict IU16 [1; 2] = Ok 513 /\ outside (encode_value strict IU16 [1])
  /\ encode_value (fun _ _ => Some 7) IU16 [1] = Ok 1793 /\ encode_value (fun _ _ => Some 8) IU16 [1] = Ok 2049.
Proof. repeat split; reflexivity. Qed.

(** Sessions over TCP *)
Theorem C90_session :
  (forall p handle q, indep (fun h => send_and_receive h p handle q)) /\
  (forall p, indep (fun h => session_register h p)) /\
  (forall p handle l w h, Forall (fun o => ~ outside o) (fst (exchanges strict p handle l w)) ->
     exchanges h p handle l w = exchanges strict p handle l w).
Proof. exact det_session. Qed.
Print Assumptions C90_session.
Example C90_session_example :
  let p : peer := fun _ _ => [Data (encaps_pack (packet 101 77 0 [1;0;0;0]))] in
  ~ outside (fst (session_register strict p (mkNet [] [] [])))
  /\ Forall (fun o => ~ outside o) (fst (exchanges strict p 77 [register_packet; register_packet] (mkNet [] [] []))).
Proof. split; [vm_compute; discriminate|]. repeat constructor; vm_compute; discriminate. Qed.

(** What the following take for a session: one that does not work in that
    memory at all, and one over TCP. *)
Theorem C90_sessions :
  (forall S (si : session_if S), indep_session (fun _ => si)) /\
  (forall p handle, indep_session (fun h => live_session h p handle)).
Proof. split; [exact @det_const|exact det_live]. Qed.
Print Assumptions C90_sessions.

Theorem C90_request : forall S (si : heap -> session_if S) use8, indep_session si ->
  (forall service path data extra, indep (fun h => send_request h (si h) use8 service path data extra)) /\
  (forall service path data extra, indep (fun h => ysend_request h (si h) service path data extra)).
Proof. exact @det_request. Qed.
Print Assumptions C90_request.
Theorem C90_objects : forall S (si : heap -> session_if S) use8, indep_session si ->
  (forall n, indep (fun h => identity_read h use8 (si h) n)) /\
  (forall id full, indep (fun h => param_read h use8 (si h) id full)) /\
  indep (fun h => update_value h use8 (si h)) /\
  (forall n want, indep (fun h => fault_read h use8 (si h) n want)) /\
  (forall clear want, indep (fun h => handle_faults h use8 (si h) clear want)) /\
  (forall id, indep (fun h => fault_object_read h use8 (si h) id)).
Proof. exact @det_objects. Qed.
Print Assumptions C90_objects.
(** A device over TCP whose identity is complete, and one whose identity ends
    after the vendor. *)
Definition answering (d : bytes) : peer :=
  fun _ _ => [Data (encaps_pack (packet 111 7 0 (zeros 6 ++ [2; 0; 0; 0; 0; 0; 178; 0; zlen d + 4; 0; 129; 0; 0; 0] ++ d)))].
Definition asked_identity (h : heap) (d : bytes) : outcome identity :=
  fst (identity_read h false (live_session h (answering d) 7) 1 (mkNet [] [] [])).
Example C90_objects_example :
  ~ outside (asked_identity strict [1; 0; 2; 0; 3; 0; 1; 2; 0; 0; 9; 0; 0; 0; 1; 65])
  /\ (exists i, asked_identity strict [1; 0; 2; 0; 3; 0; 1; 2; 0; 0; 9; 0; 0; 0; 1; 65] = Ok i)
  /\ outside (asked_identity strict [1; 0]).
Proof. split; [vm_compute; discriminate|]. split; [eexists; vm_compute; reflexivity|vm_compute; reflexivity]. Qed.

Theorem C90_files : forall S (si : heap -> session_if S) use8, indep_session si ->
  (forall id, indep (fun h => file_open h use8 (si h) id)) /\
  (forall hid, indep (fun h => begin_upload h use8 (si h) hid)) /\
  indep (fun h => handle_transfers h use8 (si h)) /\
  indep (fun h => file_sync h use8 (si h)) /\
  (forall l s h, Forall (fun o => ~ outside o) (fst (fops_run strict use8 (si strict) l s)) ->
     fops_run h use8 (si h) l s = fops_run strict use8 (si strict) l s).
Proof. exact @det_files. Qed.
Print Assumptions C90_files.
(** A history with an exception and with a reply of no bytes. *)
Example C90_files_example :
  let run d := fst (fops_run strict false (live_session strict (answering d) 7) [FoSync; FoBegin 1; FoSync] (mkFile 5 FLoaded [], mkNet [] [] [])) in
  Forall (fun o => ~ outside o) (run [3; 0; 0; 0; 7; 0; 9; 8; 7; 6]) /\ Forall (fun o => ~ outside o) (run [77; 0; 0; 0; 7; 0; 9; 8; 7; 6]) /\ ~ Forall (fun o => ~ outside o) (run []).
Proof.
  cbv zeta. split; [vm_compute; repeat (apply Forall_cons; [discriminate|]); apply Forall_nil|].
  split; [vm_compute; repeat (apply Forall_cons; [discriminate|]); apply Forall_nil|].
  vm_compute. intros F. inversion F as [|? ? N]. now apply N.
Qed.

Theorem C90_connections : forall S (si : heap -> session_if S) use8, indep_session si ->
  (forall host env large c, indep (fun h => forward_open h use8 (si h) host env large c)) /\
  (forall ptr, indep (fun h => forward_close h use8 (si h) ptr)) /\
  (forall rounds ending env, indep (fun h => handle_connections h rounds ending env)) /\
  (forall (L : listeners S) rounds ending env, indep (fun h => listen_connections h L rounds ending env)) /\
  (forall (ops : list (nat * call S)) w h, inside_run ops w -> run_calls h ops w = run_calls strict ops w).
Proof. exact @det_conns. Qed.
Print Assumptions C90_connections.
(** A connection is opened and receives; a datagram that is too short for its
    sequence number reads outside. *)
Definition receiving (d : bytes) : list (nat * call (list encaps)) :=
  [(0%nat, open_call 0x10007 10000 10000 (class1 1 0)); (0%nat, CHandle [mkRound [Some (Dgram d)] 0] SelQuiet (env_at 0 (fun n => n)))].
Example C90_connections_example : inside_run (receiving (gram 0x10007 [1; 0; 9])) start0
  /\ (exists l, m_log (w_m (run_calls strict (receiving (gram 0x10007 [1; 0; 9])) start0) 0%nat) = EvData 0 0 1 [9] :: l)
  /\ ~ inside_run (receiving (gram 0x10007 [1])) start0.
Proof.
  split; [vm_compute; repeat split; discriminate|]. split; [eexists; vm_compute; reflexivity|].
  vm_compute. intros [_ [N _]]. now apply N.
Qed.

Theorem C90_discover : forall k b ds, ~ outside (fst (discover strict k b ds)) -> forall h, discover h k b ds = discover strict k b ds.
Proof. exact det_discover. Qed.
Print Assumptions C90_discover.
Example C90_discover_example : ~ outside (fst (discover strict dk_fine lan [Dgram (reply [drive]); Dgram (reply [plc]); DErr 11])).
Proof. vm_compute. discriminate. Qed.
