(** Properties C19-C26 and C71: sockets and sessions. *)
From Verif Require Import Base MBuffer SBuffer PBase MEip SEip PRouter MSocket SSocket PSocket SSession PSession.

(** C19 *)
Theorem C19_receive : forall (n : nat) (segs : list seg), (n <= List.length (stream segs))%nat ->
  exists segs', tcp_receive n segs = (Ok (firstn n (stream segs)), segs')
    /\ stream segs' = skipn n (stream segs) /\ ending_of segs' = ending_of segs
    /\ after segs' = after segs.
Proof. exact receive_enough. Qed.
Print Assumptions C19_receive.
Example C19_receive_example : Peano.le 5 (List.length (stream [Data [1; 2]; Err 4; Data [3; 4; 5; 6]]))
  /\ tcp_receive 5 [Data [1; 2]; Err 4; Data [3; 4; 5; 6]] = (Ok [1; 2; 3; 4; 5], [Data [6]]).
Proof. split; [cbn; lia|reflexivity]. Qed.

(** Any sequence of calls cuts the stream into consecutive pieces. *)
Theorem C19_sequence : forall (sizes : list nat) (segs : list seg),
  (list_sum sizes <= List.length (stream segs))%nat ->
  exists segs', receives sizes segs = (map Ok (pieces sizes (stream segs)), segs')
    /\ stream segs' = skipn (list_sum sizes) (stream segs) /\ ending_of segs' = ending_of segs.
Proof. exact receives_pieces. Qed.
Print Assumptions C19_sequence.
Theorem C19_pieces : forall sizes (l : bytes), (list_sum sizes <= List.length l)%nat ->
  concat (pieces sizes l) = firstn (list_sum sizes) l.
Proof. exact pieces_concat. Qed.
Print Assumptions C19_pieces.
Example C19_example :
  receives [2; 3]%nat [Data [1]; Err 4; Data [2; 3]; Data []; Err 4; Data [4; 5; 6]]
  = ([Ok [1; 2]; Ok [3; 4; 5]], [Data [6]]).
Proof. reflexivity. Qed.

(** C20. Full statement: every early end is reported. True of errors and
    timeouts, false when the peer closes the connection. *)
Theorem C20_error_partial : forall (n : nat) (segs : list seg),
  (List.length (stream segs) < n)%nat -> ending_of segs <> Closed ->
  exists e, fst (tcp_receive n segs) = Throw (SystemError e)
    /\ (ending_of segs = Failed e \/ ending_of segs = Silent /\ e = 11).
Proof. exact receive_error. Qed.
Print Assumptions C20_error_partial.
Example C20_example : lt (List.length (stream [Data [1]; Err 104])) 2
  /\ ending_of [Data [1]; Err 104] = Failed 104
  /\ tcp_receive 2 [Data [1]; Err 104] = (Throw (SystemError 104), []).
Proof. split; [cbn; lia|split; reflexivity]. Qed.

Theorem C20_exact : forall (n : nat) (segs : list seg), (List.length (stream segs) < n)%nat ->
  tcp_receive n segs
  = match ending_of segs with
    | Silent => (Throw (SystemError EAGAIN), [])
    | Failed e => (Throw (SystemError e), after segs)
    | Closed => (Ok (stream segs ++ zeros (n - List.length (stream segs))), after segs)
    end.
Proof. exact receive_short. Qed.
Print Assumptions C20_exact.
Example C20_exact_example : tcp_receive 3 [Data [1]; Eof; Data [9]] = (Ok [1; 0; 0], [Eof; Data [9]])
  /\ tcp_receive 3 [Data [1]; Err 4; Data [2]] = (Throw (SystemError 11), []).
Proof. split; reflexivity. Qed.

Theorem C20_refuted : exists segs n d rest,
  ending_of segs = Closed /\ (List.length (stream segs) < n)%nat
  /\ tcp_receive n segs = (Ok d, rest).
Proof. exact receive_early_close. Qed.
Print Assumptions C20_refuted.

(** C21. Full statement: every incomplete send is reported. A short count is, a
    failure (-1) is not. *)
Theorem C21_send_partial : forall size count errno, 0 <= size < 2 ^ 63 -> -1 <= count <= size ->
  send_check size (mkSend count errno)
  = if (0 <=? count) && (count <? size) then Throw (SystemError errno) else Ok tt.
Proof. exact send_check_any. Qed.
Print Assumptions C21_send_partial.
Example C21_example : send_check 10 (mkSend 3 5) = Throw (SystemError 5)
  /\ send_check 10 (mkSend 10 5) = Ok tt.
Proof. split; reflexivity. Qed.
Theorem C21_refuted : exists size count errno, 0 < size /\ count < size
  /\ send_check size (mkSend count errno) = Ok tt.
Proof. exact send_refuted. Qed.
Print Assumptions C21_refuted.

(** C22. Full statement: without the alternative "the peer closed and the
    missing bytes were taken as zeros". *)
Theorem C22_register_partial : forall (h : heap) (p : peer) w handle w',
  sends_all w (encaps_pack register_packet) ->
  let inc := incoming p w (encaps_pack register_packet) in
  is_bytes (stream inc) -> session_register h p w = (Ok handle, w') ->
  exists r k, well_formed r /\ e_status r = 0 /\ e_handle r = handle
    /\ (k = O \/ ending_of inc = Closed) /\ stream inc ++ zeros k = encaps_pack r ++ stream (n_in w').
Proof. exact register_sound. Qed.
Print Assumptions C22_register_partial.

Theorem C22_register_succeeds : forall (h : heap) (p : peer) w r rest,
  sends_all w (encaps_pack register_packet) -> well_formed r -> e_status r = 0 ->
  stream (incoming p w (encaps_pack register_packet)) = encaps_pack r ++ rest ->
  exists w', session_register h p w = (Ok (e_handle r), w') /\ stream (n_in w') = rest
    /\ ending_of (n_in w') = ending_of (incoming p w (encaps_pack register_packet))
    /\ n_sent w' = n_sent w ++ [encaps_pack register_packet] /\ n_results w' = tl (n_results w).
Proof. exact register_good. Qed.
Print Assumptions C22_register_succeeds.
Example C22_example :
  session_register strict (fun _ _ => [Data (firstn 9 (encaps_pack (packet 101 77 0 [1;0;0;0]))); Err 4;
                                       Data (skipn 9 (encaps_pack (packet 101 77 0 [1;0;0;0])))]) (mkNet [] [] [])
  = (Ok 77, mkNet [encaps_pack register_packet] [] []).
Proof. reflexivity. Qed.

Theorem C22_register_refused : forall (h : heap) (p : peer) w r rest,
  sends_all w (encaps_pack register_packet) -> well_formed r -> e_status r <> 0 ->
  stream (incoming p w (encaps_pack register_packet)) = encaps_pack r ++ rest ->
  fst (session_register h p w) = Throw (RuntimeError RtSessionStatus).
Proof. exact register_status. Qed.
Print Assumptions C22_register_refused.
Example C22_refused_example :
  fst (session_register strict (fun _ _ => [Data (encaps_pack (packet 101 77 3 [1;0;0;0]))]) (mkNet [] [] []))
  = Throw (RuntimeError RtSessionStatus).
Proof. reflexivity. Qed.

(** A peer that accepts the connection and closes it, sending nothing. *)
Theorem C22_refuted : exists (h : heap) (p : peer) w w',
  sends_all w (encaps_pack register_packet)
  /\ (forall log data, stream (p log data) = []) /\ n_in w = []
  /\ session_register h p w = (Ok 0, w').
Proof. exact register_refuted. Qed.
Print Assumptions C22_refuted.

(** C23. Full statement: also for a session whose handle is 0. *)
Theorem C23_reply_partial : forall (h : heap) (p : peer) handle q w r w',
  (forall log data, is_bytes (stream (n_in w ++ p log data))) ->
  send_and_receive h p handle q w = (Ok r, w') ->
  e_status r = 0 /\ (handle <> 0 -> e_handle r = handle).
Proof. exact sar_accepts. Qed.
Print Assumptions C23_reply_partial.
(** Replies that are accepted and refused: [C23_example] below. *)

Theorem C23_refuted : exists (h : heap) p q w r w',
  send_and_receive h p 0 q w = (Ok r, w') /\ e_handle r <> 0.
Proof. exact session_handle0. Qed.
Print Assumptions C23_refuted.

(** A complete reply is judged by its status and handle alone, and exactly its
    bytes are consumed. *)
Theorem C23_verdict : forall (h : heap) (p : peer) handle q r w,
  sends_all w (encaps_pack q) -> well_formed r ->
  forall rest, stream (incoming p w (encaps_pack q)) = encaps_pack r ++ rest ->
  exists w', send_and_receive h p handle q w = (verdict handle r, w')
    /\ stream (n_in w') = rest /\ ending_of (n_in w') = ending_of (incoming p w (encaps_pack q))
    /\ n_sent w' = n_sent w ++ [encaps_pack q] /\ n_results w' = tl (n_results w).
Proof. exact sar_good. Qed.
Print Assumptions C23_verdict.
Example C23_example :
  let p := fun st hd : Z => (fun _ _ => [Data (encaps_pack (packet 111 hd st [5]))]) : peer in
  fst (send_and_receive strict (p 0 7) 7 (rr_data_packet 7 0 []) (mkNet [] [] [])) = Ok (packet 111 7 0 [5])
  /\ fst (send_and_receive strict (p 3 7) 7 (rr_data_packet 7 0 []) (mkNet [] [] [])) = Throw (RuntimeError RtSessionStatus)
  /\ fst (send_and_receive strict (p 0 8) 7 (rr_data_packet 7 0 []) (mkNet [] [] [])) = Throw (RuntimeError RtSessionHandle).
Proof. repeat split; reflexivity. Qed.

Theorem C23_sound : forall (h : heap) (p : peer) handle q w r w',
  sends_all w (encaps_pack q) -> is_bytes (stream (incoming p w (encaps_pack q))) ->
  send_and_receive h p handle q w = (Ok r, w') ->
  well_formed r /\ acceptable handle r = true
  /\ exists k, (k = O \/ ending_of (incoming p w (encaps_pack q)) = Closed)
       /\ stream (incoming p w (encaps_pack q)) ++ zeros k = encaps_pack r ++ stream (n_in w')
       /\ ending_of (n_in w') = ending_of (incoming p w (encaps_pack q)).
Proof. exact sar_sound. Qed.
Print Assumptions C23_sound.

(** C24. Full statement: also after a timeout or a lost connection. *)
Theorem C24_paired_partial : forall (h : heap) (p : peer) handle qs rs log,
  answers p log qs rs -> forall w,
  n_sent w = log -> all_accepted (n_results w) (map encaps_pack qs) -> drained (n_in w) ->
  exists w', exchanges h p handle qs w = (map (verdict handle) rs, w')
    /\ n_sent w' = log ++ map encaps_pack qs /\ n_results w' = skipn (List.length qs) (n_results w) /\ drained (n_in w').
Proof. exact exchanges_answered. Qed.
Print Assumptions C24_paired_partial.
Example C24_example :
  let q := rr_data_packet 7 0 [] in
  let r1 := packet 111 7 4 [1] in let r2 := packet 111 7 0 [2] in
  let p := (fun log _ => match log with
                         | [] => [Data (firstn 3 (encaps_pack r1)); Data (skipn 3 (encaps_pack r1))]
                         | _ => [Err 4; Data (encaps_pack r2)] end) : peer in
  answers p [] [q; q] [r1; r2]
  /\ fst (exchanges strict p 7 [q; q] (mkNet [] [] [])) = [Throw (RuntimeError RtSessionStatus); Ok r2].
Proof.
  intros q r1 r2 p.
  assert (W : forall st x, is_u32 st -> is_u8 x -> well_formed (packet 111 7 st [x])).
  { intros st x S X. split; [|reflexivity]. apply packet_wf; [unfold is_u16; lia|unfold is_u32; lia|exact S|].
    repeat constructor; apply X. }
  split; [|reflexivity].
  apply answers_cons; [apply W; unfold is_u32, is_u8; lia|reflexivity|reflexivity|].
  apply answers_cons; [apply W; unfold is_u32, is_u8; lia|reflexivity|reflexivity|]. constructor.
Qed.

(** One late reply and the next request receives it as its own answer. *)
Theorem C24_refuted : exists p handle q1 q2 r1 r2 w os w',
  stream (p [] (encaps_pack q1)) = [] /\ after (p [] (encaps_pack q1)) = [Data (encaps_pack r1)]
  /\ p [encaps_pack q1] (encaps_pack q2) = [Data (encaps_pack r2)]
  /\ well_formed r1 /\ well_formed r2 /\ r1 <> r2 /\ w = mkNet [] [] []
  /\ exchanges strict p handle [q1; q2] w = (os, w')
  /\ os = [Throw (SystemError 11); Ok r1].
Proof. exact pairing_refuted. Qed.
Print Assumptions C24_refuted.

(** C25: what the peer receives during the life of a session, whatever the
    calls of send() return and however the exchanges end. *)
Theorem C25_life : forall (h : heap) (p : peer) w handle w1 qs,
  session_register h p w = (Ok handle, w1) ->
  n_sent (snd (session_destroy p handle (snd (exchanges h p handle qs w1))))
  = n_sent w ++ accepted (n_results w)
      ([encaps_pack register_packet] ++ map encaps_pack qs ++ [encaps_bytes 102 0 handle 0 [0;0;0;0;0;0;0;0] 0 []]).
Proof. exact life_any. Qed.
Print Assumptions C25_life.
(** Full statement: whatever the send() of the destructor returns. *)
Theorem C25_life_partial : forall (h : heap) (p : peer) w handle w1 qs,
  session_register h p w = (Ok handle, w1) ->
  let packets := [encaps_pack register_packet] ++ map encaps_pack qs
                 ++ [encaps_bytes 102 0 handle 0 [0;0;0;0;0;0;0;0] 0 []] in
  all_accepted (n_results w) packets ->
  exists w', session_destroy p handle (snd (exchanges h p handle qs w1)) = (Ok tt, w') /\ n_sent w' = n_sent w ++ packets.
Proof. exact life_accepted. Qed.
Print Assumptions C25_life_partial.
Example C25_life_example :
  let p : peer := fun log _ => match log with
                               | [] => [Data (encaps_pack (packet 101 7 0 [1;0;0;0]))]
                               | _ => [Data (encaps_pack (packet 111 7 0 [5]))] end in
  exists w1 w2, session_register strict p (mkNet [] [] []) = (Ok 7, w1)
  /\ List.length (n_sent (snd (session_destroy p 7 (snd (exchanges strict p 7 [rr_data_packet 7 0 []] w1))))) = 3%nat
  /\ session_register strict p (mkNet [] [] [mkSend 28 0; mkSend 3 32; mkSend 24 0]) = (Ok 7, w2)
  /\ fst (session_destroy p 7 (snd (exchanges strict p 7 [rr_data_packet 7 0 []] w2))) = Ok tt
  /\ n_sent (snd (session_destroy p 7 (snd (exchanges strict p 7 [rr_data_packet 7 0 []] w2))))
     = [encaps_pack register_packet; [111; 0; 6]; encaps_pack (unregister_packet 7)]
  /\ all_accepted [mkSend 28 0; mkSend 30 0; mkSend 24 0]
       [encaps_pack register_packet; encaps_pack (rr_data_packet 7 0 []); encaps_pack (unregister_packet 7)].
Proof.
  cbv zeta. do 2 eexists. split; [vm_compute; reflexivity|]. split; [vm_compute; reflexivity|].
  split; [vm_compute; reflexivity|]. repeat split; vm_compute; reflexivity.
Qed.
Theorem C25_destroy : forall (p : peer) handle w,
  sends_all w (encaps_pack (unregister_packet handle)) ->
  exists w', session_destroy p handle w = (Ok tt, w')
  /\ n_sent w' = n_sent w ++ [encaps_bytes 102 0 handle 0 [0;0;0;0;0;0;0;0] 0 []].
Proof. exact destroy_ok. Qed.
Print Assumptions C25_destroy.
Example C25_example : sends_all (mkNet [] [] []) (encaps_pack (unregister_packet 7))
  /\ session_destroy (fun _ _ => []) 7 (mkNet [] [] [mkSend 24 0])
     = (Ok tt, mkNet [[102;0;0;0;7;0;0;0;0;0;0;0;0;0;0;0;0;0;0;0;0;0;0;0]] [] []).
Proof. split; [exact I|reflexivity]. Qed.
(** A short send in the destructor terminates the program. *)
Theorem C25_short_send_terminates : forall (p : peer) handle w c e rs,
  n_results w = mkSend c e :: rs -> 0 <= c < 24 -> fst (session_destroy p handle w) = Abort.
Proof. exact destroy_short. Qed.
Print Assumptions C25_short_send_terminates.
Example C25_short_example : fst (session_destroy (fun _ _ => []) 7 (mkNet [] [] [mkSend 10 0])) = Abort.
Proof. reflexivity. Qed.
(** A failing send() goes unnoticed: the session is gone and no
    UnRegisterSession packet was sent (the adapter keeps it registered). *)
Theorem C25_refuted : exists (p : peer) w w1 w2,
  session_register strict p w = (Ok 7, w1) /\ session_destroy p 7 w1 = (Ok tt, w2)
  /\ ~ In (encaps_pack (unregister_packet 7)) (n_sent w2)
  /\ exists w3, session_destroy p 7 (mkNet (n_sent w1) (n_in w1) [mkSend 23 0]) = (Abort, w3).
Proof.
  exists (fun _ _ => [Data (encaps_bytes 101 4 7 0 [0;0;0;0;0;0;0;0] 0 [1;0;0;0])]), (mkNet [] [] [mkSend 28 0; mkSend (-1) 32]).
  do 2 eexists. split; [vm_compute; reflexivity|]. split; [vm_compute; reflexivity|]. split.
  - cbn [n_sent]. intros H. vm_compute in H. intuition discriminate.
  - eexists. vm_compute. reflexivity.
Qed.
Print Assumptions C25_refuted.

(** C26. Full statement: without the hypotheses on the two fcntl() calls. *)
Theorem C26_connect_partial : forall k : calls, k_getfl1 k = None -> k_setfl1 k = None ->
  (tcp_connect k = (Ok tt, OpenFd (Z.land (Z.lor (k_flags k) 2048) (Z.lnot 2048))))
  \/ exists e fd, tcp_connect k = (Throw (SystemError e), fd) /\ (fd = NoFd \/ fd = ClosedFd).
Proof. exact connect_partial. Qed.
Print Assumptions C26_connect_partial.
Theorem C26_flags : forall flags i, 0 <= i ->
  Z.testbit (Z.land (Z.lor flags 2048) (Z.lnot 2048)) i = negb (i =? 11) && Z.testbit flags i.
Proof. exact connect_flags. Qed.
Print Assumptions C26_flags.
Theorem C26_success : forall k,
  tcp_connect k = (Ok tt, OpenFd (Z.land (Z.lor (k_flags k) 2048) (Z.lnot 2048))) <->
  k_socket k = None /\ k_getfl1 k = None /\ k_setfl1 k = None /\ k_getfl2 k = None /\ k_setfl2 k = None
  /\ (k_connect k = None
      \/ k_connect k = Some 115 /\ 0 < fst (k_select k) /\ k_getsockopt k = None /\ k_soerr k = 0).
Proof. exact connect_success. Qed.
Print Assumptions C26_success.
Example C26_example :
  tcp_connect (mkCalls None 2 None None (Some 115) (1, 0) None 111 None None) = (Throw (SystemError 111), ClosedFd)
  /\ tcp_connect (mkCalls None 2 None None (Some 115) (1, 0) None 0 None None) = (Ok tt, OpenFd 2)
  /\ tcp_connect (mkCalls None 2 None None (Some 115) (-1, 4) None 0 None None) = (Throw (SystemError 110), ClosedFd).
Proof. repeat split; reflexivity. Qed.
(** The exception carries the first failure of the steps of connecting. *)
Theorem C26_errors : forall k,
  fst (tcp_connect k) = match first_failure (connect_steps k) with Some e => Throw (SystemError e) | None => Ok tt end.
Proof. exact connect_reports. Qed.
Print Assumptions C26_errors.
Example C26_errors_example :
  first_failure (connect_steps (mkCalls None 2 None None (Some 115) (1, 0) None 111 (Some 9) None)) = Some 111
  /\ first_failure (connect_steps (mkCalls None 2 None None (Some 115) (0, 0) None 0 None None)) = Some 110
  /\ first_failure (connect_steps (mkCalls None 2 None None (Some 115) (-1, 4) None 0 None None)) = Some 110
  /\ first_failure (connect_steps (mkCalls None 2 None None (Some 113) (-1, 4) None 0 None None)) = Some 113.
Proof. repeat split; reflexivity. Qed.
Theorem C26_refuted : exists k e flags, tcp_connect k = (Throw (SystemError e), OpenFd flags).
Proof. exact connect_refuted. Qed.
Print Assumptions C26_refuted.
(** Exactly which failures leave the descriptor open. *)
Theorem C26_only_leak : forall k, (exists e flags, tcp_connect k = (Throw e, OpenFd flags)) <->
  k_socket k = None /\ (k_getfl1 k <> None \/ k_setfl1 k <> None).
Proof. exact connect_leak. Qed.
Print Assumptions C26_only_leak.
(** A session constructor that fails leaves no descriptor behind. *)
Theorem C26_session_open : forall (h : heap) k (p : peer) w, k_getfl1 k = None -> k_setfl1 k = None ->
  let '(run, fd) := session_open h k p in
  match fst (run w) with
  | Ok _ => exists flags, fd w = OpenFd flags /\ Z.testbit flags 11 = false
  | _ => fd w = NoFd \/ fd w = ClosedFd
  end.
Proof. exact open_descriptor. Qed.
Print Assumptions C26_session_open.
Example C26_session_open_example :
  let k := mkCalls None 2 None None (Some 115) (1, 0) None 0 None None in
  let '(run, fd) := session_open strict k (fun _ _ => [Data (encaps_pack (packet 101 77 3 [1;0;0;0]))]) in
  fst (run (mkNet [] [] [])) = Throw (RuntimeError RtSessionStatus) /\ fd (mkNet [] [] []) = ClosedFd.
Proof. split; vm_compute; reflexivity. Qed.

(** C49 *)
Theorem C49_interval : forall ms, portable_interval ms
  = (if ms <? 0 then (0, 0) else (ms / 1000, (ms mod 1000) * 1000)).
Proof. exact interval_ok. Qed.
Print Assumptions C49_interval.
Theorem C49_no_loss : forall ms, 0 <= ms -> let '(s, us) := portable_interval ms in
  s * 1000000 + us = ms * 1000 /\ 0 <= us < 1000000.
Proof. exact interval_sum. Qed.
Print Assumptions C49_no_loss.
Example C49_example : portable_interval 1500 = (1, 500000) /\ portable_interval (-1500) = (0, 0).
Proof. split; reflexivity. Qed.

(** C72 *)
Theorem C72_receive : forall size l r, udp_receive size (Dgram l :: r)
  = (Ok (firstn size (l ++ zeros size)), r).
Proof. exact udp_ok. Qed.
Print Assumptions C72_receive.
Theorem C72_length : forall size ds d r, udp_receive size ds = (Ok d, r) -> List.length d = size.
Proof. exact udp_length. Qed.
Print Assumptions C72_length.
Example C72_example : udp_receive 4 [Dgram [1; 2]] = (Ok [1; 2; 0; 0], [])
  /\ udp_receive 2 [Dgram [1; 2; 3]; DErr 4] = (Ok [1; 2], [DErr 4]).
Proof. split; reflexivity. Qed.
