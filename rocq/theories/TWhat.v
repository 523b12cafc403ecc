(** Texts of exceptions (C101). *)
From Verif Require Import Base MBuffer SBuffer PBase MEip SEip MYaskawa SText PText PPath MSocket SSocket SObj PObj MFile SFile MIdent MParam SParam SFault
  MWhat SWhat PWhat.
Local Open Scope Z_scope.

(** The computations with texts are the ones of the other properties. *)
Theorem C101_same :
  (forall h data, fst (epath_expand_text h data) = snd (epath_expand h data))
  /\ (forall h data, fst (ypath_expand_text h data) = snd (ypath_expand h data))
  /\ (forall h p to w t, let '(o, (w', _)) := session_register_text h p to (w, t) in (o, w') = session_register h p w)
  /\ (forall h p handle q w t, let '(o, (w', _)) := send_and_receive_text h p handle q (w, t) in (o, w') = send_and_receive h p handle q w)
  /\ (forall S h use8 (si : session_if S) id full s t,
        let '(o, (s', _)) := param_read_text h use8 si id full (s, t) in (o, s') = param_read h use8 si id full s)
  /\ (forall S h use8 (si : session_if S) id s t,
        let '(o, (s', _)) := file_open_text h use8 si id (s, t) in (o, s') = file_open h use8 si id s).
Proof.
  assert (G : forall W A (m : st (W * string) A) n, forgets m n -> forall w t, let '(o, (w', _)) := m (w, t) in (o, w') = n w).
  { intros W A m n F w t. destruct (F w t) as [E1 E2]. destruct (m (w, t)) as [o [w' t']], (n w). cbn [fst snd] in *. congruence. }
  repeat split; intros.
  - apply path_same.
  - apply ypath_same.
  - apply G, register_same.
  - apply G, sar_same.
  - apply G, param_same.
  - apply G, file_same.
Qed.
Print Assumptions C101_same.

(** A path is blamed on the first byte that is no segment type. *)
Theorem C101_path : forall h segs x r, Forall seg_wf segs -> is_u8 x -> ~ is_code x ->
  ends_in "Unknown EPATH segment =" x (snd (epath_expand_text h (path_bytes segs ++ x :: r)))
  /\ ends_in "Unknown EPATH segment =" x (snd (ypath_expand_text h (path_bytes segs ++ x :: r))).
Proof. intros. split; [now apply path_told|now apply ypath_told]. Qed.
Print Assumptions C101_path.
Example C101_path_example :
  Forall seg_wf [Seg8 KClass 6; Seg16 KInst 0 300] /\ is_u8 52 /\ ~ is_code 52
  /\ snd (epath_expand_text strict (path_bytes [Seg8 KClass 6; Seg16 KInst 0 300] ++ [52; 1])) = "Unknown EPATH segment =52"%string.
Proof.
  split; [|split; [unfold is_u8; lia|split; [|reflexivity]]].
  - constructor; [unfold seg_wf, is_u8; lia|]. constructor; [unfold seg_wf, is_u8, is_u16; lia|constructor].
  - intros ([| |] & [E|E]); discriminate.
Qed.

(** A packet of the wrong length is described by both numbers. *)
Theorem C101_length : forall h p0 command length handle status context options data,
  is_u16 command -> is_u16 length -> is_u32 handle -> is_u32 status -> is_u32 options ->
  List.length context = 8%nat -> List.length (e_context p0) = 8%nat -> zlen data <> length ->
  lengths_told length (zlen data) (encaps_text h p0 (encaps_bytes command length handle status context options data)).
Proof. exact encaps_told. Qed.
Print Assumptions C101_length.
Example C101_length_example :
  encaps_text strict encaps0 (encaps_bytes 111 300 7 0 [1;2;3;4;5;6;7;8] 9 [5; 6])
  = "EncapsPacket data must be 300 but we have only 2 bytes"%string.
Proof. reflexivity. Qed.
(** ... but "only" is wrong when there are too many bytes. *)
Theorem C101_length_refuted : exists h p0 command length handle status context options data,
  is_u16 length /\ length < zlen data
  /\ encaps_text h p0 (encaps_bytes command length handle status context options data)
     = "EncapsPacket data must be 1 but we have only 3 bytes"%string.
Proof.
  exists strict, encaps0, 111, 1, 7, 0, [1;2;3;4;5;6;7;8], 9, [5; 6; 7].
  split; [unfold is_u16; lia|]. split; reflexivity.
Qed.
Print Assumptions C101_length_refuted.

(** A refused packet is described by its status, as a signed number. *)
Theorem C101_status : forall h p handle q r w t, sends_all w (encaps_pack q) -> well_formed r -> e_status r <> 0 ->
  forall rest, stream (incoming p w (encaps_pack q)) = encaps_pack r ++ rest ->
  let '(o, (_, t')) := send_and_receive_text h p handle q (w, t) in
  o = Throw (RuntimeError RtSessionStatus)
  /\ ends_in_signed "Bad encaps packet code =" (if e_status r <? 2147483648 then e_status r else e_status r - 4294967296) t'.
Proof. exact sar_status_told. Qed.
Print Assumptions C101_status.
Example C101_status_example :
  let p := fun st : Z => (fun _ _ => [Data (encaps_pack (packet 111 7 st [5]))]) : peer in
  let said st := snd (snd (send_and_receive_text strict (p st) 7 (rr_data_packet 7 0 []) (mkNet [] [] [], EmptyString))) in
  said 100 = "Bad encaps packet code =100"%string /\ said 0 = EmptyString.
Proof. split; reflexivity. Qed.
(** ... so the text of the largest status says -1. *)
Theorem C101_status_refuted : exists h p handle q r w t, sends_all w (encaps_pack q) /\ well_formed r
  /\ stream (incoming p w (encaps_pack q)) = encaps_pack r
  /\ e_status r = 4294967295
  /\ snd (snd (send_and_receive_text h p handle q (w, t))) = "Bad encaps packet code =-1"%string.
Proof.
  exists strict, (fun _ _ => [Data (encaps_pack (packet 111 7 4294967295 [5]))]), 7, (rr_data_packet 7 0 []), (packet 111 7 4294967295 [5]), (mkNet [] [] []), EmptyString.
  split; [exact Logic.I|]. split.
  - split; [|reflexivity]. unfold encaps_wf, is_u16, is_u32, is_bytes. cbn.
    repeat split; try lia; repeat constructor; unfold is_u8; lia.
  - repeat split; reflexivity.
Qed.
Print Assumptions C101_status_refuted.

(** Texts without numbers: a header that is too short, a path that ends within
    a segment, and a reply for another session. An accepted reply says nothing. *)
Theorem C101_plain :
  (forall h p data, (List.length data < 24)%nat -> encaps_text h p data = "EncapsPacket header must be 24 bytes"%string)
  /\ (forall h data, snd (epath_expand h data) = Throw (RuntimeError RtEPathFormat) ->
        snd (epath_expand_text h data) = "Wrong EPATH format"%string)
  /\ (forall h data, snd (ypath_expand h data) = Throw (RuntimeError RtEPathFormat) ->
        snd (ypath_expand_text h data) = "Wrong EPATH format"%string)
  /\ (forall h p handle q r w t rest, sends_all w (encaps_pack q) -> well_formed r ->
        stream (incoming p w (encaps_pack q)) = encaps_pack r ++ rest ->
        let '(o, (_, t')) := send_and_receive_text h p handle q (w, t) in
        (e_status r = 0 -> handle <> 0 -> e_handle r <> handle ->
           o = Throw (RuntimeError RtSessionHandle) /\ t' = "Wrong session handle received"%string)
        /\ (acceptable handle r = true -> o = Ok r /\ t' = t)).
Proof.
  split; [|split; [|split]].
  - intros h p data L. unfold encaps_text, encaps_expand. destruct (Nat.ltb_spec (List.length data) HEADER_SIZE) as [|X]; [reflexivity|].
    unfold HEADER_SIZE in X. lia.
  - intros h data E. apply format_told. now rewrite path_same.
  - intros h data E. apply yformat_told. now rewrite ypath_same.
  - intros h p handle q r w t rest S W E.
    pose proof (fun A B C => handle_told h p handle q r w t S W A B C rest E) as H1.
    pose proof (fun A => accepted_told h p handle q r w t S W A rest E) as H2.
    destruct (send_and_receive_text _ _ _ _ _) as [o [w' t']]. split; assumption.
Qed.
Print Assumptions C101_plain.
Example C101_plain_example :
  let p := fun st hd : Z => (fun _ _ => [Data (encaps_pack (packet 111 hd st [5]))]) : peer in
  let said hd := snd (snd (send_and_receive_text strict (p 0 hd) 7 (rr_data_packet 7 0 []) (mkNet [] [] [], EmptyString))) in
  said 8 = "Wrong session handle received"%string /\ said 7 = EmptyString
  /\ epath_expand_text (fun _ _ => Some 0) [32; 6; 37; 0; 9] = (Throw (RuntimeError RtEPathFormat), "Wrong EPATH format"%string)
  /\ encaps_text strict encaps0 [111; 0] = "EncapsPacket header must be 24 bytes"%string.
Proof. repeat split; reflexivity. Qed.

(** A refused registration: the same text, whatever the address is. *)
Theorem C101_register : forall h p to r w t, sends_all w (encaps_pack register_packet) -> well_formed r -> e_status r <> 0 ->
  forall rest, stream (incoming p w (encaps_pack register_packet)) = encaps_pack r ++ rest ->
  let '(o, (_, t')) := session_register_text h p to (w, t) in
  o = Throw (RuntimeError RtSessionStatus)
  /\ ends_in_signed "Bad encaps packet code =" (if e_status r <? 2147483648 then e_status r else e_status r - 4294967296) t'.
Proof. exact register_told. Qed.
Print Assumptions C101_register.
(** "Failed to register session in" the address is never said. *)
Theorem C101_register_refuted : exists h p to w t,
  session_register_text h p to (w, t)
  = (Throw (RuntimeError RtSessionStatus), (snd (session_register h p w), "Bad encaps packet code =1"%string))
  /\ ep_to_string to = "10.0.0.7:44818"%string.
Proof.
  exists strict, (fun _ _ => [Data (encaps_pack (packet 101 0 1 [1; 0; 0; 0]))]), (mkEP "10.0.0.7" 44818 (mkAddr 2 0 0)), (mkNet [] [] []), EmptyString.
  split; reflexivity.
Qed.
Print Assumptions C101_register_refuted.

(** A parameter: the refused attribute is named. *)
Theorem C101_parameter : forall D h use8 handle (dev : device D) id full d tr t,
  is_u32 handle -> device_wf dev -> sendable use8 id ->
  let '(o, (_, tr', t')) := param_read_text h use8 (served handle dev) id full (d, tr, t) in
  exists new, tr' = tr ++ new /\ refusal_told (parameter_told id) new o t t'.
Proof.
  intros D h use8 handle dev id full d tr t Hh Hd I. destruct (param_worded h use8 handle dev Hh Hd id full I (d, tr) t) as (new & T & R).
  destruct (param_read_text _ _ _ _ _ _) as [o [[d' tr'] t']]. exists new. exact (conj T R).
Qed.
Print Assumptions C101_parameter.
Example C101_parameter_example :
  let said answers := snd (snd (param_read_text strict false (served 7 scripted) 5 true ((answers, []), EmptyString))) in
  let all := done ([1; 2] ++ [0] ++ [4; 0] ++ [199] ++ [2] ++ [1; 65; 0; 0] ++ [0; 0] ++ [9; 0] ++ [0; 0]
                   ++ [1; 0; 1; 0; 0; 0; 0; 0; 0; 0; 0; 0; 0; 0; 0; 0] ++ [0]) in
  said [failed 5] = "Failed to read data size of the parameter"%string
  /\ said [done [2]; failed 5] = "Failed to read all attributes"%string
  /\ said [done [2]; all; done [1; 0]; done [1; 0]; failed 8] = "Failed to read value of attribute=15"%string
  /\ said [done [2]; all; done [1; 0]; done [1; 0]; done [0; 0]; done [0; 0]] = EmptyString.
Proof. repeat split; reflexivity. Qed.

(** A file object: a refused request names the object; a state that is not
    known is not named. *)
Theorem C101_file : forall D h use8 handle (dev : device D) id d tr t a d',
  is_u32 handle -> device_wf dev -> sendable use8 id -> dev d (state_request id) = (a, d') ->
  let '(o, (w, t')) := file_open_text h use8 (served handle dev) id (d, tr, t) in
  w = (d', tr ++ [(state_request id, a)])
  /\ (a_status a <> 0 -> o = Throw (RuntimeError RtRequestFailed) /\ ends_in "Failed load the state of File Object ID=" id t')
  /\ (forall c r, a_status a = 0 -> a_data a = c :: r -> ~ In c [0; 1; 2; 3; 5] ->
        o = Throw (RuntimeError RtFileState) /\ t' = "Read unknown or unsupported state"%string)
  /\ ((exists f, o = Ok f) -> t' = t).
Proof. intros D h use8 handle dev id d tr t a d' Hh Hd. now apply file_told. Qed.
Print Assumptions C101_file.
Example C101_file_example :
  let said answers := snd (snd (file_open_text strict false (served 7 scripted) 200 ((answers, []), EmptyString))) in
  said [failed 5] = "Failed load the state of File Object ID=200"%string
  /\ said [done [4]] = "Read unknown or unsupported state"%string /\ said [done [2]] = EmptyString.
Proof. repeat split; reflexivity. Qed.
