(** C99: only the documented exceptions are thrown. *)
From Verif Require Import Base MBuffer SBuffer PBase MEip SEip MSocket SSocket MFile MIdent MParam MYaskawa MFd MRes SExn PExn.
Local Open Scope Z_scope.

(** The constructor of a session. *)
Theorem C99_session : forall h fd k p w e w' l, byte_peer p -> byte_net w ->
  session_open_fd h fd k p w = (Throw e, w', l) -> documented e.
Proof. intros h fd k p w e w' l P B E. pose proof (open_tame h fd k p w P B) as T. rewrite E in T. exact T. Qed.
Print Assumptions C99_session.

(** An exchange over a session. *)
Theorem C99_exchange : forall h p handle, byte_peer p -> decent byte_net (live_session h p handle).
Proof. intros. now apply live_decent. Qed.
Print Assumptions C99_exchange.

(** Over any session that throws nothing else, and so over every TCP session. *)
Theorem C99_request : forall W (I : W -> Prop) h use8 si service path data extra, decent I si ->
  announced I (send_request h (recording si) use8 service path data extra).
Proof. intros. now apply request_announced. Qed.
Print Assumptions C99_request.
Theorem C99_yaskawa : forall W (I : W -> Prop) h si service path data extra, decent I si ->
  announced I (ysend_request h (recording si) service path data extra).
Proof. intros. now apply yaskawa_announced. Qed.
Print Assumptions C99_yaskawa.
Theorem C99_identity : forall W (I : W -> Prop) h use8 si n, decent I si -> announced I (identity_read h use8 (recording si) n).
Proof. intros. now apply identity_announced. Qed.
Print Assumptions C99_identity.
Theorem C99_parameter : forall W (I : W -> Prop) h use8 si id full, decent I si -> announced I (param_read h use8 (recording si) id full).
Proof. intros. now apply param_announced. Qed.
Print Assumptions C99_parameter.
Theorem C99_update : forall W (I : W -> Prop) h use8 si p w l o p' w' l', decent I si -> I w ->
  update_value h use8 (recording si) (p, (w, l)) = (o, (p', (w', l'))) ->
  I w' /\ exists new, l' = l ++ new /\ blamed o new.
Proof. intros until 2. now apply update_announced. Qed.
Print Assumptions C99_update.
Theorem C99_file : forall W (I : W -> Prop) h use8 si id, decent I si -> announced I (file_open h use8 (recording si) id).
Proof. intros. now apply file_announced. Qed.
Print Assumptions C99_file.

(** Recording changes nothing. *)
Theorem C99_recording : forall W (si : session_if W) q w l,
  si_handle (recording si) = si_handle si
  /\ fst (si_exchange (recording si) q (w, l)) = fst (si_exchange si q w)
  /\ fst (snd (si_exchange (recording si) q (w, l))) = snd (si_exchange si q w).
Proof. intros. cbn. destruct (si_exchange si q w) as [o w']. repeat split. Qed.
Print Assumptions C99_recording.

(** A packet that is blamed is to blame: whoever receives it as the reply gets
    that exception, or reads past the end of it. *)
Theorem C99_misshaped : forall W (si : session_if W) h use8 service path data extra w w' r e,
  (forall q, si_exchange si q w = (Ok r, w')) -> is_bytes (e_data r) -> misshaped r e ->
  send_request h si use8 service path data extra w = (Throw e, w')
  \/ e = OutOfRange /\ send_request h si use8 service path data extra w = (Undef UbOobRead, w').
Proof.
  intros W si h use8 service path data extra w w' r e X B M. unfold send_request. rewrite X.
  destruct (misshaped_thrown h r e B M) as [->|[-> ->]]; [left|right; split]; reflexivity.
Qed.
Print Assumptions C99_misshaped.

(** The headers announce no other exception, but an adapter can cause one. *)
Theorem C99_refuted : exists p1 p2, byte_peer p1 /\ byte_peer p2 /\ forall h use8, exists w1 w2,
  identity_read h use8 (live_session h p1 7) 1 (mkNet [] [] []) = (Throw LengthError, w1)
  /\ identity_read h use8 (live_session h p2 7) 1 (mkNet [] [] []) = (Throw OutOfRange, w2).
Proof.
  exists (fun _ _ => [Data (encaps_pack (packet 111 7 0 []))]), (fun _ _ => [Data (encaps_pack (packet 111 7 0 (zeros 8)))]).
  split; [intros s d; apply bytes_seg; vm_compute; repeat constructor; discriminate|].
  split; [intros s d; apply bytes_seg; vm_compute; repeat constructor; discriminate|].
  intros h [|]; eexists _, _; (split; vm_compute; reflexivity).
Qed.
Print Assumptions C99_refuted.

(** Concrete cases: each hypothesis holds for a TCP session, and both kinds of
    exception occur. *)
Definition cut_off : peer := fun _ _ => [Data (encaps_pack (packet 111 7 0 []))].
Definition refusing : peer := fun _ _ => [Data (encaps_pack (packet 111 7 1 []))].
Example C99_decent_ex : decent byte_net (live_session strict cut_off 7) /\ decent byte_net (live_session strict refusing 7) /\ byte_net (mkNet [] [] []).
Proof.
  split; [apply live_decent; intros s d; apply bytes_seg; vm_compute; repeat constructor; discriminate|].
  split; [apply live_decent; intros s d; apply bytes_seg; vm_compute; repeat constructor; discriminate|]. constructor.
Qed.
Example C99_file_ex : exists w1 w2,
  file_open strict false (recording (live_session strict cut_off 7)) 200 (mkNet [] [] [], []) = (Throw LengthError, (w1, [packet 111 7 0 []]))
  /\ file_open strict false (recording (live_session strict refusing 7)) 200 (mkNet [] [] [], []) = (Throw (RuntimeError RtSessionStatus), (w2, [])).
Proof. eexists _, _. split; vm_compute; reflexivity. Qed.
Example C99_misshaped_ex : misshaped (packet 111 7 0 []) LengthError /\ misshaped (packet 111 7 0 (zeros 8)) OutOfRange.
Proof.
  split; [cbn; lia|]. right. exists 0, 0, 0, [], []. split; [reflexivity|]. split; [unfold is_u16; lia|]. split; [constructor|]. split; [cbn; lia|]. left. reflexivity.
Qed.
Example C99_session_ex : exists w l, byte_peer refusing /\ byte_net (mkNet [] [] [])
  /\ session_open_fd strict 5 (mkCalls None 2 None None (Some 115) (1, 0) None 0 None None) refusing (mkNet [] [] []) = (Throw (RuntimeError RtSessionStatus), w, l).
Proof.
  eexists _, _. split; [intros s d; apply bytes_seg; vm_compute; repeat constructor; discriminate|]. split; [constructor|]. vm_compute. reflexivity.
Qed.
