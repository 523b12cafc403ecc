(** Property theorems: what a peer can make the library hold (C104). *)
From Verif Require Import Base MBuffer SBuffer PBase MEip SEip MSocket SSocket SObj SExn MFile SFile MIdent MParam MDisc SDisc MConn SBound PBound PBound2 PHost PDisc PConnHist PConnTop.

(** C104. One exchange sends one packet and takes at most a header and 65535
    bytes from the connection; it never takes more than there is. *)
Theorem C104_exchange : forall h p handle q w o w', send_and_receive h p handle q w = (o, w') ->
  exists got, n_sent w' = n_sent w ++ [got]
    /\ volume (n_in w') <= volume (n_in w) + volume (p (n_sent w) got) <= volume (n_in w') + 24 + 65535.
Proof. intros h p handle q w o w' E. destruct (exchange_volume h p handle q w o w' E) as (got & A & B). exists got. split; [exact A|lia]. Qed.
Print Assumptions C104_exchange.

(** C104. So the packets a session returns hold at most 65535 bytes of data. *)
Theorem C104_session : forall h p handle, byte_peer p -> modest byte_net (live_session h p handle).
Proof. exact live_modest. Qed.
Print Assumptions C104_session.

(** C104. Everything a response holds was in the packet, beside 20 bytes. *)
Theorem C104_response : forall h rcv r, is_bytes (e_data rcv) -> reply_response h rcv = Ok r ->
  footprint r + 20 <= zlen (e_data rcv).
Proof. exact response_size. Qed.
Print Assumptions C104_response.
Theorem C104_request : forall W (I : W -> Prop) h (si : session_if W) use8 service path data extra w o w',
  modest I si -> I w -> send_request h si use8 service path data extra w = (o, w') ->
  I w' /\ forall r, o = Ok r -> footprint r <= 65515.
Proof. exact @request_size. Qed.
Print Assumptions C104_request.

(** C104. An identity object holds a name of at most 255 bytes, a parameter
    object seven pieces of at most 255 bytes, and an update changes no size. *)
Theorem C104_identity : forall W (I : W -> Prop) h use8 (si : session_if W) n w i w', modest I si -> I w ->
  identity_read h use8 si n w = (Ok i, w') -> I w' /\ zlen (str_data (id_name i)) <= 255.
Proof. exact @identity_size. Qed.
Print Assumptions C104_identity.
Theorem C104_parameter : forall W (I : W -> Prop) h use8 (si : session_if W) id full w p w', modest I si -> I w ->
  param_read h use8 si id full w = (Ok p, w') -> param_size p <= 7 * 255.
Proof. exact @parameter_size. Qed.
Print Assumptions C104_parameter.
Theorem C104_update : forall W h use8 (si : session_if W) p w o p' w',
  update_value h use8 si (p, w) = (o, (p', w')) -> param_size p' = param_size p.
Proof. exact @update_size. Qed.
Print Assumptions C104_update.

(** C104. A datagram adds at most 119 devices to the result of discovery. *)
Theorem C104_discovery : forall h k broadcast ds l sent, Forall dgram_bytes ds ->
  discover h k broadcast ds = (Ok l, sent) -> zlen l <= 119 * zlen ds /\ Forall named l.
Proof. exact discover_size. Qed.
Print Assumptions C104_discovery.

(** C104. A datagram for implicit messages makes no connection, and at most one
    listener is called, with at most 8182 bytes. *)
Theorem C104_io : forall h d m o m', dgram_bytes d -> on_readable h d m = (o, m') ->
  List.length (m_map m') = List.length (m_map m)
  /\ exists new, m_log m' = m_log m ++ new /\ zlen new <= 1 /\ Forall small new.
Proof. exact readable_size. Qed.
Print Assumptions C104_io.

(** C104. What a file object holds grows by at most 255 bytes with every
    transfer that is not the last. *)
Theorem C104_upload_partial : forall W (I : W -> Prop) h use8 (si : session_if W) hid n f w o f' w', modest I si -> I w ->
  fo_state f = FLoaded -> upload h use8 si hid n (f, w) = (o, (f', w')) ->
  zlen (held f') <= 255 * Z.of_nat n + 65511
  /\ (o = Ok true -> zlen (held f') <= 255 * Z.of_nat n).
Proof. exact @upload_size. Qed.
Print Assumptions C104_upload_partial.

(** C104 is false of uploads: the announced size is not a bound, and there is no
    other one. The device announces a file of one byte and goes on sending; the
    object takes 255 bytes with every transfer, without a word to the handler. *)
Theorem C104_refuted : exists dev : device unit, device_wf dev /\ forall h use8 handle hid id tr n, is_u32 handle -> sendable use8 id ->
  exists f tr1 f' tr', file_open h use8 (served handle dev) id (tt, tr) = (Ok f, (tt, tr1))
    /\ upload h use8 (served handle dev) hid n (f, (tt, tr1)) = (Ok true, (f', (tt, tr')))
    /\ announced_size f' = Some 1 /\ zlen (held f') = 255 * Z.of_nat n /\ fo_calls f' = [].
Proof. exact endless_refutes. Qed.
Print Assumptions C104_refuted.

(** ** Concrete cases *)

(** A session with the same answer to everything. *)
Definition same_answer (service : Z) (a : answer) : session_if unit :=
  mkSession 7 (fun _ w => (Ok (reply_packet 7 service a), w)).
Lemma same_modest service a : 0 <= service < 128 -> answer_wf a -> modest (fun _ => True) (same_answer service a).
Proof.
  intros S A q w o w' _ E. split; [exact Logic.I|]. intros r ->. cbn [si_exchange same_answer] in E.
  assert (X : reply_packet 7 service a = r) by congruence. subst r.
  destruct (reply_packet_wf 7 service a) as [(_ & L & _ & _ & _ & _ & _ & B) Z]; [unfold is_u32; lia|exact S|exact A|].
  split; [exact B|]. rewrite <- Z. unfold is_u16 in L. lia.
Qed.
Definition an_identity : bytes := [1; 0; 2; 0; 3; 0; 1; 1; 0; 0; 1; 2; 3; 4; 3; 65; 66; 67].
Example C104_identity_example : modest (fun _ => True) (same_answer 1 (done an_identity))
  /\ exists i, identity_read strict false (same_answer 1 (done an_identity)) 1 tt = (Ok i, tt) /\ str_data (id_name i) = [65; 66; 67].
Proof.
  split; [apply same_modest; [lia|apply PFile.done_wf; [repeat constructor; unfold is_u8; lia|cbn; lia]]|].
  eexists. split; vm_compute; reflexivity.
Qed.
Definition a_parameter : bytes := [2; 9; 0; 0; 0; 0; 0; 0; 0; 0].
Example C104_parameter_example : modest (fun _ => True) (same_answer 1 (done a_parameter))
  /\ exists p, param_read strict false (same_answer 1 (done a_parameter)) 5 false tt = (Ok p, tt) /\ pa_value p = [2; 9] /\ param_size p = 8.
Proof.
  split; [apply same_modest; [lia|apply PFile.done_wf; [repeat constructor; unfold is_u8; lia|cbn; lia]]|].
  eexists. split; [vm_compute; reflexivity|]. split; vm_compute; reflexivity.
Qed.
Definition a_piece : bytes := [0; 1; 0; 0; 2; 9].
Example C104_upload_example : modest (fun _ => True) (same_answer 75 (done a_piece))
  /\ exists f, upload strict false (same_answer 75 (done a_piece)) 3 1 (mkFile 200 FLoaded [], tt) = (Ok true, (f, tt))
      /\ held f = [0; 0] /\ announced_size f = Some 256.
Proof.
  split; [apply same_modest; [lia|apply PFile.done_wf; [repeat constructor; unfold is_u8; lia|cbn; lia]]|].
  eexists. split; [vm_compute; reflexivity|]. split; vm_compute; reflexivity.
Qed.
(** A response of eight bytes in a packet of 28. *)
Example C104_response_example : let rcv := reply_packet 7 14 (mkAns 0 [1; 2] [3; 4; 5; 6]) in
  is_bytes (e_data rcv) /\ zlen (e_data rcv) = 28
  /\ exists r, reply_response strict rcv = Ok r /\ footprint r = 8.
Proof.
  cbv zeta. split; [vm_compute; repeat constructor; discriminate|]. split; [vm_compute; reflexivity|].
  eexists. split; [vm_compute; reflexivity|vm_compute; reflexivity].
Qed.
(** A reply and four bytes more: these stay. *)
Example C104_exchange_example :
  let p : peer := fun _ _ => [Data (encaps_pack (reply_packet 7 14 (done [1; 2])) ++ [9; 9; 9; 9])] in
  exists o w', send_and_receive strict p 7 (reply_packet 7 14 (done [])) (mkNet [] [] []) = (Ok o, w')
    /\ volume (n_in w') = 4 /\ zlen (e_data o) = 22.
Proof. cbv zeta. eexists. eexists. split; [vm_compute; reflexivity|]. split; vm_compute; reflexivity. Qed.
(** 119 devices from one datagram. *)
Example C104_discovery_example : let l := zeros 24 ++ [119; 0] ++ zeros 476 in
  dgram_bytes (Dgram l) /\ List.length l = 502%nat
  /\ match discover (fun _ _ => Some 0) dk_fine lan [Dgram l] with (Ok es, _) => zlen es | _ => 0 end = 119.
Proof.
  cbv zeta. split; [|split; [reflexivity|vm_compute; reflexivity]].
  cbn [dgram_bytes]. apply is_bytes_app. split; [apply PBound2.zeros_bytes|]. apply is_bytes_app. split; [repeat constructor; unfold is_u8; lia|apply PBound2.zeros_bytes].
Qed.
Example C104_io_example : dgram_bytes (Dgram (gram 0x10007 [1; 0; 9; 9]))
  /\ exists m', on_readable strict (Dgram (gram 0x10007 [1; 0; 9; 9])) (w_m after1 0%nat) = (Ok tt, m')
     /\ m_log m' = [EvData 0 0 1 [9; 9]].
Proof.
  split; [cbn [dgram_bytes]; vm_compute; repeat constructor; discriminate|]. eexists. split; vm_compute; reflexivity.
Qed.
Example C104_refuted_example : device_wf endless /\ is_u32 7 /\ sendable true 200.
Proof. split; [exact endless_wf|]. split; [unfold is_u32; lia|]. split; [unfold is_u16; lia|intros; lia]. Qed.
