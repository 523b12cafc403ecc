(** C105: how long calls take. *)
From Verif Require Import Base MBuffer SBuffer PBase MEip SEip MSocket SSocket PSocket SExn MIdent MParam MFile MDisc MTime STime SBound PTime PTime2.

(** C105. The timeout is set in milliseconds; a negative one is 0, which waits for
    ever. *)
Theorem C105_wait : forall ms, wait_of ms = Z.max 0 ms.
Proof. exact wait_ms. Qed.
Print Assumptions C105_wait.

(** C105. With a timeout an exchange ends, if its send does. *)
Theorem C105_returns : forall h T p handle q w, 0 < T -> sends_return w ->
  exists o w', exchange_timed h T p handle q w = Some (o, w').
Proof. exact exchange_returns. Qed.
Print Assumptions C105_returns.

(** C105. Time changes nothing else: the exchange does what it does without a
    clock on the same bytes, in which the timeout has struck once at most. *)
Theorem C105_same : forall h T p handle q w o w', 0 <= T -> exchange_timed h T p handle q w = Some (o, w') ->
  exists got s, tn_sent w' = tn_sent w ++ [got] /\ interrupted (atoms (untimed (coming p w got))) s
  /\ send_and_receive h (fun _ _ => []) handle q (mkNet (tn_sent w) s (map fst (tn_results w)))
     = (o, mkNet (tn_sent w') (atoms (untimed (tn_in w'))) (map fst (tn_results w'))).
Proof. exact exchange_same. Qed.
Print Assumptions C105_same.
(** So what C99 and C104 say about sessions holds for sessions with a clock. *)
Theorem C105_session : forall h T p handle, 0 <= T -> byte_tpeer p ->
  decent byte_tnet (timed_session h T p handle) /\ modest byte_tnet (timed_session h T p handle).
Proof. exact timed_decent. Qed.
Print Assumptions C105_session.

(** C105. An exchange takes at most the timeout for each of 65559 bytes, beside
    its send and the signals that come meanwhile. *)
Theorem C105_bound : forall h T p handle q w o w', 0 < T -> exchange_timed h T p handle q w = Some (o, w') ->
  exists got, tn_sent w' = tn_sent w ++ [got]
  /\ tn_clock w <= tn_clock w'
  /\ tn_clock w' + T * signals (tn_in w') <= tn_clock w + send_time w + T * signals (coming p w got) + T * 65559.
Proof. exact exchange_takes. Qed.
Print Assumptions C105_bound.

(** C105. If all that comes is there at a certain time, the exchange has ended
    then, or ends with the timeout after it. *)
Theorem C105_prompt_partial : forall h T p handle q w o w' lim, 0 <= T -> tn_clock w + send_time w <= lim ->
  (forall got, there_by lim (coming p w got)) -> exchange_timed h T p handle q w = Some (o, w') ->
  there_by lim (tn_in w') /\ (tn_clock w' <= lim \/ o = Throw (SystemError 11) /\ tn_clock w' <= lim + T).
Proof. exact exchange_prompt. Qed.
Print Assumptions C105_prompt_partial.
Theorem C105_silent : forall h T handle q c sent, 0 < T ->
  exchange_timed h T (fun _ _ _ => []) handle q (mkTnet c sent [] [])
  = Some (Throw (SystemError 11), mkTnet (c + T) (sent ++ [encaps_pack q]) [] []).
Proof. exact exchange_silent. Qed.
Print Assumptions C105_silent.

(** C105. The objects make as many exchanges as they have requests. *)
Theorem C105_objects : forall h T p handle use8, 0 < T -> unsignalled p ->
  let si := timed_session h T p handle in
  (forall service path data extra w o w', sends_return w ->
     send_request h si use8 service path data extra w = (o, w') -> sends_return w' /\ within T 1 w w')
  /\ (forall n w o w', sends_return w -> identity_read h use8 si n w = (o, w') -> sends_return w' /\ within T 1 w w')
  /\ (forall id full w o w', sends_return w -> param_read h use8 si id full w = (o, w') -> sends_return w' /\ within T 6 w w')
  /\ (forall q w o q' w', sends_return w -> update_value h use8 si (q, w) = (o, (q', w')) -> sends_return w' /\ within T 1 w w')
  /\ (forall id w o w', sends_return w -> file_open h use8 si id w = (o, w') -> sends_return w' /\ within T 1 w w')
  /\ (forall hid f w o f' w', sends_return w -> begin_upload h use8 si hid (f, w) = (o, (f', w')) -> sends_return w' /\ within T 1 w w')
  /\ (forall f w o f' w', sends_return w -> handle_transfers h use8 si (f, w) = (o, (f', w')) -> sends_return w' /\ within T 1 w w').
Proof.
  intros h T p handle use8 P U si. split; [|split; [|split; [|split; [|split; [|split]]]]]; intros.
  - eapply request_bounded; eassumption.
  - eapply identity_bounded; eassumption.
  - eapply param_bounded; eassumption.
  - eapply update_bounded; eassumption.
  - eapply file_bounded; eassumption.
  - eapply begin_bounded; eassumption.
  - eapply transfer_bounded; eassumption.
Qed.
Print Assumptions C105_objects.

(** C105. Opening a session: the timeout for the connection, and one exchange. *)
Theorem C105_open : forall h timeout k waited p w, 0 < timeout -> unsignalled p -> sends_return w ->
  exists o w', open_timed h timeout k waited p w = Some (o, w')
  /\ tn_clock w <= tn_clock w' /\ due timeout w' <= due timeout w + timeout + timeout * 65559.
Proof. exact open_takes. Qed.
Print Assumptions C105_open.
Theorem C105_open_same : forall h timeout k waited p w o w', open_timed h timeout k waited p w = Some (o, w') ->
  match fst (tcp_connect k) with
  | Throw e => o = Throw e /\ tn_sent w' = tn_sent w /\ tn_in w' = tn_in w /\ tn_results w' = tn_results w
  | _ => exists got s w1, tn_clock w <= tn_clock w1 /\ tn_sent w1 = tn_sent w /\ tn_in w1 = tn_in w /\ tn_results w1 = tn_results w
         /\ tn_sent w' = tn_sent w ++ [got] /\ interrupted (atoms (untimed (coming p w1 got))) s
         /\ session_register h (fun _ _ => []) (mkNet (tn_sent w) s (map fst (tn_results w)))
            = (o, mkNet (tn_sent w') (atoms (untimed (tn_in w'))) (map fst (tn_results w')))
  end.
Proof. exact open_same. Qed.
Print Assumptions C105_open_same.

(** C105. Discovery hears what comes before a gap longer than the timeout. *)
Theorem C105_discovery : forall h T c ds, 0 < T -> exists c',
  disc_timed h T [] c ds = Some (disc_loop h [] (heard T c ds), c')
  /\ c <= c' <= heard_until T c ds + T
  /\ c' <= c + T * (zlen ds + 1)
  /\ forall lim, Forall (fun e => fst e <= lim) ds -> c' <= Z.max c lim + T.
Proof.
  intros h T c ds P. destruct (disc_heard h T ds P [] c) as (c' & E & B). exists c'. split; [exact E|]. split; [exact B|].
  pose proof (heard_bound T ds ltac:(lia) c). split; [lia|]. intros lim F. pose proof (heard_there T ds lim F c). lia.
Qed.
Print Assumptions C105_discovery.

(** C105 is false for slow peers: the timeout holds for each recv(), not for the
    call. A reply whose bytes come one by one, each at the end of the timeout, is
    waited for to its last byte. *)
Theorem C105_slow : forall h T handle q c sent r, 0 < T -> well_formed r ->
  exchange_timed h T (fun _ _ c => drip T c (encaps_pack r)) handle q (mkTnet c sent [] [])
  = Some (verdict handle r, mkTnet (c + T * zlen (encaps_pack r)) (sent ++ [encaps_pack q]) [] []).
Proof. exact exchange_drip. Qed.
Print Assumptions C105_slow.

Theorem C105_slowest : forall h T handle q, 0 < T -> is_u32 handle -> exists p w r w',
  byte_tpeer p /\ unsignalled p /\ pending w = 0 /\ tn_in w = []
  /\ exchange_timed h T p handle q w = Some (Ok r, w') /\ tn_clock w' = tn_clock w + 65559 * T.
Proof. exact exchange_longest. Qed.
Print Assumptions C105_slowest.
Theorem C105_refuted : exists T p handle q w r w', 0 < T /\ byte_tpeer p /\ unsignalled p /\ pending w = 0 /\ tn_in w = []
  /\ exchange_timed strict T p handle q w = Some (Ok r, w') /\ tn_clock w + T < tn_clock w'.
Proof.
  destruct (C105_slowest strict 1000 7 register_packet ltac:(lia)) as (p & w & r & w' & A & B & C & D & E & F); [unfold is_u32; lia|].
  exists 1000, p, 7, register_packet, w, r, w'. repeat (split; [assumption || lia|]). lia.
Qed.
Print Assumptions C105_refuted.
(** Without a timeout, or in a send that does not return, the call does not end. *)
Theorem C105_forever_refuted : exists p w w0, pending w = 0 /\ tn_in w = [] /\ byte_tpeer p
  /\ (forall h handle q, exchange_timed h (wait_of 0) p handle q w = None)
  /\ tn_in w0 = [] /\ forall h T handle q, exchange_timed h T p handle q w0 = None.
Proof.
  exists (fun _ _ _ => []), (mkTnet 0 [] [] []), (mkTnet 0 [] [] [(mkSend 0 0, None)]). repeat split; intros; constructor || apply exchange_hangs.
Qed.
Print Assumptions C105_forever_refuted.

(** C105 is false of discovery: any number of datagrams, at intervals of the
    timeout, keeps it going; without a timeout it does not end. *)
Theorem C105_discovery_refuted : exists T chatter, 0 < T /\ forall h n, List.length (chatter n) = n
  /\ disc_timed h T [] 0 (chatter n) = Some (Ok [], T * (Z.of_nat n + 1))
  /\ forall c, disc_timed h (wait_of 0) [] c (chatter n) = None.
Proof.
  assert (P : 0 < 1000) by lia. revert P. generalize 1000. intros T P. exists T, (trickle T 0 (Dgram (zeros 26))). split; [exact P|]. intros h n.
  assert (D : forall acc, bind (fst (udp_receive EIP_MAX_PACKET_SIZE [Dgram (zeros 26)])) (fun data => disc_reply h data acc) = Ok acc) by (intros acc; reflexivity).
  split; [generalize 0; induction n as [|n IH]; intros c; [reflexivity|cbn [trickle List.length]; f_equal; apply IH]|]. split; [now apply disc_trickle|].
  intros c. apply (disc_hangs h). intros t d acc X. assert (d = Dgram (zeros 26)) as ->; [|exists acc; apply D].
  clear -X. revert X. generalize 0. induction n as [|n IH]; intros c X; [destruct X|]. cbn [trickle] in X. destruct X as [X|X]; [congruence|]. now apply IH in X.
Qed.
Print Assumptions C105_discovery_refuted.

(** Examples: a reply in two pieces, the second after 700 ms; with a timeout of
    500 ms it is not received, with one of 1000 ms it is. *)
Definition ex_reply : bytes := encaps_pack (mkEncaps 111 2 9 0 (zeros 8) 0 [7; 8]).
Definition ex_peer : tpeer := fun _ _ c => [(c + 20, Data (firstn 24 ex_reply)); (c + 720, Data (skipn 24 ex_reply))].
Definition ex_net : tnet := mkTnet 1000 [] [] [(mkSend 26 0, Some 5)].
Definition ex_packet : encaps := mkEncaps 111 2 9 0 (zeros 8) 0 [1; 2].
Example ex_in_time : exchange_timed strict (wait_of 1000) ex_peer 9 ex_packet ex_net
  = Some (Ok (mkEncaps 111 2 9 0 (zeros 8) 0 [7; 8]), mkTnet 1725 [encaps_pack ex_packet] [] []).
Proof. reflexivity. Qed.
Example ex_too_late : exchange_timed strict (wait_of 500) ex_peer 9 ex_packet ex_net
  = Some (Throw (SystemError 11), mkTnet 1525 [encaps_pack ex_packet] [(1725, Data [7; 8])] []).
Proof. reflexivity. Qed.
Example ex_meets : sends_return ex_net /\ byte_tpeer ex_peer /\ unsignalled ex_peer
  /\ (forall got, there_by 1725 (coming ex_peer ex_net got)) /\ tn_clock ex_net + send_time ex_net <= 1725.
Proof.
  split; [repeat constructor; discriminate|]. split; [intros sent data c; vm_compute; repeat constructor; discriminate|].
  split; [intros sent data c; reflexivity|]. split; [intros got; vm_compute; repeat constructor; discriminate|]. vm_compute. discriminate.
Qed.
Example ex_slow_formed : well_formed (mkEncaps 111 2 9 0 (zeros 8) 0 [7; 8]).
Proof. unfold well_formed, encaps_wf; cbn; repeat split; try lia; repeat constructor; unfold is_u8; lia. Qed.
Example ex_disc : disc_timed strict (wait_of 300) [] 0 [(100, Dgram (zeros 26)); (350, Dgram (zeros 26)); (700, DErr 9)] = Some (Ok [], 650)
  /\ heard 300 0 [(100, Dgram (zeros 26)); (350, Dgram (zeros 26)); (700, DErr 9)] = [Dgram (zeros 26); Dgram (zeros 26)].
Proof. split; reflexivity. Qed.
