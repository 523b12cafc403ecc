(** Listeners that use the connection manager: C77. *)
From Verif Require Import Base MBuffer SBuffer MEip SEip MSocket SSocket MConnReq SConnReq MConn SConn PConnMap PConnTop SLife PLife MReent SReent PReent PThrow.

(** Listeners that make no calls: as described by C37 - C47. *)
Theorem C77_passive : forall S h env rounds ending g m (s : S), listened S g m ->
  listen_connections h (passive env) rounds ending env (g, m, s)
  = let '(o, m') := handle_connections h rounds ending env m in (o, (g, m', s)).
Proof. intros S h env rounds ending g m s R. apply passive_same. eapply listened_inv; eassumption. Qed.
Print Assumptions C77_passive.
(** The manager is any that calls and listeners can lead to ([listened]). One
    with one connection, for this and the next two theorems: [C77_example] below. *)

(** Any calls of listeners but a close or send listener closing the connection
    it is called for: the call ends as one of the listeners' own calls, the
    handling of a datagram, a sendto() or the ::select() did, or returns. The
    full claim, without the restriction, is false. *)
Theorem C77_safe_partial : forall S h (L : listeners S) env rounds ending g m s o w, listened S g m -> polite L ->
  listen_connections h L rounds ending env (g, m, s) = (o, w) -> o <> Ok tt ->
  ends h L o
  \/ (exists d m', In d (arriving (List.length (m_socks m)) rounds) /\ fst (on_readable h d m') = o)
  \/ (exists oid n, o = send_check n (t_send env oid n))
  \/ (exists e, ending = SelFail e /\ o = Throw (SystemError e))
  \/ (m_socks m = [] /\ o = Undef UbDerefEnd).
Proof. intros S h L env rounds ending g m s o w R P. apply listen_ends; [assumption|]. eapply listened_inv; eassumption. Qed.
Print Assumptions C77_safe_partial.

(** A connection that no listener closes gets what arrives for it and exactly
    one tick, whatever the listeners of all connections do; apart from that
    only its output data may change. *)
Theorem C77_undisturbed : forall S (L : listeners S) rounds ending env oid g m s c g' m' s', listened S g m -> spares L oid ->
  lock oid m = Some c -> byte_grams (CHandle (S := S) rounds ending env) ->
  listen_connections strict L rounds ending env (g, m, s) = (Ok tt, (g', m', s')) ->
  exists xs ds d, deliveries (io_t2oId c) (arriving (List.length (m_socks m)) rounds) ds
    /\ unset xs = map (Recv 0) ds ++ [Tick (t_now env oid) (fun _ => d) (t_send env oid)]
    /\ about oid (m_log m') = about oid (m_log m) ++ snd (io_run strict xs c)
    /\ match fst (io_run strict xs c) with
       | Open c' => lock oid m' = Some c'
       | Closed => lock oid m' = None
       | Broken => False
       end.
Proof. intros S L rounds ending env oid g m s c g' m' s' R P. apply listen_one; [assumption|]. eapply listened_inv; eassumption. Qed.
Print Assumptions C77_undisturbed.

(** A close or a send listener that closes its connection. *)
Theorem C77_refuted : exists g m s (L : listeners (list encaps)) env w, reachable (list encaps) g m
  /\ (forall w oid, exists u si, l_close L w oid = [LClose u si oid]) /\ (forall w oid d, l_send L w oid d = [])
  /\ listen_connections strict L [] SelQuiet env (g, m, s) = (Undef UbDangling, w).
Proof.
  destruct closer_dangles as [w E]. exists (w_g after1), (w_m after1 0%nat), (w_s after1), closer, (at_ms 70), w.
  split; [exact after1_reach|]. split; [|split; [reflexivity|exact E]]. intros. do 2 eexists. reflexivity.
Qed.
Print Assumptions C77_refuted.
Theorem C77_send_refuted : exists g m s (L : listeners (list encaps)) env w, reachable (list encaps) g m
  /\ (forall w oid, l_close L w oid = []) /\ (forall w oid d, exists u si, l_send L w oid d = [LClose u si oid])
  /\ listen_connections strict L [] SelQuiet env (g, m, s) = (Undef UbDangling, w).
Proof.
  destruct quitter_dangles as [w E]. exists (w_g after1), (w_m after1 0%nat), (w_s after1), quitter, (at_ms 20), w.
  split; [exact after1_reach|]. split; [reflexivity|split; [|exact E]]. intros. do 2 eexists. reflexivity.
Qed.
Print Assumptions C77_send_refuted.
(** A connection opened by a listener is removed at the end of the same call,
    without a timeout and without its close listener being called: it took the
    place of one that had timed out. *)
Theorem C77_lost_refuted : exists g m s (L : listeners (list encaps)) env oid g' m' s', reachable (list encaps) g m /\ polite L /\ spares L oid
  /\ g_oid g = oid /\ g_oid g' = Datatypes.S oid
  /\ listen_connections strict L [] SelQuiet env (g, m, s) = (Ok tt, (g', m', s'))
  /\ lock oid m' = None /\ about oid (m_log m') = [].
Proof.
  destruct replacer_loses as (g' & m' & s' & E & G & G' & Lk & A & _).
  exists (w_g after12), (w_m after12 0%nat), (w_s after12), replacer, (at_ms 70), 2%nat, g', m', s'.
  split; [exact after12_reach|]. destruct replacer_polite as [P1 P2].
  split; [exact P1|]. split; [exact P2|]. split; [exact G|]. split; [exact G'|]. split; [exact E|]. split; [exact Lk|exact A].
Qed.
Print Assumptions C77_lost_refuted.

(** A receive listener copies the data to the output and opens a second
    connection, which is then ticked, too. *)
Example C77_example :
  listened (list encaps) (w_g after1) (w_m after1 0%nat) /\ polite opener /\ spares opener 0 /\ lock 0 (w_m after1 0%nat) = Some con1
  /\ exists g' m' s',
  listen_connections strict opener [mkRound [Some (Dgram (gram 0x10007 [1; 0; 9]))] 0] SelQuiet (at_ms 20)
    (w_g after1, w_m after1 0%nat, w_s after1) = (Ok tt, (g', m', s'))
  /\ about 0 (m_log m') = [EvData 0 0 1 [9]; EvSent 0 (io_dest con1) (io_packet (spec_of con1) 1 [9])]
  /\ about 1 (m_log m') = [EvSent 1 (io_dest con1) (io_packet (spec_of con1) 1 [])] /\ lock 1 m' <> None.
Proof.
  split; [apply reachable_listened, after1_reach|]. split; [intros w oid d; exact (proj2 (opener_spares oid w oid 0 0 d))|].
  split; [apply opener_spares|]. split; [vm_compute; reflexivity|]. exact opener_runs.
Qed.
