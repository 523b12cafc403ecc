(** C93: listeners that call handleConnections. *)
From Verif Require Import Base MBuffer MEip MSocket MConnReq MConn SConn SLife PConnTop PLife MReent SReent PReent MDeep SDeep PDeep.

(** Listeners that do not call it: as in C77. *)
Theorem C93_same : forall S h (L : listeners S) n rounds ending env g m s, dlistened S g m ->
  deep h (shallow L) (Datatypes.S n) rounds ending env (g, m, s) = listen_connections h L rounds ending env (g, m, s).
Proof. intros S h L n rounds ending env g m s R. apply shallow_deep. eapply dlistened_inv; eassumption. Qed.
Print Assumptions C93_same.

(** Only receive listeners call handleConnections, and no close or send listener
    closes its own connection: the call ends as something in it or in an inner
    call did, there is no more room on the stack, or it returns. The full
    claim, without the restrictions, is false. *)
Theorem C93_safe_partial : forall S h (L : dlisteners S) n rounds ending env g m s o w, dlistened S g m -> calm L -> dpolite L ->
  deep h L n rounds ending env (g, m, s) = (o, w) -> o <> Ok tt ->
  fails h L n rounds ending env o \/ m_socks m = [] /\ o = Undef UbDerefEnd.
Proof. exact @deep_ends. Qed.
Print Assumptions C93_safe_partial.
(** The inner call needs room for a second call. *)
Example C93_stack_example : dlistened (list encaps) (w_g after1) (w_m after1 0%nat) /\ calm waiter /\ dpolite waiter
  /\ exists w, deep strict waiter 1 [mkRound [Some (Dgram (gram 0x10007 [1; 0; 9]))] 0] SelQuiet (at_ms 20)
       (w_g after1, w_m after1 0%nat, w_s after1) = (Abort, w).
Proof.
  split; [apply reachable_dlistened, after1_reach|]. destruct (waiter_ok 0) as (C & P & _). split; [exact C|]. split; [exact P|]. exact waiter_stack.
Qed.

(** A connection that no listener closes gets what arrives for it, in the outer
    and in the inner calls, and in each of these one tick, as long as it is
    there; all in the order of the program. *)
Theorem C93_each_partial : forall S (L : dlisteners S) oid n rounds ending env g m s c g' m' s', dlistened S g m -> calm L -> dspares L oid -> octets L ->
  lock oid m = Some c -> byte_grams (CHandle (S := S) rounds ending env) ->
  deep strict L n rounds ending env (g, m, s) = (Ok tt, (g', m', s')) ->
  exists ev, whole L oid (List.length (m_socks m)) rounds env (Some c) ev (lock oid m') /\ about oid (m_log m') = about oid (m_log m) ++ ev.
Proof. exact @deep_each. Qed.
Print Assumptions C93_each_partial.
(** It is one history of a connection: what is true of all of these (C39 to C45)
    is true of its events, so that sequence numbers are sent in order and the
    close listener is called at most once. *)
Theorem C93_run_partial : forall S (L : dlisteners S) oid n rounds ending env g m s c g' m' s', dlistened S g m -> calm L -> dspares L oid -> octets L ->
  lock oid m = Some c -> byte_grams (CHandle (S := S) rounds ending env) ->
  deep strict L n rounds ending env (g, m, s) = (Ok tt, (g', m', s')) ->
  exists xs, about oid (m_log m') = about oid (m_log m) ++ snd (io_run strict xs c)
    /\ fst (io_run strict xs c) = match lock oid m' with Some c' => Open c' | None => Closed end.
Proof. exact @deep_run. Qed.
Print Assumptions C93_run_partial.
(** A receive listener waits for the next datagram. *)
Example C93_example : dlistened (list encaps) (w_g after1) (w_m after1 0%nat) /\ calm waiter /\ dspares waiter 0 /\ octets waiter
  /\ lock 0 (w_m after1 0%nat) = Some con1
  /\ exists g' m' s',
  deep strict waiter 2 [mkRound [Some (Dgram (gram 0x10007 [1; 0; 9]))] 0] SelQuiet (at_ms 20) (w_g after1, w_m after1 0%nat, w_s after1) = (Ok tt, (g', m', s'))
  /\ about 0 (m_log m') = [EvData 0 0 1 [9]; EvData 0 0 2 [8];
                           EvSent 0 (io_dest con1) (io_packet (spec_of con1) 1 []); EvSent 0 (io_dest con1) (io_packet (spec_of con1) 2 [])].
Proof.
  split; [apply reachable_dlistened, after1_reach|]. destruct (waiter_ok 0) as (C & _ & D & O). split; [exact C|]. split; [exact D|]. split; [exact O|].
  split; [vm_compute; reflexivity|]. exact waiter_runs.
Qed.

(** A close listener that calls handleConnections once: the connection it is
    called for is removed by the inner call. *)
Theorem C93_refuted : exists g m s (L : dlisteners (list encaps)) env w, reachable (list encaps) g m
  /\ (forall w oid d, plain (dl_send L w oid d)) /\ (forall oid, dspares L oid)
  /\ deep strict L 2 [] SelQuiet env (g, m, s) = (Undef UbDangling, w).
Proof.
  destruct drainer_dangles as [w E]. exists (w_g after1), (w_m after1 0%nat), (w_s after1), drainer, (at_ms 70), w.
  split; [exact after1_reach|]. split; [intros v oid d r e t []|]. split; [|exact E].
  intros oid [[g m] s] p hdr seq d. split; [intros u si []|]. split; [|intros u si []].
  intros u si J. cbn [drainer dl_close] in J. destruct (once_in m p); [destruct J as [J|[]]; discriminate|contradiction].
Qed.
Print Assumptions C93_refuted.
(** A send listener that calls handleConnections: the connection sends the
    packet with sequence number 2 before the one with 1. *)
Theorem C93_order_refuted : exists g m s (L : dlisteners (list encaps)) env g' m' s' c, reachable (list encaps) g m
  /\ (forall w oid, dl_close L w oid = []) /\ (forall oid, dspares L oid) /\ lock 0 m = Some c
  /\ deep strict L 2 [] SelQuiet env (g, m, s) = (Ok tt, (g', m', s'))
  /\ about 0 (m_log m') = [EvSent 0 (io_dest c) (io_packet (spec_of c) 2 [1]); EvSent 0 (io_dest c) (io_packet (spec_of c) 1 [1])].
Proof.
  destruct poller_runs as (g' & m' & s' & E & A). exists (w_g after1), (w_m after1 0%nat), (w_s after1), poller, (at_ms 20), g', m', s', con1.
  split; [exact after1_reach|]. split; [reflexivity|]. split; [|split; [vm_compute; reflexivity|split; [exact E|exact A]]].
  intros oid w p hdr seq d. split; [intros u si []|]. split; [intros u si []|]. intros u si J. cbn [poller dl_send] in J.
  destruct d; [destruct J as [J|[J|[]]]; discriminate|contradiction].
Qed.
Print Assumptions C93_order_refuted.
(** The close listener of a connection is called twice. *)
Theorem C93_twice_refuted : exists g m s (L : dlisteners (list encaps)) env g' m' s', reachable (list encaps) g m
  /\ (forall w oid, dl_close L w oid = []) /\ (forall oid, dspares L oid)
  /\ deep strict L 2 [] SelQuiet env (g, m, s) = (Ok tt, (g', m', s')) /\ about 0 (m_log m') = [EvClosed 0; EvClosed 0].
Proof.
  destruct drainer1_runs as (g' & m' & s' & E & A). exists (w_g after12), (w_m after12 0%nat), (w_s after12), drainer1, (at_ms 70), g', m', s'.
  split; [exact after12_reach|]. split; [reflexivity|]. split; [|split; [exact E|exact A]].
  intros oid w p hdr seq d. split; [intros u si []|]. split; [intros u si []|]. intros u si J. cbn [drainer1 dl_send] in J.
  destruct p as [|[|]]; [contradiction|destruct J as [J|[]]; discriminate|contradiction].
Qed.
Print Assumptions C93_twice_refuted.
