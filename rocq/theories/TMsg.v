(** Property theorems about what a connection manager logs. *)
From Coq Require Import Permutation.
From Verif Require Import Base MBuffer SBuffer SText PText MEip SEip MSocket MConnReq SConnReq MLog MConn SConn PConnMap PConnTop MMsg SMsg PMsg.

(** The calls are those of the model without the log. *)
Theorem C94_same : forall S h (op : call S) w l o w' l',
  call_logged h op (w, l) = (o, (w', l')) -> call_mgr h op w = (o, w').
Proof. exact @call_plain. Qed.
Print Assumptions C94_same.

(** The log tells which connections are open - if every call returned, and no
    connection is opened with the serial number of an open one. Not true without
    these conditions (below). *)
Theorem C94_open_partial : forall S h (ops : list (call S)) g inc s os g' m' s' log,
  calls_logged h ops (g, mgr0 inc, s, []) = (os, (g', m', s', log)) ->
  Forall returned os -> clear [] (map read_message log) ->
  Permutation (told_open log) (connections m').
Proof. exact @log_tells. Qed.
Print Assumptions C94_open_partial.

(** Six opens (the third one refused by the target, the fourth with an id in
    use), a timeout, a close: two connections are left. *)
Example C94_open_partial_case : exists os g m s log,
  calls_logged strict
    [open_as 5 1 1000; open_as 6 2 1000000; refused_call; open_as 7 0x10002 1000000; open_as 8 3 1000000; open_as 9 4 1000000;
     CHandle [] SelQuiet (env_at 20000000 (fun n => n)); CClose false (recording 1 refuses) 3%nat] start_calls = (os, (g, m, s, log))
  /\ Forall returned os /\ clear [] (map read_message log)
  /\ told_open log = [(2, 6); (4, 9)] /\ connections m = [(2, 6); (4, 9)]
  /\ filter (fun x => match x with SOther => false | _ => true end) (map read_message log)
     = [SOpened 0x0A0B0C0D 1 5; SOpened 0x0A0B0C0D 2 6; SOpened 0x0A0B0C0D 0x10002 7; SRefused 0x10002;
        SOpened 0x0A0B0C0D 3 8; SOpened 0x0A0B0C0D 4 9; STimedOut 5; SClosing 3].
Proof.
  do 5 eexists. split; [vm_compute; reflexivity|]. split; [repeat constructor; eexists; reflexivity|]. vm_compute.
  intuition discriminate.
Qed.

(** A close that fails is logged like one that does not. *)
Theorem C94_close_refuted : exists os g m s log,
  calls_logged strict [open_as 5 1 10000; CClose false (recording 1 (fails_with (SystemError 32))) 0] start_calls = (os, (g, m, s, log))
  /\ os = [Ok (Some 0%nat); Throw (SystemError 32)] /\ clear [] (map read_message log)
  /\ told_open log = [] /\ connections m = [(1, 5)].
Proof. exact close_misleads. Qed.
Print Assumptions C94_close_refuted.

(** An open that fails after the answer is logged like one that does not. *)
Theorem C94_open_refuted : exists os g m s log,
  calls_logged strict [COpen false (recording 1 (accepts_as 5 1 10000)) "10.0.0.1" (mkFoEnv (Some 24) None 0 (fun _ => Some 0x0100007F)) false (class1 1 0)]
    start_calls = (os, (g, m, s, log))
  /\ os = [Throw (SystemError 24)] /\ clear [] (map read_message log)
  /\ told_open log = [(1, 5)] /\ connections m = [].
Proof. exact open_misleads. Qed.
Print Assumptions C94_open_refuted.

(** A connection that is "closed by timeout" stays open if sending fails for
    another one. *)
Theorem C94_timeout_refuted : exists os g m s log e,
  calls_logged strict half_way start_calls = (os, (g, m, s, log))
  /\ os = [Ok (Some 0%nat); Ok (Some 1%nat); Throw e] /\ clear [] (map read_message log)
  /\ told_open log = [(2, 6)] /\ connections m = [(1, 5); (2, 6)].
Proof. exact timeout_misleads. Qed.
Print Assumptions C94_timeout_refuted.

(** All calls return, but the message about a timeout fits two connections. *)
Theorem C94_serial_refuted : exists os g m s log,
  calls_logged strict [open_as 5 1 1000; open_as 5 2 1000000; CHandle [] SelQuiet (env_at 20000000 (fun n => n))] start_calls = (os, (g, m, s, log))
  /\ Forall returned os /\ told_open log = [] /\ connections m = [(2, 5)].
Proof. exact serial_misleads. Qed.
Print Assumptions C94_serial_refuted.

(** Messages about timeouts: one for every call of a close listener, in the same
    order, with the serial number of the connection; whether handleConnections
    returns or not. *)
Theorem C94_timeouts : forall S g h rounds ending env m l o m' l', reachable S g m ->
  handle_connections_logged h rounds ending env (m, l) = (o, (m', l')) ->
  exists new ev, l' = l ++ new /\ m_log m' = m_log m ++ ev
  /\ map Some (timeouts new) = map (fun o => option_map io_serial (lock o m)) (closings ev).
Proof. intros S g h rounds ending env m l o m' l' R. exact (handle_timeouts g h rounds ending env m l o m' l' (reach_inv S g m R) (reach_nums S g m R)). Qed.
Print Assumptions C94_timeouts.

(** What happens to one datagram, and what is logged about it: first of all its
    connection id, at the level DEBUG. *)
Theorem C94_datagram : forall S g l m log m' log', reachable S g m -> is_bytes l ->
  on_readable_logged strict (Dgram l) (m, log) = (Ok tt, (m', log')) ->
  exists i0 items X rest new ev, carries l (i0 :: items) /\ is_u32 X /\ it_data i0 = le 4 X ++ rest
  /\ (exists t, numeral t X /\ log' = log ++ (DEBUG, "Received data from connection T2O_ID=" ++ t)%string :: new) /\ m_log m' = m_log m ++ ev
  /\ ((forall o c, lock o m = Some c -> u16 (io_t2oId c) <> u16 X) /\ map read_message new = [SUnknown X] /\ ev = []
      \/ exists c i1 items', lock (io_oid c) m = Some c /\ u16 (io_t2oId c) = u16 X /\ items = i1 :: items'
         /\ (((io_t2oFixed c = true -> zlen (it_data i1) - front c = io_t2oSize c) /\ new = []
              /\ exists hd sq, ev = [EvData (io_oid c) hd sq (skipn (Z.to_nat (front c)) (it_data i1))])
             \/ io_t2oFixed c = true /\ zlen (it_data i1) - front c <> io_t2oSize c /\ ev = []
                /\ map read_message new = [SIgnored (io_t2oId c) (io_t2oSize c) (zlen (it_data i1) - front c)])).
Proof.
  intros S g l m log m' log' R B E.
  destruct (datagram_log g l m log m' log' (reach_inv S g m R) (reach_nums S g m R) B E) as (i0 & items & X & rest & new & ev & C & V & E0 & L & M).
  exists i0, items, X, rest, new, ev. split; [exact C|]. split; [exact V|]. split; [exact E0|]. split; [|exact M].
  exists (to_string X). split; [apply to_string_numeral; apply V|exact L].
Qed.
Print Assumptions C94_datagram.

(** If handleConnections returns: every datagram has been announced and either
    been given to a receive listener or been complained about; and there is one message for every
    connection that went on to its next sequence number without sending. *)
Theorem C94_returns : forall S g h rounds ending env m l m' l', reachable S g m ->
  handle_connections_logged h rounds ending env (m, l) = (Ok tt, (m', l')) ->
  exists new ev, l' = l ++ new /\ m_log m' = m_log m ++ ev
  /\ (List.length (deliveries ev) + List.length (complaints new))%nat = List.length (arrivals (List.length (m_socks m)) rounds)
  /\ List.length (announcements new) = List.length (arrivals (List.length (m_socks m)) rounds)
  /\ unsent new = flat_map (fun e => held_back m' ev (snd e)) (m_map m).
Proof. intros S g h rounds ending env m l m' l' R. exact (handle_returns g h rounds ending env m l m' l' (reach_inv S g m R) (reach_nums S g m R)). Qed.
Print Assumptions C94_returns.

(** Two connections with data of fixed size; data for the first one, data of the
    wrong size for it, data for no connection; then the first one has nothing to
    send and the second one times out. *)
Definition fixed_open (serial t2o t2oApi : Z) : nat * call (list encaps) :=
  (0%nat, COpen false (recording 1 (accepts_as serial t2o t2oApi)) "10.0.0.1" (env_ok 0) false
     (mkCParams 0 0 0 0 0 342 0x12345678 0 10000 0x4004 10000 0x4004 1 0 0 0 [32; 4; 36; 151])).
Definition two_fixed := run_calls strict [fixed_open 5 1 1000000; fixed_open 6 2 1000] start0.
Definition item (t : Z) (d : bytes) : bytes := le 2 t ++ le 2 (zlen d) ++ d.
Definition data_for (id : Z) (d : bytes) : bytes := le 2 2 ++ item 32770 (le 4 id ++ le 4 1) ++ item 177 (le 2 1 ++ d).
Example C94_reach_case : reachable (list encaps) (w_g two_fixed) (w_m two_fixed 0).
Proof. exists strict, [fixed_open 5 1 1000000; fixed_open 6 2 1000], start0, 0%nat. split; [apply start_new|]. split; reflexivity. Qed.
Example C94_returns_case : exists m' log, handle_connections_logged strict
    [mkRound [Some (Dgram (data_for 1 [1; 2; 3; 4]))] 0; mkRound [Some (Dgram (data_for 1 [1; 2; 3]))] 0; mkRound [Some (Dgram (data_for 77 []))] 0]
    SelQuiet (env_at 20000000 (fun n => n)) (w_m two_fixed 0%nat, []) = (Ok tt, (m', log))
  /\ map read_message log = [SOther; SOther; SIgnored 1 4 3; SOther; SUnknown 77; SUnsent 0x0A0B0C0D 4 0; STimedOut 6]
  /\ announcements log = [1; 1; 77]
  /\ m_log m' = [EvData 0 0 1 [1; 2; 3; 4]; EvClosed 1].
Proof. do 2 eexists. split; [vm_compute; reflexivity|]. repeat split; vm_compute; reflexivity. Qed.
