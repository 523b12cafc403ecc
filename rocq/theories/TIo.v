(** Properties C39-C41, C44, C45, C47, C48, C50: implicit messaging and the
    polling loop. *)
From Verif Require Import Base MBuffer SBuffer PBase MEip SEip MSocket MConnReq SConnReq MConn SConn PConnOpen PIo PConnCall PConnCall2 PConnHist PIo2 PConnTop PIoTop PRefute SLife PLife.

(** C39. Full statement: every format. True unless both a sequence count and a
    run/idle header are present; they are then read in the wrong order. *)
Theorem C39_received_partial : forall h c hdr seq data, is_u32 hdr -> is_u16 seq ->
  io_t2oRTF c = false \/ io_trigger c mod 4 = 0 ->
  io_t2oFixed c = false \/ zlen data = io_t2oSize c ->
  io_receive h c (wire_data (negb (io_trigger c mod 4 =? 0)) (io_t2oRTF c) seq hdr data)
  = Ok (io_set_tcount c 0, [EvData (io_oid c) (if io_t2oRTF c then hdr else 0)
                                   (if io_trigger c mod 4 =? 0 then 0 else seq) data]).
Proof. exact receive_wire. Qed.
Print Assumptions C39_received_partial.
Example C39_example : let c := demo 1 4 10000 false in
  wire_data (negb (io_trigger c mod 4 =? 0)) (io_t2oRTF c) 0x0102 5 [7; 8] = [2; 1; 7; 8]
  /\ io_receive strict c [2; 1; 7; 8] = Ok (io_set_tcount c 0, [EvData 0 0 0x0102 [7; 8]]).
Proof. split; reflexivity. Qed.
Theorem C39_refuted : exists c seq hdr data, io_t2oRTF c = true /\ io_trigger c mod 4 <> 0 /\ io_t2oFixed c = false
  /\ io_receive strict c (wire_data true true seq hdr data) = Ok (io_set_tcount c 0, [EvData (io_oid c) 0x10007 0 data])
  /\ (hdr, seq) <> (0x10007, 0).
Proof. exact order_refuted'. Qed.
Print Assumptions C39_refuted.
(** What it accepts: header first, then the sequence count. *)
Theorem C39_order : forall h c hdr seq data, is_u32 hdr -> is_u16 seq ->
  let d := (if io_t2oRTF c then le 4 hdr else []) ++ (if has_seq (io_trigger c) then le 2 seq else []) ++ data in
  io_receive h c d
  = if io_t2oFixed c && negb (zlen data =? io_t2oSize c) then Ok (c, [])
    else Ok (io_set_tcount c 0, [EvData (io_oid c) (if io_t2oRTF c then hdr else 0)
                                        (if has_seq (io_trigger c) then seq else 0) data]).
Proof. exact receive_order. Qed.
Print Assumptions C39_order.
Example C39_order_example : io_receive strict (demo 1 4 10000 true) (le 4 5 ++ le 2 0x0102 ++ [7; 8])
  = Ok (io_set_tcount (demo 1 4 10000 true) 0, [EvData 0 5 0x0102 [7; 8]]).
Proof. reflexivity. Qed.

(** C40 *)
Theorem C40_size_gate : forall h c hdr seq data, is_u32 hdr -> is_u16 seq -> io_t2oFixed c = true ->
  let d := (if io_t2oRTF c then le 4 hdr else []) ++ (if has_seq (io_trigger c) then le 2 seq else []) ++ data in
  io_receive h c d = if zlen data =? io_t2oSize c
                     then Ok (io_set_tcount c 0, [EvData (io_oid c) (if io_t2oRTF c then hdr else 0)
                                (if has_seq (io_trigger c) then seq else 0) data])
                     else Ok (c, []).
Proof. exact size_gate. Qed.
Print Assumptions C40_size_gate.
Example C40_size_gate_example :
  let c := mkIo 0 1 7 10000 10000 4 2 false true 0 4 30000 0 5 0 true true 0 [] 342 1 [] (mkEP "10.0.0.1" 2222 (mkAddr 2 44296 0)) 0 in
  is_u32 5 /\ io_t2oFixed c = true
  /\ io_receive strict c (le 4 5 ++ [7; 8]) = Ok (io_set_tcount c 0, [EvData 0 5 0 [7; 8]])
  /\ io_receive strict c (le 4 5 ++ [7]) = Ok (c, []).
Proof. cbv zeta. split; [unfold is_u32; lia|]. repeat split. Qed.
(** Every byte string. *)
Theorem C40_total : forall h c d, is_bytes d ->
  if Nat.ltb (List.length d) (head_len c) then exists u, io_receive h c d = Undef u
  else if io_t2oFixed c && negb (zlen d - Z.of_nat (head_len c) =? io_t2oSize c) then io_receive h c d = Ok (c, [])
  else exists hdr seq, io_receive h c d = Ok (io_set_tcount c 0, [EvData (io_oid c) hdr seq (skipn (head_len c) d)]).
Proof. exact receive_total. Qed.
Print Assumptions C40_total.
Example C40_example :
  let c := mkIo 0 1 7 10000 10000 4 2 false true 0 4 30000 0 5 1 false false 0 [] 342 1 [] (mkEP "10.0.0.1" 2222 (mkAddr 2 44296 0)) 0 in
  io_receive strict c [1; 0; 7; 8] = Ok (io_set_tcount c 0, [EvData 0 0 1 [7; 8]])
  /\ io_receive strict c [1; 0; 7; 8; 9] = Ok (c, []) /\ io_tcount c = 30000.
Proof. repeat split. Qed.

(** C41, C44. From its creation on, whatever happens to a connection, it behaves
    like the clock specification [spec_run]: same events in the same order, open
    or closed alike. [sane]: time runs forward and the 32-bit microsecond
    counters do not overflow. *)
Theorem C41_refines_partial : forall h ops c, io_wf c -> fresh_io c -> zlen (io_out c) <= 65000 ->
  sane (spec_of c) (io_last c) ops ->
  match io_run h ops c, spec_run (spec_of c) ops (clock0 c) with
  | (Open c', ev), (Some k', ev') => ev = ev' /\ io_static c' = io_static c
  | (Closed, ev), (None, ev') => ev = ev'
  | _, _ => False
  end.
Proof. exact fresh_run. Qed.
Print Assumptions C41_refines_partial.
(** The hypotheses hold of the connection and the operations of [C41_example] below. *)
(** In terms of time: closed by a tick only if more than the limit has passed
    since the last tick before the last accepted data; kept open only if at most
    the limit and one millisecond per tick since have passed. *)
Theorem C41_real_time_partial : forall h ops now hook sr c c1 ev1, io_wf c -> fresh_io c -> zlen (io_out c) <= 65000 ->
  sane (spec_of c) (io_last c) (ops ++ [Tick now hook sr]) -> io_run h ops c = (Open c1, ev1) ->
  let '(mark, n) := heard (spec_of c) ops (io_last c) (io_last c) 0 in
  match fst (io_run h (ops ++ [Tick now hook sr]) c) with
  | Closed => 1000 * (io_mult c * io_t2oAPI c) < now - mark
  | Open _ => now - mark <= 1000 * (io_mult c * io_t2oAPI c) + 1000000 * (n + 1)
  | Broken => False
  end.
Proof. exact real_time. Qed.
Print Assumptions C41_real_time_partial.
Definition demo_ops : list io_op :=
  [Tick 20000000 same_out all_sent; Recv 25000000 [1; 0; 9]; Tick 40000000 same_out all_sent; Tick 60000000 same_out all_sent].
Example C41_example : let c := demo 1 4 10000 false in
  io_wf c /\ fresh_io c /\ sane (spec_of c) (io_last c) (demo_ops ++ [Tick 61000000 same_out all_sent])
  /\ heard (spec_of c) demo_ops 0 0 0 = (20000000, 2)
  /\ (exists c1, fst (io_run strict demo_ops c) = Open c1)
  /\ fst (io_run strict (demo_ops ++ [Tick 61000000 same_out all_sent]) c) = Closed
  /\ (exists c1, fst (io_run strict (demo_ops ++ [Tick 60900000 same_out all_sent]) c) = Open c1).
Proof.
  cbv zeta. split; [unfold io_wf, is_u32, is_u8; cbn; lia|]. split; [repeat split|]. split.
  - cbn [demo_ops app sane]. repeat match goal with |- _ /\ _ => split end; try exact Logic.I; try (intros d H; exact H);
      try lia; try (cbn; lia); try reflexivity. repeat constructor; cbn; lia.
  - split; [vm_compute; reflexivity|]. split; [eexists; vm_compute; reflexivity|]. split; [vm_compute; reflexivity|eexists; vm_compute; reflexivity].
Qed.
(** Closed one millisecond after data was accepted, with a limit of 40 ms. *)
Theorem C41_early_refuted : exists c d t1 t2, io_mult c * io_t2oAPI c = 40000 /\ t2 - t1 = 1000000
  /\ fst (io_run strict [Recv t1 d] c) = Open c
  /\ snd (io_run strict [Recv t1 d] c) = [EvData 0 0 1 [9]]
  /\ fst (io_run strict [Recv t1 d; Tick t2 same_out all_sent] c) = Closed
  /\ sane (spec_of c) (io_last c) [Recv t1 d; Tick t2 same_out all_sent].
Proof. exact early_refuted'. Qed.
Print Assumptions C41_early_refuted.
(** Never closed (and never sending) when ticks come more often than once per
    millisecond. *)
Theorem C41_late_refuted : exists c, io_wf c /\ fresh_io c /\ io_mult c * io_t2oAPI c = 40000 /\ io_o2tAPI c = 10000 /\ io_last c = 0
  /\ forall T, exists ops c',
  T <= tick_time ops 0 /\ Forall (fun o => match o with Tick _ _ _ => True | _ => False end) ops
  /\ io_run strict ops c = (Open c', []).
Proof. exact late_refuted'. Qed.
Print Assumptions C41_late_refuted.
(** Timeouts of 2^32 microseconds and more wrap. *)
Theorem C41_wrap_refuted : exists c, io_wf c /\ fresh_io c /\ io_mult c * io_t2oAPI c = 2 ^ 32 /\ io_last c = 0
  /\ fst (io_run strict [Tick 1000000 same_out all_sent] c) = Closed.
Proof. exact wrap_refuted'. Qed.
Print Assumptions C41_wrap_refuted.

(** In any history of calls, on any managers with any sessions: the events of a
    connection, from the open that returned it on, are those of the single
    connection to which the history does what [life] says: data brought by the
    datagrams that carry its id, one tick per completed call of
    handleConnections, the output data set. It is open as long as that single
    connection is, unless forwardClose was called for it. *)
Theorem C41_history : forall S i (before after : list (nat * call S)) use8 si host env large cp w0 oid w1 c,
  new_world w0 -> Forall (fun x => sends_whole (snd x)) (before ++ after) -> Forall (fun x => byte_grams (snd x)) after ->
  call_world strict i (COpen use8 si host env large cp) (run_calls strict before w0) = (Ok (Some oid), w1) ->
  lock oid (w_m w1 i) = Some c ->
  let m' := w_m (run_calls strict after w1) i in
  exists xs, life strict i oid (io_t2oId c) after w1 xs
    /\ about oid (m_log m') = snd (io_run strict xs c)
    /\ match fst (io_run strict xs c) with
       | Open c' => lock oid m' = Some c' \/ lock oid m' = None /\ exists use8 si, In (i, CClose use8 si oid) after
       | Closed => lock oid m' = None
       | Broken => False
       end
    /\ (sane (spec_of c) (io_last c) xs -> about oid (m_log m') = snd (spec_run (spec_of c) xs (clock0 c))).
Proof. exact @whole_life. Qed.
Print Assumptions C41_history.
Example C41_history_example :
  lock 0 (w_m after1 0%nat) = Some con1
  /\ life strict 0 0 (io_t2oId con1) life_ops after1
    [SetOut [5; 6]; Recv 0 [1; 0; 9]; Tick 20000000 same_out all_sent; Tick 70000000 same_out all_sent]
  /\ about 0 (m_log (w_m (run_calls strict life_ops after1) 0%nat))
     = [EvData 0 0 1 [9]; EvSent 0 (io_dest con1) (io_packet (spec_of con1) 1 [5; 6]); EvClosed 0].
Proof. exact (conj eq_refl life_example). Qed.

(** C44: slots and contents are those of [spec_run] (C41_refines_partial). *)
Theorem C44_numbers : forall h ops c, io_wf c -> fresh_io c -> zlen (io_out c) <= 65000 ->
  sane (spec_of c) (io_last c) ops ->
  exists slots outs,
  sent_data (snd (io_run h ops c)) = map (fun p => io_packet (spec_of c) (fst p) (snd p)) (combine slots outs)
  /\ List.length slots = List.length outs
  /\ Sorted.StronglySorted Z.lt slots /\ Forall (fun n => 0 < n) slots
  /\ (io_o2tFixed c = false -> forall i n, nth_error slots i = Some n -> n = 1 + Z.of_nat i)
  /\ (io_o2tFixed c = true -> Forall (fun o => zlen o = io_o2tSize c) outs).
Proof. exact numbers. Qed.
Print Assumptions C44_numbers.
(** The hypotheses hold of the connection and the operations of [C41_example]. *)
(** The same in any history of calls. *)
Theorem C44_history : forall S i (before after : list (nat * call S)) use8 si host env large cp w0 oid w1 c,
  new_world w0 -> Forall (fun x => sends_whole (snd x)) (before ++ after) -> Forall (fun x => byte_grams (snd x)) after ->
  call_world strict i (COpen use8 si host env large cp) (run_calls strict before w0) = (Ok (Some oid), w1) ->
  lock oid (w_m w1 i) = Some c ->
  let m' := w_m (run_calls strict after w1) i in
  exists xs, life strict i oid (io_t2oId c) after w1 xs /\ (sane (spec_of c) (io_last c) xs ->
    exists slots outs,
    sent_data (about oid (m_log m')) = map (fun p => io_packet (spec_of c) (fst p) (snd p)) (combine slots outs)
    /\ List.length slots = List.length outs
    /\ Sorted.StronglySorted Z.lt slots /\ Forall (fun n => 0 < n) slots
    /\ (io_o2tFixed c = false -> forall i n, nth_error slots i = Some n -> n = 1 + Z.of_nat i)
    /\ (io_o2tFixed c = true -> Forall (fun o => zlen o = io_o2tSize c) outs)).
Proof. exact @whole_numbers. Qed.
Print Assumptions C44_history.
(** A history that meets the hypotheses: [C41_history_example]. *)
(** Two transmissions are at least the interval apart. *)
Theorem C44_spacing : forall h c0 t1 hook1 sr1 c1 ev1 mid c2 ev2 t2 hook2 sr2 c3 ev3 o d p o' d' p',
  io_run h [Tick t1 hook1 sr1] c0 = (Open c1, ev1) -> In (EvSent o d p) ev1 ->
  forward t1 mid -> io_run h mid c1 = (Open c2, ev2) -> io_last c2 <= t2 ->
  io_run h [Tick t2 hook2 sr2] c2 = (Open c3, ev3) -> In (EvSent o' d' p') ev3 ->
  1000 * io_o2tAPI c0 <= t2 - t1.
Proof. exact spacing. Qed.
Print Assumptions C44_spacing.
Example C44_spacing_example :
  let c := demo 1 4 10000 false in
  match io_run strict [Tick 20000000 same_out all_sent] c with
  | (Open c1, ev1) => match io_run strict [Recv 25000000 [1; 0; 9]; Tick 29000000 same_out all_sent] c1 with
    | (Open c2, ev2) => match io_run strict [Tick 40000000 same_out all_sent] c2 with
      | (Open _, ev3) => (List.length ev1, List.length ev2, List.length ev3) = (1, 1, 1)%nat
      | _ => False end
    | _ => False end
  | _ => False end.
Proof. vm_compute. reflexivity. Qed.
Example C44_example : let c := demo 1 4 10000 false in
  sent_data (snd (io_run strict (SetOut [5; 6] :: demo_ops) c))
  = map (fun n => io_packet (spec_of c) n [5; 6]) [1; 2; 3]
  /\ io_packet (spec_of c) 2 [5; 6]
     = [2; 0;  2; 128; 8; 0; 13; 12; 11; 10; 2; 0; 0; 0;  177; 0; 4; 0; 2; 0; 5; 6].
Proof. split; vm_compute; reflexivity. Qed.
Theorem C44_late_refuted : exists c, io_wf c /\ fresh_io c /\ io_mult c * io_t2oAPI c = 40000 /\ io_o2tAPI c = 10000 /\ io_last c = 0
  /\ forall T, exists ops c',
  T <= tick_time ops 0 /\ Forall (fun o => match o with Tick _ _ _ => True | _ => False end) ops
  /\ io_run strict ops c = (Open c', []).
Proof. exact late_refuted'. Qed.
Print Assumptions C44_late_refuted.

(** C45 *)
Theorem C45_fixed_size : forall now hook sr c o d p, In (EvSent o d p) (snd (io_tick now hook sr c)) ->
  o = io_oid c /\ d = io_dest c /\ (io_o2tFixed c = true -> zlen (hook (io_out c)) = io_o2tSize c)
  /\ io_out (snd (fst (io_tick now hook sr c))) = hook (io_out c).
Proof. exact tick_sends. Qed.
Print Assumptions C45_fixed_size.
Example C45_example :
  let c := mkIo 0 1 7 10000 10000 4 2 true true 0 4 0 0 5 1 false false 0 [] 342 1 [] (mkEP "10.0.0.1" 2222 (mkAddr 2 44296 0)) 0 in
  List.length (snd (io_tick 20000000 (fun _ => [1; 2; 3; 4]) all_sent c)) = 1%nat
  /\ snd (io_tick 20000000 (fun _ => [1; 2; 3]) all_sent c) = [].
Proof. split; vm_compute; reflexivity. Qed.

(** C47. Full statement: every datagram. The exact condition for a datagram to
    be harmless: it carries items, the first holds a connection id, and if that
    is the id (modulo 2^16) of an open connection, a second item is there and
    long enough for the headers. *)
Theorem C47_exact : forall S g l m, reachable S g m -> is_bytes l ->
  (fst (on_readable strict (Dgram l) m) = Ok tt <-> harmless l m).
Proof. exact readable_exact. Qed.
Print Assumptions C47_exact.
Theorem C47_refuted : exists g m, reachable (list encaps) g m /\
  (exists l, is_bytes l /\ fst (on_readable strict (Dgram l) m) = Throw OutOfRange)
  /\ (exists l, is_bytes l /\ fst (on_readable strict (Dgram l) m) = Undef UbOobRead).
Proof. exact datagrams_refuted'. Qed.
Print Assumptions C47_refuted.
Example C47_example : harmless (gram 0x10007 [1; 0; 9; 9]) (w_m after1 0%nat)
  /\ ~ harmless [] (w_m after1 0%nat).
Proof. exact harmless_example. Qed.

(** C48. Full statement: a strict weak ordering that tells end points apart. It
    is a strict partial order; neither incomparability is transitive nor are
    different end points told apart. *)
Theorem C48_partial_order_partial : (forall a, ep_ltb a a = false)
  /\ (forall a b, ep_ltb a b = true -> ep_ltb b a = false)
  /\ (forall a b c, ep_ltb a b = true -> ep_ltb b c = true -> ep_ltb a c = true).
Proof. exact (conj ep_irrefl (conj ep_asym ep_trans)). Qed.
Print Assumptions C48_partial_order_partial.
Example C48_order_example : let e host port := ep_of_host (fun _ => None) host port in
  ep_ltb (e "10.0.0.1"%string 1) (e "10.0.0.2"%string 2) = true /\ ep_ltb (e "10.0.0.2"%string 2) (e "10.0.0.3"%string 3) = true.
Proof. split; reflexivity. Qed.
Definition ep (host : string) (port : Z) : endpoint := ep_of_host (fun _ => None) host port.
Theorem C48_weak_refuted : exists a b c, same_key a b = true /\ same_key b c = true /\ ep_ltb a c = true.
Proof. exact weak_refuted. Qed.
Print Assumptions C48_weak_refuted.
Theorem C48_same_port : forall a b, ep_port a = ep_port b -> same_key a b = true.
Proof. exact ep_same_port. Qed.
Print Assumptions C48_same_port.
Example C48_same_port_example : ep "10.0.0.1"%string 2222 <> ep "10.0.0.2"%string 2222
  /\ ep_port (ep "10.0.0.1"%string 2222) = ep_port (ep "10.0.0.2"%string 2222).
Proof. split; [vm_compute; discriminate|reflexivity]. Qed.
Theorem C48_distinct_refuted : exists a b, ep_host a <> ep_host b /\ ep_addr a <> ep_addr b /\ same_key a b = true.
Proof. exact same_port_refuted. Qed.
Print Assumptions C48_distinct_refuted.
(** So a manager never has more than one socket. *)
Theorem C48_one_socket : forall S g m, reachable S g m -> (List.length (m_socks m) <= 1)%nat.
Proof. exact reach_one. Qed.
Print Assumptions C48_one_socket.
Example C48_example : ep_ltb (ep "10.0.0.1" 1) (ep "10.0.0.2" 2) = true
  /\ ep_ltb (ep "10.0.0.2" 2) (ep "10.0.0.3" 3) = true /\ ep_ltb (ep "10.0.0.1" 2) (ep "10.0.0.2" 1) = false
  /\ List.length (m_socks (w_m after1 0%nat)) = 1%nat.
Proof. repeat split; vm_compute; reflexivity. Qed.

(** C50. Full statement also: returns within the timeout. Handlers that do not
    throw run once per ready socket and round, in order. *)
Theorem C50_dispatch_partial : forall W A (handler : nat -> A -> st W unit) f, (forall i a w, handler i a w = (Ok tt, f i a w)) ->
  forall n rounds ending w, n <> 0%nat -> bs_select handler n rounds ending w
  = (match ending with SelQuiet => Ok tt | SelFail e => Throw (SystemError e) end,
     run_handlers f (flat_map (fun r => ready_calls 0 n (sr_ready r)) rounds) w).
Proof. exact @select_all. Qed.
Print Assumptions C50_dispatch_partial.
Example C50_dispatch_example : bs_select (fun i a w => (Ok tt, w ++ [(i, a)])) 2 [mkRound [Some 5; Some 6] 1] SelQuiet []
  = (Ok tt, [(0%nat, 5); (1%nat, 6)]).
Proof. reflexivity. Qed.
Theorem C50_ready : forall A (ready : list (option A)) i n k a,
  In (k, a) (ready_calls i n ready) <-> (i <= k < i + n)%nat /\ nth_error ready (k - i) = Some (Some a).
Proof. exact @ready_in. Qed.
Print Assumptions C50_ready.
Example C50_ready_example : ready_calls 0 3 [Some 5; None; Some 6; Some 7] = [(0%nat, 5); (2%nat, 6)].
Proof. reflexivity. Qed.
Theorem C50_in_order : forall A (ready : list (option A)) i n,
  Sorted.StronglySorted lt (map fst (ready_calls i n ready)) /\ Forall (Peano.le i) (map fst (ready_calls i n ready)).
Proof. exact @ready_sorted. Qed.
Print Assumptions C50_in_order.
Theorem C50_throws : forall W A (handler : nat -> A -> st W unit) n rounds ending w e w',
  fst (bs_select handler n rounds ending w) = Throw e ->
  snd (bs_select handler n rounds ending w) = w' ->
  ending = SelFail (match e with SystemError x => x | _ => 0 end) \/ (exists i a w1, handler i a w1 = (Throw e, w')).
Proof. exact @select_throws. Qed.
Print Assumptions C50_throws.
Example C50_throws_example :
  bs_select (fun i a w => if a =? 6 then (Throw OutOfRange, w) else (Ok tt, w ++ [(i, a)])) 3
    [mkRound [Some 5; Some 6; Some 7] 1] SelQuiet [] = (Throw OutOfRange, [(0%nat, 5)]).
Proof. reflexivity. Qed.
(** No ::select() call waits beyond the deadline. *)
Theorem C50_timeouts : forall A timeout start (rounds : list (sel_round A)) s us,
  In (s, us) (select_timeouts timeout start rounds) ->
  0 <= s /\ 0 <= us < 1000000 /\ exists t, In t (start :: map sr_now rounds)
    /\ 1000000000 * s + 1000 * us <= Z.max 0 (start + timeout * 1000000 - t).
Proof. exact @timeouts_ok. Qed.
Print Assumptions C50_timeouts.
Example C50_example :
  bs_select (fun i a w => (Ok tt, w ++ [(i, a)])) 3 [mkRound [Some 5; None; Some 6] 1; mkRound [None; Some 7] 2] (SelFail 9) []
  = (Throw (SystemError 9), [(0%nat, 5); (2%nat, 6); (1%nat, 7)])
  /\ select_timeouts 1500 0 [mkRound [Some 5] 300000000; mkRound [Some 5] 2000000000] = [(1, 500000); (1, 200000); (0, 0)].
Proof. split; vm_compute; reflexivity. Qed.
(** As long as data keeps arriving the loop goes on, past any deadline. *)
Theorem C50_refuted : exists (timeout start : Z), forall k : nat, exists rounds : list (sel_round unit),
  Forall (fun r => start + timeout * 1000000 <= sr_now r) rounds
  /\ bs_select (fun _ _ w => (Ok tt, S w)) 1 rounds SelQuiet 0%nat = (Ok tt, k).
Proof. exact select_late'. Qed.
Print Assumptions C50_refuted.
