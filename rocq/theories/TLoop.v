(** Property C92: a connection and its target keep each other alive. *)
From Coq Require Import Permutation.
From Verif Require Import Base MBuffer SBuffer PBase MEip MSocket MConnReq MConn SConn PConnOpen PIo PConnCall PConnHist PConnTop PIoTop SLife PLife SLoop PLoop.

(** C92. Full statement: without the lower bound on the time between two calls
    ([1 <= p_least p]). The connection stays open, the target never gives up,
    every item it sent has been received once or got there after the last call,
    and the target is sent the slots 1, 2, 3, ... *)
Theorem C92_kept_partial : forall h c lim p b xs, io_wf c -> fresh_io c -> has_out c xs -> 1 <= p_least p ->
  room_here (spec_of c) p -> room_there (spec_of c) p lim -> b <= io_last c <= b + p_delay p ->
  paced (spec_of c) p (io_last c) b xs ->
  let s := spec_of c in let l := lp_run h lim xs (lp_new c b) in
  exists c' outs, lp_end l = Open c' /\ closings (lp_ev l) = []
    /\ (forall t, t <= io_last c' + p_call p -> gone lim (lp_heard l) t = false)
    /\ Permutation (received (lp_ev l) ++ map (fun q => skipn (head_of s) (snd q)) (lp_air l)) (map (skipn (head_of s)) (items_sent xs))
    /\ Forall (fun q => io_last c' <= fst q) (lp_air l)
    /\ sent_data (lp_ev l) = numbered s 1 outs /\ Forall (good_out s) outs
    /\ sane s (io_last c) (lp_ops l).
Proof. exact loop_kept. Qed.
Print Assumptions C92_kept_partial.
Example C92_kept_example : let l := lp_run strict 40000000 loop_steps (lp_new con1 0) in
  has_out con1 loop_steps /\ room_here (spec_of con1) demo_pace /\ room_there (spec_of con1) demo_pace 40000000
  /\ paced (spec_of con1) demo_pace (io_last con1) 0 loop_steps
  /\ lp_ev l = [EvData 0 0 1 [9]; EvSent 0 (io_dest con1) (io_packet (spec_of con1) 1 [5; 6])] /\ lp_heard l = [0; 21000000].
Proof.
  destruct loop_life_example as (_ & A & B & C & D & E). cbv zeta. repeat (split; [assumption|]). vm_compute. reflexivity.
Qed.
(** In the order in which they were sent, if the network keeps it. *)
Theorem C92_ordered : forall h c lim p b a0 xs, io_wf c -> fresh_io c -> has_out c xs -> 1 <= p_least p ->
  room_here (spec_of c) p -> room_there (spec_of c) p lim -> b <= io_last c <= b + p_delay p ->
  paced (spec_of c) p (io_last c) b xs -> in_order a0 xs ->
  let s := spec_of c in let l := lp_run h lim xs (lp_new c b) in
  received (lp_ev l) ++ map (fun q => skipn (head_of s) (snd q)) (lp_air l) = map (skipn (head_of s)) (items_sent xs).
Proof. exact loop_ordered. Qed.
Print Assumptions C92_ordered.
Example C92_ordered_example : in_order 0 loop_steps /\ received (lp_ev (lp_run strict 40000000 loop_steps (lp_new con1 0))) = [[9]].
Proof. split; [cbn; lia|vm_compute; reflexivity]. Qed.
(** Whatever the schedule, the loop is one run of the connection of C41. *)
Theorem C92_one_run : forall h lim c b xs, let l := lp_run h lim xs (lp_new c b) in io_run h (lp_ops l) c = (lp_end l, lp_ev l).
Proof. exact (fun h lim c b xs => loop_run h lim c xs (lp_new c b) eq_refl). Qed.
Print Assumptions C92_one_run.
(** In any history of calls on any managers: if what the calls do to a connection
    is what such a schedule does, its events are those of the loop, and it stays
    open until it is closed by forwardClose. *)
Theorem C92_history : forall S i (before after : list (nat * call S)) use8 si host env large cp w0 oid w1 c lim p b,
  new_world w0 -> Forall (fun x => sends_whole (snd x)) (before ++ after) -> Forall (fun x => byte_grams (snd x)) after ->
  call_world strict i (COpen use8 si host env large cp) (run_calls strict before w0) = (Ok (Some oid), w1) ->
  lock oid (w_m w1 i) = Some c ->
  let m' := w_m (run_calls strict after w1) i in
  exists ops, life strict i oid (io_t2oId c) after w1 ops
    /\ forall xs, ops = lp_ops (lp_run strict lim xs (lp_new c b)) -> has_out c xs -> 1 <= p_least p ->
       room_here (spec_of c) p -> room_there (spec_of c) p lim -> b <= io_last c <= b + p_delay p ->
       paced (spec_of c) p (io_last c) b xs ->
       about oid (m_log m') = lp_ev (lp_run strict lim xs (lp_new c b))
       /\ (lock oid m' <> None \/ exists use8 si, In (i, CClose use8 si oid) after).
Proof. exact @loop_history. Qed.
Print Assumptions C92_history.
Example C92_history_example : lock 0 (w_m after1 0%nat) = Some con1
  /\ life strict 0 0 (io_t2oId con1) (firstn 3 life_ops) after1 (lp_ops (lp_run strict 40000000 loop_steps (lp_new con1 0))).
Proof. exact (conj eq_refl (proj1 loop_life_example)). Qed.

(** Calls less than a millisecond apart, everything else with ample room: nothing
    is sent, the target gives up and the originator does not notice. *)
Theorem C92_refuted : exists c p lim xs, io_wf c /\ fresh_io c /\ has_out c xs /\ room_here (spec_of c) p
  /\ room_there (spec_of c) (mkPace (p_send p) (p_call p) 1 (p_delay p)) lim
  /\ paced (spec_of c) p (io_last c) 0 xs
  /\ let l := lp_run strict lim xs (lp_new c 0) in
     sent_data (lp_ev l) = [] /\ match lp_end l with Open c' => gone lim (lp_heard l) (io_last c') = true | _ => False end.
Proof. exact fast_refuted. Qed.
Print Assumptions C92_refuted.
(** The room is needed: with a timeout that is one millisecond shorter than the
    two intervals and the delay the connection is closed at this end. *)
Theorem C92_tight : exists c p lim xs, io_wf c /\ fresh_io c /\ has_out c xs /\ 1 <= p_least p
  /\ p_send p + p_delay p + p_call p = 1000 * sp_limit (spec_of c) + 1000000
  /\ room_there (spec_of c) p lim /\ paced (spec_of c) p (io_last c) 0 xs
  /\ lp_end (lp_run strict lim xs (lp_new c 0)) = Closed.
Proof.
  exists (demo 1 4 10000 false), (mkPace 26000000 15000000 1 0), 40000000, tight_steps.
  destruct tight_closed as (A & B & C & D). split; [exact A|]. split; [exact B|]. split; [exact C|]. split; [cbn; lia|exact D].
Qed.
Print Assumptions C92_tight.
(** Calls every two milliseconds: the target gives up although its timeout is
    almost twice the interval. *)
Theorem C92_slow : exists c p lim xs, io_wf c /\ fresh_io c /\ has_out c xs /\ p_least p = 1 /\ room_here (spec_of c) p
  /\ 1000 * sp_api (spec_of c) + p_call p + 2 * p_delay p + 7000000 < lim
  /\ paced (spec_of c) p (io_last c) 0 xs
  /\ exists t, gone lim (lp_heard (lp_run strict lim xs (lp_new c 0))) t = true.
Proof.
  exists (demo 1 4 10000 false), (mkPace 25000000 1999999 1 0), 19000000, (slow 10 0).
  destruct slow_gone as (A & B & C & D & E & F & G). split; [exact A|]. split; [exact B|]. split; [exact C|]. split; [reflexivity|].
  split; [exact D|]. split; [exact E|]. split; [exact F|]. now exists 19999990.
Qed.
Print Assumptions C92_slow.
