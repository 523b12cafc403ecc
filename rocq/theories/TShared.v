(** Property theorems: sessions used by several threads (C103). *)
From Verif Require Import Base MBuffer SBuffer PBase MEip SEip SObj MSocket SSocket SSession SExn MShared SShared PShared PShared2 PHost.

(** C103. Whatever the schedule, every thread makes its calls, in its order. *)
Theorem C103_calls : forall h p handle calls w es t,
  let s := run_threads h p handle (threads_start calls w) es in
  requests_of t (ts_notes s) ++ th_calls (ts_threads s t) = calls t.
Proof. intros. apply threads_calls. Qed.
Print Assumptions C103_calls.

(** C103. Whatever the schedule and whatever the peer sends, no call shows
    undefined behaviour, and one that returns a packet returns one with status 0
    and the handle of the session. *)
Theorem C103_safe : forall h p handle calls w es, byte_peer p -> byte_net w ->
  Forall (fun x => decent handle (snd x)) (returns (ts_notes (run_threads h p handle (threads_start calls w) es))).
Proof. exact threads_safe. Qed.
Print Assumptions C103_safe.

(** C103. No thread needs another one in order to go on: at any time, each of
    them can make its calls to the end alone. *)
Theorem C103_finishes : forall h p handle calls w es t,
  exists es', Forall (fun e => who e = t) es'
    /\ let s := run_threads h p handle (threads_start calls w) (es ++ es') in
       th_place (ts_threads s t) = Outside /\ requests_of t (ts_notes s) = calls t.
Proof. exact threads_finish. Qed.
Print Assumptions C103_finishes.

(** C103. With a lock around the calls, several threads get what one thread gets
    that makes the calls in the order in which the packets were sent, whatever
    the peer does. *)
Theorem C103_locked : forall h p handle calls w es,
  let s := run_threads h p handle (threads_start calls w) es in
  let ns := ts_notes s in
  locked h p handle (threads_start calls w) es ->
  exists os w', exchanges h p handle (requests ns) w = (os, w') /\ List.length os = List.length (senders ns)
    /\ returns ns = firstn (List.length (returns ns)) (combine (senders ns) os)
    /\ (List.length (senders ns) <= S (List.length (returns ns)))%nat
    /\ (quiet s -> returns ns = combine (senders ns) os /\ ts_net s = w').
Proof. exact threads_locked. Qed.
Print Assumptions C103_locked.

(** C103. Full statement: with a peer that answers, every call returns the reply
    to its own packet, whatever the schedule. Proved with a lock around the
    calls; without it the statement is false ([C103_refuted]). *)
Theorem C103_own_partial : forall h p handle calls w es rs,
  let s := run_threads h p handle (threads_start calls w) es in
  let ns := ts_notes s in
  locked h p handle (threads_start calls w) es ->
  answers p (n_sent w) (requests ns) rs -> all_accepted (n_results w) (map encaps_pack (requests ns)) -> drained (n_in w) ->
  returns ns = firstn (List.length (returns ns)) (combine (senders ns) (map (verdict handle) rs))
  /\ (List.length (senders ns) <= S (List.length (returns ns)))%nat
  /\ (quiet s -> returns ns = combine (senders ns) (map (verdict handle) rs)).
Proof. exact threads_own. Qed.
Print Assumptions C103_own_partial.

(** C103. Without a lock: if no call begins to read while another one has part
    of its reply, the replies go to the calls in the order in which these begin
    to read. *)
Theorem C103_order : forall h p handle calls w es rs,
  let s := run_threads h p handle (threads_start calls w) es in
  let ns := ts_notes s in
  n_results w = [] -> drained (n_in w) -> Forall (fun e => exists t, e = Go t) es ->
  apart h p handle (threads_start calls w) es ->
  answers p (n_sent w) (requests ns) rs ->
  returns ns = firstn (List.length (returns ns)) (combine (readers ns) (map (verdict handle) rs))
  /\ (List.length (readers ns) <= S (List.length (returns ns)))%nat
  /\ (quiet s -> returns ns = combine (readers ns) (map (verdict handle) rs)).
Proof. exact threads_order. Qed.
Print Assumptions C103_order.

(** C103. So exactly those schedules give every thread its own replies in which
    the threads begin to read in the order in which they sent. *)
Theorem C103_order_exact : forall h p handle calls w es rs,
  let s := run_threads h p handle (threads_start calls w) es in
  let ns := ts_notes s in
  n_results w = [] -> drained (n_in w) -> Forall (fun e => exists t, e = Go t) es ->
  apart h p handle (threads_start calls w) es ->
  answers p (n_sent w) (requests ns) rs ->
  let k := List.length (returns ns) in
  returns ns = firstn k (combine (senders ns) (map (verdict handle) rs))
  <-> firstn k (readers ns) = firstn k (senders ns).
Proof. exact threads_order_exact. Qed.
Print Assumptions C103_order_exact.

(** ** Two threads that read attributes *)

(** Attribute [i] of instance 1 of class 1, read with Get_Attribute_Single; the
    peer answers with a UDINT of value [i]. *)
Definition reads (i : Z) : encaps := request_packet 7 true 14 (epath3 1 1 i) [] [].
Definition value (i : Z) : encaps := reply_packet 7 14 (done [i; 0; 0; 0]).
Definition device_peer : peer := fun _ data =>
  match asked data with
  | Some (mkReq 14 [(KClass, 1); (KInst, 1); (KAttr, i)] []) => [Data (encaps_pack (value i))]
  | _ => []
  end.
Definition two (t : nat) : list encaps := match t with O => [reads 1] | 1%nat => [reads 2] | _ => [] end.
Definition idle : net := mkNet [] [] [].
Definition swapped : list event := [Go 0; Go 1; Go 1; Go 1; Go 0; Go 0]%nat.
Definition torn : list event := [Go 0; Go 1; Go 0; Go 1; Go 0]%nat.
Definition in_order : list event := [Go 0; Go 1; Go 0; Go 0; Go 1; Go 1]%nat.
Definition one_by_one : list event := [Go 0; Late 0; Go 0; Go 0; Go 1; Go 1; Go 1]%nat.

Lemma value_wf i : is_u8 i -> well_formed (value i).
Proof.
  intros U. unfold is_u8 in U. unfold value. apply reply_packet_wf; [unfold is_u32; lia|lia|].
  unfold answer_wf, done, is_u8, is_words; cbn [a_status a_addl a_data]. repeat split; try lia; try constructor; try (unfold is_u8; lia).
  - repeat constructor; unfold is_u8; lia.
  - unfold zlen; cbn. lia.
Qed.
Lemma two_answers : answers device_peer [] [reads 1; reads 2] [value 1; value 2].
Proof.
  constructor; [apply value_wf; unfold is_u8; lia|vm_compute; reflexivity..|].
  constructor; [apply value_wf; unfold is_u8; lia|vm_compute; reflexivity..|constructor].
Qed.

(** C103, refuted: without a lock two threads silently get each other's values,
    although neither reads while the other one does. *)
Theorem C103_refuted : exists p calls es,
  let s := run_threads strict p 7 (threads_start calls idle) es in
  calls 0%nat = [reads 1] /\ calls 1%nat = [reads 2] /\ apart strict p 7 (threads_start calls idle) es
  /\ answers p [] (requests (ts_notes s)) [value 1; value 2] /\ senders (ts_notes s) = [0; 1]%nat /\ quiet s
  /\ returns (ts_notes s) = [(1%nat, Ok (value 1)); (0%nat, Ok (value 2))]
  /\ omap r_data (reply_response strict (value 1)) = Ok [1; 0; 0; 0]
  /\ omap r_data (reply_response strict (value 2)) = Ok [2; 0; 0; 0].
Proof.
  exists device_peer, two, swapped. cbv zeta. split; [reflexivity|]. split; [reflexivity|]. split.
  { cbn [apart swapped]. repeat split; try exact Logic.I; intros D [|[|t]] X; vm_compute in X; try exact X; apply D; vm_compute; reflexivity. }
  split; [exact two_answers|]. split; [vm_compute; reflexivity|]. split; [intros [|[|t]]; vm_compute; reflexivity|].
  repeat split; vm_compute; reflexivity.
Qed.
Print Assumptions C103_refuted.

(** C103, refuted: when two calls read at the same time, one of them may return a
    packet that the peer never sent. *)
Theorem C103_torn_refuted : exists p calls es r,
  let s := run_threads strict p 7 (threads_start calls idle) es in
  calls 0%nat = [reads 1] /\ calls 1%nat = [reads 2]
  /\ answers p [] (requests (ts_notes s)) [value 1; value 2] /\ senders (ts_notes s) = [0; 1]%nat /\ quiet s
  /\ returns (ts_notes s) = [(1%nat, Throw (RuntimeError RtSessionHandle)); (0%nat, Ok r)]
  /\ r <> value 1 /\ r <> value 2 /\ e_data r = firstn 24 (encaps_pack (value 2)).
Proof.
  exists device_peer, two, torn, (packet 111 7 0 (firstn 24 (encaps_pack (value 2)))). cbv zeta.
  split; [reflexivity|]. split; [reflexivity|]. split; [exact two_answers|]. split; [vm_compute; reflexivity|].
  split; [intros [|[|t]]; vm_compute; reflexivity|]. split; [vm_compute; reflexivity|].
  split; [intros X; vm_compute in X; discriminate|]. split; [intros X; vm_compute in X; discriminate|]. reflexivity.
Qed.
Print Assumptions C103_torn_refuted.

(** Cases that meet the hypotheses. *)
Example C103_in_order_example : let s := run_threads strict device_peer 7 (threads_start two idle) in_order in
  apart strict device_peer 7 (threads_start two idle) in_order
  /\ answers device_peer [] (requests (ts_notes s)) [value 1; value 2]
  /\ readers (ts_notes s) = senders (ts_notes s)
  /\ returns (ts_notes s) = [(0%nat, Ok (value 1)); (1%nat, Ok (value 2))] /\ quiet s.
Proof.
  cbv zeta. split.
  { cbn [apart in_order]. repeat split; try exact Logic.I; intros D [|[|t]] X; vm_compute in X; try exact X; apply D; vm_compute; reflexivity. }
  split; [exact two_answers|]. split; [vm_compute; reflexivity|]. split; [vm_compute; reflexivity|].
  intros [|[|t]]; vm_compute; reflexivity.
Qed.
Example C103_locked_example : let s := run_threads strict device_peer 7 (threads_start two idle) one_by_one in
  locked strict device_peer 7 (threads_start two idle) one_by_one
  /\ returns (ts_notes s) = [(0%nat, Ok (value 1)); (1%nat, Ok (value 2))] /\ quiet s.
Proof.
  cbv zeta. split.
  { cbn [locked one_by_one]. repeat split; intros [|[|t]] D; try (vm_compute; reflexivity); exfalso; apply D; reflexivity. }
  split; [vm_compute; reflexivity|]. intros [|[|t]]; vm_compute; reflexivity.
Qed.
(** A peer that is silent: the calls run into the timeout. *)
Example C103_late_example :
  returns (ts_notes (run_threads strict (fun _ _ => []) 7 (threads_start two idle) [Go 0; Go 1; Go 1; Late 1; Late 0]%nat))
  = [(1%nat, Throw (SystemError EAGAIN)); (0%nat, Throw (SystemError EAGAIN))].
Proof. vm_compute. reflexivity. Qed.
(** The peer of the examples sends bytes. *)
Example C103_bytes_example : byte_net idle /\ byte_peer (fun _ _ => [Data (encaps_pack (value 1)); Err 4; Eof]).
Proof.
  split; [constructor|]. intros log d. repeat constructor; cbn [byte_seg]; try exact Logic.I.
  all: vm_compute; try discriminate; auto.
Qed.
