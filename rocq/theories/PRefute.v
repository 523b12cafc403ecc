(** The refutations about connections, with their witnesses in reachable
    states. *)
From Verif Require Import Base MBuffer SBuffer PBase MEip SEip MSocket MConnReq SConnReq MConn SConn PConnOpen PIo PConnCall PConnCall2 PConnHist PIo2 PConnTop PIoTop.

Lemma after2_reach : reachable (list encaps) (w_g after2) (w_m after2 0).
Proof.
  exists strict, ([(0%nat, open_call 0x10007 10000 10000 (class1 1 0))] ++ [(0%nat, close_call 0)]), start0, 0%nat.
  split; [apply start_new|]. rewrite run_calls_app. split; reflexivity.
Qed.
Lemma close_held_refuted' : exists use8 (si : session_if (list encaps)) c m2 s2 m3 s3,
  (exists g m, reachable (list encaps) g m /\ lock 0 m = Some c)
  /\ (exists g, reachable (list encaps) g m2) /\ lock 0 m2 = None
  /\ fst (forward_close strict use8 si (Some c) (m2, s2)) = Abort
  /\ (exists g, reachable (list encaps) g m3) /\ lock 0 m3 = None /\ lock 1 m3 <> None
  /\ fst (forward_close strict use8 si (Some c) (m3, s3)) = Ok tt
  /\ lock 1 (fst (snd (forward_close strict use8 si (Some c) (m3, s3)))) = None.
Proof.
  destruct close_held_refuted as (A & B & (p & C) & D & E & (m' & s' & F & G)).
  exists false, (recording 1 refuses), con1, (w_m after2 0%nat), (w_s after2), (w_m after3 0%nat), (w_s after3).
  split; [exists (w_g after1), (w_m after1 0%nat); split; [apply after1_reach|exact A]|].
  split; [eexists; apply after2_reach|]. split; [exact B|]. split; [now rewrite C|].
  split; [eexists; apply after3_reach|]. split; [exact D|]. split; [exact E|]. rewrite F. split; [reflexivity|exact G].
Qed.

Lemma alias_refuted' : exists g m c X payload m', reachable (list encaps) g m /\ lock 0 m = Some c
  /\ (forall o c', lock o m = Some c' -> io_t2oId c' <> X) /\ is_u32 X
  /\ on_readable strict (Dgram (gram X payload)) m = (Ok tt, m') /\ m_log m' = m_log m ++ [EvData 0 0 1 [9; 9]].
Proof.
  destruct alias_refuted as (A & B & (m' & C & D)).
  exists (w_g after1), (w_m after1 0%nat), con1, 7, [1; 0; 9; 9], m'. split; [apply after1_reach|]. split; [exact B|].
  split; [|split; [unfold is_u32; lia|split; [exact C|exact D]]].
  intros o c' L. destruct o as [|o]; vm_compute in L; [|discriminate]. inv L. discriminate.
Qed.

Lemma multiplier_refuted' : exists m g mg c, (m = 6 \/ m = 7) /\ reachable (list encaps) g mg
  /\ w_m (run_calls strict [(0%nat, open_call 7 1 1 (class1 1 m))] start0) 0%nat = mg
  /\ lock 0 mg = Some c /\ io_mult c = 0.
Proof.
  exists 6. eexists. eexists. eexists. split; [now left|]. split; [|split; [reflexivity|split; vm_compute; reflexivity]].
  exists strict, [(0%nat, open_call 7 1 1 (class1 1 6))], start0, 0%nat. split; [apply start_new|]. split; reflexivity.
Qed.

Lemma no_socket_refuted : exists g m, reachable (list encaps) g m
  /\ forall h rounds ending env, handle_connections h rounds ending env m = (Undef UbDerefEnd, m).
Proof.
  exists (w_g start0), (mgr0 (inc0 0%nat)). split; [|intros; apply no_socket].
  exists strict, [], start0, 0%nat. split; [apply start_new|]. split; reflexivity.
Qed.

Lemma order_refuted' : exists c seq hdr data, io_t2oRTF c = true /\ io_trigger c mod 4 <> 0 /\ io_t2oFixed c = false
  /\ io_receive strict c (wire_data true true seq hdr data) = Ok (io_set_tcount c 0, [EvData (io_oid c) 0x10007 0 data])
  /\ (hdr, seq) <> (0x10007, 0).
Proof.
  exists (demo 1 4 10000 true), 7, 1, [9; 9]. repeat split; try discriminate.
Qed.

Lemma early_refuted' : exists c d t1 t2, io_mult c * io_t2oAPI c = 40000 /\ t2 - t1 = 1000000
  /\ fst (io_run strict [Recv t1 d] c) = Open c
  /\ snd (io_run strict [Recv t1 d] c) = [EvData 0 0 1 [9]]
  /\ fst (io_run strict [Recv t1 d; Tick t2 same_out all_sent] c) = Closed
  /\ sane (spec_of c) (io_last c) [Recv t1 d; Tick t2 same_out all_sent].
Proof.
  destruct early_refuted as (d & A & B & C & D). exists (demo 1 4 10000 false), d, 99000000, 100000000.
  repeat match goal with |- _ /\ _ => split end; auto.
Qed.
Lemma late_refuted' : exists c, io_wf c /\ fresh_io c /\ io_mult c * io_t2oAPI c = 40000 /\ io_o2tAPI c = 10000 /\ io_last c = 0
  /\ forall T, exists ops c',
  T <= tick_time ops 0 /\ Forall (fun o => match o with Tick _ _ _ => True | _ => False end) ops
  /\ io_run strict ops c = (Open c', []).
Proof.
  exists (demo 1 4 10000 false). split; [unfold io_wf, is_u32, is_u8; cbn; lia|]. split; [repeat split|].
  split; [reflexivity|]. split; [reflexivity|]. split; [reflexivity|]. exact late_refuted.
Qed.
Lemma wrap_refuted' : exists c, io_wf c /\ fresh_io c /\ io_mult c * io_t2oAPI c = 2 ^ 32 /\ io_last c = 0
  /\ fst (io_run strict [Tick 1000000 same_out all_sent] c) = Closed.
Proof.
  exists (demo 1 128 33554432 false). split; [unfold io_wf, is_u32, is_u8; cbn; lia|]. repeat split.
Qed.

Lemma datagrams_refuted' : exists g m, reachable (list encaps) g m /\
  (exists l, is_bytes l /\ fst (on_readable strict (Dgram l) m) = Throw OutOfRange)
  /\ (exists l, is_bytes l /\ fst (on_readable strict (Dgram l) m) = Undef UbOobRead).
Proof.
  destruct datagrams_refuted as (A & B & _). exists (w_g after1), (w_m after1 0%nat). split; [apply after1_reach|].
  split; [exists []; split; [constructor|exact A]|]. eexists. split; [|exact B]. repeat constructor; cbn; lia.
Qed.
Lemma same_port_refuted : exists a b, ep_host a <> ep_host b /\ ep_addr a <> ep_addr b /\ same_key a b = true.
Proof.
  exists (ep_of_host (fun _ => Some 1) "10.0.0.1" 2222), (ep_of_host (fun _ => Some 2) "10.0.0.2" 2222).
  split; [discriminate|]. split; [intros H; discriminate|]. now apply ep_same_port.
Qed.
Lemma select_late' : exists (timeout start : Z), forall k : nat, exists rounds : list (sel_round unit),
  Forall (fun r => start + timeout * 1000000 <= sr_now r) rounds
  /\ bs_select (fun _ _ w => (Ok tt, S w)) 1 rounds SelQuiet 0%nat = (Ok tt, k).
Proof.
  exists 1, 0. intros k. destruct (select_late k) as (r & A & B & C). exists r. split; [|exact C].
  eapply Forall_impl; [|exact A]. cbn. lia.
Qed.
