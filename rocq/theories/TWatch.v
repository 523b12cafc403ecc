(** Properties C84 and C85: failures and refusals reach the caller. *)
From Verif Require Import Base MBuffer SBuffer PBase MEip SEip SObj PObj MFile SFile MIdent MParam SParam MFault SFault MConnReq SConnReq MConn SConn MYaskawa
  PConnTop SWatch PWatch.
Local Open Scope Z_scope.

(** ** C84 failures of the session *)

(** Any session, any device: if an exchange fails, it is the last one, and the
    call fails the same way. *)
Theorem C84_router : forall S h (si : session_if S) use8 service path data extra s,
  let '(o, w) := send_request h (watched si) use8 service path data extra (fresh s) in reported o w.
Proof. intros. pose proof (honest_send si h use8 service path data extra (fresh s) eq_refl) as E. now destruct (send_request _ _ _ _ _ _ _ _). Qed.
Print Assumptions C84_router.
Theorem C84_yaskawa : forall S h (si : session_if S) service path data extra s,
  let '(o, w) := ysend_request h (watched si) service path data extra (fresh s) in reported o w.
Proof. intros. pose proof (honest_ysend si h service path data extra (fresh s) eq_refl) as E. now destruct (ysend_request _ _ _ _ _ _ _). Qed.
Print Assumptions C84_yaskawa.
Theorem C84_identity : forall S h (si : session_if S) use8 instance s,
  let '(o, w) := identity_read h use8 (watched si) instance (fresh s) in reported o w.
Proof. intros. pose proof (honest_identity si h use8 instance (fresh s) eq_refl) as E. now destruct (identity_read _ _ _ _ _). Qed.
Print Assumptions C84_identity.
Theorem C84_parameter : forall S h (si : session_if S) use8 id full s,
  let '(o, w) := param_read h use8 (watched si) id full (fresh s) in reported o w.
Proof. intros. pose proof (honest_param si h use8 id full (fresh s) eq_refl) as E. now destruct (param_read _ _ _ _ _ _). Qed.
Print Assumptions C84_parameter.
(** An object that exists already stays as it was. *)
Theorem C84_update : forall S h (si : session_if S) use8 p s,
  let '(o, (p', w)) := update_value h use8 (watched si) (p, fresh s) in
  reported o w /\ (wt_failed w <> None -> p' = p).
Proof.
  intros. pose proof (update_reports si h use8 (p, fresh s) eq_refl) as E. pose proof (update_steady si h use8 p (fresh s) eq_refl) as F.
  destruct (update_value _ _ _ _) as [o [p' w]]. split; [exact E|]. cbn [fst snd] in F. destruct (wt_failed w); [auto|congruence].
Qed.
Print Assumptions C84_update.
Theorem C84_file : forall S h (si : session_if S) use8 id s,
  let '(o, w) := file_open h use8 (watched si) id (fresh s) in reported o w.
Proof. intros. pose proof (honest_open si h use8 id (fresh s) eq_refl) as E. now destruct (file_open _ _ _ _ _). Qed.
Print Assumptions C84_file.
Theorem C84_begin : forall S h (si : session_if S) use8 handler f s,
  let '(o, (f', w)) := begin_upload h use8 (watched si) handler (f, fresh s) in
  reported o w /\ (wt_failed w <> None -> f' = f).
Proof.
  intros. destruct (begin_reports si h use8 handler) as [E F]. specialize (E (f, fresh s) eq_refl). specialize (F f (fresh s) eq_refl).
  destruct (begin_upload _ _ _ _ _) as [o [f' w]]. split; [exact E|]. cbn [fst snd] in F. destruct (wt_failed w); [auto|congruence].
Qed.
Print Assumptions C84_begin.
Theorem C84_transfers : forall S h (si : session_if S) use8 f s,
  let '(o, (f', w)) := handle_transfers h use8 (watched si) (f, fresh s) in
  reported o w /\ (wt_failed w <> None -> f' = f).
Proof.
  intros. destruct (transfers_report si h use8) as [E F]. specialize (E (f, fresh s) eq_refl). specialize (F f (fresh s) eq_refl).
  destruct (handle_transfers _ _ _ _) as [o [f' w]]. split; [exact E|]. cbn [fst snd] in F. destruct (wt_failed w); [auto|congruence].
Qed.
Print Assumptions C84_transfers.
Theorem C84_faults : forall S h (si : session_if S) use8 clear want calls s,
  let '(o, (_, w)) := handle_faults h use8 (watched si) clear want (calls, fresh s) in reported o w.
Proof. intros. pose proof (honest_faults si h use8 clear want (calls, fresh s) eq_refl) as E. now destruct (handle_faults _ _ _ _ _ _) as [o [c w]]. Qed.
Print Assumptions C84_faults.
Theorem C84_fault_object : forall S h (si : session_if S) use8 id s,
  let '(o, w) := fault_object_read h use8 (watched si) id (fresh s) in reported o w.
Proof. intros. pose proof (honest_fault_object si h use8 id (fresh s) eq_refl) as E. now destruct (fault_object_read _ _ _ _ _). Qed.
Print Assumptions C84_fault_object.
(** Managers: connections and sockets stay as they were. *)
Theorem C84_open : forall S h (si : session_if S) use8 host env large c g m s,
  let '(o, (g', m', w)) := forward_open h use8 (watched si) host env large c (g, m, fresh s) in
  reported o w /\ (wt_failed w <> None -> m' = m).
Proof.
  intros. pose proof (open_reports si h use8 host env large c g m s) as E. cbv zeta in E.
  destruct (forward_open _ _ _ _ _ _ _ _) as [o [[g' m'] w]]. exact E.
Qed.
Print Assumptions C84_open.
Theorem C84_close : forall S h (si : session_if S) use8 ptr m s,
  let '(o, (m', w)) := forward_close h use8 (watched si) ptr (m, fresh s) in
  reported o w /\ (wt_failed w <> None -> m' = m).
Proof.
  intros. pose proof (close_reports si h use8 ptr m s) as E. cbv zeta in E.
  destruct (forward_close _ _ _ _ _) as [o [m' w]]. exact E.
Qed.
Print Assumptions C84_close.

(** A session that gives these answers and then loses the connection: in the
    second request for a parameter, in the third request of the faults, in an open. *)
Definition flaky : session_if (list answer) :=
  mkSession 7 (fun p l => match l with
    | [] => (Throw (SystemError 104), [])
    | a :: r => (Ok (reply_packet 7 14 a), r)
    end).
Example C84_example :
  param_read strict false (watched flaky) 1 true (fresh [done [2]])
  = (Throw (SystemError 104), mkWatch [] (Some (FThrow (SystemError 104))) 0)
  /\ handle_faults strict false (watched flaky) true true ([], fresh [done [4; 0]; done [1; 1]])
  = (Throw (SystemError 104), ([], mkWatch [] (Some (FThrow (SystemError 104))) 0))
  /\ fst (forward_open strict false (watched flaky) "10.0.0.1" (env_ok 0) false (class1 1 0) (w_g start0, w_m start0 0%nat, fresh []))
  = Throw (SystemError 104)
  /\ fst (forward_close strict false (watched flaky) (Some con1) (w_m after1 0%nat, fresh [])) = Throw (SystemError 104)
  /\ fst (identity_read strict false (watched flaky) 1 (fresh [done [1; 0; 2; 0; 3; 0; 4; 5; 6; 0; 7; 0; 0; 0; 1; 65]]))
  = Ok (mkIdentity 1 1 2 3 (mkRev 4 5) 6 7 (short_string [65])).
Proof. repeat match goal with |- _ /\ _ => split end; vm_compute; reflexivity. Qed.

(** ** C85 refusals of the device *)

(** Full statement: a refused request is never taken for a success. False of
    closing a connection, see below. Any device whose answers are well formed:
    reading an object makes its requests until one is refused; then it ends with
    the exception for that, which has no other cause. *)
Theorem C85_identity_partial : forall D h use8 handle (dev : device D), is_u32 handle -> device_wf dev -> forall instance d tr o d' tr',
  identity_read h use8 (served handle dev) instance (d, tr) = (o, (d', tr')) ->
  exists new, tr' = tr ++ new /\ refusal_reported new o.
Proof.
  intros D h use8 handle dev H W instance d tr o d' tr' E.
  pose proof (identity_notices h use8 handle dev H W instance (d, tr)) as N. rewrite E in N. exact N.
Qed.
Print Assumptions C85_identity_partial.
Theorem C85_parameter_partial : forall D h use8 handle (dev : device D), is_u32 handle -> device_wf dev -> forall id full d tr o d' tr',
  sendable use8 id -> param_read h use8 (served handle dev) id full (d, tr) = (o, (d', tr')) ->
  exists new, tr' = tr ++ new /\ refusal_reported new o.
Proof.
  intros D h use8 handle dev H W id full d tr o d' tr' I E.
  pose proof (param_notices h use8 handle dev H W id full I (d, tr)) as N. rewrite E in N. exact N.
Qed.
Print Assumptions C85_parameter_partial.
Theorem C85_update_partial : forall D h use8 handle (dev : device D), is_u32 handle -> device_wf dev -> forall p d tr o p' d' tr',
  pa_router p = true -> sendable use8 (pa_id p) -> update_value h use8 (served handle dev) (p, (d, tr)) = (o, (p', (d', tr'))) ->
  exists new, tr' = tr ++ new /\ refusal_reported new o.
Proof.
  intros D h use8 handle dev H W p d tr o p' d' tr' R I E.
  pose proof (update_notices h use8 handle dev H W p R I d tr) as N. rewrite E in N. exact N.
Qed.
Print Assumptions C85_update_partial.
Theorem C85_file_partial : forall D h use8 handle (dev : device D), is_u32 handle -> device_wf dev -> forall id d tr o d' tr',
  sendable use8 id -> file_open h use8 (served handle dev) id (d, tr) = (o, (d', tr')) ->
  exists new, tr' = tr ++ new /\ refusal_reported new o.
Proof.
  intros D h use8 handle dev H W id d tr o d' tr' I E.
  pose proof (file_notices h use8 handle dev H W id I (d, tr)) as N. rewrite E in N. exact N.
Qed.
Print Assumptions C85_file_partial.
Theorem C85_fault_object_partial : forall D h use8 handle (dev : device D), is_u32 handle -> device_wf dev -> forall id d tr o d' tr',
  sendable use8 id -> fault_object_read h use8 (served handle dev) id (d, tr) = (o, (d', tr')) ->
  exists new, tr' = tr ++ new /\ refusal_reported new o.
Proof.
  intros D h use8 handle dev H W id d tr o d' tr' I E.
  pose proof (fault_object_notices h use8 handle dev H W id I (d, tr)) as N. rewrite E in N. exact N.
Qed.
Print Assumptions C85_fault_object_partial.
(** The parameters with the faults have numbers above 255. *)
Theorem C85_faults_partial : forall D h handle (dev : device D), is_u32 handle -> device_wf dev -> forall clear want c d tr o c' d' tr',
  handle_faults h false (served handle dev) clear want (c, (d, tr)) = (o, (c', (d', tr'))) ->
  exists new, tr' = tr ++ new /\ refusal_reported new o.
Proof.
  intros D h handle dev H W clear want c d tr o c' d' tr' E.
  pose proof (faults_notice h false handle dev H W eq_refl clear want (c, (d, tr))) as N. rewrite E in N. exact N.
Qed.
Print Assumptions C85_faults_partial.
(** Closing a connection takes a refusal for a success: the target answers with
    an error, the call returns, and the connection is gone here. *)
Theorem C85_refuted : exists m c (dev : device unit) a q, (exists g, reachable (list encaps) g m) /\ lock 0 m = Some c
  /\ device_wf dev /\ a_status a <> 0
  /\ exists m', forward_close strict false (served 7 dev) (lock 0 m) (m, (tt, [])) = (Ok tt, (m', (tt, [(q, a)]))) /\ lock 0 m' = None.
Proof.
  exists (w_m after1 0%nat), con1, (fun _ _ => (failed 1, tt)), (failed 1). eexists. split; [exists (w_g after1); exact after1_reach|].
  split; [vm_compute; reflexivity|]. split; [intros d q; unfold failed, answer_wf; cbn [fst a_status a_addl a_data]|].
  - split; [unfold is_u8; lia|]. split; [constructor|]. split; [cbn; lia|]. split; [constructor|cbn; lia].
  - split; [discriminate|]. eexists. split; vm_compute; reflexivity.
Qed.
Print Assumptions C85_refuted.
Example C85_example :
  let dev : device nat := fun n q => (if Nat.ltb n 2 then done [2; 0] else failed 14, S n) in
  device_wf dev /\ is_u32 7 /\ sendable false 600
  /\ fst (handle_faults strict false (served 7 dev) true true ([], (0%nat, []))) = Throw (RuntimeError RtRequestFailed)
  /\ List.length (snd (snd (snd (handle_faults strict false (served 7 dev) true true ([], (0%nat, [])))))) = 3%nat
  /\ fst (param_read strict false (served 7 dev) 600 true (2%nat, [])) = Throw (RuntimeError RtRequestFailed)
  /\ fst (file_open strict false (served 7 dev) 600 (0%nat, [])) = Ok (mkFile 600 FLoaded []).
Proof.
  cbv zeta. split.
  { intros n q. cbn [fst]. destruct (Nat.ltb n 2); unfold done, failed, answer_wf; cbn [a_status a_addl a_data];
      (split; [unfold is_u8; lia|]; split; [constructor|]; split; [cbn; lia|]; split; [repeat constructor; unfold is_u8; lia|cbn; lia]). }
  split; [unfold is_u32; lia|]. split; [split; [unfold is_u16; lia|discriminate]|].
  repeat match goal with |- _ /\ _ => split end; vm_compute; reflexivity.
Qed.
