(** Property of connections when there is not enough memory: C116. *)
From Verif Require Import Base MBuffer SBuffer MEip SEip SObj MSocket SSocket MConnReq SConnReq MConn SConn PConnMap PConnTop SLife PLife STarget PTarget PThrow MMem MLow SLow PLow.
Local Open Scope Z_scope.

(** ** C116 connections when there is not enough memory *)

(** With enough memory nothing is different. *)
Theorem C116_enough : forall info warning error h rounds ending env fs m, enough fs ->
  exists fs', l_handle warning error h rounds ending env (fs, m)
    = (Done (fst (handle_connections h rounds ending env m)), (fs', snd (handle_connections h rounds ending env m)))
  /\ forall S use8 (si : session_if S) req host v large c ptr g s, runs_as h use8 si req ->
     (exists fs', l_open info error h req v host large c (fs, (g, m, s))
        = (Done (fst (forward_open h use8 si host v large c (g, m, s))), (fs', snd (forward_open h use8 si host v large c (g, m, s)))))
     /\ exists fs', l_close info warning req ptr (fs, (g, m, s))
        = (Done (fst (forward_close h use8 si ptr (m, s))), (fs', (g, fst (snd (forward_close h use8 si ptr (m, s))), snd (snd (forward_close h use8 si ptr (m, s)))))).
Proof.
  intros info warning error h rounds ending env fs m En. destruct (lhandle_enough warning error h rounds ending env fs m En) as (fs' & _ & E).
  exists fs'. split; [exact E|]. intros S use8 si req host v large c ptr g s R. split.
  - destruct (sim_open info error h use8 si req v host large c R fs (g, m, s)) as [_ X]. destruct (X En) as (f1 & _ & Y). now exists f1.
  - destruct (sim_close info warning h use8 si req ptr R fs (g, m, s)) as [_ X]. destruct (X En) as (f1 & _ & Y). exists f1. rewrite Y.
    destruct (forward_close h use8 si ptr (m, s)) as [o [m1 s1]]. reflexivity.
Qed.
Print Assumptions C116_enough.

(** A call can only end as it does with enough memory, throw std::bad_alloc, or end
    the program. *)
Theorem C116_ends : forall info warning error h fs m,
  (forall rounds ending env o fs' m', l_handle warning error h rounds ending env (fs, m) = (Done o, (fs', m')) -> o <> Abort ->
     handle_connections h rounds ending env m = (o, m'))
  /\ forall S use8 (si : session_if S) req host v large c ptr g s, runs_as h use8 si req ->
     (forall o fs' w', l_open info error h req v host large c (fs, (g, m, s)) = (Done o, (fs', w')) -> o <> Abort ->
        forward_open h use8 si host v large c (g, m, s) = (o, w'))
     /\ forall o fs' g' m' s', l_close info warning req ptr (fs, (g, m, s)) = (Done o, (fs', (g', m', s'))) -> o <> Abort ->
        forward_close h use8 si ptr (m, s) = (o, (m', s')) /\ g' = g.
Proof.
  intros info warning error h fs m. split; [intros; eapply lhandle_done; eauto|]. intros S use8 si req host v large c ptr g s R. split.
  - intros o fs' w' E N. destruct (sim_open info error h use8 si req v host large c R fs (g, m, s)) as [X _]. eapply X; eauto.
  - intros o fs' g' m' s' E N. destruct (sim_close info warning h use8 si req ptr R fs (g, m, s)) as [X _]. specialize (X _ _ _ E N).
    destruct (forward_close h use8 si ptr (m, s)) as [o1 [m1 s1]]. inversion X. now subst.
Qed.
Print Assumptions C116_ends.

(** handleConnections that throws std::bad_alloc loses no connection, changes none of what was
    agreed on, and has done a first part of what it does with enough memory. Full
    statement: and no connection is announced as closed twice, none sends or gets data after
    that, no number is skipped, no data is lost. *)
Theorem C116_handle_partial : forall warning error h rounds ending env fs m fs' m', NoDup (map fst (m_map m)) ->
  l_handle warning error h rounds ending env (fs, m) = (NoMemory, (fs', m')) ->
  all_there m m' /\ m_socks m' = m_socks m
  /\ exists done todo, m_log m' = m_log m ++ done /\ m_log (snd (handle_connections h rounds ending env m)) = m_log m ++ done ++ todo.
Proof.
  intros warning error h rounds ending env fs m fs' m' N E. destruct (lhandle_low _ _ _ _ _ _ _ _ _ _ N E) as (A & (B & _ & d & D) & (_ & _ & t & T)).
  split; [exact A|]. split; [exact B|]. exists d, t. split; [exact D|]. now rewrite T, D, app_assoc.
Qed.
Print Assumptions C116_handle_partial.

(** A connection whose turn it was when memory ran out: it was to send and has not sent. Its
    number is used up. Either it is still due, and sends at the next call, or it waits for another
    interval. *)
Theorem C116_tick : forall warning now hook sr c fs fs' c' ev, l_tick warning now hook sr c fs = (NoMemory, fs', c', ev) ->
  ev = [] /\ agreed c' = agreed c /\ io_last c' = now /\ io_o2tSeq c' = (io_o2tSeq c + 1) mod 2 ^ 32
  /\ (io_o2tTimer c' = 0 /\ io_out c' = hook (io_out c) \/ io_o2tAPI c' <= io_o2tTimer c' /\ io_out c' = io_out c)
  /\ (io_seqCount c' = io_seqCount c \/ io_seqCount c' = (io_seqCount c + 1) mod 2 ^ 16).
Proof.
  intros warning now hook sr c fs fs' c' ev E. pose proof (ltick_low _ _ _ _ _ _ _ _ _ E) as (-> & T & D & C). cbv zeta in *.
  split; [reflexivity|].
  destruct C as [-> | [-> | ->] ]; (split; [reflexivity|]; split; [reflexivity|]; split; [reflexivity|]; split; [auto|]; cbn; destruct (has_seq (io_trigger c)); auto).
Qed.
Print Assumptions C116_tick.

(** forwardOpen and forwardClose that throw std::bad_alloc leave the connections of the manager as
    they are; a connection that was to be closed is still there. Full statement:
    and the target has no connection that the manager does not have. *)
Theorem C116_open_partial : forall info warning error h S (req : Z -> bytes -> low S response) v host large c ptr fs g m s fs' g' m' s',
  l_open info error h req v host large c (fs, (g, m, s)) = (NoMemory, (fs', (g', m', s')))
  \/ l_close info warning req ptr (fs, (g, m, s)) = (NoMemory, (fs', (g', m', s'))) ->
  m_map m' = m_map m /\ m_log m' = m_log m.
Proof. intros info warning error h S req v host large c ptr fs g m s fs' g' m' s' [E|E]; [exact (low_open _ _ _ _ _ _ _ _ _ _ _ _ E)|exact (low_close _ _ _ _ _ _ _ _ E)]. Qed.
Print Assumptions C116_open_partial.
(** If memory runs out before the request is sent the target does not notice anything. *)
Theorem C116_unsent : forall info error h S (req : Z -> bytes -> low S response) v host large c fs g m s c' g',
  fo_prepare large (m_inc m) c g = Ok (c', g') ->
  l_open info error h req v host large c (true :: fs, (g, m, s)) = (NoMemory, (fs, (g', m, s))).
Proof. intros info error h S req v host large c fs g m s c' g' P. unfold l_open, l_bind, l_lift. now rewrite P. Qed.
Print Assumptions C116_unsent.

Definition mgr1 : mgr := w_m after1 0%nat.
Definition low1 := l_handle true true strict [] SelQuiet (at_ms 70) ([false; false; true], mgr1).
Definition low2 := l_handle true true strict [] SelQuiet (at_ms 70) ([], snd (snd low1)).
(** After the close listener was called there is no memory to note the key: the connection stays and
    is announced again. *)
Theorem C116_twice_refuted : exists g m fs fs1 m1 fs2 m2 env, reachable (list encaps) g m
  /\ l_handle true true strict [] SelQuiet env (fs, m) = (NoMemory, (fs1, m1))
  /\ l_handle true true strict [] SelQuiet env ([], m1) = (Done (Ok tt), (fs2, m2))
  /\ about 0 (m_log m) = [] /\ about 0 (m_log m2) = [EvClosed 0; EvClosed 0].
Proof.
  exists (w_g after1), mgr1, [false; false; true], (fst (snd low1)), (snd (snd low1)), (fst (snd low2)), (snd (snd low2)), (at_ms 70).
  split; [apply after1_reach|]. split; [vm_compute; reflexivity|]. split; [vm_compute; reflexivity|]. split; vm_compute; reflexivity.
Qed.
Print Assumptions C116_twice_refuted.
(** Or it gets data and sends. *)
Definition low3 := l_handle true true strict [] SelQuiet (at_ms 35) ([], mgr1).
Definition low4 := l_handle true true strict [] SelQuiet (at_ms 50) ([false; false; true], snd (snd low3)).
Definition low5 := l_handle true true strict knock SelQuiet (at_ms 55) ([], snd (snd low4)).
Theorem C116_revived_refuted : exists g m fs4 fs5 m3 m4 m5 env3 env4 env5 p1 p2 dst, reachable (list encaps) g m
  /\ l_handle true true strict [] SelQuiet env3 ([], m) = (Done (Ok tt), ([], m3))
  /\ l_handle true true strict [] SelQuiet env4 ([false; false; true], m3) = (NoMemory, (fs4, m4))
  /\ l_handle true true strict knock SelQuiet env5 ([], m4) = (Done (Ok tt), (fs5, m5))
  /\ about 0 (m_log m5) = [EvSent 0 dst p1; EvClosed 0; EvData 0 0 1 [9]; EvSent 0 dst p2].
Proof.
  exists (w_g after1), mgr1, (fst (snd low4)), (fst (snd low5)), (snd (snd low3)), (snd (snd low4)), (snd (snd low5)), (at_ms 35), (at_ms 50), (at_ms 55).
  do 2 eexists. exists (io_dest con1). split; [apply after1_reach|]. split; [vm_compute; reflexivity|]. split; [vm_compute; reflexivity|].
  split; [vm_compute; reflexivity|]. vm_compute. reflexivity.
Qed.
Print Assumptions C116_revived_refuted.
(** A number is skipped: the first packet has the number 2. *)
Definition low6 := l_handle true true strict [] SelQuiet (at_ms 20) ([false; true], mgr1).
Definition low7 := l_handle true true strict [] SelQuiet (at_ms 21) ([], snd (snd low6)).
Theorem C116_gap_refuted : exists g m c fs6 m6 fs7 m7 env6 env7, reachable (list encaps) g m /\ lock 0 m = Some c /\ io_o2tSeq c = 0 /\ about 0 (m_log m) = []
  /\ l_handle true true strict [] SelQuiet env6 ([false; true], m) = (NoMemory, (fs6, m6))
  /\ l_handle true true strict [] SelQuiet env7 ([], m6) = (Done (Ok tt), (fs7, m7))
  /\ exists p, about 0 (m_log m7) = [EvSent 0 (io_dest c) p] /\ firstn 14 p = [2; 0; 2; 128; 8; 0] ++ le 4 (io_o2tId c) ++ le 4 2.
Proof.
  exists (w_g after1), mgr1, con1, (fst (snd low6)), (snd (snd low6)), (fst (snd low7)), (snd (snd low7)), (at_ms 20), (at_ms 21).
  split; [apply after1_reach|]. split; [vm_compute; reflexivity|]. split; [vm_compute; reflexivity|]. split; [vm_compute; reflexivity|].
  split; [vm_compute; reflexivity|]. split; [vm_compute; reflexivity|]. eexists. split; vm_compute; reflexivity.
Qed.
Print Assumptions C116_gap_refuted.
(** Data that has been read is given to nobody. *)
Theorem C116_lost_refuted : exists g m d fs, reachable (list encaps) g m
  /\ l_readable true true strict d (false :: true :: fs, m) = (NoMemory, (fs, m))
  /\ fst (on_readable strict d m) = Ok tt /\ m_log (snd (on_readable strict d m)) = m_log m ++ [EvData 0 0 1 [9]].
Proof.
  exists (w_g after1), mgr1, (Dgram (gram 0x10007 [1; 0; 9])), []. split; [apply after1_reach|]. split; [vm_compute; reflexivity|]. split; vm_compute; reflexivity.
Qed.
Print Assumptions C116_lost_refuted.
(** The message about a connection that timed out ends the program. *)
Theorem C116_abort_refuted : exists g m fs fs' m' env, reachable (list encaps) g m
  /\ l_handle true true strict [] SelQuiet env (fs, m) = (Done Abort, (fs', m')) /\ m_log m' = m_log m.
Proof.
  exists (w_g after1), mgr1, [false; true]. do 2 eexists. exists (at_ms 70). split; [apply after1_reach|]. split; vm_compute; reflexivity.
Qed.
Print Assumptions C116_abort_refuted.
(** The target opens a connection that no manager has. *)
Definition asks : Z -> bytes -> low (list tconn * trace) response :=
  fun service data => l_lift (send_request strict (served 1 (target (gives 7))) false service CM_PATH data []).
Theorem C116_leak_refuted : exists fs fs' g' m' t tr,
  l_open true true strict asks (env_ok 0) "10.0.0.1" false (class1 1 0) (fs, (globals0, mgr0 1, ([], []))) = (NoMemory, (fs', (g', m', ([t], tr))))
  /\ m_map m' = [] /\ List.length tr = 1%nat.
Proof. exists [false; false; false; true]. do 5 eexists. split; [vm_compute; reflexivity|]. split; vm_compute; reflexivity. Qed.
Print Assumptions C116_leak_refuted.

(** Hypotheses: [asks] is a session of the main model; the manager with one connection; with enough memory it
    opens. *)
Example C116_asks : runs_as strict false (served 1 (target (gives 7))) asks.
Proof.
  intros service data fs s. unfold asks. exact (sim_lift (send_request strict (served 1 (target (gives 7))) false service CM_PATH data []) fs s).
Qed.
Example C116_case : NoDup (map fst (m_map mgr1)) /\ List.length (m_map mgr1) = 1%nat
  /\ fst (l_open true true strict asks (env_ok 0) "10.0.0.1" false (class1 1 0) ([false; false; false; false], (globals0, mgr0 1, ([], [])))) = Done (Ok (Some 0%nat)).
Proof. split; [repeat constructor; cbn; tauto|]. split; vm_compute; reflexivity. Qed.
Example C116_close_case : exists fs' w', l_close true true asks (Some con1) ([true], (globals0, mgr1, ([], []))) = (NoMemory, (fs', w')).
Proof. do 2 eexists. vm_compute. reflexivity. Qed.
