(** Exceptions that leave handleConnections: C86. *)
From Verif Require Import Base MBuffer SBuffer MEip SEip MSocket SSocket MConnReq SConnReq MConn SConn PConnMap PConnTop SLife PLife MReent SReent PReent PThrow.

(** A call of handleConnections that does not return loses no connection that
    no listener closes. Such a connection has been given what came for it in the
    datagrams handled before; then it has had its tick, too, or nothing more. The
    full claim (no event twice, none after the closing, no gap in the numbers) is
    false. *)
Theorem C86_kept_partial : forall S (L : listeners S) rounds ending env oid g m s c o g' m' s', listened S g m -> spares L oid ->
  lock oid m = Some c -> byte_grams (CHandle (S := S) rounds ending env) ->
  listen_connections strict L rounds ending env (g, m, s) = (o, (g', m', s')) -> o <> Ok tt ->
  exists seen rest xs ds c1 ev c' ev', arriving (List.length (m_socks m)) rounds = seen ++ rest
    /\ deliveries (io_t2oId c) seen ds /\ unset xs = map (Recv 0) ds /\ io_run strict xs c = (Open c1, ev)
    /\ lock oid m' = Some c' /\ spec_of c' = spec_of c /\ io_t2oId c' = io_t2oId c
    /\ about oid (m_log m') = about oid (m_log m) ++ ev ++ ev'
    /\ (c' = c1 /\ ev' = [] \/ rest = [] /\ begun strict L env oid o c1 c' ev').
Proof. intros S L rounds ending env oid g m s c o g' m' s' R P. apply listen_kept; [assumption|]. eapply listened_inv; eassumption. Qed.
Print Assumptions C86_kept_partial.
(** The close listener throws: the connection has had its tick and is still
    there. *)
Example C86_kept_case : listened (list encaps) (w_g after1) (w_m after1 0%nat) /\ spares angry 0 /\ lock 0 (w_m after1 0%nat) = Some con1
  /\ byte_grams (CHandle (S := list encaps) [] SelQuiet (at_ms 70))
  /\ listen_connections strict angry [] SelQuiet (at_ms 70) (w_g after1, w_m after1 0%nat, w_s after1) = (Throw OutOfRange, angry1)
  /\ lock 0 (snd (fst angry1)) <> None /\ about 0 (m_log (snd (fst angry1))) = [EvClosed 0].
Proof.
  split; [apply reachable_listened, after1_reach|]. split.
  { intros w p hdr sq d. repeat split; intros (u & si & J); cbn in J; try destruct J as [J|[]]; easy. }
  split; [vm_compute; reflexivity|]. split; [constructor|]. split; [exact angry_1|].
  split; [vm_compute; discriminate|]. vm_compute. reflexivity.
Qed.

(** Whatever was thrown before, [C77_undisturbed] holds of the next call: after
    the exception of the close listener it removes the connection. *)
Example C86_next_case : listened (list encaps) (fst (fst angry1)) (snd (fst angry1)) /\ spares calm 0
  /\ lock 0 (snd (fst angry1)) <> None
  /\ listen_connections strict calm [] SelQuiet (at_ms 70) angry1 = (Ok tt, angry2) /\ lock 0 (snd (fst angry2)) = None.
Proof.
  split; [exact angry1_listened|].
  split; [intros w p hdr sq d; repeat split; intros (u & si & [])|].
  split; [vm_compute; discriminate|]. split; [exact angry_2|]. vm_compute. reflexivity.
Qed.

(** An exception of a listener reaches the caller: if the listeners of a
    connection never return and the call does, nothing has happened to that
    connection. *)
Theorem C86_reaches : forall S h (L : listeners S) rounds ending env oid g m s g' m' s', listened S g m -> never_returns h L oid ->
  listen_connections h L rounds ending env (g, m, s) = (Ok tt, (g', m', s')) -> about oid (m_log m') = about oid (m_log m).
Proof. intros S h L rounds ending env oid g m s g' m' s' R N. apply listen_mute; [assumption|]. eapply listened_inv; eassumption. Qed.
Print Assumptions C86_reaches.
(** Before its time to send the connection does nothing; when its time has come
    the exception ends the call. *)
Example C86_reaches_case : listened (list encaps) (w_g after1) (w_m after1 0%nat) /\ never_returns strict fury 0
  /\ (exists v, listen_connections strict fury [] SelQuiet (at_ms 5) view1 = (Ok tt, v))
  /\ exists v, listen_connections strict fury [] SelQuiet (at_ms 20) view1 = (Throw LengthError, v).
Proof.
  split; [apply reachable_listened, after1_reach|]. split; [intros [[g m] s] hdr sq d w'; repeat split; discriminate|].
  split; [exact fury_calm|exact fury_ends].
Qed.

(** The close listener is called again at the next call. *)
Theorem C86_twice_refuted : exists g m s (L L' : listeners (list encaps)) env oid e w1 g2 m2 s2, listened (list encaps) g m /\ spares L oid /\ spares L' oid
  /\ listen_connections strict L [] SelQuiet env (g, m, s) = (Throw e, w1)
  /\ listen_connections strict L' [] SelQuiet env w1 = (Ok tt, (g2, m2, s2))
  /\ about oid (m_log m) = [] /\ about oid (m_log m2) = [EvClosed oid; EvClosed oid].
Proof.
  exists (w_g after1), (w_m after1 0%nat), (w_s after1), angry, calm, (at_ms 70), 0%nat, OutOfRange, angry1, (fst (fst angry2)), (snd (fst angry2)), (snd angry2).
  split; [apply reachable_listened, after1_reach|]. split; [apply C86_kept_case|]. split; [apply C86_next_case|].
  split; [exact angry_1|]. split; [exact (triple _ _ _ angry_2)|]. split; [reflexivity|exact angry_twice].
Qed.
Print Assumptions C86_twice_refuted.
(** Data is received and sent on a connection after its close listener was
    called. *)
Theorem C86_revived_refuted : exists g m s (L L' : listeners (list encaps)) env1 env2 env3 oid e w1 w2 rounds g3 m3 s3 p1 p2 d dst, listened (list encaps) g m
  /\ spares L oid /\ spares L' oid
  /\ listen_connections strict L' [] SelQuiet env1 (g, m, s) = (Ok tt, w1)
  /\ listen_connections strict L [] SelQuiet env2 w1 = (Throw e, w2)
  /\ listen_connections strict L' rounds SelQuiet env3 w2 = (Ok tt, (g3, m3, s3))
  /\ about oid (m_log m3) = [EvSent oid dst p1; EvClosed oid; EvData oid 0 1 d; EvSent oid dst p2] /\ lock oid m3 <> None.
Proof.
  destruct late_seen as (p1 & p2 & E).
  exists (w_g after1), (w_m after1 0%nat), (w_s after1), angry, calm, (at_ms 35), (at_ms 50), (at_ms 55), 0%nat, OutOfRange, late1, late2, knock,
    (fst (fst late3)), (snd (fst late3)), (snd late3), p1, p2, [9], (io_dest con1).
  split; [apply reachable_listened, after1_reach|]. split; [apply C86_kept_case|]. split; [apply C86_next_case|].
  split; [exact late_1|]. split; [exact late_2|]. split; [exact (triple _ _ _ late_3)|]. split; [exact E|exact late_open].
Qed.
Print Assumptions C86_revived_refuted.
(** A number is skipped: the first packet ever sent has the number 2. *)
Theorem C86_gap_refuted : exists g m s (L L' : listeners (list encaps)) env1 env2 oid e c w1 g2 m2 s2, listened (list encaps) g m
  /\ spares L oid /\ spares L' oid /\ lock oid m = Some c /\ io_o2tSeq c = 0 /\ about oid (m_log m) = []
  /\ listen_connections strict L [] SelQuiet env1 (g, m, s) = (Throw e, w1)
  /\ listen_connections strict L' [] SelQuiet env2 w1 = (Ok tt, (g2, m2, s2))
  /\ about oid (m_log m2) = [EvSent oid (io_dest c) (io_packet (spec_of c) 2 [])].
Proof.
  exists (w_g after1), (w_m after1 0%nat), (w_s after1), empty_handed, calm, (at_ms 20), (at_ms 40), 0%nat, OutOfRange, con1, gap1,
    (fst (fst gap2)), (snd (fst gap2)), (snd gap2).
  split; [apply reachable_listened, after1_reach|]. split.
  { intros w p hdr sq d. repeat split; intros (u & si & J); cbn in J; try (destruct d; cbn in J); try destruct J as [J|[]]; easy. }
  split; [apply C86_next_case|]. split; [vm_compute; reflexivity|]. split; [reflexivity|]. split; [reflexivity|].
  split; [exact gap_1|]. split; [exact (triple _ _ _ gap_2)|]. exact gap_seen.
Qed.
Print Assumptions C86_gap_refuted.
