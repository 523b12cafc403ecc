(** Property of the log of sessions: C98. *)
From Coq Require Import Permutation.
From Verif Require Import Base MBuffer MEip SEip MSocket SSocket SSession PSocket MLog SText MMsg SMsg MConn MDisc MFd MRes SRes PRes TRes MSessLog SSessLog PSessLog.
Local Open Scope Z_scope.

(** ** C98 the log tells which sessions are registered *)

(** Logging does not change what the program does. While it goes on, the handles
    said to be registered are those said to be unregistered and those of the
    sessions that exist. *)
Theorem C98_live : forall h cs, Forall on_the_wire cs ->
  let '(s, l) := rrun_logged h cs (rstart, []) in
  s = rrun h cs rstart
  /\ (rw_over s = false -> Permutation (registered l) (unregistered l ++ living s (rw_next s))).
Proof.
  intros h cs F. pose proof (agrees_run h cs rstart [] F agrees_start) as [_ A]. pose proof (logged_run h cs rstart []) as R.
  destruct (rrun_logged h cs (rstart, [])) as [s l]. split; [exact R|exact A].
Qed.
Print Assumptions C98_live.
(** Unless the adapters give a handle twice, a session exists if and only if its
    handle is registered and not unregistered. *)
Theorem C98_distinct : forall h cs v, Forall on_the_wire cs ->
  let '(s, l) := rrun_logged h cs (rstart, []) in
  rw_over s = false -> NoDup (registered l) ->
  ((exists i x, rw_live s i = Some x /\ lv_handle x = v) <-> In v (registered l) /\ ~ In v (unregistered l)).
Proof. exact distinct_live. Qed.
Print Assumptions C98_distinct.
(** When all sessions are destroyed all are said to be unregistered. *)
Theorem C98_released : forall h cs n, Forall on_the_wire cs -> (List.length cs <= n)%nat ->
  let '(s, l) := rrun_logged h (cs ++ map RClose (seq 0 n)) (rstart, []) in
  rw_over s = false -> Permutation (registered l) (unregistered l).
Proof. exact all_released. Qed.
Print Assumptions C98_released.
(** What is said of each call. *)
Theorem C98_call : forall h cs c, Forall on_the_wire (cs ++ [c]) -> rw_over (rrun h cs rstart) = false ->
  let s := rrun h cs rstart in let s' := rstep h c s in
  exists lg, rrun_logged h (cs ++ [c]) (rstart, []) = (s', snd (rrun_logged h cs (rstart, [])) ++ lg) /\ call_told c s s' lg.
Proof. exact told_call. Qed.
Print Assumptions C98_call.
(** [some_sessions] (see C87): handles 7 and 7, a refusal, two failures to
    connect; the first session is destroyed. *)
Definition another : peer := fun _ _ => [Data (encaps_pack (packet 101 4294967295 0 [1; 0; 0; 0]))].
Example C98_example :
  snd (rrun_logged strict (ROpen 6 quick another quiet :: some_sessions) (rstart, []))
  = [(INFO, "Registered session 4294967295"); (INFO, "Registered session 7"); (INFO, "Registered session 7"); (INFO, "Unregistered session 4294967295")]%string
  /\ Forall on_the_wire (ROpen 6 quick another quiet :: some_sessions)
  /\ rw_over (rrun strict (ROpen 6 quick another quiet :: some_sessions) rstart) = false
  /\ living (rrun strict (ROpen 6 quick another quiet :: some_sessions) rstart) 6 = [7; 7]
  /\ registered [(INFO, "Registered session 4294967295"); (INFO, "Registered session 7x")]%string = [4294967295]
  /\ rw_over (rrun strict ([ROpen 3 quick another quiet; ROpen 4 quick accepting quiet] ++ map RClose (seq 0 2)) rstart) = false.
Proof.
  split; [vm_compute; reflexivity|]. split.
  { unfold some_sessions. repeat (apply Forall_cons || apply Forall_nil); cbn [on_the_wire]; try exact I; intros log data;
      apply Forall_forall; intros x X; vm_compute in X; repeat (destruct X as [<-|X]; [unfold is_u8; lia|]); destruct X. }
  split; [vm_compute; reflexivity|]. split; [vm_compute; reflexivity|]. split; [vm_compute; reflexivity|]. vm_compute; reflexivity.
Qed.

(** A session that is said to be registered with handle [v]: the adapter has
    answered so. Full statement: without the alternative that it has closed the
    connection and the missing bytes were taken for zeros. *)
Theorem C98_registered_partial : forall h fd k p w s m v,
  sends_all w (encaps_pack register_packet) -> is_bytes (stream (incoming p w (encaps_pack register_packet))) ->
  session_log h (ROpen fd k p w) s = [m] -> registered [m] = [v] ->
  exists r j rest, well_formed r /\ e_status r = 0 /\ e_handle r = v
    /\ (j = O \/ ending_of (incoming p w (encaps_pack register_packet)) = Closed)
    /\ stream (incoming p w (encaps_pack register_packet)) ++ zeros j = encaps_pack r ++ rest.
Proof. exact registered_answer. Qed.
Print Assumptions C98_registered_partial.
(** A session that is said to be unregistered: the adapter has got the packet
    with its handle, behind all others. Full statement: whatever send() returns. *)
Theorem C98_unregistered_partial : forall h before after fd k p w handle w' ev,
  session_open_fd h fd k p w = (Ok handle, w', ev) ->
  let i := opened_in before in let cs := before ++ ROpen fd k p w :: after in
  let packets := [encaps_pack register_packet] ++ map encaps_pack (packets_of i after)
                 ++ [encaps_bytes 102 0 handle 0 [0; 0; 0; 0; 0; 0; 0; 0] 0 []] in
  Forall on_the_wire cs -> rw_over (rrun h cs rstart) = false -> ~ In (RClose i) after -> all_accepted (n_results w) packets ->
  exists v t, rw_live (rrun h cs rstart) i = Some v
  /\ n_sent (snd (session_destroy (lv_peer v) (lv_handle v) (lv_net v))) = n_sent w ++ packets
  /\ numeral t handle
  /\ snd (rrun_logged h (cs ++ [RClose i]) (rstart, []))
     = snd (rrun_logged h cs (rstart, [])) ++ [(INFO, "Unregistered session " ++ t)%string].
Proof. exact unregistered_sent. Qed.
Print Assumptions C98_unregistered_partial.
Example C98_unregistered_example :
  all_accepted (n_results quiet) [encaps_pack register_packet; encaps_pack (rr_data_packet 7 0 []); encaps_pack (unregister_packet 7)]
  /\ sends_all quiet (encaps_pack register_packet)
  /\ session_log strict (ROpen 3 quick accepting quiet) rstart = [(INFO, "Registered session 7"%string)]
  /\ snd (rrun_logged strict [ROpen 3 quick accepting quiet; RSend 0 (rr_data_packet 7 0 []); RClose 0] (rstart, []))
     = [(INFO, "Registered session 7"); (INFO, "Unregistered session 7")]%string.
Proof. repeat split; vm_compute; reflexivity. Qed.

(** An adapter that accepts the connection and closes it. *)
Theorem C98_registered_refuted : exists fd k p w s, (forall log data, stream (p log data) = []) /\ n_in w = []
  /\ session_log strict (ROpen fd k p w) s = [(INFO, "Registered session 0"%string)].
Proof. exists 3, quick, (fun _ _ => [Eof]), quiet, rstart. split; [reflexivity|]. split; [reflexivity|]. vm_compute. reflexivity. Qed.
Print Assumptions C98_registered_refuted.
(** send() fails: the adapter gets nothing, the log says that the session is
    unregistered. *)
Theorem C98_unregistered_refuted : exists cs v, let s := rrun strict cs rstart in
  rw_live s 0 = Some v /\ lv_handle v = 7
  /\ snd (rrun_logged strict (cs ++ [RClose 0]) (rstart, [])) = [(INFO, "Registered session 7"); (INFO, "Unregistered session 7")]%string
  /\ rw_over (rrun strict (cs ++ [RClose 0]) rstart) = false
  /\ n_sent (snd (session_destroy (lv_peer v) (lv_handle v) (lv_net v))) = [encaps_pack register_packet; []].
Proof.
  exists [ROpen 3 quick accepting (mkNet [] [] [mkSend 28 0; mkSend (-1) 32])]. eexists. cbv zeta.
  split; [vm_compute; reflexivity|]. repeat split; vm_compute; reflexivity.
Qed.
Print Assumptions C98_unregistered_refuted.
(** Handles of different adapters can be equal: from the log one cannot tell which
    session is left. *)
Theorem C98_which_refuted : exists cs i j,
  let a := rrun_logged strict (cs ++ [RClose i]) (rstart, []) in let b := rrun_logged strict (cs ++ [RClose j]) (rstart, []) in
  snd a = snd b /\ rw_live (fst a) i = None /\ rw_live (fst b) i <> None /\ rw_over (fst a) = false /\ rw_over (fst b) = false.
Proof.
  exists [ROpen 3 quick accepting quiet; ROpen 4 quick accepting quiet], 0%nat, 1%nat. cbv zeta.
  split; [vm_compute; reflexivity|]. split; [vm_compute; reflexivity|]. split; [vm_compute; discriminate|]. split; vm_compute; reflexivity.
Qed.
Print Assumptions C98_which_refuted.
