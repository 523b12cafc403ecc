(** Property C87: the descriptors of sessions and discovery. *)
From Verif Require Import Base MBuffer MEip SEip MSocket MDisc SDisc PDisc MConn MFd SFd PFd MRes SRes PRes.
Local Open Scope Z_scope.

(** However sessions are made, used and destroyed and devices looked for: no descriptor is used or closed that is not
    held (unless the system hands out one that is in use). While the program goes on, those held are the ones of the
    living sessions, one each, and those of TCP sockets on which fcntl() failed before connecting. *)
Theorem C87_audit : forall h cs, let s := rrun h cs rstart in
  audit (rw_ev s) [] <> Fault
  /\ (rw_over s = false ->
      audit (rw_ev s) [] = Reused
      \/ exists l, audit (rw_ev s) [] = Held l /\ NoDup l
         /\ (forall fd, In fd l <-> (exists i, open_session s i fd) \/ exists c, In c cs /\ leaks c fd)
         /\ (forall i j fd, open_session s i fd -> open_session s j fd -> i = j)).
Proof. exact sessions_audit. Qed.
Print Assumptions C87_audit.
(** When all sessions are destroyed only the latter are left. *)
Theorem C87_released : forall h cs n, (List.length cs <= n)%nat -> let s := rrun h (cs ++ map RClose (seq 0 n)) rstart in
  rw_over s = false -> audit (rw_ev s) [] = Reused
  \/ exists l, audit (rw_ev s) [] = Held l /\ NoDup l /\ forall fd, In fd l <-> exists c, In c cs /\ leaks c fd.
Proof. exact sessions_released. Qed.
Print Assumptions C87_released.
(** A program that uses connection managers as well, its system calls interleaved in any way. *)
Theorem C87_together : forall S h (ops : list (nat * fcall S)) inc (x : S) cs ev,
  let w := run_fw h ops (start_fw inc x) in
  let s := rrun h cs rstart in
  merge (v_ev w) (rw_ev s) ev ->
  audit ev [] <> Fault
  /\ (rw_over s = false -> audit ev [] = Reused
      \/ exists l, audit ev [] = Held l /\ NoDup l
         /\ forall fd, In fd l <-> (exists i y, holds (v_f w i) y fd) \/ (exists i, open_session s i fd) \/ exists c, In c cs /\ leaks c fd).
Proof. exact @together. Qed.
Print Assumptions C87_together.
(** Results do not depend on descriptors: they are those of C63 and, below 1024, those of C22 and C26. *)
Theorem C87_discovery_same : forall h sock b sent broadcast ds,
  fst (discover_fd h sock b sent broadcast ds)
  = discover h (mkDK (match sock with inl _ => None | inr e => Some e end) b sent) broadcast ds.
Proof. exact discover_same. Qed.
Print Assumptions C87_discovery_same.
Theorem C87_session_same : forall h fd k p w, fd < 1024 -> fst (session_open_fd h fd k p w) = fst (session_open h k p) w.
Proof. exact open_same. Qed.
Print Assumptions C87_session_same.
(** A session keeps the handle it was given, and what it exchanges is what it would exchange alone. *)
Theorem C87_alone : forall h before after fd k p w handle w' ev,
  session_open_fd h fd k p w = (Ok handle, w', ev) ->
  let s := rrun h (before ++ ROpen fd k p w :: after) rstart in let i := opened_in before in
  rw_over s = false -> ~ In (RClose i) after ->
  rw_live s i = Some (mkLive handle fd p (fold_left (fun w q => snd (send_and_receive h p handle q w)) (packets_of i after) w')).
Proof. exact session_alone. Qed.
Print Assumptions C87_alone.

(** A TCP socket that gets connected makes five system calls with its descriptor (fcntl() four times and
    connect()), and select() and getsockopt() too if connecting takes time. *)
Theorem C87_connects : forall fd k d, tcp_connect_fd fd k = (Ok tt, d) ->
  connect_events fd k = FOpen fd :: repeat (FUse fd) (match k_connect k with None => 5 | Some _ => 7 end).
Proof.
  intros fd k d E. unfold connect_events. rewrite E. unfold tcp_connect_fd in E.
  assert (E' : tcp_connect k = (Ok tt, d)).
  { destruct (k_socket k), (k_getfl1 k), (k_setfl1 k), (k_connect k); try exact E. destruct (_ && _); [discriminate E|exact E]. }
  clear E. unfold tcp_connect, tcp_connect_try in E'.
  destruct (k_socket k); [discriminate E'|]. destruct (k_getfl1 k); [discriminate E'|]. destruct (k_setfl1 k); [discriminate E'|].
  unfold tcp_connect_wait, wait_events, blocking_events in *. destruct (k_getfl2 k).
  { exfalso. destruct (k_connect k) as [e|]; [|discriminate E']. destruct (e =? EINPROGRESS); [|discriminate E'].
    destruct (k_select k) as [r x]. destruct (_ && _); [discriminate E'|]. destruct (0 <? r); [|discriminate E'].
    destruct (k_getsockopt k); [discriminate E'|]. cbn in E'. destruct (negb _); discriminate E'. }
  destruct (k_connect k) as [e|]; [|reflexivity]. destruct (e =? EINPROGRESS); [|discriminate E'].
  destruct (k_select k) as [r x]. destruct (_ && _); [discriminate E'|]. cbn [fst]. destruct (0 <? r); [|discriminate E'].
  destruct (k_getsockopt k); [discriminate E'|]. cbn in *. destruct (negb _); [discriminate E'|reflexivity].
Qed.
Print Assumptions C87_connects.

(** Two sessions, a third one refused by the peer, a fourth whose fcntl() fails, a discovery; the first session is
    destroyed and its descriptor given to the discovery. *)
Definition quick : calls := mkCalls None 0 None None None (1, 0) None 0 None None.
Example C87_connects_case : tcp_connect_fd 3 quick = (Ok tt, OpenFd 0) /\ connect_events 3 quick = [FOpen 3; FUse 3; FUse 3; FUse 3; FUse 3; FUse 3].
Proof. split; reflexivity. Qed.
Definition slow_refused : calls := mkCalls None 0 None None (Some 115) (1, 0) None 111 None None.
Definition no_flags : calls := mkCalls None 0 (Some 22) None None (1, 0) None 0 None None.
Definition accepting : peer := fun _ _ => [Data (encaps_pack (packet 101 7 0 [1; 0; 0; 0]))].
Definition refusing_peer : peer := fun _ _ => [Data (encaps_pack (packet 101 7 3 [1; 0; 0; 0]))].
Definition quiet : net := mkNet [] [] [].
Definition some_sessions : list rcall :=
  [ROpen 3 quick accepting quiet; ROpen 4 quick accepting quiet; ROpen 5 quick refusing_peer quiet; ROpen 5 slow_refused accepting quiet;
   ROpen 5 no_flags accepting quiet; RSend 0 (rr_data_packet 7 0 []); RClose 0;
   RDiscover (inl 3) None (mkSend 24 0) lan [Dgram (zeros 26); DErr 104]].
Example C87_example : rw_over (rrun strict some_sessions rstart) = false
  /\ audit (rw_ev (rrun strict some_sessions rstart)) [] = Held [5; 4]
  /\ open_session (rrun strict some_sessions rstart) 1 4 /\ leaks (ROpen 5 no_flags accepting quiet) 5
  /\ rw_ev (rrun strict [RDiscover (inl 3) None (mkSend 24 0) lan [DErr 104]] rstart)
     = [FOpen 3; FUse 3; FUse 3; FUse 3; FUse 3; FUse 3; FClose 3]
  /\ audit (rw_ev (rrun strict (some_sessions ++ map RClose (seq 0 8)) rstart)) [] = Held [5]
  /\ rw_over (rrun strict (some_sessions ++ map RClose (seq 0 8)) rstart) = false
  /\ rw_over (rrun strict [ROpen 3 quick accepting (mkNet [] [] [mkSend 28 0; mkSend 10 0]); RClose 0] rstart) = true.
Proof.
  split; [vm_compute; reflexivity|]. split; [vm_compute; reflexivity|].
  split; [eexists; split; [vm_compute; reflexivity|reflexivity]|].
  split; [split; [reflexivity|]; split; [reflexivity|]; left; discriminate|].
  repeat match goal with |- _ /\ _ => split end; vm_compute; reflexivity.
Qed.
Example C87_together_example :
  merge [FOpen 7; FUse 7; FClose 7] [FOpen 3; FUse 3] [FOpen 3; FOpen 7; FUse 3; FUse 7; FClose 7]
  /\ audit [FOpen 3; FOpen 7; FUse 3; FUse 7; FClose 7] [] = Held [3].
Proof. split; [repeat constructor|reflexivity]. Qed.
Example C87_alone_example :
  let before := [ROpen 3 quick accepting quiet] in
  let after := [RSend 0 (rr_data_packet 7 0 []); RSend 1 (rr_data_packet 9 0 []); RClose 0] in
  session_open_fd strict 4 quick accepting quiet
  = (Ok 7, snd (fst (session_open_fd strict 4 quick accepting quiet)), snd (session_open_fd strict 4 quick accepting quiet))
  /\ rw_over (rrun strict (before ++ ROpen 4 quick accepting quiet :: after) rstart) = false
  /\ opened_in before = 1%nat /\ packets_of 1 after = [rr_data_packet 9 0 []] /\ ~ In (RClose 1) after.
Proof.
  split; [vm_compute; reflexivity|]. split; [vm_compute; reflexivity|]. split; [reflexivity|]. split; [reflexivity|].
  intros [H|[H|[H|[]]]]; discriminate.
Qed.
