(** Property theorems: descriptors. *)
From Verif Require Import Base MBuffer MEip SEip MSocket MConnReq MConn SConn PConnTop PLife MFd SFd PFd.

(** C81. However managers are used, no descriptor is used or closed that is not held (unless the system hands out one
    that is in use); those held are the ones of the living connections and the receiving sockets, one each. *)
Theorem C81_audit {S} h (ops : list (nat * fcall S)) inc (s : S) :
  let w := run_fw h ops (start_fw inc s) in
  audit (v_ev w) [] = Reused
  \/ exists l, audit (v_ev w) [] = Held l /\ NoDup l
     /\ (forall fd, In fd l <-> exists i x, holds (v_f w i) x fd)
     /\ (forall i j x y fd, holds (v_f w i) x fd -> holds (v_f w j) y fd -> i = j /\ x = y).
Proof. exact (audit_history h ops inc s). Qed.
Print Assumptions C81_audit.
(** When the managers are destroyed nothing is left open. *)
Theorem C81_released {S} h (ops : list (nat * fcall S)) inc inc' (s : S) ids : incl (map fst ops) ids ->
  let w := run_fw h (ops ++ map (fun j => (j, FCDestroy (inc' j))) ids) (start_fw inc s) in
  audit (v_ev w) [] = Reused \/ audit (v_ev w) [] = Held [].
Proof. exact (all_released h ops inc inc' s ids). Qed.
Print Assumptions C81_released.
(** Full claim: what a call does depends on no descriptor (it is what [call_mgr], which knows none, says). Missing
    below: managers with a receiving socket whose descriptor is 1024 or more. *)
Theorem C81_same_partial {S} h (ops : list (nat * fcall S)) inc (s : S) i op p :
  let w := run_fw h ops (start_fw inc s) in
  (forall fd, In fd (f_rx (v_f w i)) -> fd < 1024) -> plain op = Some p ->
  let w' := snd (call_fw h i op w) in
  call_mgr h p (v_g w, f_m (v_f w i), v_s w) = (fst (call_fw h i op w), (v_g w', f_m (v_f w' i), v_s w')).
Proof. exact (same_history h ops inc s i op p). Qed.
Print Assumptions C81_same_partial.
(** For those it is false: with enough descriptors in use, memory outside the set is written. *)
Theorem C81_refuted : exists ops : list (nat * fcall (list encaps)), let w := run_fw strict ops (start_fw inc0 []) in
  audit (v_ev w) [] <> Reused /\ audit (v_ev w) [] <> Fault /\ lock 0 (f_m (v_f w 0%nat)) <> None
  /\ fst (call_fw strict 0 (FCHandle [] SelQuiet (at_ms 1)) w) = Undef UbOobWrite
  /\ fst (call_mgr strict (CHandle [] SelQuiet (at_ms 1)) (v_g w, f_m (v_f w 0%nat), v_s w)) = Ok None.
Proof. exact overflow_refuted. Qed.
Print Assumptions C81_refuted.
Theorem C81_overflow {S} h (w : fworld S) i rounds ending env : (exists fd, In fd (f_rx (v_f w i)) /\ 1024 <= fd) ->
  fst (call_fw h i (FCHandle rounds ending env) w) = Undef UbOobWrite.
Proof. exact (too_many h w i rounds ending env). Qed.
Print Assumptions C81_overflow.
Example C81_ex_overflow : let w := run_fw strict many_calls (start_fw inc0 []) in
  f_rx (v_f w 0%nat) = [1024] /\ fst (call_fw strict 0 (FCHandle [] SelQuiet (at_ms 1)) w) = Undef UbOobWrite.
Proof. split; vm_compute; reflexivity. Qed.
(** The same when a TCP socket connects, if connect() has to be waited for. *)
Theorem C81_connect_overflow fd k : k_socket k = None -> k_getfl1 k = None -> k_setfl1 k = None -> k_connect k = Some EINPROGRESS -> 1024 <= fd ->
  fst (tcp_connect_fd fd k) = Undef UbOobWrite.
Proof. exact (connect_wait fd k). Qed.
Print Assumptions C81_connect_overflow.
Theorem C81_connect fd k : fd < 1024 \/ k_connect k <> Some EINPROGRESS -> tcp_connect_fd fd k = tcp_connect k.
Proof. intros [H|H]; [exact (connect_small fd k H)|exact (connect_quick fd k H)]. Qed.
Print Assumptions C81_connect.

(** Two managers with a time-out, a key that is taken, a close and a failing bind(); descriptors 5, 7 and 9 are used
    twice. Three are left: a connection of manager 1 and two receiving sockets. *)
Example C81_ex : audit (v_ev (run_fw strict some_calls (start_fw inc0 []))) [] = Held [7; 8; 6]
  /\ incl (map fst some_calls) [0; 1; 2]%nat
  /\ audit (v_ev (run_fw strict (some_calls ++ map (fun j => (j, FCDestroy (inc0 j))) [0; 1; 2]%nat) (start_fw inc0 []))) [] = Held [].
Proof. split; [exact some_calls_audit|]. split; [|exact some_calls_end]. intros x. cbn. intuition. Qed.
(** [audit] notices faults. *)
Example C81_ex_faults : audit [FOpen 3; FClose 3; FUse 3] [] = Fault /\ audit [FOpen 3; FClose 3; FClose 3] [] = Fault
  /\ audit [FOpen 3; FOpen 3] [] = Reused /\ audit [FOpen 3; FOpen 4; FClose 3] [] = Held [4].
Proof. repeat split. Qed.
Example C81_ex_same : let w := run_fw strict some_calls (start_fw inc0 []) in
  (forall fd, In fd (f_rx (v_f w 1%nat)) -> fd < 1024) /\ f_rx (v_f w 1%nat) = [8]
  /\ plain (close_fd 2) = Some (close_call 2) /\ f_rx (v_f (run_fw strict many_calls (start_fw inc0 [])) 0%nat) = [1024].
Proof.
  assert (R : f_rx (v_f (run_fw strict some_calls (start_fw inc0 [])) 1%nat) = [8]) by (vm_compute; reflexivity).
  cbv zeta. rewrite R. split; [intros fd [<-|[]]; reflexivity|]. split; [reflexivity|]. split; [reflexivity|]. vm_compute. reflexivity.
Qed.
Definition waiting : calls := mkCalls None 0 None None (Some EINPROGRESS) (1, 0) None 0 None None.
Example C81_ex_connect : k_connect waiting = Some EINPROGRESS /\ tcp_connect_fd 7 waiting = tcp_connect waiting
  /\ fst (tcp_connect_fd 7 waiting) = Ok tt /\ fst (tcp_connect_fd 2000 waiting) = Undef UbOobWrite.
Proof. repeat split. Qed.
