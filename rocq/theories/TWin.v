(** Property theorems: the library on Windows and macOS (C109). *)
From Verif Require Import Base MBuffer SBuffer MEip MIdent MSocket SSession MDisc SDisc PDisc MConn SConn PConnTop PRefute MWin SWin PWin PWin2.
Local Open Scope Z_scope.

(** C109. Full statement: on each of the three systems a failed attempt to connect
    leaves no descriptor open and ends within its timeout; timeouts are the ones
    asked for; discovery, select() and handleConnections do what they do on
    Linux, up to the numbers of the errors. *)

(** ** Connecting *)

(** What is proved about connecting for Linux (C26) is about the same function. *)
Theorem C109_linux : forall nosigpipe k, connect_on Linux nosigpipe k = tcp_connect k.
Proof. exact connect_linux. Qed.
Print Assumptions C109_linux.
Theorem C109_connect : forall p nosigpipe k,
  (exists flags, connect_on p nosigpipe k = (Ok tt, OpenFd flags)
     /\ match p with
        | Windows => flags = k_flags k
        | _ => forall i, 0 <= i -> Z.testbit flags i = negb (i =? match p with MacOS => 2 | _ => 11 end) && Z.testbit (k_flags k) i
        end)
  \/ exists e fd, connect_on p nosigpipe k = (Throw (SystemError e), fd).
Proof.
  intros p n k. destruct (connect_shape p n k) as [[f E]|H]; [left|now right]. exists f. split; [exact E|exact (connect_flags p n k f E)].
Qed.
Print Assumptions C109_connect.
(** The exception carries the first failure of the steps of connecting. *)
Theorem C109_errors : forall p nosigpipe k,
  fst (connect_on p nosigpipe k) = match first_failure (steps_on p nosigpipe k) with Some e => Throw (SystemError e) | None => Ok tt end.
Proof. exact connect_reports_on. Qed.
Print Assumptions C109_errors.
Example C109_errors_example :
  first_failure (steps_on Windows (Some 1) (mkCalls None 2 (Some 1) (Some 1) (Some 10061) (0, 0) None 0 None None)) = Some 10061
  /\ first_failure (steps_on MacOS None (mkCalls None 2 None None (Some 36) (-1, 4) None 0 None None)) = Some 60
  /\ first_failure (steps_on MacOS None (mkCalls None 2 None None (Some 61) (-1, 4) None 0 None None)) = Some 61.
Proof. repeat split; reflexivity. Qed.
(** Exactly when a descriptor stays open: never on Windows. *)
Theorem C109_leak : forall p nosigpipe k, (exists e flags, connect_on p nosigpipe k = (Throw e, OpenFd flags)) <->
  k_socket k = None /\ match p with
                       | Linux => k_getfl1 k <> None \/ k_setfl1 k <> None
                       | MacOS => nosigpipe <> None \/ k_getfl1 k <> None \/ k_setfl1 k <> None
                       | Windows => False
                       end.
Proof. exact connect_leak. Qed.
Print Assumptions C109_leak.
Example C109_connect_example :
  connect_on Windows None (mkCalls None 0 None None (Some 10061) (0, 0) None 0 None None) = (Throw (SystemError 10061), ClosedFd)
  /\ connect_on Windows None (mkCalls (Some 10093) 0 None None None (0, 0) None 0 None None) = (Throw (SystemError 10093), NoFd)
  /\ connect_on Windows None (mkCalls None 0 None None None (0, 0) None 0 None None) = (Ok tt, OpenFd 0)
  /\ connect_on MacOS None (mkCalls None 2 None None (Some 36) (1, 0) None 0 None None) = (Ok tt, OpenFd 2)
  /\ connect_on MacOS None (mkCalls None 2 None None (Some 36) (0, 0) None 0 None None) = (Throw (SystemError 60), ClosedFd).
Proof. repeat split; reflexivity. Qed.
Theorem C109_leak_refuted : exists nosigpipe k e flags, connect_on MacOS nosigpipe k = (Throw (SystemError e), OpenFd flags).
Proof. exists (Some 22), (mkCalls None 2 None None None (0, 0) None 0 None None), 22, 2. reflexivity. Qed.
Print Assumptions C109_leak_refuted.

(** On Linux and macOS the constructor ends within the timeout. *)
Theorem C109_in_time_partial : forall p ms a, p <> Windows -> 0 <= ms < 2 ^ 31 * 1000 ->
  connect_timed p ms a = in_time (sys_timedout p) ms (at_when a) (at_error a).
Proof. exact connect_in_time. Qed.
Print Assumptions C109_in_time_partial.
Example C109_in_time_example :
  connect_timed MacOS 1000 (mkAttempt 20 61) = (Throw (SystemError 61), 20)
  /\ connect_timed Linux 1000 (mkAttempt 75000 110) = (Throw (SystemError 110), 1000)
  /\ connect_timed Linux 1000 (mkAttempt 1000 0) = (Ok tt, 1000).
Proof. repeat split; reflexivity. Qed.
(** On Windows the timeout makes no difference: connect() blocks. *)
Theorem C109_blocking : forall ms a, connect_timed Windows ms a
  = (if at_error a =? 10036 then Throw (SystemError 10060) else verdict (at_error a), at_when a).
Proof. exact connect_blocking. Qed.
Print Assumptions C109_blocking.
Theorem C109_in_time_refuted : exists ms a, 0 < ms /\ connect_timed Windows ms a = (Throw (SystemError 10060), 21000) /\ ms < 21000
  /\ connect_timed Linux ms a = (Throw (SystemError 110), ms).
Proof. exists 1000, (mkAttempt 21000 10060). repeat split; reflexivity. Qed.
Print Assumptions C109_in_time_refuted.

(** ** Timeouts *)
Theorem C109_timeout_partial : forall p ms, 0 <= ms < 2 ^ 32 -> recv_wait p ms = ms.
Proof. exact wait_small. Qed.
Print Assumptions C109_timeout_partial.
Theorem C109_interval_partial : forall p ms, 0 <= ms < 2 ^ 31 * 1000 -> interval p ms = (ms / 1000, ms mod 1000 * 1000).
Proof. exact interval_small. Qed.
Print Assumptions C109_interval_partial.
Theorem C109_timeout : forall ms, is_s64 ms ->
  recv_wait Linux ms = Z.max 0 ms /\ interval Linux ms = portable_interval ms
  /\ recv_wait Windows ms = ms mod 2 ^ 32
  /\ (0 <= ms -> recv_wait MacOS ms = Z.max 0 ((ms / 1000 + 2 ^ 31) mod 2 ^ 32 - 2 ^ 31) * 1000 + ms mod 1000).
Proof.
  intros ms H. repeat split; [now apply wait_linux|now apply interval_linux|]. intros P. now apply wait_mac.
Qed.
Print Assumptions C109_timeout.
Example C109_timeout_example : recv_wait Windows 1500 = 1500 /\ recv_wait MacOS 1500 = 1500 /\ interval MacOS 1500 = (1, 500000).
Proof. repeat split; reflexivity. Qed.
(** A timeout of 2^32 milliseconds is none on Windows, one of 2^31 seconds none on
    macOS, and a negative one, which is none on Linux, is 49 days on Windows. *)
Theorem C109_timeout_refuted :
  (exists ms, 0 < ms /\ is_s64 ms /\ recv_wait Windows ms = 0 /\ recv_wait Linux ms = ms)
  /\ (exists ms, 0 < ms /\ is_s64 ms /\ recv_wait MacOS ms = 0 /\ recv_wait Linux ms = ms)
  /\ (exists ms, ms < 0 /\ is_s64 ms /\ recv_wait Windows ms = 4294967295 /\ recv_wait Linux ms = 0).
Proof.
  split; [exists (2 ^ 32)|split; [exists (2 ^ 31 * 1000)|exists (-1)]]; repeat split; try reflexivity; discriminate.
Qed.
Print Assumptions C109_timeout_refuted.

(** ** Receiving *)
Theorem C109_receive : forall p ren, only ren 4 (sys_intr p) -> ren 11 = sys_again p -> forall segs n acc,
  recv_on p n acc (map (seg_ren ren) segs)
  = (out_ren ren (fst (recv_loop n acc segs)), map (seg_ren ren) (snd (recv_loop n acc segs))).
Proof. exact recv_same. Qed.
Print Assumptions C109_receive.
(** Numbers of errors of recv() and recvfrom() on Windows. *)
Example C109_receive_example :
  only win_numbers 4 (sys_intr Windows) /\ win_numbers 11 = sys_again Windows
  /\ fst (recv_on Windows 3 [] [Data [1]; Err 10004; Data [2; 3]]) = Ok [1; 2; 3]
  /\ fst (recv_on Windows 3 [] [Data [1]; Err 10054]) = Throw (SystemError 10054)
  /\ fst (recv_on Windows 3 [] [Data [1]]) = Throw (SystemError 10060).
Proof. split; [exact win_intr|]. repeat split; reflexivity. Qed.

(** ** Messages *)
Theorem C109_message : forall text c l, text c = Some l -> 0 < zlen l < 255 -> trimmed l (win_message text c).
Proof. exact message_trimmed. Qed.
Print Assumptions C109_message.
Theorem C109_no_message : forall text c, match text c with Some l => l = [] \/ 255 <= zlen l | None => True end ->
  win_message text c = [78; 47; 65].
Proof. exact message_none. Qed.
Print Assumptions C109_no_message.
Example C109_message_example :
  win_message (fun _ => Some [84; 105; 109; 101; 13; 10; 111; 117; 116; 46; 13; 10]) 10060 = [84; 105; 109; 101; 13; 10; 111; 117; 116; 46]
  /\ win_message (fun _ => Some [13; 10]) 1 = [] /\ win_message (fun _ => None) 1 = [78; 47; 65].
Proof. repeat split; reflexivity. Qed.

(** ** Discovery *)
Theorem C109_discovery_partial : forall h p ren k broadcast ds, only ren 11 (sys_again p) -> Forall (up_to 504) ds ->
  discover_on h p (kernel_ren ren k) broadcast (map (dgram_ren ren) ds)
  = (out_ren ren (fst (discover h k broadcast ds)), snd (discover h k broadcast ds)).
Proof. exact discover_same. Qed.
Print Assumptions C109_discovery_partial.
Example C109_discovery_example :
  only win_numbers 11 (sys_again Windows) /\ Forall (up_to 504) [Dgram (reply [drive]); DErr 11]
  /\ fst (discover_on strict Windows (kernel_ren win_numbers dk_fine) lan (map (dgram_ren win_numbers) [Dgram (reply [drive]); DErr 11]))
     = fst (discover strict dk_fine lan [Dgram (reply [drive])])
  /\ exists e, fst (discover strict dk_fine lan [Dgram (reply [drive])]) = Ok [e].
Proof.
  split; [exact win_again|]. split; [repeat constructor; vm_compute; discriminate|].
  split; [vm_compute; reflexivity|]. eexists. vm_compute. reflexivity.
Qed.
(** A datagram of more than 504 bytes: what was found before is lost. *)
Theorem C109_long : forall h k broadcast l r ds es, 504 < zlen l ->
  fst (discover_on h Windows k broadcast (map Dgram ds)) = Ok es ->
  fst (discover_on h Windows k broadcast (map Dgram ds ++ Dgram l :: r)) = Throw (SystemError 10040).
Proof. exact discover_long. Qed.
Print Assumptions C109_long.
Theorem C109_discovery_refuted : exists k broadcast ls es, fst (discover strict k broadcast (map Dgram ls)) = Ok es /\ List.length es = 2%nat
  /\ fst (discover_on strict Windows k broadcast (map Dgram ls)) = Throw (SystemError 10040).
Proof.
  exists dk_fine, lan, [reply [plc]; reply [drive] ++ zeros (Z.to_nat 500)]. eexists.
  split; [vm_compute; reflexivity|]. split; [reflexivity|]. vm_compute. reflexivity.
Qed.
Print Assumptions C109_discovery_refuted.

(** ** select() and handleConnections *)
Theorem C109_select_partial : forall W A p (handler : nat -> A -> st W unit) fds rounds ending w,
  match p with Windows => (List.length (nodup Z.eq_dec fds) <= 64)%nat | _ => Forall (fun fd => fd < 1024) fds end ->
  select_on p handler fds rounds ending w = bs_select handler (List.length fds) rounds ending w.
Proof. exact @select_same. Qed.
Print Assumptions C109_select_partial.
(** The sockets that select() looks at. *)
Theorem C109_set : forall fds, exists set, fd_set_on Windows fds = Ok set /\ forall fd, In fd set <-> among 64 fds fd.
Proof. intros fds. exists (fd_set_win fds). split; [reflexivity|exact (fd_set_spec fds)]. Qed.
Print Assumptions C109_set.
(** With more sockets, those that are not among the first 64 are deaf. *)
Theorem C109_deaf : forall W A (handler : nat -> A -> st W unit) fds rounds rounds' ending w,
  Forall2 (same_for fds (among 64 fds)) rounds rounds' ->
  select_on Windows handler fds rounds ending w = select_on Windows handler fds rounds' ending w.
Proof. exact @select_deaf. Qed.
Print Assumptions C109_deaf.
Example C109_select_example :
  (List.length (nodup Z.eq_dec [5000; 6000; 5000]%Z) <= 64)%nat
  /\ snd (select_on Windows (fun i a s => (Ok tt, s ++ [(i, a)])) [5000; 6000; 5000] [mkRound [None; Some 7; Some 8] 0] SelQuiet [])
     = [(1%nat, 7); (2%nat, 8)]
  /\ ~ among 64 (map Z.of_nat (seq 0 65)) 64
  /\ same_for (map Z.of_nat (seq 0 65)) (among 64 (map Z.of_nat (seq 0 65)))
       (mkRound (repeat None 64 ++ [Some 9]) 0) (mkRound (repeat None 64 ++ [None]) 0).
Proof.
  split; [apply Nat.leb_le; reflexivity|]. split; [reflexivity|]. exact (conj late_socket late_same).
Qed.
Theorem C109_select_refuted : exists fds (rounds : list (sel_round Z)), NoDup fds
  /\ snd (bs_select (fun i a s => (Ok tt, s ++ [(i, a)])) (List.length fds) rounds SelQuiet []) = [(64%nat, 9)]
  /\ select_on Windows (fun i a s => (Ok tt, s ++ [(i, a)])) fds rounds SelQuiet [] = (Ok tt, []).
Proof. exact select_refuted. Qed.
Print Assumptions C109_select_refuted.

(** A manager has one socket, so on Windows no number of a descriptor is too large. *)
Theorem C109_handle_partial : forall S g h p fds rounds ending env m, reachable S g m ->
  List.length fds = List.length (m_socks m) -> Forall (round_up_to 8192) rounds ->
  (p <> Windows -> Forall (fun fd => fd < 1024) fds) ->
  handle_on h p fds rounds ending env m = handle_connections h rounds ending env m.
Proof. exact handle_reachable. Qed.
Print Assumptions C109_handle_partial.
Theorem C109_handle_long : forall h fd l rest ending env m now, List.length (m_socks m) = 1%nat -> 8192 < zlen l ->
  handle_on h Windows [fd] (mkRound [Some (Dgram l)] now :: rest) ending env m = (Throw (SystemError 10040), m).
Proof. exact handle_long. Qed.
Print Assumptions C109_handle_long.
(** On Linux and macOS one is: the bit is written outside of the fd_set. *)
Theorem C109_handle_large : forall h p fds rounds ending env m, p <> Windows -> Exists (fun fd => 1024 <= fd) fds ->
  handle_on h p fds rounds ending env m = (Undef UbOobWrite, m).
Proof. exact handle_large. Qed.
Print Assumptions C109_handle_large.
Example C109_handle_example :
  reachable (list encaps) (w_g after1) (w_m after1 0%nat) /\ List.length (m_socks (w_m after1 0%nat)) = 1%nat
  /\ round_up_to 8192 (mkRound [Some stray] 0)
  /\ fst (handle_on strict Windows [70000] [mkRound [Some stray] 0] SelQuiet (env_at 0 (fun n => n)) (w_m after1 0%nat)) = Ok tt
  /\ fst (handle_on strict Linux [70000] [mkRound [Some stray] 0] SelQuiet (env_at 0 (fun n => n)) (w_m after1 0%nat)) = Undef UbOobWrite.
Proof. exact handle_example. Qed.
Theorem C109_handle_refuted : exists g m fd d env, reachable (list encaps) g m /\ List.length (m_socks m) = 1%nat
  /\ fst (handle_connections strict [mkRound [Some d] 0] SelQuiet env m) = Ok tt
  /\ fst (handle_on strict Windows [fd] [mkRound [Some d] 0] SelQuiet env m) = Throw (SystemError 10040).
Proof. exact handle_refuted. Qed.
Print Assumptions C109_handle_refuted.
