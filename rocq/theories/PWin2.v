(** Proofs about the library on Windows and macOS, continued: reachable states
    and examples. *)
From Coq Require Import Lia.
From Verif Require Import Base MBuffer MEip MIdent MSocket MDisc SDisc PDisc MConn SConn PConnTop PRefute MWin SWin PWin.
Local Open Scope Z_scope.

Lemma handle_reachable S g h p fds rounds ending env m : reachable S g m ->
  List.length fds = List.length (m_socks m) -> Forall (round_up_to 8192) rounds ->
  (p <> Windows -> Forall (fun fd => fd < 1024) fds) ->
  handle_on h p fds rounds ending env m = handle_connections h rounds ending env m.
Proof.
  intros R L F H. apply handle_same; [easy|easy|]. apply reach_one in R. destruct p; [now apply H|now apply H|].
  rewrite <- L in R. destruct fds as [|x [|y fds]]; cbn in *; lia.
Qed.

(** Numbers of errors of recv() and recvfrom(): those of Linux to those of Windows. *)
Definition win_numbers (e : Z) : Z :=
  if e =? 4 then 10004 else if e =? 11 then 10060 else if e =? 104 then 10054 else e + 20000 * Z.abs e.
Lemma win_intr : only win_numbers 4 (sys_intr Windows).
Proof.
  intros x. unfold win_numbers, sys_intr. destruct (Z.eqb_spec x 4); [easy|].
  destruct (Z.eqb_spec x 11); [lia|]. destruct (Z.eqb_spec x 104); lia.
Qed.
Lemma win_again : only win_numbers 11 (sys_again Windows).
Proof.
  intros x. unfold win_numbers, sys_again. destruct (Z.eqb_spec x 4); [lia|].
  destruct (Z.eqb_spec x 11); [easy|]. destruct (Z.eqb_spec x 104); lia.
Qed.

(** 65 sockets *)
Definition many_fds : list Z := map Z.of_nat (seq 0 65).
Lemma late_socket : ~ among 64 many_fds 64.
Proof.
  intros H. apply fd_set_spec in H. apply existsb_in in H. vm_compute in H. discriminate.
Qed.
Lemma late_same : same_for many_fds (among 64 many_fds)
  (mkRound (repeat None 64 ++ [Some 9]) 0) (mkRound (repeat None 64 ++ [None]) 0).
Proof.
  split; [reflexivity|]. split; [reflexivity|]. intros i fd E H. cbn [sr_ready].
  destruct (Nat.lt_ge_cases i 64) as [L|L].
  - rewrite !nth_error_app1 by (rewrite repeat_length; lia). reflexivity.
  - assert (I : (i < 65)%nat) by (change 65%nat with (List.length many_fds); apply nth_error_Some; congruence).
    assert (i = 64%nat) by lia. subst i. unfold many_fds in E. cbn in E. injection E as <-. now apply late_socket in H.
Qed.
Lemma select_refuted : exists fds (rounds : list (sel_round Z)), NoDup fds
  /\ snd (bs_select (fun i a s => (Ok tt, s ++ [(i, a)])) (List.length fds) rounds SelQuiet []) = [(64%nat, 9)]
  /\ select_on Windows (fun i a s => (Ok tt, s ++ [(i, a)])) fds rounds SelQuiet [] = (Ok tt, []).
Proof.
  exists many_fds, [mkRound (repeat None 64 ++ [Some 9]) 0]. split.
  - apply FinFun.Injective_map_NoDup; [intros a b; lia|apply seq_NoDup].
  - split; vm_compute; reflexivity.
Qed.

(** A datagram for no connection, and a long one *)
Definition stray : dgram := Dgram [1; 0; 0; 0; 4; 0; 9; 0; 0; 0].
Definition long_stray : dgram := Dgram ([1; 0; 0; 0; 4; 0; 9; 0; 0; 0] ++ zeros (Z.to_nat 8192)).
Lemma handle_example :
  reachable (list encaps) (w_g after1) (w_m after1 0%nat) /\ List.length (m_socks (w_m after1 0%nat)) = 1%nat
  /\ round_up_to 8192 (mkRound [Some stray] 0)
  /\ fst (handle_on strict Windows [70000] [mkRound [Some stray] 0] SelQuiet (env_at 0 (fun n => n)) (w_m after1 0%nat)) = Ok tt
  /\ fst (handle_on strict Linux [70000] [mkRound [Some stray] 0] SelQuiet (env_at 0 (fun n => n)) (w_m after1 0%nat)) = Undef UbOobWrite.
Proof.
  split; [exact after1_reach|]. split; [vm_compute; reflexivity|]. split; [repeat constructor; vm_compute; discriminate|].
  split; vm_compute; reflexivity.
Qed.
Lemma handle_refuted : exists g m fd d env, reachable (list encaps) g m /\ List.length (m_socks m) = 1%nat
  /\ fst (handle_connections strict [mkRound [Some d] 0] SelQuiet env m) = Ok tt
  /\ fst (handle_on strict Windows [fd] [mkRound [Some d] 0] SelQuiet env m) = Throw (SystemError 10040).
Proof.
  exists (w_g after1), (w_m after1 0%nat), 300, long_stray, (env_at 0 (fun n => n)). split; [exact after1_reach|].
  split; [vm_compute; reflexivity|]. split; vm_compute; reflexivity.
Qed.

Lemma handle_large h p fds rounds ending env m : p <> Windows -> Exists (fun fd => 1024 <= fd) fds ->
  handle_on h p fds rounds ending env m = (Undef UbOobWrite, m).
Proof.
  intros P H. unfold handle_on, select_on, st_bind. destruct fds as [|fd0 fds']; [inversion H|]. set (fds := fd0 :: fds') in *.
  assert (F : forallb (fun fd => fd <? UNIX_SETSIZE) fds = false).
  { apply Exists_exists in H. destruct H as (fd & I & L). destruct (forallb _ fds) eqn:E; [|reflexivity].
    rewrite forallb_forall in E. specialize (E fd I). unfold UNIX_SETSIZE in E. apply Z.ltb_lt in E. lia. }
  assert (G : fd_set_on p fds = Undef UbOobWrite) by (unfold fd_set_on; rewrite F; destruct p; [reflexivity|reflexivity|contradiction] || (destruct p; try contradiction; reflexivity)).
  rewrite G. reflexivity.
Qed.
