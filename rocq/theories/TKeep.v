(** Connections that the application keeps: C111. *)
From Verif Require Import Base MBuffer SBuffer PBase MEip SEip MSocket SSocket MConnReq SConnReq MConn SConn PConnTop SLife PLife MKeep SKeep PKeep2 PKeep3.

(** Three programs: a connection is kept while it is used; it is kept and times
    out; it is kept and closed, and another one is opened. *)
Definition first_open := open_call 0x10007 10000 10000 (class1 1 0).
Definition alone : kstate (list encaps) := kstart globals0 1 [].
Definition tidy : list (kcall (list encaps)) :=
  [KCall first_open; KKeep 0; KCall (CData 0 [1; 2]); KDrop 0; KCall (CHandle [] SelQuiet (at_ms 70)); KCall (close_call 0)].
Definition times_out : list (kcall (list encaps)) := [KCall first_open; KKeep 0; KCall (CHandle [] SelQuiet (at_ms 70))].
Definition replaced : list (kcall (list encaps)) :=
  [KCall first_open; KKeep 0; KCall (close_call 0); KCall (open_call 0x20007 10000 10000 (class1 1 0))].

(** As long as no connection is closed that is not open but kept, the manager does
    what it does without the pointers, and the calls return the same. *)
Theorem C111_same : forall S h (cs : list (kcall S)) w k, considerate h cs (w, k) ->
  plain_run h (calls_of cs) w = (results_of cs (fst (krun h cs (w, k))), fst (snd (krun h cs (w, k)))).
Proof. intros S h cs w k. apply same_run. Qed.
Print Assumptions C111_same.
Example C111_same_example : considerate strict tidy alone
  /\ fst (krun strict tidy alone) = [Ok (Some 0%nat); Ok (Some 0%nat); Ok None; Ok None; Ok None; Ok None]
  /\ fst (plain_run strict (calls_of tidy) (fst alone)) = [Ok (Some 0%nat); Ok None; Ok None; Ok None].
Proof.
  split.
  { cbn [tidy considerate]. repeat split. intros H. vm_compute in H. now exfalso. }
  split; vm_compute; reflexivity.
Qed.

(** When lock() gives the connection: the manager has it, or the program has got a
    pointer from lock() and has not given it up since. *)
Theorem C111_exists : forall S h oid g inc (s : S) cs, let x := snd (krun h cs (kstart g inc s)) in
  exists_still oid x <-> is_open oid x \/ keeps_it h oid cs (kstart g inc s).
Proof. intros S h oid g inc s cs. apply exists_still_iff. Qed.
Print Assumptions C111_exists.
(** The object of a kept pointer is always there, and always the same connection. *)
Theorem C111_stays : forall S h oid (cs : list (kcall S)) g m s k c g' m' s' k', kreachable S (g, m, s, k) ->
  lock_kept oid m k = Some c -> ~ In (KDrop oid) cs -> snd (krun h (KKeep oid :: cs) (g, m, s, k)) = (g', m', s', k') ->
  exists c', lock_kept oid m' k' = Some c' /\ same_con c c'.
Proof.
  intros S h oid cs g m s k c g' m' s' k' R L N E. apply reach_kinv in R. pose proof (step_kinv h (KKeep oid) _ R) as V1.
  cbn [krun kstep] in *. rewrite L in *. cbn [snd] in V1.
  destruct (run_stays h oid cs (g, m, s, mkKeeping (oid :: kp_held k) (kp_gone k)) c V1 (or_introl eq_refl) N L) as (c' & L' & T).
  destruct (krun h cs _) as [os x]. cbn [snd] in *. subst x. exists c'. split; [exact L'|now apply static_same].
Qed.
Print Assumptions C111_stays.
Example C111_stays_example : keeps_it strict 0 times_out alone /\ ~ is_open 0 (snd (krun strict times_out alone))
  /\ kreachable (list encaps) (snd (krun strict [KCall first_open] alone))
  /\ exists_still 0 (snd (krun strict [KCall first_open] alone)).
Proof.
  split.
  { exists [KCall first_open], [KCall (CHandle [] SelQuiet (at_ms 70))]. split; [reflexivity|]. split; [intros [X|[]]; discriminate|].
    vm_compute. discriminate. }
  split; [intros X; apply X; vm_compute; reflexivity|]. split; [|vm_compute; discriminate].
  exists strict, [KCall first_open], globals0, 1, []. reflexivity.
Qed.

(** A connection that has ended never comes back, sends nothing and calls no
    listener, kept or not; and setting its data changes nothing else. *)
Theorem C111_silent : forall S h oid (cs : list (kcall S)) g m s k g' m' s' k', kreachable S (g, m, s, k) ->
  lock oid m = None -> (oid < g_oid g)%nat -> snd (krun h cs (g, m, s, k)) = (g', m', s', k') ->
  lock oid m' = None /\ exists events, m_log m' = m_log m ++ events /\ about oid events = [].
Proof.
  intros S h oid cs g m s k g' m' s' k' R L W E. apply reach_kinv in R.
  destruct (run_silent h oid cs (g, m, s, k) R ltac:(intros X; now apply X) W) as (N & _ & ev & A & B). rewrite E in *. cbn [fst snd] in *.
  split; [|eauto]. unfold is_open in N. cbn [fst snd] in N. destruct (lock oid m'); [exfalso; apply N; discriminate|reflexivity].
Qed.
Print Assumptions C111_silent.
Theorem C111_data : forall S h oid d g m (s : S) k, lock oid m = None ->
  exists k', kstep h (KCall (CData oid d)) (g, m, s, k) = (Ok None, (g, m, s, k')).
Proof. intros S. exact data_nothing. Qed.
Print Assumptions C111_data.
Example C111_silent_example : let x := snd (krun strict replaced alone) in
  exists_still 0 x /\ ~ is_open 0 x /\ was_opened 0 x /\ is_open 1 x.
Proof.
  cbv zeta. split; [vm_compute; discriminate|]. split; [intros X; apply X; vm_compute; reflexivity|].
  split; [vm_compute; repeat constructor|vm_compute; discriminate].
Qed.

(** What closing it again does, if the target answers anything: another
    connection whose id has the same low 16 bits is dropped, or the program is
    aborted. *)
Theorem C111_again : forall S h use8 (si : session_if S) g m s k oid c resp s', kreachable S (g, m, s, k) ->
  lock oid m = None -> lock_kept oid m k = Some c ->
  send_request h si use8 78 (epath2 6 1) (fc_pack (u16 (io_serial c)) (io_vendor c) (io_orig c) (io_path c)) [] s = (Ok resp, s') ->
  exists o m' k', kstep h (KCall (CClose use8 si oid)) (g, m, s, k) = (o, (g, m', s', k')) /\ m_log m' = m_log m
    /\ ((exists p c2, p <> oid /\ lock p m = Some c2 /\ io_t2oId c2 mod 65536 = io_t2oId c mod 65536
          /\ o = Ok None /\ forall q, lock q m' = if Nat.eqb q p then None else lock q m)
        \/ (forall p c2, lock p m = Some c2 -> io_t2oId c2 mod 65536 <> io_t2oId c mod 65536) /\ o = Abort /\ forall q, lock q m' = lock q m).
Proof. intros S h use8 si g m s k oid c resp s' R. apply reach_kinv in R. now apply close_again. Qed.
Print Assumptions C111_again.
(** The target is asked to close the one that is not open any more. *)
Theorem C111_asked : forall h use8 handle answer g m log k oid c, lock oid m = None -> lock_kept oid m k = Some c -> is_u32 handle ->
  is_u16 (io_serial c) -> is_u16 (io_vendor c) -> is_u32 (io_orig c) -> is_bytes (io_path c) -> zlen (io_path c) <= 60000 ->
  exists o m' p k' request path, kstep h (KCall (CClose use8 (recording handle answer) oid)) (g, m, log, k) = (o, (g, m', log ++ [p], k'))
    /\ parse_rr (encaps_pack p) = Some (mkRR handle 0 [(0, []); (178, request)])
    /\ parse_request request = Some (78, path,
         fc_bytes (io_serial c) (io_vendor c) (io_orig c) ((zlen (io_path c) / 2) mod 256) (io_path c))
    /\ names_cm path = true.
Proof.
  intros h use8 handle answer g m log k oid c L K H A B C D E.
  destruct (again_packet h use8 handle answer m log c H A B C D E) as (p & request & path & P1 & P2).
  cbn [kstep call_kept]. rewrite K. destruct (forward_close _ _ _ _ _) as [o [m1 s1]]. cbn [snd] in P1. subst s1.
  do 6 eexists. split; [reflexivity|exact P2].
Qed.
Print Assumptions C111_asked.
Example C111_again_example : let '(g, m, s, k) := snd (krun strict times_out alone) in
  lock 0 m = None /\ lock_kept 0 m k <> None
  /\ exists c resp s', lock_kept 0 m k = Some c /\ is_u16 (io_serial c) /\ is_u16 (io_vendor c) /\ is_u32 (io_orig c) /\ io_path c = c_path (class1 1 0)
     /\ send_request strict (recording 1 refuses) false 78 (epath2 6 1) (fc_pack (u16 (io_serial c)) (io_vendor c) (io_orig c) (io_path c)) [] s
        = (Ok resp, s').
Proof.
  destruct (snd (krun strict times_out alone)) as [[[g m] s] k] eqn:E. vm_compute in E. inv E.
  split; [vm_compute; reflexivity|]. split; [vm_compute; discriminate|].
  eexists _, _, _. split; [vm_compute; reflexivity|]. cbn [io_serial io_vendor io_orig io_path].
  do 3 (split; [unfold is_u16, is_u32; lia|]). split; [reflexivity|]. vm_compute. reflexivity.
Qed.

(** A connection is kept and times out; the program closes it, which is logged and
    nothing else when the pointer is not kept ([tidy]): the program is aborted. *)
Theorem C111_refuted : exists (cs : list (kcall (list encaps))) oid, let '(os, x) := krun strict cs alone in
  os = [Ok (Some oid); Ok (Some oid); Ok None] /\ m_log (snd (fst (fst x))) = [EvClosed oid]
  /\ fst (kstep strict (KCall (close_call oid)) x) = Abort.
Proof. exists times_out, 0%nat. vm_compute. repeat split. Qed.
Print Assumptions C111_refuted.
(** It is closed twice; the second time drops another connection, of which the
    target is told nothing, and nobody is told that it is closed. *)
Theorem C111_other_refuted : exists (cs : list (kcall (list encaps))) a b, let '(os, x) := krun strict cs alone in
  a <> b /\ In (KCall (close_call a)) cs /\ ~ In (KCall (close_call b)) cs /\ is_open b x /\ ~ is_open a x
  /\ let '(o, x') := kstep strict (KCall (close_call a)) x in
     o = Ok None /\ ~ is_open b x' /\ m_log (snd (fst (fst x'))) = m_log (snd (fst (fst x))).
Proof.
  exists replaced, 0%nat, 1%nat. destruct (krun strict replaced alone) as [os x] eqn:E. vm_compute in E. inv E.
  split; [discriminate|]. split; [right; right; left; reflexivity|].
  split; [intros X; repeat (destruct X as [X|X]); try discriminate; contradiction|].
  split; [vm_compute; discriminate|]. split; [intros X; apply X; vm_compute; reflexivity|].
  match goal with |- let '(_, _) := ?y in _ => destruct y as [o x'] eqn:E end. vm_compute in E. inv E.
  split; [reflexivity|]. split; [intros X; apply X; vm_compute; reflexivity|reflexivity].
Qed.
Print Assumptions C111_other_refuted.
(** So lock() does not tell that a connection is open. *)
Theorem C111_lock_refuted : exists (cs : list (kcall (list encaps))) oid, let '(os, x) := krun strict cs alone in
  exists_still oid x /\ has_open (snd (fst (fst x))) = false.
Proof. exists times_out, 0%nat. vm_compute. split; [discriminate|reflexivity]. Qed.
Print Assumptions C111_lock_refuted.
