(** Several connection managers in one program: connections that are closed through
    another manager, managers that are copied. *)
From Verif Require Import Base MBuffer SBuffer MEip SEip MSocket MConnReq SConnReq MConn SConn PConnTop MMany SMany PMany PMany2 PMany3 PMany4.

(** A manager of a program that keeps its managers apart is as one that is used alone
    (whatever is proved for these holds for it), and its calls do nothing to the
    others. (Not true of all programs, see below.) *)
Theorem C108_separate_partial (S : Type) h cs (s : S) i x : apart h cs (many0 s) ->
  let q := qrun h cs (many0 s) in q_mgr q i = Some x ->
  reachable S (q_g q) (seen q i x)
  /\ forall op, own_call q i op ->
     let '(o, (g, m, s')) := call_mgr h op (q_g q, seen q i x, q_s q) in
     let q' := snd (qstep h (on_mgr i op) q) in
     fst (qstep h (on_mgr i op) q) = o /\ q_g q' = g /\ q_s q' = s'
     /\ (exists x', q_mgr q' i = Some x' /\ seen q' i x' = m)
     /\ forall j y, j <> i -> q_mgr q j = Some y -> q_mgr q' j = Some y /\ seen q' j y = seen q j y.
Proof. apply separate. Qed.
Print Assumptions C108_separate_partial.
Example C108_separate_partial_case :
  apart strict (two_managers ++ [q_close 1 2; q_tick 0 20 [Dgram (gram 0x10007 [1; 0; 9; 9])]; QDestroy 1]) (many0 [])
  /\ (exists x, q_mgr (ran (two_managers ++ [q_close 1 2])) 1 = Some x /\ cm_map x = [(7, 1%nat)])
  /\ q_log (ran (two_managers ++ [q_tick 0 20 [Dgram (gram 0x10007 [1; 0; 9; 9])]])) 0%nat <> [].
Proof.
  split; [|split].
  - cbn [two_managers app apart]. split; [exact Logic.I|]. split; [exact Logic.I|]. split; [exact Logic.I|]. split; [exact Logic.I|].
    split; [exact Logic.I|]. split; [|split; [exact Logic.I|]; split; exact Logic.I].
    intros j (k & x & E & I). destruct j as [|[|j]]; [|reflexivity|exfalso; vm_compute in E; discriminate].
    exfalso. vm_compute in E. injection E as <-. cbn [cm_map In] in I. intuition discriminate.
  - eexists. split; [vm_compute; reflexivity|reflexivity].
  - vm_compute. discriminate.
Qed.

(** Closing a connection of manager [j] through manager [i]: the target gets what
    closing through [j] sends. No manager but [i] loses a connection. With the
    request answered, [i] loses what it has under the low 16 bits of the T2O id, and
    the program aborts (debug builds) if that is nothing. *)
Theorem C108_close (S : Type) h cs (s : S) use8 (si : session_if S) i x j y k o :
  let q := qrun h cs (many0 s) in q_mgr q i = Some x -> q_mgr q j = Some y -> In (k, o) (cm_map y) ->
  let '(r, (_, s)) := forward_close h use8 si (lock o (seen q j y)) (seen q j y, q_s q) in
  let '(r', q') := qstep h (QClose i use8 si o) q in
  q_s q' = s /\ q_g q' = q_g q /\ (forall n, n <> i -> q_mgr q' n = q_mgr q n) /\ (forall n o', keeper q n o' -> q_con q' o' = q_con q o')
  /\ match r with
     | Ok _ => r' = (if existsb (fun e => fst e =? k) (cm_map x) then Ok None else Abort)
               /\ forall k' o', keeps q' i k' o' <-> keeps q i k' o' /\ k' <> k
     | Throw e => r' = Throw e /\ forall k' o', keeps q' i k' o' <-> keeps q i k' o'
     | Undef u => r' = Undef u /\ forall k' o', keeps q' i k' o' <-> keeps q i k' o'
     | Abort => r' = Abort /\ forall k' o', keeps q' i k' o' <-> keeps q i k' o'
     end.
Proof. intros q. apply close_any. apply qrun_good, many0_good. Qed.
Print Assumptions C108_close.
Example C108_close_case :
  let q := ran two_managers in
  (exists x, q_mgr q 0%nat = Some x /\ In (7, 0%nat) (cm_map x)) /\ (exists y, q_mgr q 1%nat = Some y /\ In (8, 2%nat) (cm_map y))
  /\ fst (qstep strict (q_close 1 0) q) = Ok None /\ fst (qstep strict (q_close 0 2) q) = Abort.
Proof.
  cbv zeta. split; [eexists; split; [vm_compute; reflexivity|cbn; auto]|]. split; [eexists; split; [vm_compute; reflexivity|cbn; auto]|].
  split; vm_compute; reflexivity.
Qed.

(** handleConnections of a manager hands data to no connections but those of the
    managers that have made its sockets. *)
Theorem C108_deaf (S : Type) h cs (s : S) i rounds ending env o :
  let q := qrun h cs (many0 s) in (forall j, hears q i j -> ~ keeper q j o) ->
  forall n hd sq d, In (EvData o hd sq d) (q_log (snd (qstep h (QHandle i rounds ending env) q)) n) -> In (EvData o hd sq d) (q_log q n).
Proof. intros q. apply deaf. apply qrun_good, many0_good. Qed.
Print Assumptions C108_deaf.
Example C108_deaf_case :
  let q := ran (a_copy ++ [q_open 1 0x10008]) in
  keeper q 1 1 /\ hears q 1 0 /\ ~ keeper q 0 1.
Proof.
  cbv zeta. split; [exists 8; eexists; split; [vm_compute; reflexivity|cbn; auto]|]. split.
  - eexists. eexists. exists 0%nat. split; [vm_compute; reflexivity|]. split; [left; reflexivity|reflexivity].
  - intros (k & x & E & I). vm_compute in E. injection E as <-. cbn [cm_map In] in I. intuition discriminate.
Qed.

(** No handler runs on a manager that is gone as long as the managers that have made
    the sockets live; otherwise the first datagram that can be read is enough. *)
Theorem C108_safe (S : Type) h cs (s : S) i rounds ending env :
  let q := qrun h cs (many0 s) in (forall j, hears q i j -> q_mgr q j <> None) ->
  fst (qstep h (QHandle i rounds ending env) q) <> Undef UbDangling.
Proof. intros q. apply safe. apply qrun_good, many0_good. Qed.
Print Assumptions C108_safe.
Theorem C108_dangles (S : Type) cs (s : S) i k e n l i0 items X rest r now rounds ending env x :
  let q := qrun strict cs (many0 s) in q_mgr q i = Some x ->
  nth_error (cm_socks x) k = Some (e, n) -> (forall j, nth_error (q_made q) n = Some j -> q_mgr q j = None) ->
  is_bytes l -> carries l (i0 :: items) -> is_u32 X -> it_data i0 = le 4 X ++ rest ->
  fst (qstep strict (QHandle i (mkRound (repeat None k ++ Some (Dgram l) :: r) now :: rounds) ending env) q) = Undef UbDangling.
Proof. intros q. apply dangles. apply qrun_good, many0_good. Qed.
Print Assumptions C108_dangles.
Example C108_dangles_case :
  (forall j, hears (ran a_copy) 1 j -> q_mgr (ran a_copy) j <> None)
  /\ (let q := ran (a_copy ++ [QDestroy 0]) in hears q 1 0 /\ q_mgr q 0%nat = None
      /\ fst (qstep strict (q_tick 1 20 [Dgram (gram 5 [1; 0; 9; 9])]) q) = Undef UbDangling).
Proof.
  split.
  - intros j (x & e & n & E & I & N). vm_compute in E. injection E as <-. cbn [cm_socks In] in I. destruct I as [I|[]]. injection I as <- <-.
    vm_compute in N. injection N as <-. vm_compute. discriminate.
  - cbv zeta. split; [|split; vm_compute; reflexivity]. eexists. eexists. exists 0%nat. split; [vm_compute; reflexivity|]. split; [left; reflexivity|reflexivity].
Qed.

(** Managers as values: a copy has the same connections and hears the same managers,
    so has a manager that is assigned to; nothing else changes. A manager that is
    destroyed is gone, the others are as before. *)
Theorem C108_copied (S : Type) h cs (s : S) i x : let q := qrun h cs (many0 s) in q_mgr q i = Some x ->
  let '(o, q') := qstep h (QCopy i) q in
  o = Ok None /\ q_con q' = q_con q /\ (forall j, (j < q_next q)%nat -> q_mgr q' j = q_mgr q j) /\ q_next q' = Datatypes.S (q_next q)
  /\ (forall k c, keeps q' (q_next q) k c <-> keeps q i k c) /\ (forall j, hears q' (q_next q) j <-> hears q i j)
  /\ q_mgr q (q_next q) = None /\ (forall y, q_mgr q' (q_next q) = Some y -> cm_inc y = cm_inc x).
Proof. intros q. apply copied. apply qrun_good, many0_good. Qed.
Print Assumptions C108_copied.
Theorem C108_assigned (S : Type) h cs (s : S) i j x y : let q := qrun h cs (many0 s) in q_mgr q i = Some x -> q_mgr q j = Some y ->
  let '(o, q') := qstep h (QAssign i j) q in
  o = Ok None /\ q_con q' = q_con q /\ (forall n, n <> i -> q_mgr q' n = q_mgr q n) /\ q_next q' = q_next q
  /\ (forall k c, keeps q' i k c <-> keeps q j k c) /\ (forall n, hears q' i n <-> hears q j n)
  /\ (forall z, q_mgr q' i = Some z -> cm_inc z = cm_inc y).
Proof. intros q. apply assigned. Qed.
Print Assumptions C108_assigned.
Theorem C108_destroyed (S : Type) h cs (s : S) i : let q := qrun h cs (many0 s) in
  let '(o, q') := qstep h (QDestroy i) q in
  o = Ok None /\ q_con q' = q_con q /\ (forall n, n <> i -> q_mgr q' n = q_mgr q n) /\ q_mgr q' i = None /\ q_next q' = q_next q.
Proof. intros q. apply destroyed. Qed.
Print Assumptions C108_destroyed.
Example C108_copied_case :
  (exists x, q_mgr (ran two_managers) 1%nat = Some x /\ List.length (cm_map x) = 2%nat /\ List.length (cm_socks x) = 1%nat)
  /\ keeper (ran (two_managers ++ [QAssign 0 1])) 0 2 /\ keeper (ran (two_managers ++ [QAssign 0 1; QDestroy 1])) 0 2
  /\ (let q := ran (two_managers ++ [QAssign 0 1]) in forall j, ~ keeper q j 0).
Proof.
  split; [eexists; split; [vm_compute; reflexivity|split; reflexivity]|].
  split; [exists 8; eexists; split; [vm_compute; reflexivity|cbn; auto]|].
  split; [exists 8; eexists; split; [vm_compute; reflexivity|cbn; auto]|].
  cbv zeta. intros j (k & x & F & I). destruct j as [|[|j]]; vm_compute in F; try discriminate; injection F as <-; cbn in I; intuition discriminate.
Qed.

(** A connection is one object for all managers that have it: output data is set
    once, and a poll through one manager (without datagrams) counts the time for all,
    but takes a connection that is timed out from this manager only. *)
Theorem C108_fed (S : Type) h cs (s : S) o d : let q := qrun h cs (many0 s) in
  let '(r, q') := qstep h (QData o d) q in
  r = Ok None /\ q_mgr q' = q_mgr q
  /\ ((exists i, keeper q i o) -> q_con q' o = io_set_output (q_con q o) d)
  /\ (forall o', o' <> o \/ (forall i, ~ keeper q i o) -> q_con q' o' = q_con q o').
Proof. intros q. apply fed. apply qrun_good, many0_good. Qed.
Print Assumptions C108_fed.
Theorem C108_polled (S : Type) h cs (s : S) i x env : let q := qrun h cs (many0 s) in
  q_mgr q i = Some x -> cm_socks x <> [] -> sends_all env ->
  let '(r, q') := qstep h (QHandle i [] SelQuiet env) q in
  r = Ok None
  /\ (forall j, j <> i -> q_mgr q' j = q_mgr q j)
  /\ (forall k o, keeps q i k o ->
       let '(alive, c, _) := io_tick (t_now env o) (t_hook env o) (t_send env o) (q_con q o) in
       q_con q' o = c /\ (keeps q' i k o <-> alive = Ok true))
  /\ (forall k o, keeps q' i k o -> keeps q i k o)
  /\ (forall o, ~ keeper q i o -> q_con q' o = q_con q o)
  /\ (forall j, hears q' i j <-> hears q i j).
Proof. intros q. apply polled. apply qrun_good, many0_good. Qed.
Print Assumptions C108_polled.
Example C108_polled_case :
  (exists x, q_mgr (ran a_copy) 1%nat = Some x /\ cm_socks x <> [])
  /\ (let q := ran (a_copy ++ [q_tick 1 90 []]) in keeper q 0 0 /\ ~ keeper q 1 0 /\ io_tcount (q_con q 0%nat) = 90000).
Proof.
  split; [eexists; split; [vm_compute; reflexivity|discriminate]|]. cbv zeta.
  split; [exists 7; eexists; split; [vm_compute; reflexivity|cbn; auto]|]. split; [|vm_compute; reflexivity].
  intros (k & x & F & I). vm_compute in F. injection F as <-. exact I.
Qed.
(** A datagram at a socket goes to the manager that has made it. *)
Theorem C108_received (S : Type) h cs (s : S) i k e n j y d now env x : let q := qrun h cs (many0 s) in
  q_mgr q i = Some x -> nth_error (cm_socks x) k = Some (e, n) -> nth_error (q_made q) n = Some j -> q_mgr q j = Some y ->
  let '(r, m) := on_readable h d (seen q j y) in
  let '(r', q') := qstep h (QHandle i [mkRound (repeat None k ++ [Some d]) now] SelQuiet env) q in
  (r <> Ok tt -> r' = omap (fun _ => None) r)
  /\ filter is_data (q_log q' j) = filter is_data (m_log m)
  /\ forall j', j' <> j -> filter is_data (q_log q' j') = filter is_data (q_log q j').
Proof. intros q. apply received. apply qrun_good, many0_good. Qed.
Print Assumptions C108_received.
Example C108_received_case :
  let q := ran a_copy in let d := Dgram (gram 0x10007 [1; 0; 9; 9]) in
  (exists x e, q_mgr q 1%nat = Some x /\ nth_error (cm_socks x) 0 = Some (e, 0%nat)) /\ nth_error (q_made q) 0 = Some 0%nat
  /\ q_log (snd (qstep strict (q_tick 1 2 [d]) q)) 0%nat = [EvData 0 0 1 [9; 9]].
Proof. cbv zeta. split; [eexists; eexists; split; vm_compute; reflexivity|]. split; vm_compute; reflexivity. Qed.

(** Closing through any manager closes the connection: refuted, the target is told,
    but the connection stays where it was, and the program aborts. *)
Theorem C108_refuted : exists cs i o, let q := ran cs in
  apart strict cs (many0 []) /\ q_mgr q i <> None /\ keeper q 0 o
  /\ let '(r, q') := qstep strict (q_close i o) q in
     r = Abort /\ List.length (q_s q') = Datatypes.S (List.length (q_s q)) /\ keeper q' 0 o.
Proof.
  exists [QNew 1; QNew 2; q_open 0 0x10007], 1%nat, 0%nat. cbv zeta.
  split; [cbn; tauto|]. split; [vm_compute; discriminate|]. split; [exists 7; eexists; split; [vm_compute; reflexivity|cbn; auto]|].
  destruct (qstep strict (q_close 1 0) _) as [r q'] eqn:E. vm_compute in E. injection E as <- <-. split; [reflexivity|]. split; [vm_compute; reflexivity|].
  exists 7. eexists. split; [reflexivity|]. cbn. auto.
Qed.
Print Assumptions C108_refuted.
(** Closing a connection leaves the others open: refuted. *)
Theorem C108_erase_refuted : exists cs i o o', let q := ran cs in
  apart strict cs (many0 []) /\ o' <> o /\ keeper q 0 o /\ keeper q i o'
  /\ let '(r, q') := qstep strict (q_close i o) q in r = Ok None /\ keeper q' 0 o /\ forall j, ~ keeper q' j o'.
Proof.
  exists [QNew 1; QNew 2; q_open 0 0x10007; q_open 1 0x20007], 1%nat, 0%nat, 1%nat. cbv zeta.
  split; [cbn; tauto|]. split; [discriminate|]. split; [exists 7; eexists; split; [vm_compute; reflexivity|cbn; auto]|].
  split; [exists 7; eexists; split; [vm_compute; reflexivity|cbn; auto]|].
  destruct (qstep strict (q_close 1 0) _) as [r q'] eqn:E. vm_compute in E. injection E as <- <-. split; [reflexivity|]. split.
  - exists 7. eexists. split; [reflexivity|]. cbn. auto.
  - intros j (k & x & F & I). cbn [q_mgr] in F. destruct j as [|[|j]]; vm_compute in F; try discriminate; injection F as <-; cbn in I; intuition discriminate.
Qed.
Print Assumptions C108_erase_refuted.
(** A copy of a manager can be used when the manager is gone: refuted. *)
Theorem C108_dangling_refuted : exists cs d, let q := ran (cs ++ [QCopy 0; QDestroy 0]) in
  apart strict cs (many0 []) /\ fst (qstep strict (q_tick 0 20 [d]) (ran cs)) = Ok None
  /\ fst (qstep strict (q_tick 1 20 [d]) q) = Undef UbDangling.
Proof.
  exists [QNew 1; q_open 0 0x10007], (Dgram (gram 0x10007 [1; 0; 9; 9])). cbv zeta. split; [cbn; tauto|]. split; vm_compute; reflexivity.
Qed.
Print Assumptions C108_dangling_refuted.
(** Connections opened through a copy get their data: refuted. *)
Theorem C108_deaf_refuted : exists cs d, 
  (exists hd sq x, In (EvData 1 hd sq x) (q_log (snd (qstep strict (q_tick 0 20 [d]) (ran (cs ++ [q_open 0 0x10008])))) 0%nat))
  /\ (let q := ran (cs ++ [QCopy 0; q_open 1 0x10008]) in keeper q 1 1
      /\ fst (qstep strict (q_tick 1 20 [d]) q) = Ok None /\ ~ told_data (snd (qstep strict (q_tick 1 20 [d]) q)) 1).
Proof.
  exists [QNew 1; q_open 0 0x10007], (Dgram (gram 0x10008 [1; 0; 9; 9])). split.
  - eexists. eexists. eexists. vm_compute. left. reflexivity.
  - cbv zeta. split; [exists 8; eexists; split; [vm_compute; reflexivity|cbn; auto]|]. split; [vm_compute; reflexivity|].
    intros (i & hd & sq & x & I). vm_compute in I. destruct i as [|[|i]]; cbn in I; intuition discriminate.
Qed.
Print Assumptions C108_deaf_refuted.
(** A connection is announced as closed once: refuted with copies. *)
Theorem C108_twice_refuted : exists cs o, let q := ran cs in closed_times q 0 o = 1%nat /\ closed_times q 1 o = 1%nat.
Proof. exists (a_copy ++ [q_tick 0 90 []; q_tick 1 90 []]), 0%nat. cbv zeta. split; vm_compute; reflexivity. Qed.
Print Assumptions C108_twice_refuted.
