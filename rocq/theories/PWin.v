(** Proofs about the library on Windows and macOS. *)
From Coq Require Import Lia.
From Verif Require Import Base MBuffer MEip MIdent MSocket SSession MDisc MConn PDisc MWin SWin.
Local Open Scope Z_scope.
Local Open Scope outcome_scope.
Ltac Zify.zify_post_hook ::= Z.div_mod_to_equations.

Lemma connect_linux n k : connect_on Linux n k = tcp_connect k.
Proof. unfold connect_on, tcp_connect, tcp_connect_try. destruct (k_socket k), (k_getfl1 k), (k_setfl1 k); reflexivity. Qed.

Lemma wait_shape p k : connect_wait p k = Ok tt \/ exists e, connect_wait p k = Throw (SystemError e).
Proof.
  unfold connect_wait. destruct (k_connect k) as [e|]; [|now left].
  destruct (e =? _); [|now right; exists e].
  destruct (k_select k) as [res err]. destruct ((res <? 0) && _); [right; eauto|].
  destruct (0 <? res); [|right; eauto]. destruct (k_getsockopt k); cbn [sys bind]; [right; eauto|].
  destruct (negb _); [right; eauto|now left].
Qed.

Lemma connect_shape p n k :
  (exists flags, connect_on p n k = (Ok tt, OpenFd flags)) \/ (exists e fd, connect_on p n k = (Throw (SystemError e), fd)).
Proof.
  unfold connect_on. destruct (k_socket k); [right; eauto|].
  assert (B : forall flags, let o := (_ <- connect_wait p k ;; _ <- sys (k_getfl2 k) ;; sys (k_setfl2 k)) in
    (exists f, match o with Ok _ => (Ok tt, OpenFd flags) | Throw e => (Throw e, ClosedFd) | Undef u => (Undef u, ClosedFd) | Abort => (Abort, ClosedFd) end = (Ok tt, OpenFd f))
    \/ (exists e fd, match o with Ok _ => (Ok tt, OpenFd flags) | Throw e => (Throw e, ClosedFd) | Undef u => (Undef u, ClosedFd) | Abort => (Abort, ClosedFd) end = (Throw (SystemError e), fd))).
  { intros flags. destruct (wait_shape p k) as [->|[e ->]]; cbn [bind]; [|right; eauto].
    destruct (k_getfl2 k), (k_setfl2 k); cbn [sys bind]; eauto. }
  destruct p.
  - destruct (k_getfl1 k), (k_setfl1 k); eauto.
  - destruct n, (k_getfl1 k), (k_setfl1 k); eauto.
  - destruct (wait_shape Windows k) as [->|[e ->]]; eauto.
Qed.

Lemma connect_leak p n k : (exists e flags, connect_on p n k = (Throw e, OpenFd flags)) <->
  k_socket k = None /\ match p with
                       | Linux => k_getfl1 k <> None \/ k_setfl1 k <> None
                       | MacOS => n <> None \/ k_getfl1 k <> None \/ k_setfl1 k <> None
                       | Windows => False
                       end.
Proof.
  unfold connect_on. destruct (k_socket k); [split; [intros (e & f & E); discriminate|intros [E _]; discriminate]|].
  assert (B : forall flags (o : outcome unit),
    ~ exists e f, match o with Ok _ => (Ok tt, OpenFd flags) | Throw e => (Throw e, ClosedFd) | Undef u => (Undef u, ClosedFd) | Abort => (Abort, ClosedFd) end = (Throw e, OpenFd f)).
  { intros flags [[]|x|u|] (e & f & E); discriminate. }
  split.
  - intros H. split; [reflexivity|]. destruct p.
    + destruct (k_getfl1 k), (k_setfl1 k); try (left; discriminate); try (right; discriminate). now apply B in H.
    + destruct n, (k_getfl1 k), (k_setfl1 k); try (left; discriminate); try (right; left; discriminate); try (right; right; discriminate). now apply B in H.
    + now apply B in H.
  - intros [_ H]. destruct p; [..|contradiction].
    + destruct (k_getfl1 k), (k_setfl1 k); eauto; now destruct H.
    + destruct n, (k_getfl1 k), (k_setfl1 k); eauto; destruct H as [H|[H|H]]; now contradiction H.
Qed.

(** The exception carries the first failure. *)
Lemma wait_reports p k : connect_wait p k
  = match first_failure (if match k_connect k with Some e => e =? sys_inprogress p | None => false end
      then [(let '(n, e) := k_select k in
             if 0 <? n then None else if (n =? 0) || (e =? sys_intr p) then Some (sys_timedout p) else Some e);
            k_getsockopt k; (if k_soerr k =? 0 then None else Some (k_soerr k))]
      else [k_connect k]) with Some e => Throw (SystemError e) | None => Ok tt end.
Proof.
  unfold connect_wait. replace (err_inprogress p) with (sys_inprogress p) by (destruct p; reflexivity).
  replace (err_intr p) with (sys_intr p) by (destruct p; reflexivity).
  replace (err_timedout p) with (sys_timedout p) by (destruct p; reflexivity).
  destruct (k_connect k) as [e|]; [|reflexivity]. destruct (e =? sys_inprogress p); [|reflexivity].
  destruct (k_select k) as [n x]. cbn [first_failure].
  destruct (Z.ltb_spec 0 n) as [P|P].
  - destruct (Z.ltb_spec n 0); [lia|]. cbn [andb]. unfold sys. destruct (k_getsockopt k); [reflexivity|].
    cbn [bind]. destruct (k_soerr k =? 0); reflexivity.
  - destruct (Z.eqb_spec n 0) as [->|N]; [reflexivity|]. destruct (Z.ltb_spec n 0); [|lia]. cbn [orb andb].
    destruct (x =? sys_intr p); reflexivity.
Qed.
Lemma failure_app l r : first_failure (l ++ r) = match first_failure l with Some e => Some e | None => first_failure r end.
Proof. induction l as [|[e|] l IH]; [reflexivity|reflexivity|exact IH]. Qed.
Lemma connect_reports_on p n k :
  fst (connect_on p n k) = match first_failure (steps_on p n k) with Some e => Throw (SystemError e) | None => Ok tt end.
Proof.
  unfold connect_on, steps_on. rewrite !failure_app. cbn [first_failure]. destruct (k_socket k); [reflexivity|].
  rewrite (wait_reports p k). match goal with |- context [first_failure (if ?b then ?x else ?y)] => generalize (if b then x else y) end. intros w.
  destruct p; [| |destruct (first_failure w); reflexivity].
  - cbn [first_failure]. destruct (k_getfl1 k); [reflexivity|]. destruct (k_setfl1 k); [reflexivity|].
    destruct (first_failure w); [reflexivity|]. cbn [bind]. destruct (k_getfl2 k), (k_setfl2 k); reflexivity.
  - cbn [first_failure]. destruct n; [reflexivity|]. destruct (k_getfl1 k); [reflexivity|]. destruct (k_setfl1 k); [reflexivity|].
    destruct (first_failure w); [reflexivity|]. cbn [bind]. destruct (k_getfl2 k), (k_setfl2 k); reflexivity.
Qed.

(** A socket that was connected is in the mode it was in before, which is blocking. *)
Lemma connect_flags p n k flags : connect_on p n k = (Ok tt, OpenFd flags) ->
  match p with
  | Windows => flags = k_flags k
  | _ => forall i, 0 <= i -> Z.testbit flags i = negb (i =? match p with MacOS => 2 | _ => 11 end) && Z.testbit (k_flags k) i
  end.
Proof.
  assert (B : forall m f i, 0 <= m -> 0 <= i ->
    Z.testbit (Z.land (Z.lor f (2 ^ m)) (Z.lnot (2 ^ m))) i = negb (i =? m) && Z.testbit f i).
  { intros m f i Hm Hi. rewrite Z.land_spec, Z.lor_spec, Z.lnot_spec, Z.pow2_bits_eqb by lia.
    rewrite (Z.eqb_sym m i). destruct (i =? m), (Z.testbit f i); reflexivity. }
  assert (K : forall f (o : outcome unit) x,
    match o with Ok _ => (Ok tt, OpenFd f) | Throw e => (Throw e, ClosedFd) | Undef u => (Undef u, ClosedFd) | Abort => (Abort, ClosedFd) end = (Ok tt, OpenFd x) -> x = f).
  { intros f [[]|e|u|] x E; congruence. }
  unfold connect_on. destruct (k_socket k); [discriminate|]. destruct p.
  - destruct (k_getfl1 k), (k_setfl1 k); try discriminate. intros E. apply K in E. subst. intros i Hi. now apply (B 11).
  - destruct n, (k_getfl1 k), (k_setfl1 k); try discriminate. intros E. apply K in E. subst. intros i Hi. now apply (B 2).
  - intros E. now apply K in E.
Qed.

(** ** Timeouts *)
Lemma s32_small x : -2147483648 <= x < 2147483648 -> s32 x = x.
Proof. unfold s32. lia. Qed.
Lemma s64_small x : -9223372036854775808 <= x < 9223372036854775808 -> s64 x = x.
Proof. unfold s64. lia. Qed.

Lemma interval_small p ms : 0 <= ms < 2147483648 * 1000 -> interval p ms = (ms / 1000, ms mod 1000 * 1000).
Proof.
  intros H. unfold interval. rewrite Z.quot_div_nonneg, Z.rem_mod_nonneg by lia.
  assert (0 <= ms / 1000 < 2147483648) by lia. assert (0 <= ms mod 1000 < 1000) by lia.
  destruct p; rewrite ?s64_small, ?s32_small by lia; f_equal; lia.
Qed.
Lemma interval_linux ms : is_s64 ms -> interval Linux ms = portable_interval ms.
Proof.
  unfold is_s64. intros H. unfold interval, portable_interval.
  assert (-9223372036854775808 <= Z.quot ms 1000 < 9223372036854775808) by lia.
  assert (-1000 < Z.rem ms 1000 < 1000) by lia.
  now rewrite !s64_small by lia.
Qed.
Lemma waits_small p ms : 0 <= ms < 2147483648 * 1000 -> waits p ms = ms.
Proof. intros H. unfold waits. rewrite interval_small by lia. lia. Qed.

Lemma wait_small p ms : 0 <= ms < 4294967296 -> recv_wait p ms = ms.
Proof.
  intros H. unfold recv_wait. destruct p; [| |unfold u32; lia]; rewrite interval_small by lia; lia.
Qed.
Lemma wait_linux ms : is_s64 ms -> recv_wait Linux ms = Z.max 0 ms.
Proof.
  intros H. unfold recv_wait. rewrite interval_linux by easy. unfold portable_interval, is_s64 in *.
  pose proof (Z.quot_rem' ms 1000) as E. pose proof (Z.rem_bound_abs ms 1000 ltac:(lia)) as B.
  destruct (Z.le_gt_cases 0 ms) as [P|P].
  - rewrite Z.quot_div_nonneg, Z.rem_mod_nonneg by lia. lia.
  - assert (Z.quot ms 1000 <= 0) by lia. assert (Z.rem ms 1000 <= 0) by lia. lia.
Qed.
Lemma wait_windows ms : recv_wait Windows ms = ms mod 4294967296.
Proof. reflexivity. Qed.
Lemma wait_mac ms : 0 <= ms -> is_s64 ms ->
  recv_wait MacOS ms = Z.max 0 ((ms / 1000 + 2147483648) mod 4294967296 - 2147483648) * 1000 + ms mod 1000.
Proof.
  intros P H. unfold recv_wait, interval. rewrite Z.quot_div_nonneg, Z.rem_mod_nonneg by lia.
  rewrite (s32_small (ms mod 1000 * 1000)) by lia. unfold s32. lia.
Qed.

Lemma connect_in_time p ms a : p <> Windows -> 0 <= ms < 2147483648 * 1000 ->
  connect_timed p ms a = in_time (sys_timedout p) ms (at_when a) (at_error a).
Proof.
  intros P H. unfold connect_timed, in_time, calls_for. rewrite (waits_small p ms H).
  destruct p; [| |contradiction]; cbn [connect_on k_socket k_getfl1 k_setfl1];
    unfold connect_wait; cbn [k_connect k_select k_getsockopt k_soerr k_getfl2 k_setfl2 sys bind]; rewrite Z.eqb_refl;
    (destruct (Z.leb_spec (at_when a) ms); cbn [Z.ltb Z.compare andb bind fst];
     [rewrite Z.min_l by lia; unfold verdict; destruct (at_error a =? 0); reflexivity
     |rewrite Z.min_r by lia; reflexivity]).
Qed.
Lemma connect_blocking ms a : connect_timed Windows ms a
  = (if at_error a =? 10036 then Throw (SystemError 10060) else verdict (at_error a), at_when a).
Proof.
  unfold connect_timed, calls_for, connect_on, connect_wait, verdict.
  cbn [k_connect k_socket k_select k_flags k_getsockopt k_soerr err_inprogress err_timedout err_intr].
  destruct (Z.eqb_spec (at_error a) 0) as [->|N]; [reflexivity|].
  destruct (Z.eqb_spec (at_error a) 10036); reflexivity.
Qed.

(** ** Messages *)
Lemma trim_spec l : exists ends, l = ends ++ trim l /\ Forall line_end ends /\ forall c r, trim l = c :: r -> ~ line_end c.
Proof.
  induction l as [|c l (ends & E & F & N)]; cbn [trim].
  - exists []. repeat split; [constructor|discriminate].
  - destruct (Z.eqb_spec c 13) as [C|C]; cbn [orb]; [|destruct (Z.eqb_spec c 10) as [D|D]].
    + exists (c :: ends). repeat split; [cbn [app]; congruence|constructor; [now left|easy]|easy].
    + exists (c :: ends). repeat split; [cbn [app]; congruence|constructor; [now right|easy]|easy].
    + exists []. repeat split; [constructor|]. intros x r X. injection X as <- _. unfold line_end. tauto.
Qed.
Lemma message_trimmed text c l : text c = Some l -> 0 < zlen l < 255 -> trimmed l (win_message text c).
Proof.
  intros T H. unfold win_message. rewrite T. rewrite (proj2 (Z.ltb_lt _ _)) by lia. rewrite (proj2 (Z.eqb_neq _ _)) by lia.
  destruct (trim_spec (rev l)) as (ends & E & F & N). exists (rev ends). repeat split.
  - rewrite <- rev_app_distr, <- E. now rewrite rev_involutive.
  - rewrite Forall_forall in *. intros x X. apply F. now rewrite in_rev.
  - intros x r' R. apply (N x (rev r')). rewrite <- (rev_involutive (trim (rev l))), R. now rewrite rev_app_distr.
Qed.
Lemma message_none text c : match text c with Some l => l = [] \/ 255 <= zlen l | None => True end ->
  win_message text c = [78; 47; 65].
Proof.
  unfold win_message. destruct (text c) as [l|]; [|reflexivity]. intros [->|H]; [reflexivity|].
  now rewrite (proj2 (Z.ltb_ge _ _)) by lia.
Qed.

(** ** Receiving *)
Lemma only_eqb ren e e' x : only ren e e' -> (ren x =? e') = (x =? e).
Proof.
  intros H. destruct (Z.eqb_spec x e) as [->|N]; [apply Z.eqb_eq, H; reflexivity|].
  apply Z.eqb_neq. intros E. now apply H in E.
Qed.
Lemma recv_same p ren : only ren 4 (sys_intr p) -> ren 11 = sys_again p -> forall segs n acc,
  recv_on p n acc (map (seg_ren ren) segs)
  = (out_ren ren (fst (recv_loop n acc segs)), map (seg_ren ren) (snd (recv_loop n acc segs))).
Proof.
  intros O A. induction segs as [|s segs IH]; intros n acc; destruct n as [|n]; cbn [recv_on recv_loop map fst snd out_ren]; try reflexivity.
  - now rewrite <- A.
  - destruct s as [l|e|]; cbn [seg_ren].
    + destruct (Nat.leb _ _); [apply IH|reflexivity].
    + replace (err_intr p) with (sys_intr p) by (destruct p; reflexivity). rewrite (only_eqb ren 4) by easy. change EINTR with 4. destruct (e =? 4); [apply IH|reflexivity].
    + reflexivity.
Qed.

Lemma udp_same p ren size ds : ren EAGAIN = sys_again p -> Forall (up_to (Z.of_nat size)) ds ->
  udp_on p size (map (dgram_ren ren) ds) = out_ren ren (fst (udp_receive size ds)).
Proof.
  intros A F. destruct ds as [|d r]; cbn [map udp_on udp_receive fst out_ren]; [now rewrite <- A|].
  destruct d as [l|e]; cbn [dgram_ren].
  - unfold arrival. apply Forall_inv in F. cbn [up_to] in F. unfold zlen in F.
    destruct p; try reflexivity. destruct (Nat.ltb_spec size (List.length l)); [lia|reflexivity].
  - destruct p; reflexivity.
Qed.

Lemma loop_same h p ren : only ren 11 (sys_again p) -> forall ds acc, Forall (up_to 504) ds ->
  disc_loop_on h p acc (map (dgram_ren ren) ds) = out_ren ren (disc_loop h acc ds).
Proof.
  intros O.
  assert (A : ren EAGAIN = sys_again p) by now apply O.
  assert (C : forall acc (o : outcome (list entry)), out_ren ren (disc_catch acc o) = disc_catch_on p acc (out_ren ren o)).
  { intros acc [l|[]|u|]; try reflexivity. cbn [disc_catch disc_catch_on out_ren].
    replace (discovery_end p) with (sys_again p) by (destruct p; reflexivity). rewrite (only_eqb ren 11) by easy. change EAGAIN with 11. destruct (negb (_ =? _)); reflexivity. }
  induction ds as [|d ds IH]; intros acc F; cbn [map disc_loop_on disc_loop].
  - cbn [udp_on udp_receive fst bind]. rewrite C. cbn [out_ren]. now rewrite A.
  - pose proof (udp_same p ren EIP_MAX_PACKET_SIZE (d :: ds) A F) as E. cbn [map] in E. rewrite E.
    destruct (fst (udp_receive EIP_MAX_PACKET_SIZE (d :: ds))) as [data|[]|u|]; cbn [out_ren bind]; try reflexivity.
    + pose proof (reply_no_sys h data acc) as N.
      destruct (disc_reply h data acc) as [acc'|[]|u|]; try reflexivity; [|now edestruct N].
      apply IH. now inversion F.
    + rewrite C. reflexivity.
Qed.
Lemma discover_same h p ren k broadcast ds : only ren 11 (sys_again p) -> Forall (up_to 504) ds ->
  discover_on h p (kernel_ren ren k) broadcast (map (dgram_ren ren) ds)
  = (out_ren ren (fst (discover h k broadcast ds)), snd (discover h k broadcast ds)).
Proof.
  intros O F. unfold discover_on, discover, kernel_ren. cbn [dk_socket dk_broadcast dk_send s_count s_errno].
  destruct (dk_socket k); [reflexivity|]. destruct (dk_broadcast k); [reflexivity|]. cbn [option_map fst snd]. f_equal.
  unfold send_check. cbn [s_count s_errno]. destruct (_ <? zlen _); [reflexivity|]. cbn [bind]. now apply loop_same.
Qed.

(** A longer datagram ends the discovery on Windows. *)
Lemma loop_long h l r ds acc acc' : 504 < zlen l -> disc_loop_on h Windows acc (map Dgram ds) = Ok acc' ->
  disc_loop_on h Windows acc (map Dgram ds ++ Dgram l :: r) = Throw (SystemError 10040).
Proof.
  intros L. revert acc. induction ds as [|d ds IH]; intros acc H; cbn [map app disc_loop_on] in *.
  - unfold udp_on, arrival. replace (Nat.ltb EIP_MAX_PACKET_SIZE (List.length l)) with true; [reflexivity|].
    symmetry. apply Nat.ltb_lt. unfold zlen, EIP_MAX_PACKET_SIZE in *. lia.
  - change (udp_on Windows EIP_MAX_PACKET_SIZE (Dgram d :: map Dgram ds ++ Dgram l :: r))
      with (udp_on Windows EIP_MAX_PACKET_SIZE (Dgram d :: map Dgram ds)).
    destruct (udp_on Windows EIP_MAX_PACKET_SIZE (Dgram d :: map Dgram ds)) as [data|[]|u|] eqn:U; cbn [bind] in *; try discriminate.
    + pose proof (reply_no_sys h data acc) as N.
      destruct (disc_reply h data acc) as [a|[]|u|]; try discriminate; [now apply IH|now edestruct N].
    + cbn [disc_catch_on] in *. cbn [udp_on] in U. unfold arrival in U.
      destruct (Nat.ltb _ _); [|discriminate]. injection U as <-. discriminate.
Qed.
Lemma discover_long h k broadcast l r ds es : 504 < zlen l -> fst (discover_on h Windows k broadcast (map Dgram ds)) = Ok es ->
  fst (discover_on h Windows k broadcast (map Dgram ds ++ Dgram l :: r)) = Throw (SystemError 10040).
Proof.
  intros L. unfold discover_on. destruct (dk_socket k); [discriminate|]. destruct (dk_broadcast k); [discriminate|]. cbn [fst].
  destruct (send_check _ _); cbn [bind]; try discriminate. now apply loop_long.
Qed.

(** ** select() *)
Definition add_win (set : list Z) (fd : Z) : list Z :=
  if existsb (Z.eqb fd) set then set else if Nat.ltb (List.length set) WIN_SETSIZE then set ++ [fd] else set.
Lemma fd_set_fold fds : fd_set_win fds = fold_left add_win fds [].
Proof. reflexivity. Qed.
Lemma existsb_in fd l : existsb (Z.eqb fd) l = true <-> In fd l.
Proof.
  rewrite existsb_exists. split; [intros (x & I & E); apply Z.eqb_eq in E; now subst|intros H; exists fd; split; [easy|apply Z.eqb_refl]].
Qed.
Lemma fold_mono fds set fd : In fd set -> In fd (fold_left add_win fds set).
Proof.
  revert set. induction fds as [|x fds IH]; intros set H; cbn [fold_left]; [easy|]. apply IH. unfold add_win.
  destruct (existsb _ _); [easy|]. destruct (Nat.ltb _ _); [|easy]. apply in_or_app. now left.
Qed.
(** What the set holds after a prefix: distinct, of the prefix, and all of it as long as there is room. *)
Definition filled (pre set : list Z) : Prop :=
  NoDup set /\ incl set pre /\ (List.length set <= 64)%nat /\ ((List.length set < 64)%nat -> incl pre set).
Lemma nodup_length pre set : NoDup set -> incl set pre -> (List.length set <= List.length (nodup Z.eq_dec pre))%nat.
Proof. intros N I. apply NoDup_incl_length; [easy|]. intros x X. apply nodup_In. now apply I. Qed.
Lemma nodup_length' pre set : incl pre set -> (List.length (nodup Z.eq_dec pre) <= List.length set)%nat.
Proof. intros I. apply NoDup_incl_length; [apply NoDup_nodup|]. intros x X. apply I. now apply nodup_In in X. Qed.
Lemma filled_add pre set fd : filled pre set -> filled (pre ++ [fd]) (add_win set fd).
Proof.
  intros (N & I & L & C). unfold add_win, WIN_SETSIZE. destruct (existsb (Z.eqb fd) set) eqn:X.
  - apply existsb_in in X. repeat split; [easy|intros x H; apply in_or_app; left; now apply I|easy|].
    intros S x H. apply in_app_or in H as [H|[<-|[]]]; [now apply C|easy].
  - assert (Y : ~ In fd set) by (intros H; apply existsb_in in H; congruence).
    destruct (Nat.ltb_spec (List.length set) 64) as [S|S].
    + repeat split.
      * apply NoDup_rev in N. rewrite <- (rev_involutive (set ++ [fd])).
        apply NoDup_rev. rewrite rev_app_distr. cbn [rev app]. constructor; [now rewrite <- in_rev|easy].
      * intros x H. apply in_app_or in H as [H|[<-|[]]]; apply in_or_app; [left; now apply I|right; now left].
      * rewrite app_length. cbn [List.length]. lia.
      * intros _ x H. apply in_app_or in H as [H|[<-|[]]]; apply in_or_app; [left; now apply C|right; now left].
    + repeat split; [easy|intros x H; apply in_or_app; left; now apply I|easy|lia].
Qed.
Lemma fd_set_spec_gen fds : forall pre set, filled pre set -> forall fd,
  (In fd (fold_left add_win fds set) <->
   In fd set \/ exists before after, fds = before ++ fd :: after /\ (List.length (nodup Z.eq_dec (pre ++ before)) < 64)%nat).
Proof.
  induction fds as [|x fds IH]; intros pre set F fd; cbn [fold_left].
  - split; [now left|intros [H|(b & a & E & _)]; [easy|destruct b; discriminate]].
  - rewrite (IH _ _ (filled_add pre set x F)). destruct F as (N & I & L & C). split.
    + intros [H|(b & a & E & S)].
      * unfold add_win, WIN_SETSIZE in H. destruct (existsb (Z.eqb x) set) eqn:X; [now left|].
        destruct (Nat.ltb_spec (List.length set) 64) as [S|S]; [|now left].
        apply in_app_or in H as [H|[<-|[]]]; [now left|]. right. exists [], fds. split; [reflexivity|].
        rewrite app_nil_r. pose proof (nodup_length' pre set (C S)). lia.
      * right. exists (x :: b), a. split; [cbn [app]; congruence|]. now rewrite <- app_assoc in S.
    + intros [H|(b & a & E & S)].
      * left. unfold add_win. destruct (existsb _ _); [easy|]. destruct (Nat.ltb _ _); [|easy]. apply in_or_app. now left.
      * destruct b as [|y b].
        -- cbn [app] in E. injection E as -> ->. left. rewrite app_nil_r in S.
           pose proof (nodup_length pre set N I). unfold add_win, WIN_SETSIZE.
           destruct (existsb (Z.eqb fd) set) eqn:X; [now apply existsb_in|].
           destruct (Nat.ltb_spec (List.length set) 64); [|lia]. apply in_or_app. right. now left.
        -- cbn [app] in E. injection E as -> ->. right. exists b, a. split; [reflexivity|]. now rewrite <- app_assoc.
Qed.
Lemma fd_set_spec fds fd : In fd (fd_set_win fds) <-> among 64 fds fd.
Proof.
  rewrite fd_set_fold, (fd_set_spec_gen fds [] []).
  - unfold among. split; [intros [[]|(b & a & E & S)]; exists b; eauto|intros (b & (a & E) & S); right; exists b, a; eauto].
  - repeat split; [constructor|easy|cbn; lia|easy].
Qed.
Lemma fd_set_all fds fd : (List.length (nodup Z.eq_dec fds) <= 64)%nat -> In fd fds -> In fd (fd_set_win fds).
Proof.
  intros L H.
  assert (G : forall l, In fd l -> exists b a, l = b ++ fd :: a /\ ~ In fd b).
  { induction l as [|x l IH]; [easy|]. intros J. destruct (Z.eq_dec x fd) as [->|D]; [exists [], l; easy|].
    destruct J as [J|J]; [contradiction|]. destruct (IH J) as (b & a & -> & X). exists (x :: b), a. split; [reflexivity|].
    intros [Y|Y]; contradiction. }
  destruct (G fds H) as (b & a & E & X). apply fd_set_spec. exists b. split; [eauto|].
  assert (S : (List.length (fd :: nodup Z.eq_dec b) <= List.length (nodup Z.eq_dec fds))%nat); [|cbn [List.length] in S; lia].
  apply NoDup_incl_length; [constructor; [now rewrite nodup_In|apply NoDup_nodup]|].
  intros x [<-|Y]; rewrite nodup_In; [easy|]. apply nodup_In in Y. subst fds. apply in_or_app. now left.
Qed.

Lemma reported_all {A} set fds (ready : list (option A)) : (forall fd, In fd fds -> In fd set) ->
  reported set fds ready = firstn (List.length fds) ready.
Proof.
  revert ready. induction fds as [|fd fds IH]; intros ready H; [reflexivity|]. destruct ready as [|a r]; [reflexivity|].
  cbn [reported List.length firstn]. rewrite (proj2 (existsb_in fd set)) by (apply H; now left). f_equal. apply IH. intros x X. apply H. now right.
Qed.
Lemma dispatch_firstn {W A} (handler : nat -> A -> st W unit) n : forall i ready w,
  dispatch handler i n (firstn n ready) w = dispatch handler i n ready w.
Proof.
  induction n as [|n IH]; intros i ready w; [reflexivity|]. destruct ready as [|[a|] r]; cbn [firstn dispatch]; [reflexivity| |apply IH].
  unfold st_bind. destruct (handler i a w) as [[]]; try reflexivity. apply IH.
Qed.
Lemma rounds_firstn {W A} (handler : nat -> A -> st W unit) n (f : list (option A) -> list (option A)) ending :
  (forall ready, f ready = firstn n ready) -> forall rounds w,
  select_rounds handler n (map (fun r => mkRound (f (sr_ready r)) (sr_now r)) rounds) ending w = select_rounds handler n rounds ending w.
Proof.
  intros F. induction rounds as [|r rounds IH]; intros w; [reflexivity|]. cbn [map select_rounds sr_ready]. unfold st_bind.
  rewrite F, dispatch_firstn. destruct (dispatch handler 0 n (sr_ready r) w) as [[]]; try reflexivity. apply IH.
Qed.
Lemma select_same {W A} p (handler : nat -> A -> st W unit) fds rounds ending w :
  match p with Windows => (List.length (nodup Z.eq_dec fds) <= 64)%nat | _ => Forall (fun fd => fd < 1024) fds end ->
  select_on p handler fds rounds ending w = bs_select handler (List.length fds) rounds ending w.
Proof.
  intros H. unfold select_on, bs_select. destruct fds as [|fd0 fds']; [reflexivity|]. set (fds := fd0 :: fds') in *.
  assert (G : exists set, fd_set_on p fds = Ok set /\ forall fd, In fd fds -> In fd set).
  { unfold fd_set_on. destruct p.
    - exists fds. split; [|easy]. replace (forallb _ fds) with true; [reflexivity|]. symmetry. apply forallb_forall. intros x X.
      rewrite Forall_forall in H. apply Z.ltb_lt, H, X.
    - exists fds. split; [|easy]. replace (forallb _ fds) with true; [reflexivity|]. symmetry. apply forallb_forall. intros x X.
      rewrite Forall_forall in H. apply Z.ltb_lt, H, X.
    - exists (fd_set_win fds). split; [reflexivity|]. intros fd. now apply fd_set_all. }
  destruct G as (set & -> & I). change (List.length fds) with (S (List.length fds')).
  apply rounds_firstn. intros ready. now apply reported_all.
Qed.
(** What is there for the other sockets makes no difference. *)
Lemma reported_ext {A} set fds : forall (r r' : list (option A)), List.length r = List.length r' ->
  (forall i fd, nth_error fds i = Some fd -> In fd set -> nth_error r i = nth_error r' i) -> reported set fds r = reported set fds r'.
Proof.
  induction fds as [|fd fds IH]; intros r r' L H; [reflexivity|]. destruct r as [|a r], r' as [|a' r']; try discriminate; [reflexivity|].
  cbn [reported]. f_equal.
  - destruct (existsb (Z.eqb fd) set) eqn:X; [|reflexivity]. apply existsb_in in X. specialize (H 0%nat fd eq_refl X). cbn in H. congruence.
  - apply IH; [cbn in L; lia|]. intros i x E I. apply (H (S i) x E I).
Qed.
Lemma select_deaf {W A} (handler : nat -> A -> st W unit) fds rounds rounds' ending w :
  Forall2 (same_for fds (among 64 fds)) rounds rounds' ->
  select_on Windows handler fds rounds ending w = select_on Windows handler fds rounds' ending w.
Proof.
  intros H. unfold select_on. destruct fds as [|fd0 fds']; [reflexivity|]. set (fds := fd0 :: fds') in *. unfold fd_set_on.
  assert (E : map (fun r => mkRound (reported (fd_set_win fds) fds (sr_ready r)) (sr_now r)) rounds
            = map (fun r => mkRound (reported (fd_set_win fds) fds (sr_ready r)) (sr_now r)) rounds').
  { induction H as [|r r' rs rs' (N & L & S) _ IH]; [reflexivity|]. cbn [map]. rewrite IH, N. f_equal. f_equal.
    apply reported_ext; [easy|]. intros i fd X Y. apply (S i fd X). now apply fd_set_spec. }
  now rewrite E.
Qed.

(** ** handleConnections *)
Lemma dispatch_ext {W A} (f g : nat -> A -> st W unit) n : forall i ready w,
  Forall (fun d => match d with Some d => forall j v, f j d v = g j d v | None => True end) ready ->
  dispatch f i n ready w = dispatch g i n ready w.
Proof.
  induction n as [|n IH]; intros i ready w F; [reflexivity|]. destruct ready as [|[a|] r]; cbn [dispatch]; [reflexivity| |].
  - inversion F as [|? ? E F']. unfold st_bind. rewrite E. destruct (g i a w) as [[]]; try reflexivity. now apply IH.
  - inversion F. now apply IH.
Qed.
Lemma select_ext {W A} (f g : nat -> A -> st W unit) n ending : forall rounds w,
  Forall (fun r => Forall (fun d => match d with Some d => forall j v, f j d v = g j d v | None => True end) (sr_ready r)) rounds ->
  bs_select f n rounds ending w = bs_select g n rounds ending w.
Proof.
  unfold bs_select. destruct n as [|n]; [reflexivity|].
  induction rounds as [|r rounds IH]; intros w F; [reflexivity|]. inversion F as [|? ? E F']. cbn [select_rounds]. unfold st_bind.
  rewrite (dispatch_ext f g) by easy. destruct (dispatch g 0 (S n) (sr_ready r) w) as [[]]; try reflexivity. now apply IH.
Qed.
Lemma handle_same h p fds rounds ending env m :
  List.length fds = List.length (m_socks m) -> Forall (round_up_to 8192) rounds ->
  match p with Windows => (List.length (nodup Z.eq_dec fds) <= 64)%nat | _ => Forall (fun fd => fd < 1024) fds end ->
  handle_on h p fds rounds ending env m = handle_connections h rounds ending env m.
Proof.
  intros L F H. unfold handle_on, handle_connections, st_bind. rewrite (select_same p) by easy. rewrite L.
  rewrite (select_ext (fun _ => on_readable_on h p) (fun _ => on_readable h)); [reflexivity|].
  eapply Forall_impl; [|exact F]. intros r R. eapply Forall_impl; [|exact R]. intros [d|] U; [|exact Logic.I].
  intros _ v. unfold on_readable_on. replace (arrival p (Z.to_nat 8192) d) with d; [reflexivity|].
  destruct p, d as [l|e]; try reflexivity. cbn [arrival]. cbn [up_to] in U. unfold zlen in U.
  destruct (Nat.ltb_spec (Z.to_nat 8192) (List.length l)); [lia|reflexivity].
Qed.
(** A longer datagram ends the call on Windows. *)
Lemma handle_long h fd l rest ending env m now : List.length (m_socks m) = 1%nat -> 8192 < zlen l ->
  handle_on h Windows [fd] (mkRound [Some (Dgram l)] now :: rest) ending env m = (Throw (SystemError 10040), m).
Proof.
  intros L H. unfold handle_on, st_bind. rewrite (select_same Windows) by (cbn; lia).
  cbn [bs_select List.length select_rounds sr_ready dispatch]. unfold st_bind, on_readable_on, arrival.
  unfold zlen in H. destruct (Nat.ltb_spec (Z.to_nat 8192) (List.length l)); [|lia].
  unfold on_readable. cbn [udp_receive fst]. reflexivity.
Qed.
