(** Floods, and how often handleConnections sends. *)
From Coq Require Sorting.Sorted.
From Verif Require Import Base MBuffer PBase MEip SEip MSocket MConnReq MConn PConnTop PThrow MPoll SPoll PPoll.

Lemma poll_flood h cost stop d m fuel : foreign h d m -> forall n c, (n < fuel)%nat ->
  poll h cost fuel stop [flood (Z.max 0 (cost d)) c d n] m c
  = Some (Ok tt, m, let e := c + Z.max 0 (cost d) * Z.of_nat n in e + sel_wait stop e, [[]]).
Proof.
  intros F. induction fuel as [|fuel IH]; intros n c L; [lia|]. cbn [poll]. pose proof (sel_wait_bounds stop c) as W. unfold select_call. destruct n as [|n]; cbn [flood first_arrival].
  - rewrite Z.mul_0_r, Z.add_0_r. reflexivity.
  - destruct (Z.leb_spec c (c + sel_wait stop c)); [|lia]. rewrite Z.max_id. cbn [serve]. rewrite Z.leb_refl. rewrite F.
    rewrite IH by lia. replace (c + Z.max 0 (cost d) + Z.max 0 (cost d) * Z.of_nat n) with (c + Z.max 0 (cost d) * Z.of_nat (S n)) by lia. reflexivity.
Qed.
Lemma flood_length K d n : forall c, List.length (flood K c d n) = n.
Proof. induction n as [|n IH]; intros c; cbn [flood List.length]; [reflexivity|now rewrite IH]. Qed.
Lemma handle_flood h cost timeout env d m c n s : foreign h d m -> m_socks m = [s] ->
  let e := c + Z.max 0 (cost d) * Z.of_nat n in
  exists t, e <= t <= Z.max e (c + timeout * 1000000)
  /\ handle_timed h cost timeout env [flood (Z.max 0 (cost d)) c d n] m c
     = let '(o, m') := run_ticks (env t) m in Some (o, m', t, [[]]).
Proof.
  intros F S e. exists (e + sel_wait (c + timeout * 1000000) e). pose proof (sel_wait_bounds (c + timeout * 1000000) e). split; [lia|].
  unfold handle_timed. rewrite S. assert (B : backlog [flood (Z.max 0 (cost d)) c d n] = n) by (unfold backlog; cbn [List.concat]; rewrite app_nil_r; apply flood_length).
  rewrite B, poll_flood; [reflexivity|exact F|lia].
Qed.

(** ** Sends *)
Lemma sends_app a b : sends_of (a ++ b) = (sends_of a + sends_of b)%nat.
Proof. unfold sends_of. now rewrite filter_app, app_length. Qed.
Lemma tick_sends now hook sr c r c' ev : io_tick now hook sr c = (r, c', ev) -> (sends_of ev <= 1)%nat.
Proof.
  unfold io_tick. cbv zeta. destruct (_ <? _).
  - intros E. assert (ev = [EvClosed (io_oid c)]) as -> by congruence. cbn. lia.
  - destruct (_ <=? _); [destruct (_ && _)|]; intros E; apply (f_equal snd) in E; cbn [snd] in E; subst ev; cbn; lia.
Qed.
Lemma ticks_sends env l : forall r l' ev, ticks env l = (r, l', ev) -> (sends_of ev <= List.length l)%nat.
Proof.
  induction l as [|[k c] l IH]; intros r l' ev E; cbn [ticks] in E; [assert (ev = []) as -> by congruence; cbn; lia|].
  destruct (io_tick _ _ _ c) as [[res c'] ev1] eqn:T. apply tick_sends in T. destruct res as [b|e|u|].
  - destruct (ticks env l) as [[res' r'] ev2] eqn:E2. specialize (IH _ _ _ eq_refl). assert (ev = ev1 ++ ev2) as -> by congruence. rewrite sends_app. cbn [List.length]. lia.
  - assert (ev = ev1) as -> by congruence. cbn [List.length]. lia.
  - assert (ev = ev1) as -> by congruence. cbn [List.length]. lia.
  - assert (ev = ev1) as -> by congruence. cbn [List.length]. lia.
Qed.
(** Nothing is sent while datagrams are taken. *)
Definition unsent (m0 m : mgr) : Prop := List.length (m_map m) = List.length (m_map m0) /\ exists new, m_log m = m_log m0 ++ new /\ sends_of new = O.
Lemma readable_map h d m : List.length (m_map (snd (on_readable h d m))) = List.length (m_map m).
Proof.
  unfold on_readable. destruct (fst _) as [data|e|u|]; [|reflexivity..].
  match goal with |- context [match ?x with Ok _ => _ | Throw _ => _ | Undef _ => _ | Abort => _ end] => destruct x as [m1|e|u|] eqn:E end; [|reflexivity..].
  cbn [snd]. apply bind_Ok in E as (items & _ & E). destruct (nth_error items 0) as [i0|]; [|discriminate].
  apply bind_Ok in E as ([id b] & _ & E). cbv zeta in E. destruct (map_find _ _) as [c|]; [|congruence].
  destruct (nth_error items 1) as [i1|]; [|discriminate]. apply bind_Ok in E as ([c' ev] & R & E).
  match type of E with Ok ?x = Ok _ => assert (m1 = x) as -> by congruence end. cbn [add_log set_map m_map]. unfold map_update. apply map_length.
Qed.
Lemma readable_unsent h d m0 m : unsent m0 m -> unsent m0 (snd (on_readable h d m)).
Proof.
  intros [L (new & E & S)]. split; [now rewrite readable_map|]. destruct (readable_events h d m) as [X|(oid & hdr & sq & dt & X)]; rewrite X, E.
  - exists new. now split.
  - exists (new ++ [EvData oid hdr sq dt]). split; [now rewrite app_assoc|]. rewrite sends_app, S. reflexivity.
Qed.
Lemma dispatch_unsent h m0 ready : forall i n m, unsent m0 m -> unsent m0 (snd (dispatch (fun _ => on_readable h) i n ready m)).
Proof.
  induction ready as [|[d|] r IH]; intros i [|n] m U; cbn [dispatch]; try exact U; [|now apply IH].
  unfold st_bind. pose proof (readable_unsent h d m0 m U) as U1. destruct (on_readable h d m) as [[[]|e|u|] m1]; [now apply IH|exact U1..].
Qed.
Lemma rounds_unsent h m0 n e rs : forall m, unsent m0 m -> unsent m0 (snd (select_rounds (fun _ => on_readable h) n rs e m)).
Proof.
  induction rs as [|r rs IH]; intros m U; cbn [select_rounds]; [destruct e; exact U|]. unfold st_bind.
  pose proof (dispatch_unsent h m0 (sr_ready r) 0 n m U) as U1. destruct (dispatch _ _ _ _ m) as [[[]|x|u|] m1]; [now apply IH|exact U1..].
Qed.
Lemma handle_sends h rs e env m o m' : handle_connections h rs e env m = (o, m') ->
  exists new, m_log m' = m_log m ++ new /\ (sends_of new <= List.length (m_map m))%nat.
Proof.
  assert (U0 : unsent m m) by (split; [reflexivity|exists []; now rewrite app_nil_r]).
  unfold handle_connections, st_bind. intros E.
  assert (U : unsent m (snd (bs_select (fun _ => on_readable h) (List.length (m_socks m)) rs e m))).
  { unfold bs_select. destruct (List.length (m_socks m)); [exact U0|]. now apply rounds_unsent. }
  destruct (bs_select _ _ rs e m) as [o1 m1]. cbn [snd] in U. destruct U as [L (new & Ln & S)].
  destruct o1 as [[]|x|u|].
  - unfold run_ticks in E. destruct (ticks env (m_map m1)) as [[res l] ev] eqn:T. apply ticks_sends in T. rewrite L in T.
    exists (new ++ ev). split; [|rewrite sends_app, S; exact T]. rewrite app_assoc, <- Ln. apply (f_equal snd) in E. cbn [snd] in E. destruct res; cbn [snd] in E; subst m'; reflexivity.
  - assert (m' = m1) as -> by congruence. exists new. split; [exact Ln|lia].
  - assert (m' = m1) as -> by congruence. exists new. split; [exact Ln|lia].
  - assert (m' = m1) as -> by congruence. exists new. split; [exact Ln|lia].
Qed.

(** ** Load *)
Lemma load_bound h cost timeout env qs m c o m' c' qs' : List.length qs = List.length (m_socks m) -> m_socks m <> [] ->
  handle_timed h cost timeout env qs m c = Some (o, m', c', qs') -> c' <= c + Z.max 0 timeout * 1000000 + load_by cost c' qs.
Proof.
  intros L N E. destruct (handle_ends h cost timeout env qs m c L N) as (o1 & m1 & c1 & qs1 & rs & E1 & _ & D & _ & _ & B & _).
  rewrite E in E1. assert (c1 = c' /\ qs1 = qs') as [-> ->] by (split; congruence). apply (drained_load cost) in D.
  pose proof (load_nonneg cost (filter (fun e => fst e <=? c') (List.concat qs'))) as P. fold (load_by cost c' qs') in P. lia.
Qed.
Lemma load_rate h cost timeout env qs m c o m' c' qs' b r q : List.length qs = List.length (m_socks m) -> m_socks m <> [] ->
  0 <= r < q -> (forall t, c <= t -> q * load_by cost t qs <= q * b + r * (t - c)) ->
  handle_timed h cost timeout env qs m c = Some (o, m', c', qs') -> (q - r) * (c' - c) <= q * (Z.max 0 timeout * 1000000 + b).
Proof.
  intros L N Q R E. pose proof (load_bound _ _ _ _ _ _ _ _ _ _ _ L N E) as B.
  destruct (handle_ends h cost timeout env qs m c L N) as (o1 & m1 & c1 & qs1 & rs & E1 & _ & _ & _ & G & _).
  rewrite E in E1. assert (c1 = c') as -> by congruence. specialize (R c' G). nia.
Qed.

(** ** A connection that is forgotten *)
Definition junk : dgram := Dgram (gram 0x00008 [1; 0; 9; 9]).
Lemma junk_foreign h : foreign h junk (w_m after1 0%nat).
Proof. unfold foreign. vm_compute. reflexivity. Qed.
Lemma starved : let m := w_m after1 0%nat in lock 0 m = Some con1 /\ io_o2tAPI con1 = 10000 /\ io_t2oAPI con1 = 10000 /\ u32 (io_mult con1 * io_t2oAPI con1) = 40000 /\ zlen (m_socks m) = 1.
Proof. vm_compute. repeat split; reflexivity. Qed.
