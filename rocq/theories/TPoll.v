(** C106: how long handleConnections takes. *)
From Coq Require Sorting.Sorted.
From Verif Require Import Base MBuffer PBase MEip SEip MSocket MConnReq MConn SConn PConnTop MPoll SPoll PPoll PPoll2.

(** C106. However many datagrams are waiting, the call ends; it does what the call
    without a clock does in some rounds that take the datagrams in the order in
    which they have come to the sockets, each when it was there. It lasts no
    longer than the timeout and the handling of what was taken; if it does not
    end with an exception, nothing that was there is left, and it was not early by
    a millisecond. *)
Theorem C106_handle : forall h cost timeout env qs m c, List.length qs = List.length (m_socks m) -> m_socks m <> [] ->
  exists o m' c' qs' rs, handle_timed h cost timeout env qs m c = Some (o, m', c', qs')
  /\ handle_connections h rs SelQuiet (env c') m = (o, m')
  /\ drained c' qs rs qs' /\ Sorted.StronglySorted Z.le (map sr_now rs)
  /\ c <= c' /\ c' + load_all cost qs' <= c + Z.max 0 timeout * 1000000 + load_all cost qs
  /\ (o = Ok tt -> empty_at c' qs' /\ c + timeout * 1000000 < c' + 1000000).
Proof. exact handle_ends. Qed.
Print Assumptions C106_handle.
(** With no socket the end iterator is dereferenced (C71). *)
Theorem C106_none : forall h cost timeout env qs m c, m_socks m = [] ->
  handle_timed h cost timeout env qs m c = Some (Undef UbDerefEnd, m, c, qs).
Proof. intros h cost timeout env qs m c E. unfold handle_timed. now rewrite E. Qed.
Print Assumptions C106_none.

(** C106. If handling what has come by any time takes at most the part r/q of that
    time, and [b] at once, the call ends in a time that does not depend on how
    much comes. *)
Theorem C106_load_partial : forall h cost timeout env qs m c o m' c' qs' b r q,
  List.length qs = List.length (m_socks m) -> m_socks m <> [] ->
  0 <= r < q -> (forall t, c <= t -> q * load_by cost t qs <= q * b + r * (t - c)) ->
  handle_timed h cost timeout env qs m c = Some (o, m', c', qs') -> (q - r) * (c' - c) <= q * (Z.max 0 timeout * 1000000 + b).
Proof. exact load_rate. Qed.
Print Assumptions C106_load_partial.

(** C106. In one call each connection sends at most once, however long it lasts. *)
Theorem C106_once : forall h rs e env m o m', handle_connections h rs e env m = (o, m') ->
  exists new, m_log m' = m_log m ++ new /\ (sends_of new <= List.length (m_map m))%nat.
Proof. exact handle_sends. Qed.
Print Assumptions C106_once.

(** C106 is false under load: datagrams that are for none of the connections, one
    as soon as the one before is handled, keep the call going. *)
Theorem C106_flood : forall h cost timeout env d m c n s, foreign h d m -> m_socks m = [s] ->
  let e := c + Z.max 0 (cost d) * Z.of_nat n in
  exists t, e <= t <= Z.max e (c + timeout * 1000000)
  /\ handle_timed h cost timeout env [flood (Z.max 0 (cost d)) c d n] m c
     = let '(o, m') := run_ticks (env t) m in Some (o, m', t, [[]]).
Proof. exact handle_flood. Qed.
Print Assumptions C106_flood.
(** A connection that is to send every 10 ms and whose adapter gives it up after
    40 ms: with a timeout of 10 ms, and datagrams from anyone that take 0.1 ms,
    the call lasts as long as one likes, and one packet is sent in that time. *)
Theorem C106_refuted : exists m d K, (exists g, reachable (list encaps) g m)
  /\ (exists c, m_map m = [(7, c)] /\ io_o2tAPI c = 10000 /\ io_t2oAPI c = 10000 /\ io_mult c = 4)
  /\ forall h env n, exists o m' t new, handle_timed h (fun _ => K) 10 env [flood K 0 d n] m 0 = Some (o, m', t, [[]])
     /\ 100000 * Z.of_nat n <= t /\ m_log m' = m_log m ++ new /\ (sends_of new <= 1)%nat.
Proof.
  exists (w_m after1 0%nat), junk, 100000. split; [exists (w_g after1); apply after1_reach|]. split; [exists con1; vm_compute; repeat split; reflexivity|].
  intros h env n. assert (S : exists s, m_socks (w_m after1 0%nat) = [s]) by (eexists; vm_compute; reflexivity). destruct S as [s S].
  destruct (handle_flood h (fun _ => 100000) 10 env junk (w_m after1 0%nat) 0 n s (junk_foreign h) S) as (t & B & E).
  change (Z.max 0 100000) with 100000 in *. destruct (run_ticks (env t) (w_m after1 0%nat)) as [o m'] eqn:R. 
  assert (H : handle_connections h [] SelQuiet (env t) (w_m after1 0%nat) = (o, m')) by (unfold handle_connections, st_bind, bs_select; rewrite S; exact R).
  apply handle_sends in H as (new & Ln & Sn). assert (L1 : List.length (m_map (w_m after1 0%nat)) = 1%nat) by (vm_compute; reflexivity). rewrite L1 in Sn.
  exists o, m', t, new. split; [exact E|]. split; [lia|]. split; assumption.
Qed.
Print Assumptions C106_refuted.

(** Example: two datagrams, 3 and 12 ms after the call, each handled in a
    millisecond; with a timeout of 10 ms the second one stays. *)
Definition ex_env : Z -> tick_env := fun now => mkTick (fun _ => now) (fun _ d => d) (fun _ n => mkSend n 0).
Example C106_example : exists m', handle_timed strict (fun _ => 1000000) 10 ex_env [[(3000000, junk); (12000000, junk)]] (w_m after1 0%nat) 0
  = Some (Ok tt, m', 10000000, [[(12000000, junk)]]) /\ sends_of (m_log m') = 1%nat.
Proof. eexists. split; vm_compute; reflexivity. Qed.
Example C106_load_example : forall t, 0 <= t ->
  2 * load_by (fun _ => 1000000) t [[(3000000, junk); (12000000, junk)]] <= 2 * 0 + 1 * (t - 0).
Proof.
  intros t P. unfold load_by. cbn [List.concat app filter fst]. destruct (Z.leb_spec 3000000 t), (Z.leb_spec 12000000 t); cbn [load fold_right snd]; lia.
Qed.
Example C106_flood_example : foreign strict junk (w_m after1 0%nat).
Proof. apply junk_foreign. Qed.
