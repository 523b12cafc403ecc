(** Opening and closing connections. *)
From Coq Require Import Ascii String.
From Verif Require Import Base MBuffer SBuffer PBase PBuffer PReader PBufferT MEip SEip PEip PRouter
  MSocket SSocket PSocket MConnReq SConnReq PConnReq MConn SConn PConnOpen PConnMap PIo.
Ltac Zify.zify_post_hook ::= Z.div_mod_to_equations.
Local Open Scope outcome_scope.

(** ** Sizes *)
Lemma overhead_range t r : 0 <= overhead t r <= 6.
Proof. unfold overhead. destruct (_ =? _), (_ =? _); lia. Qed.


Lemma size_added large p v : is_u32 p -> 0 <= v <= 6 -> part large FSize p + v < 2 ^ width large FSize ->
  let q := ((p + v) mod 2 ^ 32) mod (256 ^ if large then 4 else 2) in
  part large FSize q = part large FSize p + v
  /\ forall f, f <> FSize -> part large f q = part large f p.
Proof.
  intros P V S. cbv zeta. unfold is_u32 in P. unfold part in *. change (2 ^ 32) with 4294967296.
  destruct large; cbn [low width] in *.
  - change (256 ^ 4) with 4294967296. change (2 ^ 0) with 1 in *. change (2 ^ 16) with 65536 in *. split; [lia|].
    intros f N. destruct f; cbn [low width]; try congruence;
      [change (2 ^ 31) with 2147483648; change (2 ^ 1) with 2 | change (2 ^ 29) with 536870912; change (2 ^ 2) with 4
       | change (2 ^ 26) with 67108864; change (2 ^ 2) with 4 | change (2 ^ 25) with 33554432; change (2 ^ 1) with 2]; lia.
  - change (256 ^ 2) with 65536. change (2 ^ 0) with 1 in *. change (2 ^ 9) with 512 in *. split; [lia|].
    intros f N. destruct f; cbn [low width]; try congruence;
      [change (2 ^ 15) with 32768; change (2 ^ 1) with 2 | change (2 ^ 13) with 8192; change (2 ^ 2) with 4
       | change (2 ^ 10) with 1024; change (2 ^ 2) with 4 | change (2 ^ 9) with 512; change (2 ^ 1) with 2]; lia.
Qed.

(** ** Serial numbers and ids over a history *)
Lemma firstn_zlen {A} k (l : list A) o : nth_error l k = Some o -> zlen (firstn k l) = Z.of_nat k.
Proof.
  intros E. assert (L : (k < List.length l)%nat) by (apply nth_error_Some; congruence).
  unfold zlen. rewrite firstn_length. lia.
Qed.
Lemma firstn_cut {A} i j (l : list A) o : (i < j)%nat -> nth_error l i = Some o ->
  exists r, firstn j l = firstn i l ++ o :: r.
Proof.
  revert i l. induction j as [|j IH]; intros i l L E; [lia|]. destruct l as [|a l]; [destruct i; discriminate|].
  destruct i as [|i]; cbn [nth_error] in E.
  - inv E. exists (firstn j l). reflexivity.
  - destruct (IH i l ltac:(lia) E) as [r R]. exists r. cbn [firstn app]. now rewrite R.
Qed.

Lemma filter_length_le {A} (f : A -> bool) l : (List.length (filter f l) <= List.length l)%nat.
Proof. induction l as [|a l IH]; cbn [filter]; [lia|]. destruct (f a); cbn [List.length]; lia. Qed.

Lemma open_pair p x (s : Z) (c : cparams) : p = Some x -> p = Some (s, c) -> c = snd x.
Proof. intros -> E. now inv E. Qed.

Section History.
Variables (h : heap) (inc : nat -> Z) (ops : list (nat * call (list encaps))).
Hypothesis R : Forall (fun x => recorded (snd x)) ops.
Hypothesis N : zlen (opens_of inc ops) <= 2147483647.

Lemma sent_open k p : nth_error (sent_opens h ops (start inc)) k = Some p ->
  exists o, nth_error (opens_of inc ops) k = Some o /\ p = Some (expected_open (firstn k (opens_of inc ops)) o).
Proof.
  intros E. destruct (nth_error (opens_of inc ops) k) as [o|] eqn:O.
  - exists o. split; [reflexivity|]. pose proof (history_from_start h inc ops R N k o O). congruence.
  - exfalso. apply nth_error_None in O. rewrite <- (history_length h inc ops (start inc)) in O.
    apply nth_error_None in O. congruence.
Qed.

Lemma serials_distinct i j si ci sj cj : (i < j < i + Z.to_nat 65536)%nat ->
  nth_error (sent_opens h ops (start inc)) i = Some (Some (si, ci)) ->
  nth_error (sent_opens h ops (start inc)) j = Some (Some (sj, cj)) ->
  c_serial ci <> c_serial cj.
Proof.
  intros L Ei Ej. apply sent_open in Ei as (oi & Oi & Ei). apply sent_open in Ej as (oj & Oj & Ej).
  apply (open_pair _ _ si ci) in Ei; [|reflexivity]. apply (open_pair _ _ sj cj) in Ej; [|reflexivity]. subst ci cj.
  unfold expected_open; cbv zeta; cbn [snd c_serial].
  rewrite (firstn_zlen _ _ _ Oi), (firstn_zlen _ _ _ Oj). lia.
Qed.

Lemma ids_distinct i j oi oj si ci sj cj : (i < j)%nat ->
  nth_error (opens_of inc ops) i = Some oi -> nth_error (opens_of inc ops) j = Some oj ->
  nth_error (sent_opens h ops (start inc)) i = Some (Some (si, ci)) ->
  nth_error (sent_opens h ops (start inc)) j = Some (Some (sj, cj)) ->
  (is_p2p oi = true -> is_p2p oj = true -> c_t2oId ci <> c_t2oId cj)
  /\ (is_multicast oi = true -> is_multicast oj = true -> (j < i + Z.to_nat 65536)%nat -> c_o2tId ci <> c_o2tId cj).
Proof.
  intros L Oi Oj Ei Ej. apply sent_open in Ei as (oi' & Oi' & Ei). apply sent_open in Ej as (oj' & Oj' & Ej).
  rewrite Oi in Oi'. rewrite Oj in Oj'. injection Oi' as <-. injection Oj' as <-.
  apply (open_pair _ _ si ci) in Ei; [|reflexivity]. apply (open_pair _ _ sj cj) in Ej; [|reflexivity]. subst ci cj.
  unfold expected_open; cbv zeta; cbn [snd c_t2oId c_o2tId].
  destruct (firstn_cut i j _ _ L Oi) as [r Fj].
  assert (J : zlen (firstn j (opens_of inc ops)) = Z.of_nat j) by exact (firstn_zlen _ _ _ Oj).
  assert (I : zlen (firstn i (opens_of inc ops)) = Z.of_nat i) by exact (firstn_zlen _ _ _ Oi).
  assert (Nj : Z.of_nat j < 2147483647).
  { assert (j < List.length (opens_of inc ops))%nat by (apply nth_error_Some; congruence). unfold zlen in N. lia. }
  rewrite Fj in J |- *. rewrite zlen_app, zlen_cons in J.
  assert (C : forall f : an_open -> bool, f oi = true ->
    count_of f (firstn i (opens_of inc ops) ++ oi :: r) = count_of f (firstn i (opens_of inc ops)) + 1 + count_of f r
    /\ 0 <= count_of f r <= zlen r).
  { intros f F. unfold count_of. rewrite filter_app, zlen_app. cbn [filter]. rewrite F, zlen_cons.
    split; [lia|]. unfold zlen. pose proof (filter_length_le f r). lia. }
  split.
  - intros Pi Pj. rewrite Pi, Pj. destruct (C is_p2p Pi) as [-> Cr].
    unfold first_inc. rewrite <- app_assoc. cbn [app].
    replace (hd oj (filter is_p2p (firstn i (opens_of inc ops) ++ oi :: r ++ [oj])))
      with (hd oi (filter is_p2p (firstn i (opens_of inc ops) ++ [oi]))).
    2:{ rewrite !filter_app. cbn [filter]. rewrite Pi. destruct (filter _ (firstn _ _)); reflexivity. }
    change (2 ^ 32) with 4294967296. lia.
  - intros Pi Pj B. rewrite Pi, Pj. destruct (C is_multicast Pi) as [-> Cr]. lia.
Qed.
End History.

(** ** The answer to an open *)
Lemma open_request {S} h use8 (si : session_if S) host env large c g m (s : S) : g_serial g <> 2147483647 ->
  exists g1 c', g_oid g1 = g_oid g /\ forward_open h use8 si host env large c (g, m, s)
  = let '(o, s) := send_request h si use8 (fo_service large) CM_PATH (fo_bytes (fo_width large) c') [] s in
    match o with
    | Ok resp => let '(o, (g, m)) := fo_answer h env host large c resp (g1, m) in (o, (g, m, s))
    | Throw e => (Throw e, (g1, m, s))
    | Undef u => (Undef u, (g1, m, s))
    | Abort => (Abort, (g1, m, s))
    end.
Proof.
  intros G. unfold forward_open.
  assert (P : exists c' g1, fo_prepare large (m_inc m) c g = Ok (c', g1) /\ g_oid g1 = g_oid g).
  { unfold fo_prepare, next_serial. destruct (Z.eqb_spec (g_serial g) 2147483647); [contradiction|]. cbn [bind].
    destruct (ncp_conn_type large (c_o2tParams c) =? MULTICAST), (ncp_conn_type large (c_t2oParams c) =? P2P);
      cbn [next_o2t next_t2o]; eexists; eexists; (split; [reflexivity|reflexivity]). }
  destruct P as (c' & g1 & P & O). rewrite P, fo_request_ok. exists g1, c'. split; [assumption|].
  destruct (send_request _ _ _ _ _ _ _ _) as [[] s1]; reflexivity.
Qed.

(** The result [Ok (Some oid)], taken apart. *)
Lemma answer_some h env host large c resp g m oid g' m' :
  fo_answer h env host large c resp (g, m) = (Ok (Some oid), (g', m')) ->
  exists r mult dest m1, r_status resp = 0 /\ fo_expand h (r_data resp) = Ok r
    /\ fo_multiplier (c_multiplier c) = Ok mult
    /\ fo_dest h (v_aton env) host (r_items resp) = Ok dest
    /\ oid = g_oid g /\ g' = mkGlobals (g_serial g) (g_o2t g) (g_t2o g) (S (g_oid g))
    /\ m_map m1 = m_map m /\ m_log m1 = m_log m /\ m_inc m1 = m_inc m
    /\ m' = set_map m1 (map_insert (u16 (f_t2oId r))
              (fo_connection large c r mult (g_oid g) (v_now env) dest) (m_map m)).
Proof.
  unfold fo_answer. destruct (Z.eqb_spec (r_status resp) 0) as [E0|]; cbn [negb]; [|discriminate].
  destruct (fo_expand h (r_data resp)) as [r|?|?|] eqn:Er; cbn [bind]; try discriminate.
  destruct (fo_multiplier (c_multiplier c)) as [mult|?|?|] eqn:Em; cbn [bind]; try discriminate.
  destruct (fo_dest h (v_aton env) host (r_items resp)) as [dest|?|?|] eqn:Ed; cbn [bind]; try discriminate.
  destruct (checked (v_udp env)) as [?|?|?|] eqn:Eu; cbn [bind]; try discriminate.
  cbv zeta. destruct (find_or_create_socket _ _ _) as [o1 m1] eqn:F. apply socket_frame in F as (I & M & L & _).
  destruct o1; intros E; inv E. exists r, mult, dest, m1. repeat (split; [assumption||reflexivity|]). now rewrite M.
Qed.
Lemma answer_none h env host large c resp g m o g' m' :
  fo_answer h env host large c resp (g, m) = (o, (g', m')) -> (forall oid, o <> Ok (Some oid)) ->
  m_map m' = m_map m /\ m_log m' = m_log m.
Proof.
  unfold fo_answer. destruct (negb (r_status resp =? 0)); [intros E; inv E; auto|].
  destruct (bind (fo_expand h (r_data resp)) _) as [[r io]|e|u|]; try (intros E; inv E; auto; fail).
  cbv zeta. destruct (find_or_create_socket _ _ _) as [o1 m1] eqn:F.
  apply socket_frame in F as (I & M & L & _). destruct o1; intros E N; inv E; cbn [m_map m_log set_map]; auto.
  exfalso. now apply (N (g_oid g)).
Qed.

(** ** The invariant over all calls *)
Lemma answer_inv h env host large c resp g m o g' m' : mgr_inv g m ->
  fo_answer h env host large c resp (g, m) = (o, (g', m')) -> mgr_inv g' m'.
Proof.
  intros I E. pose proof (answer_frame _ _ _ _ _ _ _ _ _ _ _ E) as (_ & _ & _ & Le & _).
  assert (D : (exists oid, o = Ok (Some oid)) \/ forall oid, o <> Ok (Some oid)).
  { destruct o as [[oid|]|?|?|]; [left; eauto|right; congruence..]. }
  destruct D as [[oid ->]|N].
  - apply answer_some in E as (r & mult & dest & m1 & _ & _ & _ & _ & -> & -> & M & _ & _ & ->).
    rewrite <- M. apply inv_insert; try reflexivity.
    destruct I as [A B C D]. constructor; rewrite M; assumption.
  - destruct (answer_none _ _ _ _ _ _ _ _ _ _ _ E N) as [M _].
    apply (inv_later g g') in I; [|assumption]. destruct I as [A B C D]. constructor; rewrite M; assumption.
Qed.

Lemma open_inv {S} h use8 (si : session_if S) host env large c g m (s : S) o g' m' s' : mgr_inv g m ->
  forward_open h use8 si host env large c (g, m, s) = (o, (g', m', s')) ->
  mgr_inv g' m' /\ (g_oid g <= g_oid g')%nat.
Proof.
  intros I E. destruct (Z.eq_dec (g_serial g) 2147483647) as [G|G].
  - unfold forward_open in E. rewrite (prepare_overflow large (m_inc m) c g G) in E. inv E. auto.
  - destruct (open_request h use8 si host env large c g m s G) as (g1 & c' & O & F). rewrite F in E. clear F.
    assert (I1 : mgr_inv g1 m) by (apply (inv_later g); [assumption|lia]). rewrite <- O.
    destruct (send_request _ _ _ _ _ _ _ _) as [[resp|?|?|] s1]; [|inv E; auto..].
    destruct (fo_answer _ _ _ _ _ _ _) as [o1 [g2 m2]] eqn:A. inv E. split; [eapply answer_inv; eauto|].
    apply answer_frame in A. tauto.
Qed.
