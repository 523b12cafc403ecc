(** Connections that the application keeps: proofs. *)
From Verif Require Import Base MBuffer SBuffer PBase PBuffer MEip SEip PEip PRouter MSocket SSocket PSocket MConnReq SConnReq PConnReq MConn SConn PConnOpen PConnMap PIo
  PConnCall PConnCall2 PConnHist PIo2 PConnTop SLife PLife MMany PMany PMany3 MKeep SKeep.

(** ** One call *)
Lemma handle_grown g h rounds ending env m : mgr_inv g m -> grown g m (snd (handle_connections h rounds ending env m)).
Proof.
  intros I. unfold handle_connections, st_bind. pose proof (select_quiet g h rounds ending m I) as Q.
  destruct (bs_select _ _ _ _ _) as [o2 m2]. cbn [snd] in Q. destruct Q as (Qs & Qk & _).
  assert (G : grown g m m2) by now apply grown_statics. destruct o2 as [[]|?|?|]; [|exact G..].
  unfold run_ticks. pose proof (ticks_static env (m_map m2)) as T. destruct (ticks env (m_map m2)) as [[res l] ev].
  assert (G2 : grown g m (add_log (set_map m2 l) ev)) by (apply grown_statics; cbn [add_log set_map m_map m_socks]; congruence).
  destruct res as [ks|?|?|]; [|exact G2..]. destruct G2 as [A B]. split; [|exact B]. cbn [snd set_map m_map add_log] in *.
  intros k c J. apply fold_erase_in in J as [J _]. eauto.
Qed.
Lemma data_grown g oid d m : grown g m (set_output oid d m).
Proof. apply grown_statics; [apply output_statics|reflexivity]. Qed.
Lemma kept_grown {S} h (op : call S) k g m s o g' m' s' : mgr_inv g m -> call_kept h op k (g, m, s) = (o, (g', m', s')) ->
  grown g m m' /\ mgr_inv g' m' /\ (g_oid g <= g_oid g')%nat.
Proof.
  intros I E. destruct op as [use8 si host env large c|use8 si oid|rounds ending env|oid d]; unfold call_kept in E.
  - pose proof (call_inv _ _ _ _ _ _ _ _ _ I E). split; [|assumption]. exact (open_grown _ _ _ _ _ _ _ _ _ _ _ _ _ _ E).
  - destruct (forward_close _ _ _ _ _) as [o1 [m1 s1]] eqn:F. inv E. split; [eapply close_grown; eauto|]. split; [eapply close_inv; eauto|lia].
  - pose proof (call_inv _ _ _ _ _ _ _ _ _ I E). split; [|assumption]. cbn [call_mgr] in E.
    pose proof (handle_grown g h rounds ending env m I) as G. destruct (handle_connections _ _ _ _ _) as [o1 m1]. inv E. exact G.
  - pose proof (call_inv _ _ _ _ _ _ _ _ _ I E). split; [|assumption]. cbn [call_mgr] in E. inv E. apply data_grown.
Qed.
Lemma grown_lock g g' m m' oid c' : mgr_inv g m -> mgr_inv g' m' -> grown g m m' -> lock oid m' = Some c' ->
  (g_oid g <= oid)%nat \/ exists c, lock oid m = Some c /\ io_static c' = io_static c.
Proof.
  intros I I' [G _] L. apply (lock_iff g') in L as [E K]; [|assumption]. destruct (G _ _ K) as [N|(c0 & J & T)]; [left; lia|right].
  exists c0. split; [|exact T]. assert (io_oid c0 = oid) by (unfold io_static in T; inv T; reflexivity || congruence).
  subst oid. rewrite <- H. eapply lock_some; eauto.
Qed.

(** ** What a call says *)
Definition spoken (m m' : mgr) : Prop := exists ev, m_log m' = m_log m ++ ev /\ Forall (fun e => lock (ev_oid e) m <> None) ev.
Lemma spoken_same m m' : m_log m' = m_log m -> spoken m m'.
Proof. intros E. exists []. rewrite app_nil_r. auto. Qed.
Lemma answer_log h env host large c resp g m o g' m' : fo_answer h env host large c resp (g, m) = (o, (g', m')) -> m_log m' = m_log m.
Proof.
  unfold fo_answer. destruct (negb (r_status resp =? 0)); [intros E; inv E; reflexivity|].
  destruct (bind (fo_expand h (r_data resp)) _) as [[r io]|e|u|]; try (intros E; inv E; reflexivity).
  cbv zeta. destruct (find_or_create_socket _ _ _) as [o1 m1] eqn:F.
  assert (L : m_log m1 = m_log m).
  { unfold find_or_create_socket in F. destruct (existsb _ _); [inv F; reflexivity|]. match type of F with context [match ?x with _ => _ end] => destruct x end; inv F; reflexivity. }
  destruct o1; intros E; inv E; exact L.
Qed.
Lemma open_log {S} h use8 (si : session_if S) host env large c g m (s : S) o g' m' s' :
  forward_open h use8 si host env large c (g, m, s) = (o, (g', m', s')) -> m_log m' = m_log m.
Proof.
  intros E. destruct (Z.eq_dec (g_serial g) 2147483647) as [G|G].
  - unfold forward_open in E. rewrite (prepare_overflow large (m_inc m) c g G) in E. inv E. reflexivity.
  - destruct (open_request h use8 si host env large c g m s G) as (g1 & c' & O & F). rewrite F in E. clear F.
    destruct (send_request _ _ _ _ _ _ _ _) as [[resp|?|?|] s1]; [|inv E; reflexivity..].
    destruct (fo_answer _ _ _ _ _ _ _) as [o1 [g2 m2]] eqn:A. inv E. exact (answer_log _ _ _ _ _ _ _ _ _ _ _ A).
Qed.
Lemma close_log {S} h use8 (si : session_if S) ptr m (s : S) o m' s' :
  forward_close h use8 si ptr (m, s) = (o, (m', s')) -> m_log m' = m_log m.
Proof.
  unfold forward_close. destruct ptr as [c|]; [|intros E; inv E; reflexivity].
  destruct (send_request _ _ _ _ _ _ _ _) as [[resp|?|?|] s1]; intros E; inv E; reflexivity.
Qed.
Lemma statics_lock m m' oid : statics (m_map m') = statics (m_map m) -> lock oid m' <> None -> lock oid m <> None.
Proof. intros E H X. apply H. apply lock_none. apply lock_none in X. now rewrite (statics_oids _ _ E). Qed.
Lemma ticks_spoken env l : Forall (fun e => In (ev_oid e) (oids l)) (snd (ticks env l)).
Proof.
  induction l as [|[k c] l IH]; [constructor|]. cbn [ticks]. cbv zeta.
  pose proof (PLife.tick_about (t_now env (io_oid c)) (t_hook env (io_oid c)) (t_send env (io_oid c)) c) as T.
  destruct (io_tick _ _ _ _) as [[res c'] ev]. cbn [snd] in T. cbn [oids map snd].
  assert (H : Forall (fun e => In (ev_oid e) (io_oid c :: oids l)) ev).
  { eapply Forall_impl; [|exact T]. intros e X. left. now symmetry. }
  destruct res; [|exact H..]. destruct (ticks env l) as [[res' r'] ev']. cbn [snd] in *. apply Forall_app. split; [exact H|].
  eapply Forall_impl; [|exact IH]. intros e X. now right.
Qed.
Lemma handle_spoken g h rounds ending env m : mgr_inv g m -> spoken m (snd (handle_connections h rounds ending env m)).
Proof.
  intros I. unfold handle_connections, st_bind.
  assert (Q : (fun x => quiet m x /\ spoken m x) (snd (bs_select (fun _ : nat => on_readable h) (List.length (m_socks m)) rounds ending m))).
  { apply select_keeps; [|split; [apply quiet_refl|now apply spoken_same]]. intros _ d w [Q (ev & L & F)].
    split; [now apply (readable_quiet g)|]. destruct (PMany3.readable_about h d w) as (ev' & L' & F'). exists (ev ++ ev').
    rewrite L', L, app_assoc. split; [reflexivity|]. apply Forall_app. split; [exact F|]. apply Forall_forall. intros e J.
    destruct (F' e J) as (k & c & hd & sq & x & K & ->). cbn [ev_oid]. destruct Q as [Qs _]. apply (statics_lock m w); [exact Qs|].
    assert (Iw : mgr_inv g w) by (eapply statics_inv; eauto). rewrite (lock_some _ _ _ _ Iw K). discriminate. }
  destruct (bs_select _ _ _ _ _) as [o2 m2]. cbn [snd] in Q. destruct Q as [(Qs & _) (ev & L & F)].
  assert (G : spoken m m2) by (exists ev; auto). destruct o2 as [[]|?|?|]; [|exact G..].
  unfold run_ticks. pose proof (ticks_spoken env (m_map m2)) as T. destruct (ticks env (m_map m2)) as [[res l] ev2]. cbn [snd] in T.
  assert (H : forall l', spoken m (set_map (add_log (set_map m2 l) ev2) l')).
  { intros l'. exists (ev ++ ev2). cbn [set_map add_log m_log]. rewrite L, app_assoc. split; [reflexivity|]. apply Forall_app. split; [exact F|].
    eapply Forall_impl; [|exact T]. intros e X Y. apply lock_none in Y. apply Y. now rewrite <- (statics_oids _ _ Qs). }
  destruct res as [ks|?|?|]; [exact (H _)|exact (H l)..].
Qed.
Lemma kept_spoken {S} h (op : call S) k g m s o g' m' s' : mgr_inv g m -> call_kept h op k (g, m, s) = (o, (g', m', s')) -> spoken m m'.
Proof.
  intros I E. destruct op as [use8 si host env large c|use8 si oid|rounds ending env|oid d]; unfold call_kept in E.
  - apply spoken_same. exact (open_log _ _ _ _ _ _ _ _ _ _ _ _ _ _ E).
  - destruct (forward_close _ _ _ _ _) as [o1 [m1 s1]] eqn:F. inv E. apply spoken_same. eapply close_log; eauto.
  - cbn [call_mgr] in E. pose proof (handle_spoken g h rounds ending env m I) as G. destruct (handle_connections _ _ _ _ _) as [o1 m1]. inv E. exact G.
  - cbn [call_mgr] in E. inv E. now apply spoken_same.
Qed.
