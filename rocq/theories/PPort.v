(** Proofs: who gets the datagrams. *)
From Coq Require Import Permutation.
From Verif Require Import Base MBuffer SBuffer PBase PBuffer MEip SEip PEip MSocket SSocket PSocket MConnReq SConnReq PConnReq MConn SConn PConnOpen PConnMap PIo PConnCall PConnCall2 PConnHist PIo2 PConnTop MPort SPort.
Ltac Zify.zify_post_hook ::= Z.div_mod_to_equations.

Lemma group_iff a : is_group a = true <-> in_group a.
Proof. unfold is_group, in_group. rewrite andb_true_iff, Z.leb_le, Z.ltb_lt. lia. Qed.

Section Run.
Context {S : Type} (h : heap) (me : Z) (n : nat).
Notation step := (net_step (S := S) h me n).
Notation run := (net_run (S := S) h me n).

Definition ones (w : world S) : Prop := forall j, one_socket (w_m w j).
Lemma started_ones (w : world S) : started w -> ones w.
Proof. intros (h0 & ops & w0 & N & ->). intros j. apply sockets_one. intros k. destruct (N k) as [inc ->]. split; cbn; [lia|constructor]. Qed.
Lemma call_ones i op (w : world S) : ones w -> ones (snd (call_world h i op w)).
Proof.
  intros O j. unfold call_world. destruct (call_mgr h op (w_g w, w_m w i, w_s w)) as [o [[g m] s]] eqn:E. cbn [snd w_m]. unfold update.
  destruct (Nat.eqb j i); [eapply call_one; [exact E|apply O]|apply O].
Qed.
Lemma answer_socks env host large c resp g m : m_socks m <> [] -> m_socks (snd (snd (fo_answer h env host large c resp (g, m)))) <> [].
Proof.
  intros O. unfold fo_answer. destruct (negb _); [exact O|]. destruct (bind _ _) as [[r io]|?|?|]; [|exact O..]. cbv zeta.
  unfold find_or_create_socket. destruct (existsb _ _); [exact O|]. destruct (v_bind env); [exact O|]. cbn. now destruct (m_socks m).
Qed.
Lemma call_socks (op : call S) g m s o g' m' s' : call_mgr h op (g, m, s) = (o, (g', m', s')) -> m_socks m <> [] -> m_socks m' <> [].
Proof.
  intros E O. destruct op as [use8 si host env large c|use8 si oid|rounds ending env|oid d].
  2-4: apply other_frame in E as (_ & _ & E); [|exact Logic.I]; now rewrite E.
  cbn [call_mgr] in E. destruct (Z.eq_dec (g_serial g) 2147483647) as [G|G].
  { unfold forward_open in E. rewrite (prepare_overflow large (m_inc m) c g G) in E. inv E. exact O. }
  destruct (open_request h use8 si host env large c g m s G) as (g1 & c' & _ & F). rewrite F in E. clear F.
  destruct (send_request _ _ _ _ _ _ _ _) as [[rp|?|?|] s1]; [|inv E; exact O..].
  pose proof (answer_socks env host large c rp g1 m O) as A. destruct (fo_answer _ _ _ _ _ _ _) as [o1 [g2 m2]]. inv E. exact A.
Qed.
Lemma call_has i op (w : world S) j : has_socket w j -> has_socket (snd (call_world h i op w)) j.
Proof.
  unfold has_socket. intros O. unfold call_world. destruct (call_mgr h op (w_g w, w_m w i, w_s w)) as [o [[g m] s]] eqn:E. cbn [snd w_m]. unfold update.
  destruct (Nat.eqb j i) eqn:J; [|exact O]. apply Nat.eqb_eq in J. subst. eapply call_socks; [exact E|exact O].
Qed.
Lemma call_none i op (w : world S) j : match op with COpen _ _ _ _ _ _ => j <> i | _ => True end -> m_socks (w_m w j) = [] ->
  m_socks (w_m (snd (call_world h i op w)) j) = [].
Proof.
  intros C O. unfold call_world. destruct (call_mgr h op (w_g w, w_m w i, w_s w)) as [o [[g m] s]] eqn:E. cbn [snd w_m]. unfold update.
  destruct (Nat.eqb j i) eqn:J; [|exact O]. apply Nat.eqb_eq in J. subst.
  apply other_frame in E as (_ & _ & E); [now rewrite E|]. destruct op; [congruence|exact Logic.I..].
Qed.

(** ** Sockets *)
Lemma bound_iff m port : one_socket m -> bound port m = true <-> m_socks m <> [] /\ port = 2222.
Proof.
  intros [_ F]. unfold bound. rewrite existsb_exists. split.
  - intros (e & I & E). apply Z.eqb_eq in E. rewrite Forall_forall in F. rewrite (F e I) in E. split; [intros N; now rewrite N in I|now symmetry].
  - intros [N ->]. destruct (m_socks m) as [|e l]; [easy|]. exists e. split; [now left|]. apply Forall_inv in F. now apply Z.eqb_eq.
Qed.
Lemma listening_in (w : world S) port i : ones w -> In i (listening n port w) <-> (i < n)%nat /\ has_socket w i /\ port = 2222.
Proof. intros O. unfold listening. rewrite filter_In, in_seq, bound_iff by apply O. unfold has_socket. lia || intuition lia. Qed.

Lemma mem_iff i l : existsb (Nat.eqb i) l = true <-> In i l.
Proof.
  rewrite existsb_exists. split.
  - intros (x & I & E). apply Nat.eqb_eq in E. now subst.
  - intros I. exists i. split; [assumption|apply Nat.eqb_refl].
Qed.

Lemma mod_in {A} (l : list A) k : l <> [] -> exists x, nth_error l (Nat.modulo k (List.length l)) = Some x /\ In x l.
Proof.
  intros N. assert (B : (Nat.modulo k (List.length l) < List.length l)%nat) by (apply Nat.mod_upper_bound; now destruct l).
  destruct (nth_error l (Nat.modulo k (List.length l))) as [x|] eqn:E; [|apply nth_error_None in E; lia].
  exists x. split; [reflexivity|]. eapply nth_error_In; exact E.
Qed.

(** The managers that get a packet. *)
Lemma host_one p joined pick (w : world S) : ones w -> ~ in_group me -> k_to p = me -> k_port p = 2222 ->
  (exists i, (i < n)%nat /\ has_socket w i) ->
  exists i, (i < n)%nat /\ has_socket w i /\ receivers me n p joined pick w = [i].
Proof.
  intros O G T P (i & L & B). unfold receivers. cbv zeta. rewrite T.
  destruct (is_group me) eqn:E; [apply group_iff in E; contradiction|]. rewrite Z.eqb_refl.
  destruct (mod_in (listening n (k_port p) w) pick) as (x & Q & I).
  { intros N. assert (I : In i (listening n (k_port p) w)) by (apply listening_in; [exact O|auto]). now rewrite N in I. }
  rewrite Q. exists x. apply listening_in in I as (I1 & I2 & _); [|exact O]. auto.
Qed.
Lemma out_none p joined pick (w : world S) : ones w -> ~ reaches me p joined -> receivers me n p joined pick w = [].
Proof.
  intros O R. unfold receivers. cbv zeta. destruct (Z.eq_dec (k_port p) 2222) as [P|P].
  - destruct (is_group (k_to p)) eqn:G.
    + destruct joined; [|reflexivity]. exfalso. apply R. split; [assumption|]. right. split; [now apply group_iff|reflexivity].
    + destruct (k_to p =? me) eqn:T; [|reflexivity]. exfalso. apply R. split; [assumption|]. left. now apply Z.eqb_eq.
  - assert (L : listening n (k_port p) w = []).
    { destruct (listening n (k_port p) w) as [|i l] eqn:L; [reflexivity|]. assert (I : In i (listening n (k_port p) w)) by (rewrite L; now left).
      apply listening_in in I as (_ & _ & I); [contradiction|exact O]. }
    rewrite L. destruct (is_group _), joined, (k_to p =? me); try reflexivity; destruct (Nat.modulo _ _); reflexivity.
Qed.
Lemma all_in p pick (w : world S) : ones w -> in_group (k_to p) -> k_port p = 2222 ->
  forall i, In i (receivers me n p true pick w) <-> (i < n)%nat /\ has_socket w i.
Proof.
  intros O G P i. unfold receivers. cbv zeta. apply group_iff in G. rewrite G, listening_in by exact O. intuition.
Qed.
Lemma alone_one p joined pick (w : world S) i : ones w -> (i < n)%nat -> has_socket w i -> (forall j, j <> i -> (j < n)%nat -> m_socks (w_m w j) = []) ->
  reaches me p joined -> ~ in_group me -> forall j, In j (receivers me n p joined pick w) <-> j = i.
Proof.
  intros O L B N [P [T|[G ->]]] M j.
  - destruct (host_one p joined pick w O M T P) as (k & K1 & K2 & ->); [eauto|]. assert (k = i) as ->.
    { destruct (Nat.eq_dec k i); [assumption|]. now apply N in n0; [|assumption]. }
    cbn. intuition.
  - rewrite all_in by assumption. split; [|intros ->; auto]. intros [J1 J2]. destruct (Nat.eq_dec j i); [assumption|]. now apply N in n0.
Qed.

(** ** What is read *)
Lemma read_app i e e' : read_by i (e ++ e') = read_by i e ++ read_by i e'.
Proof. unfold read_by. now rewrite filter_app, map_app. Qed.
Lemma read_pair i j l : read_by i (map (pair j) l) = if Nat.eqb j i then l else [].
Proof.
  unfold read_by. induction l as [|d l IH]; cbn [map filter fst]; [now destruct (Nat.eqb j i)|]. destruct (Nat.eqb j i); cbn [map snd]; now rewrite IH.
Qed.
(** Reading takes from the front of the queue. *)
Lemma step_call i op N : let '(N', e) := step (NCall i op) N in forall j, read_by j e ++ n_q N' j = n_q N j.
Proof.
  destruct op as [use8 si host env large c|use8 si oid|rounds ending env|oid d]; cbn [net_step]; try (intros j; reflexivity).
  intros j. cbn [n_q]. rewrite read_pair. unfold update. rewrite (Nat.eqb_sym j i). destruct (Nat.eqb i j) eqn:E; [|reflexivity].
  apply Nat.eqb_eq in E. subst. apply firstn_skipn.
Qed.
Lemma step_ones x N : ones (n_w N) -> ones (n_w (fst (step x N))).
Proof. intros O. destruct x as [i [| | |]|]; cbn [net_step fst n_w]; try apply call_ones; exact O. Qed.
Lemma step_has x N j : has_socket (n_w N) j -> has_socket (n_w (fst (step x N))) j.
Proof. intros O. destruct x as [i [| | |]|]; cbn [net_step fst n_w]; try apply call_has; exact O. Qed.
Lemma step_none i x N j : opens_only i [x] -> j <> i -> m_socks (w_m (n_w N) j) = [] -> m_socks (w_m (n_w (fst (step x N))) j) = [].
Proof.
  intros P J O. destruct x as [k op|]; [|exact O]. specialize (P k op (or_introl eq_refl)).
  destruct op; cbn [net_step fst n_w]; apply call_none; trivial. congruence.
Qed.

Lemma run_cons x xs N : run (x :: xs) N = (fst (run xs (fst (step x N))), snd (step x N) ++ snd (run xs (fst (step x N)))).
Proof. cbn [net_run]. destruct (step x N) as [N1 e1]. cbn [fst snd]. destruct (run xs N1) as [N2 e2]. reflexivity. Qed.

Lemma sent_cons_call i op xs l : sent me (NCall (S := S) i op :: xs) l -> sent me xs l.
Proof. intros H. now inv H. Qed.

(** One manager. *)
Lemma alone i xs : (i < n)%nat -> ~ in_group me -> opens_only i xs -> forall N l, ones (n_w N) -> has_socket (n_w N) i ->
  (forall j, j <> i -> (j < n)%nat -> m_socks (w_m (n_w N) j) = []) -> sent me xs l ->
  forall j, read_by j (snd (run xs N)) ++ n_q (fst (run xs N)) j = n_q N j ++ if Nat.eqb j i then l else [].
Proof.
  intros L M. induction xs as [|x xs IH]; intros P N l O B U T j.
  - inv T. cbn. destruct (Nat.eqb j i); now rewrite app_nil_r.
  - assert (P1 : opens_only i xs) by (intros a b Q; apply P; now right).
    assert (P0 : opens_only i [x]) by (intros a b [Q|[]]; apply P; now left).
    rewrite run_cons. cbn [fst snd]. rewrite read_app, <- app_assoc.
    pose proof (step_ones x N O) as O1. pose proof (step_has x N i B) as B1.
    assert (U1 : forall k, k <> i -> (k < n)%nat -> m_socks (w_m (n_w (fst (step x N))) k) = []) by (intros k K1 K2; eapply step_none; eauto).
    destruct x as [k op|p joined pick].
    + apply sent_cons_call in T. rewrite (IH P1 _ l O1 B1 U1 T j). pose proof (step_call k op N) as E.
      destruct (step (NCall k op) N) as [N1 e1]. cbn [fst snd]. now rewrite app_assoc, E.
    + cbn [net_step fst snd read_by filter map app] in *. inv T.
      * rewrite (IH P1 _ _ O1 B1 U1 H5 j). cbn [n_q]. pose proof (alone_one p joined pick (n_w N) i O L B U H4 M j) as A.
        destruct (Nat.eqb j i) eqn:J.
        -- apply Nat.eqb_eq in J. apply A, mem_iff in J. now rewrite J, <- app_assoc.
        -- destruct (existsb _ _) eqn:E; [|reflexivity]. apply mem_iff, A in E. subst. now rewrite Nat.eqb_refl in J.
      * rewrite (IH P1 _ _ O1 B1 U1 H5 j). cbn [n_q]. now rewrite out_none.
Qed.

(** Several managers. *)
Lemma cat_seq (f g : nat -> list bytes) d k : forall a m, (a <= k < a + m)%nat -> g k = f k ++ [d] -> (forall j, j <> k -> g j = f j) ->
  Permutation (concat (map g (seq a m))) (concat (map f (seq a m)) ++ [d]).
Proof.
  intros a m. revert a. induction m as [|m IH]; intros a R K O; [lia|]. cbn [seq map concat].
  destruct (Nat.eq_dec a k) as [->|Ne].
  - rewrite K, <- !app_assoc. apply Permutation_app_head. replace (map g (seq (Datatypes.S k) m)) with (map f (seq (Datatypes.S k) m)).
    + apply Permutation_app_comm.
    + apply map_ext_in. intros j I. apply in_seq in I. symmetry. apply O. lia.
  - rewrite O by assumption. rewrite <- app_assoc. apply Permutation_app_head, IH; [lia|assumption..].
Qed.
Lemma cat_split (f g : nat -> list bytes) L : Permutation (concat (map (fun j => f j ++ g j) L)) (concat (map f L) ++ concat (map g L)).
Proof.
  induction L as [|a L IL]; cbn [map concat]; [reflexivity|]. rewrite IL, <- !app_assoc. apply Permutation_app_head.
  rewrite !app_assoc. apply Permutation_app_tail. apply Permutation_app_comm.
Qed.
Lemma conserved xs : ~ in_group me -> no_member xs -> forall N l, ones (n_w N) -> (exists i, (i < n)%nat /\ has_socket (n_w N) i) -> sent me xs l ->
  Permutation (concat (map (fun j => read_by j (snd (run xs N)) ++ n_q (fst (run xs N)) j) (seq 0 n))) (concat (map (n_q N) (seq 0 n)) ++ l).
Proof.
  intros M. induction xs as [|x xs IH]; intros P N l O B T.
  - inv T. cbn [net_run fst snd read_by filter map app]. rewrite app_nil_r. reflexivity.
  - assert (P1 : no_member xs) by (intros a b c Q; eapply P; right; exact Q).
    rewrite run_cons. cbn [fst snd].
    assert (B1 : exists i, (i < n)%nat /\ has_socket (n_w (fst (step x N))) i) by (destruct B as (i & B1 & B2); exists i; split; [assumption|now apply step_has]).
    pose proof (step_ones x N O) as O1.
    destruct x as [k op|p joined pick].
    + apply sent_cons_call in T. specialize (IH P1 _ l O1 B1 T). pose proof (step_call k op N) as E.
      destruct (step (NCall k op) N) as [N1 e1]. cbn [fst snd] in *.
      rewrite (map_ext _ (fun j => read_by j e1 ++ (read_by j (snd (run xs N1)) ++ n_q (fst (run xs N1)) j))) by (intros j; now rewrite read_app, app_assoc).
      rewrite cat_split, IH, app_assoc. apply Permutation_app_tail. rewrite <- cat_split. erewrite map_ext; [reflexivity|]. exact E.
    + cbn [net_step fst snd read_by filter map app] in *. fold (read_by) in *. specialize (P p joined pick (or_introl eq_refl)) as Jn. subst joined. inv T.
      * specialize (IH P1 _ _ O1 B1 H5). cbn [n_q] in IH. destruct H4 as [Hp [Ht|[_ F]]]; [|discriminate].
        destruct (host_one p false pick (n_w N) O M Ht Hp B) as (i & I1 & I2 & E). rewrite E in IH |- *.
        etransitivity; [exact IH|]. change (k_data p :: l0) with ([k_data p] ++ l0). rewrite app_assoc. apply Permutation_app_tail.
        apply (cat_seq _ _ _ i); [lia| |].
        -- cbn. now rewrite Nat.eqb_refl.
        -- intros j J. cbn. apply Nat.eqb_neq in J. now rewrite J.
      * specialize (IH P1 _ _ O1 B1 H5). cbn [n_q] in IH. rewrite out_none in IH |- * by assumption. exact IH.
Qed.

(** Nothing is there to read. *)
Lemma deaf xs : forall N, ones (n_w N) -> (forall j, n_q N j = []) -> sent me xs [] ->
  snd (run xs N) = [] /\ n_w (fst (run xs N)) = run_calls h (unheard xs) (n_w N) /\ forall j, n_q (fst (run xs N)) j = [].
Proof.
  induction xs as [|x xs IH]; intros N O Q T; [now cbn|]. rewrite run_cons. cbn [fst snd]. pose proof (step_ones x N O) as O1.
  destruct x as [i op|p joined pick].
  - apply sent_cons_call in T. pose proof (step_call i op N) as E.
    assert (Q1 : forall j, n_q (fst (step (NCall i op) N)) j = []).
    { intros j. destruct (step (NCall i op) N) as [N1 e1]. specialize (E j). rewrite Q in E. now apply app_eq_nil in E. }
    destruct (IH _ O1 Q1 T) as (I1 & I2 & I3). split; [|split; [|exact I3]].
    + rewrite I1, app_nil_r. destruct op as [| |rounds ending env|]; cbn [net_step snd]; try reflexivity. rewrite Q.
      destruct ending; rewrite ?firstn_nil; reflexivity.
    + rewrite I2. destruct op as [| |rounds ending env|]; cbn [net_step fst n_w unheard run_calls]; try reflexivity. rewrite Q.
      destruct ending; rewrite ?firstn_nil; reflexivity.
  - inv T. cbn [net_step fst snd app unheard] in *. rewrite out_none in O1 |- * by assumption. cbn [existsb] in *.
    apply (IH (mkNet (n_w N) (fun i => n_q N i)) O1 Q H5).
Qed.

(** The world is one of a history of calls. *)
Lemma run_history xs : forall N, exists ops, n_w (fst (run xs N)) = run_calls h ops (n_w N).
Proof.
  induction xs as [|x xs IH]; intros N; [now exists []|]. rewrite run_cons. cbn [fst]. destruct (IH (fst (step x N))) as [ops E]. rewrite E.
  destruct x as [i op|p joined pick]; [|now exists ops].
  destruct op as [| |rounds ending env|]; cbn [net_step fst n_w]; eexists ((i, _) :: ops); reflexivity.
Qed.

Lemma run_sender xs ys : Forall2 but_sender xs ys -> forall N, run xs N = run ys N.
Proof.
  induction 1 as [|x y xs ys B F IH]; intros N; [reflexivity|]. rewrite !run_cons. assert (E : step x N = step y N) by (destruct B; reflexivity).
  now rewrite E, IH.
Qed.

(** Any of the managers may be the one. *)
Lemma any_one p joined (w : world S) i : ones w -> ~ in_group me -> k_to p = me -> k_port p = 2222 -> (i < n)%nat -> has_socket w i ->
  exists pick, receivers me n p joined pick w = [i].
Proof.
  intros O G T P L B. assert (I : In i (listening n (k_port p) w)) by (apply listening_in; auto). apply In_nth_error in I as [k K]. exists k.
  unfold receivers. cbv zeta. rewrite T. destruct (is_group me) eqn:E; [apply group_iff in E; contradiction|]. rewrite Z.eqb_refl.
  assert (Q : (k < List.length (listening n (k_port p) w))%nat) by (apply nth_error_Some; congruence).
  rewrite Nat.mod_small by assumption. now rewrite K.
Qed.
End Run.

(** ** A packet and the call that reads it *)
Lemma started_reach {S} (w : world S) i : started w -> reachable S (w_g w) (w_m w i).
Proof. intros (h & ops & w0 & N & ->). exists h, ops, w0, i. auto. Qed.
Lemma ticks_log env m : exists more, m_log (snd (run_ticks env m)) = m_log m ++ more.
Proof.
  unfold run_ticks. destruct (ticks env (m_map m)) as [[res l] ev]. destruct res; cbn; eexists; reflexivity.
Qed.
Lemma one_readable h d env (m m' : mgr) : m_socks m <> [] -> (List.length (m_socks m) <= 1)%nat -> on_readable h (Dgram d) m = (Ok tt, m') ->
  handle_connections h [mkRound [Some (Dgram d)] 0] SelQuiet env m = run_ticks env m'.
Proof.
  intros N L E. unfold handle_connections. destruct (m_socks m) as [|a [|]]; [easy| |cbn in L; lia].
  unfold st_bind, bs_select. cbn [List.length select_rounds dispatch sr_ready]. unfold st_bind. rewrite E. reflexivity.
Qed.

Lemma heard {S} h me n (w : world S) i p joined pick rounds env i0 i1 items rest c :
  started w -> ~ in_group me -> (i < n)%nat -> has_socket w i -> (forall j, j <> i -> (j < n)%nat -> m_socks (w_m w j) = []) ->
  reaches me p joined -> is_bytes (k_data p) -> carries (k_data p) (i0 :: i1 :: items) -> is_u32 (io_t2oId c) -> it_data i0 = le 4 (io_t2oId c) ++ rest ->
  lock (io_oid c) (w_m w i) = Some c -> (forall o c', lock o (w_m w i) = Some c' -> io_t2oId c' mod 65536 = io_t2oId c mod 65536 -> io_t2oId c' = io_t2oId c) ->
  front c <= zlen (it_data i1) ->
  exists c' ev more, io_receive h c (it_data i1) = Ok (c', ev)
    /\ m_log (w_m (n_w (fst (net_run h me n [NArrive p joined pick; NCall i (CHandle rounds SelQuiet env)] (net0 w)))) i) = m_log (w_m w i) ++ ev ++ more.
Proof.
  intros W M L B A R IB CA U D K Q F.
  pose proof (alone_one me n p joined pick w i (started_ones w W) L B A R M i) as I. assert (I1 : existsb (Nat.eqb i) (receivers me n p joined pick w) = true) by (apply mem_iff, I; reflexivity).
  destruct (delivered S (w_g w) h (k_data p) (w_m w i) i0 i1 items (io_t2oId c) rest (started_reach w i W) IB CA U D Q) as [[X _]|(c1 & E1 & K1 & Un & T)].
  { exfalso. now apply (X _ _ K). }
  assert (c1 = c) as -> by (specialize (Un _ _ K eq_refl); rewrite Un in K; congruence).
  destruct (T F) as (c' & ev & m' & E & OR & LG & _). destruct (ticks_log env m') as [more Mo].
  exists c', ev, more. split; [exact E|]. unfold net0. cbn [net_run net_step fst n_w n_q]. rewrite I1. cbn [app held map].
  unfold call_world. cbn [call_mgr]. rewrite (one_readable h (k_data p) env _ m' B); [|apply (started_ones w W)|exact OR].
  destruct (run_ticks env m') as [o m2]. cbn [snd] in Mo. cbn. unfold update. rewrite Nat.eqb_refl. now rewrite Mo, LG, <- app_assoc.
Qed.

(** ** Items that are not looked at *)
Lemma find_skip {A} (f : A -> bool) a x b : f x = false -> find f (a ++ x :: b) = find f (a ++ b).
Proof. intros E. induction a as [|y a IH]; cbn [app find]; [now rewrite E|]. now rewrite IH. Qed.
Lemma items_ignored h env host large c sv st ad d a x b gm : it_type x <> 32768 ->
  fo_answer h env host large c (mkResp sv st ad d (a ++ x :: b)) gm = fo_answer h env host large c (mkResp sv st ad d (a ++ b)) gm.
Proof.
  intros N. unfold fo_answer. destruct gm as [g m]. cbn [r_status r_data r_items]. unfold fo_dest. rewrite find_skip; [reflexivity|]. now apply Z.eqb_neq.
Qed.

(** ** What a call reads *)
Lemma reads_run h ending n l : n <> O -> forall m, exists r o m', reads h m l r o m' /\ eaten h m l = List.length r /\ r = firstn (List.length r) l
  /\ select_rounds (fun _ => on_readable h) n (held l) ending m =
     match o with Ok _ => (match ending with SelQuiet => Ok tt | SelFail e => Throw (SystemError e) end, m') | _ => (o, m') end.
Proof.
  intros N. induction l as [|d l IH]; intros m.
  - exists [], (Ok tt), m. split; [constructor|]. split; [reflexivity|]. split; [reflexivity|]. destruct ending; reflexivity.
  - destruct n as [|n]; [easy|]. destruct (on_readable h (Dgram d) m) as [o m1] eqn:E.
    assert (D : dispatch (fun _ => on_readable h) 0 (S n) [Some (Dgram d)] m = (o, m1)).
    { cbn [dispatch]. unfold st_bind. rewrite E. destruct o as [[]| | |]; try reflexivity. now destruct n. }
    destruct o as [[]|e|u|].
    + destruct (IH m1) as (r & o & m' & R & L & P & Q). exists (d :: r), o, m'. split; [econstructor; eassumption|].
      split. { cbn [eaten]. rewrite E, L. reflexivity. } split. { cbn [List.length firstn]. now rewrite <- P. }
      cbn [held map select_rounds sr_ready]. unfold st_bind at 1. rewrite D. exact Q.
    + exists [d], (Throw e), m1. split; [apply ReadsStop; [assumption|discriminate]|]. split; [cbn [eaten]; now rewrite E|]. split; [reflexivity|].
      cbn [held map select_rounds sr_ready]. unfold st_bind at 1. now rewrite D.
    + exists [d], (Undef u), m1. split; [apply ReadsStop; [assumption|discriminate]|]. split; [cbn [eaten]; now rewrite E|]. split; [reflexivity|].
      cbn [held map select_rounds sr_ready]. unfold st_bind at 1. now rewrite D.
    + exists [d], Abort, m1. split; [apply ReadsStop; [assumption|discriminate]|]. split; [cbn [eaten]; now rewrite E|]. split; [reflexivity|].
      cbn [held map select_rounds sr_ready]. unfold st_bind at 1. now rewrite D.
Qed.
Lemma handle_reads {S} h me n (w : world S) q i rounds ending env : has_socket w i ->
  let l := match ending with SelQuiet => q i | SelFail _ => firstn (List.length rounds) (q i) end in
  exists r o m', reads h (w_m w i) l r o m' /\
  let '(N, e) := net_step h me n (NCall i (CHandle rounds ending env)) (mkNet w q) in
  e = map (pair i) r /\ n_q N i = skipn (List.length r) (q i) /\ (forall j, j <> i -> n_q N j = q j)
  /\ w_m (n_w N) i = (match o, ending with Ok _, SelQuiet => snd (run_ticks env m') | _, _ => m' end)
  /\ (forall j, j <> i -> w_m (n_w N) j = w_m w j) /\ w_g (n_w N) = w_g w /\ w_s (n_w N) = w_s w.
Proof.
  intros B. cbv zeta. set (l := match ending with SelQuiet => q i | SelFail _ => _ end).
  assert (NZ : List.length (m_socks (w_m w i)) <> O) by (unfold has_socket in B; now destruct (m_socks (w_m w i))).
  destruct (reads_run h ending _ l NZ (w_m w i)) as (r & o & m' & R & L & P & Q). exists r, o, m'. split; [exact R|].
  cbn [net_step n_w n_q]. fold l. rewrite L.
  assert (F : firstn (List.length r) (q i) = r).
  { rewrite P at 2. unfold l. destruct ending; [reflexivity|]. rewrite firstn_firstn. f_equal.
    assert (K2 : (List.length r <= List.length l)%nat) by (pose proof (f_equal (@List.length _) P) as K3; rewrite firstn_length in K3; lia).
    unfold l in K2. rewrite firstn_length in K2. lia. }
  rewrite F. split; [reflexivity|]. unfold update at 1. rewrite Nat.eqb_refl. split; [reflexivity|].
  split. { intros j J. unfold update. apply Nat.eqb_neq in J. now rewrite J. }
  unfold call_world. cbn [call_mgr]. unfold handle_connections, bs_select. destruct (List.length (m_socks (w_m w i))) as [|k] eqn:Ln; [easy|].
  unfold st_bind. rewrite Q.
  assert (U : forall (x : mgr) j, j <> i -> update (w_m w) i x j = w_m w j) by (intros x j J; unfold update; apply Nat.eqb_neq in J; now rewrite J).
  assert (V : forall (x : mgr), update (w_m w) i x i = x) by (intros x; unfold update; now rewrite Nat.eqb_refl).
  destruct o as [[]|e|u|], ending as [|e']; try (destruct (run_ticks env m') as [o2 m2]); cbn; rewrite ?V; auto.
Qed.
