(** Proofs about sessions used by several threads. *)
From Verif Require Import Base MBuffer SBuffer PBase MEip SEip PEip PRouter MSocket SSocket PSocket SSession PSession SExn MShared SShared.
Ltac Zify.zify_post_hook ::= Z.div_mod_to_equations.
Local Open Scope outcome_scope.

Lemma requests_app a b : requests (a ++ b) = requests a ++ requests b.
Proof. induction a as [|[] a IH]; cbn [app requests]; rewrite ?IH; reflexivity. Qed.
Lemma senders_app a b : senders (a ++ b) = senders a ++ senders b.
Proof. induction a as [|[] a IH]; cbn [app senders]; rewrite ?IH; reflexivity. Qed.
Lemma readers_app a b : readers (a ++ b) = readers a ++ readers b.
Proof. induction a as [|[] a IH]; cbn [app readers]; rewrite ?IH; reflexivity. Qed.
Lemma returns_app a b : returns (a ++ b) = returns a ++ returns b.
Proof. induction a as [|[] a IH]; cbn [app returns]; rewrite ?IH; reflexivity. Qed.
Lemma requests_of_app t a b : requests_of t (a ++ b) = requests_of t a ++ requests_of t b.
Proof.
  induction a as [|[t' q|t'|t' o] a IH]; cbn [app requests_of]; rewrite ?IH; try reflexivity.
  destruct (Nat.eqb t' t); reflexivity.
Qed.
Lemma senders_length a : List.length (senders a) = List.length (requests a).
Proof. induction a as [|[] a IH]; cbn [senders requests List.length]; congruence. Qed.
Lemma run_snoc h p handle s es e :
  run_threads h p handle s (es ++ [e]) = step h p handle (run_threads h p handle s es) e.
Proof. unfold run_threads. now rewrite fold_left_app. Qed.

(** ** The rest of a call, without the other threads *)

Definition after_header (h : heap) (handle : Z) (header : bytes) : st net encaps :=
  st_bind (fun w => (length_from_header h header, w)) (fun len =>
  st_bind (net_receive (Z.to_nat len)) (fun data w => (conclude h handle header data, w))).
Definition receive_more (n : nat) (got : bytes) : st net bytes :=
  fun w => let '(o, segs) := recv_loop (n - List.length got) got (n_in w) in
           (o, mkNet (n_sent w) segs (n_results w)).
Definition resume (h : heap) (handle : Z) (pl : place) : st net encaps :=
  match pl with
  | Outside => fun w => (Abort, w)
  | InHeader got => st_bind (receive_more HEADER_SIZE got) (after_header h handle)
  | InData header n got => st_bind (receive_more n got) (fun data w => (conclude h handle header data, w))
  end.
Definition open (pl : place) : Prop :=
  match pl with
  | Outside => False
  | InHeader got => (List.length got < HEADER_SIZE)%nat
  | InData _ n got => (List.length got < n)%nat
  end.

Lemma net_same w : mkNet (n_sent w) (n_in w) (n_results w) = w.
Proof. now destruct w. Qed.

Lemma sar_resume h p handle q w : send_and_receive h p handle q w
  = match net_send p (encaps_pack q) w with
    | (Ok _, w') => resume h handle (InHeader []) w'
    | (Throw e, w') => (Throw e, w')
    | (Undef u, w') => (Undef u, w')
    | (Abort, w') => (Abort, w')
    end.
Proof. reflexivity. Qed.

Lemma turn_loop n got segs : (List.length got < n)%nat ->
  match receive_turn n got segs with
  | (Again got', segs') => (List.length got' < n)%nat
      /\ recv_loop (n - List.length got) got segs = recv_loop (n - List.length got') got' segs'
  | (Full d, segs') => recv_loop (n - List.length got) got segs = (Ok d, segs') /\ List.length d = n
  | (Stops e, segs') => recv_loop (n - List.length got) got segs = (Throw e, segs')
  end.
Proof.
  intros L. unfold receive_turn, recv_once. destruct segs as [|[l|e|] segs].
  - auto.
  - destruct (n - List.length got)%nat as [|k] eqn:K; [lia|]. cbn [recv_loop].
    destruct (Nat.leb_spec (List.length l) (S k)) as [A|A].
    + destruct (Nat.leb_spec n (List.length (got ++ l))) as [B|B]; rewrite app_length in B.
      * replace (S k - List.length l)%nat with O by lia. split; [destruct segs; reflexivity|]. rewrite app_length. lia.
      * rewrite app_length. split; [exact B|]. f_equal. lia.
    + assert (F : List.length (firstn (S k) l) = S k) by (rewrite firstn_length; lia).
      destruct (Nat.leb_spec n (List.length (got ++ firstn (S k) l))) as [B|B]; rewrite app_length, F in B; [|lia].
      split; [reflexivity|]. rewrite app_length, F. lia.
  - destruct (n - List.length got)%nat as [|k] eqn:K; [lia|]. cbn [recv_loop].
    destruct (e =? EINTR); [|reflexivity]. split; [exact L|]. now rewrite K.
  - destruct (n - List.length got)%nat as [|k] eqn:K; [lia|]. cbn [recv_loop].
    split; [reflexivity|]. rewrite app_length. unfold zeros. rewrite repeat_length. lia.
Qed.

Lemma header_there_resume h handle header :
  match header_there h handle header with
  | inl pl => open pl /\ forall w, after_header h handle header w = resume h handle pl w
  | inr o => forall w, after_header h handle header w = (o, w)
  end.
Proof.
  unfold header_there, after_header, st_bind. destruct (length_from_header h header) as [len| | |]; try reflexivity.
  destruct (Nat.eqb_spec (Z.to_nat len) 0) as [Z0|N].
  - intros w. rewrite Z0. unfold net_receive, tcp_receive. destruct w as [a [|x b] c]; reflexivity.
  - split; [cbn [open List.length]; lia|]. intros w. unfold resume, st_bind, receive_more, net_receive, tcp_receive.
    cbn [List.length]. now rewrite Nat.sub_0_r.
Qed.

(** What a step does to a thread that is in a call. *)
Lemma go_inside h p handle t s :
  let pl := th_place (ts_threads s t) in let calls := th_calls (ts_threads s t) in
  open pl ->
  (exists pl' w' ns, go h p handle t s = at_place s t w' calls pl' ns /\ open pl'
      /\ resume h handle pl (ts_net s) = resume h handle pl' w'
      /\ requests ns = [] /\ senders ns = [] /\ returns ns = [] /\ forall i, requests_of i ns = [])
  \/ (exists o w' ns, go h p handle t s = at_place s t w' calls Outside ns
      /\ resume h handle pl (ts_net s) = (o, w')
      /\ requests ns = [] /\ senders ns = [] /\ returns ns = [(t, o)] /\ forall i, requests_of i ns = []).
Proof.
  cbv zeta. unfold go. destruct (th_place (ts_threads s t)) as [|got|header n got]; intros O; [destruct O| |].
  - cbn [open] in O. pose proof (turn_loop HEADER_SIZE got (n_in (ts_net s)) O) as T.
    destruct (receive_turn HEADER_SIZE got (n_in (ts_net s))) as [x segs].
    assert (F : requests (first_bytes t got x) = [] /\ senders (first_bytes t got x) = []
                /\ returns (first_bytes t got x) = [] /\ forall i, requests_of i (first_bytes t got x) = []).
    { destruct got, x as [[|]| |]; repeat split. }
    destruct F as (F1 & F2 & F3 & F4). destruct x as [got'|d|e].
    + destruct T as [T1 T2]. left. eexists _, _, _. split; [reflexivity|]. split; [exact T1|]. split; [|auto].
      unfold resume, st_bind, receive_more. rewrite T2. reflexivity.
    + destruct T as [T1 T2]. pose proof (header_there_resume h handle d) as H.
      destruct (header_there h handle d) as [pl|o].
      * destruct H as [H1 H2]. left. eexists _, _, _. split; [reflexivity|]. split; [exact H1|]. split; [|auto].
        rewrite <- H2. unfold resume, st_bind, receive_more. now rewrite T1.
      * right. eexists _, _, _. split; [reflexivity|]. split.
        { unfold resume, st_bind, receive_more. rewrite T1. apply H. }
        rewrite requests_app, senders_app, returns_app, F1, F2, F3. repeat split.
        intros i. rewrite requests_of_app, F4. reflexivity.
    + right. eexists _, _, _. split; [reflexivity|]. split.
      { unfold resume, st_bind, receive_more. now rewrite T. }
      repeat split.
  - cbn [open] in O. pose proof (turn_loop n got (n_in (ts_net s)) O) as T.
    destruct (receive_turn n got (n_in (ts_net s))) as [x segs]. destruct x as [got'|d|e].
    + destruct T as [T1 T2]. left. eexists _, _, _. split; [reflexivity|]. split; [exact T1|]. split; [|repeat split].
      unfold resume, st_bind, receive_more. rewrite T2. reflexivity.
    + destruct T as [T1 T2]. right. eexists _, _, _. split; [reflexivity|]. split; [|repeat split].
      unfold resume, st_bind, receive_more. rewrite T1. reflexivity.
    + right. eexists _, _, _. split; [reflexivity|]. split; [|repeat split].
      unfold resume, st_bind, receive_more. rewrite T. reflexivity.
Qed.

Lemma late_inside h handle t s :
  let pl := th_place (ts_threads s t) in let calls := th_calls (ts_threads s t) in
  open pl ->
  late t s = s
  \/ (n_in (ts_net s) = [] /\ late t s = at_place s t (ts_net s) calls Outside [Returned t (Throw (SystemError EAGAIN))]
      /\ resume h handle pl (ts_net s) = (Throw (SystemError EAGAIN), ts_net s)).
Proof.
  cbv zeta. unfold late. destruct (ts_net s) as [ns segs rs] eqn:W. cbn [n_in].
  destruct (th_place (ts_threads s t)) as [|got|header n got]; intros O; [destruct O| |];
    (destruct segs as [|x segs]; [right|left; reflexivity]).
  - split; [reflexivity|]. split; [reflexivity|]. cbn [open] in O. unfold resume, st_bind, receive_more. cbn [n_in n_sent n_results].
    destruct (HEADER_SIZE - List.length got)%nat as [|k] eqn:K; [lia|]. reflexivity.
  - split; [reflexivity|]. split; [reflexivity|]. cbn [open] in O. unfold resume, st_bind, receive_more. cbn [n_in n_sent n_results].
    destruct (n - List.length got)%nat as [|k] eqn:K; [lia|]. reflexivity.
Qed.

Lemma at_place_same s t w qs pl ns : ts_threads (at_place s t w qs pl ns) t = mkThread qs pl.
Proof. unfold at_place, set_thread. cbn [ts_threads]. now rewrite Nat.eqb_refl. Qed.
Lemma at_place_other s t w qs pl ns i : i <> t -> ts_threads (at_place s t w qs pl ns) i = ts_threads s i.
Proof. intros N. unfold at_place, set_thread. cbn [ts_threads]. apply Nat.eqb_neq in N. now rewrite N. Qed.

(** Every place a thread is at while in a call is an open one. *)
Definition proper (s : shared) : Prop :=
  forall t, th_place (ts_threads s t) = Outside \/ open (th_place (ts_threads s t)).
Lemma proper_at s t w qs pl ns : proper s -> pl = Outside \/ open pl -> proper (at_place s t w qs pl ns).
Proof.
  intros P O i. destruct (Nat.eq_dec i t) as [->|N].
  - rewrite at_place_same. exact O.
  - rewrite at_place_other by exact N. apply P.
Qed.
Lemma send_checks n r : send_check n r = Ok tt \/ exists e, send_check n r = Throw e.
Proof. unfold send_check. match goal with |- context [if ?b then Throw _ else _] => destruct b end; eauto. Qed.
Lemma go_outside h p handle t s : th_place (ts_threads s t) = Outside ->
  match th_calls (ts_threads s t) with
  | [] => go h p handle t s = s
  | q :: qs => exists w', (go h p handle t s = at_place s t w' qs (InHeader []) [Handed t q]
                           /\ net_send p (encaps_pack q) (ts_net s) = (Ok tt, w'))
                 \/ exists e, go h p handle t s = at_place s t w' qs Outside [Handed t q; Returned t (Throw e)]
                           /\ net_send p (encaps_pack q) (ts_net s) = (Throw e, w')
  end.
Proof.
  intros E. unfold go. rewrite E. destruct (th_calls (ts_threads s t)) as [|q qs]; [reflexivity|].
  destruct (net_send p (encaps_pack q) (ts_net s)) as [o w'] eqn:X.
  assert (O : o = Ok tt \/ exists e, o = Throw e).
  { apply (f_equal fst) in X. cbn [fst net_send] in X. rewrite <- X. apply send_checks. }
  exists w'. destruct O as [->|[e ->]]; [left|right; exists e]; auto.
Qed.
Lemma step_proper h p handle s e : proper s -> proper (step h p handle s e).
Proof.
  intros P. destruct e as [t|t]; cbn [step].
  - destruct (P t) as [E|O].
    + pose proof (go_outside h p handle t s E) as H. destruct (th_calls (ts_threads s t)) as [|q qs].
      * rewrite H. exact P.
      * destruct H as (w' & [[-> _]|(e & -> & _)]); apply proper_at; auto. right. cbn. unfold HEADER_SIZE. lia.
    + destruct (go_inside h p handle t s O) as [(pl' & w' & ns & -> & O' & _)|(o & w' & ns & -> & _)];
        apply proper_at; auto.
  - destruct (P t) as [E|O].
    + unfold late. rewrite E. exact P.
    + destruct (late_inside h handle t s O) as [->|(_ & -> & _)]; [exact P|]. apply proper_at; auto.
Qed.
Lemma run_proper h p handle es : forall s, proper s -> proper (run_threads h p handle s es).
Proof. induction es as [|e es IH]; intros s P; [exact P|]. apply IH, step_proper, P. Qed.
Lemma start_proper calls w : proper (threads_start calls w).
Proof. intros t. left. reflexivity. Qed.

(** ** A lock around every call *)

Lemma exchanges_snoc h p handle qs : forall q w,
  exchanges h p handle (qs ++ [q]) w
  = (let '(os, w1) := exchanges h p handle qs w in
     let '(o, w2) := send_and_receive h p handle q w1 in (os ++ [o], w2)).
Proof.
  induction qs as [|q0 qs IH]; intros q w; cbn [app exchanges].
  - now destruct (send_and_receive h p handle q w).
  - destruct (send_and_receive h p handle q0 w) as [o0 w0]. rewrite IH.
    destruct (exchanges h p handle qs w0) as [os w1]. now destruct (send_and_receive h p handle q w1).
Qed.
Lemma exchanges_length h p handle qs : forall w os w', exchanges h p handle qs w = (os, w') -> List.length os = List.length qs.
Proof.
  induction qs as [|q qs IH]; intros w os w' E; cbn [exchanges] in E.
  - now inversion E.
  - destruct (send_and_receive h p handle q w) as [o w1]. destruct (exchanges h p handle qs w1) as [os' w2] eqn:E'.
    inversion E. subst. cbn [List.length]. f_equal. eapply IH. exact E'.
Qed.

Lemma locked_app h p handle es : forall s e, locked h p handle s (es ++ [e]) ->
  locked h p handle s es
  /\ forall t, t <> who e -> th_place (ts_threads (run_threads h p handle s es) t) = Outside.
Proof.
  induction es as [|e0 es IH]; intros s e L; cbn [app locked] in L.
  - split; [exact Logic.I|]. apply L.
  - destruct L as [L1 L2]. apply IH in L2 as [L2 L3]. split; [split; assumption|]. exact L3.
Qed.

(** Nobody is in a call, or one thread, whose call goes on as it would alone. *)
Definition in_turn (h : heap) (p : peer) (handle : Z) (w0 : net) (s : shared) : Prop :=
  let ns := ts_notes s in
  (quiet s /\ exists os, exchanges h p handle (requests ns) w0 = (os, ts_net s) /\ returns ns = combine (senders ns) os)
  \/ (exists t qs q ss os w1, open (th_place (ts_threads s t)) /\ (forall i, i <> t -> th_place (ts_threads s i) = Outside)
      /\ requests ns = qs ++ [q] /\ senders ns = ss ++ [t] /\ exchanges h p handle qs w0 = (os, w1)
      /\ returns ns = combine ss os /\ send_and_receive h p handle q w1 = resume h handle (th_place (ts_threads s t)) (ts_net s)).

Lemma combine_snoc {A B} (a : list A) (b : list B) x y : List.length a = List.length b ->
  combine (a ++ [x]) (b ++ [y]) = combine a b ++ [(x, y)].
Proof.
  revert b. induction a as [|x0 a IH]; intros [|y0 b] L; try discriminate; [reflexivity|].
  cbn [app combine]. now rewrite IH by (injection L; auto).
Qed.

Lemma in_turn_step h p handle w0 s e : proper s -> in_turn h p handle w0 s ->
  (forall t, t <> who e -> th_place (ts_threads s t) = Outside) -> in_turn h p handle w0 (step h p handle s e).
Proof.
  intros P I L.
  assert (QT : forall t w qs pl ns, (forall i, i <> t -> th_place (ts_threads s i) = Outside) -> pl = Outside -> quiet (at_place s t w qs pl ns)).
  { intros t w qs pl ns H -> i. destruct (Nat.eq_dec i t) as [->|N]; [now rewrite at_place_same|].
    rewrite at_place_other by exact N. now apply H. }
  destruct I as [[Q (os & E & R)]|(t & qs & q & ss & os & w1 & O & Oth & Rq & Sd & E & R & Go)].
  - (* quiet *)
    destruct e as [t|t]; cbn [step who] in *.
    2: { unfold late. rewrite Q. left. eauto. }
    pose proof (go_outside h p handle t s (Q t)) as H. destruct (th_calls (ts_threads s t)) as [|q qs].
    { rewrite H. left. eauto. }
    destruct H as (w' & [[-> X]|(e & -> & X)]).
    + right. exists t, (requests (ts_notes s)), q, (senders (ts_notes s)), os, (ts_net s).
      rewrite at_place_same. cbn [th_place at_place ts_notes ts_net]. rewrite requests_app, senders_app, returns_app. cbn [requests senders returns].
      split; [cbn; unfold HEADER_SIZE; lia|]. split.
      { intros i N. change (mkShared w' _ _) with (at_place s t w' qs (InHeader []) [Handed t q]). rewrite at_place_other by exact N. apply Q. }
      rewrite app_nil_r. repeat (split; [reflexivity || assumption|]). rewrite sar_resume, X. reflexivity.
    + left. split; [now apply QT|]. exists (os ++ [Throw e]). cbn [at_place ts_notes ts_net].
      rewrite requests_app, senders_app, returns_app. cbn [requests senders returns].
      rewrite exchanges_snoc, E, sar_resume, X. split; [reflexivity|]. rewrite R, combine_snoc; [reflexivity|].
      rewrite senders_length. symmetry. eapply exchanges_length. exact E.
  - (* one thread in a call *)
    destruct (Nat.eq_dec (who e) t) as [W|N].
    2: { exfalso. specialize (L t ltac:(congruence)). rewrite L in O. exact O. }
    assert (LL : List.length ss = List.length os).
    { apply exchanges_length in E. pose proof (senders_length (ts_notes s)) as X. rewrite Sd, Rq, !app_length in X. cbn [List.length] in X. lia. }
    destruct e as [t'|t']; cbn [step who] in *; subst t'.
    + destruct (go_inside h p handle t s O) as [(pl' & w' & ns & -> & O' & Rs & N1 & N2 & N3 & _)|(o & w' & ns & -> & Rs & N1 & N2 & N3 & _)].
      * right. exists t, qs, q, ss, os, w1. rewrite at_place_same. cbn [th_place at_place ts_notes ts_net].
        rewrite requests_app, senders_app, returns_app, N1, N2, N3, !app_nil_r.
        split; [exact O'|]. split.
        { intros i N. change (mkShared w' _ _) with (at_place s t w' (th_calls (ts_threads s t)) pl' ns). rewrite at_place_other by exact N. now apply Oth. }
        repeat (split; [assumption|]). congruence.
      * left. split; [now apply QT|]. exists (os ++ [o]). cbn [at_place ts_notes ts_net].
        rewrite requests_app, senders_app, returns_app, N1, N2, N3, !app_nil_r, Rq, Sd, R.
        rewrite exchanges_snoc, E, Go, Rs. split; [reflexivity|]. now rewrite combine_snoc.
    + destruct (late_inside h handle t s O) as [->|(_ & -> & Rs)].
      * right. exists t, qs, q, ss, os, w1. auto 10.
      * left. split; [now apply QT|]. exists (os ++ [Throw (SystemError EAGAIN)]). cbn [at_place ts_notes ts_net].
        rewrite requests_app, senders_app, returns_app. cbn [requests senders returns]. rewrite !app_nil_r, Rq, Sd, R.
        rewrite exchanges_snoc, E, Go, Rs. split; [reflexivity|]. now rewrite combine_snoc.
Qed.

Lemma in_turn_run h p handle calls w es : locked h p handle (threads_start calls w) es ->
  in_turn h p handle w (run_threads h p handle (threads_start calls w) es).
Proof.
  induction es as [|e es IH] using rev_ind; intros L.
  - left. split; [intros t; reflexivity|]. exists []. split; reflexivity.
  - apply locked_app in L as [L1 L2]. rewrite run_snoc. apply in_turn_step; [apply run_proper, start_proper|auto|auto].
Qed.

Lemma threads_locked h p handle calls w es : let s := run_threads h p handle (threads_start calls w) es in
  let ns := ts_notes s in
  locked h p handle (threads_start calls w) es ->
  exists os w', exchanges h p handle (requests ns) w = (os, w') /\ List.length os = List.length (senders ns)
    /\ returns ns = firstn (List.length (returns ns)) (combine (senders ns) os)
    /\ (List.length (senders ns) <= S (List.length (returns ns)))%nat
    /\ (quiet s -> returns ns = combine (senders ns) os /\ ts_net s = w').
Proof.
  intros s ns L. pose proof (in_turn_run h p handle calls w es L) as I. fold s in I. unfold in_turn in I. cbv zeta in I. fold ns in I.
  destruct I as [[Q (os & E & R)]|(t & qs & q & ss & os & w1 & O & Oth & Rq & Sd & E & R & Go)].
  - exists os, (ts_net s). pose proof (exchanges_length _ _ _ _ _ _ _ E) as EL. rewrite <- senders_length in EL.
    split; [exact E|]. split; [exact EL|]. split; [rewrite firstn_all2; [exact R|rewrite <- R; lia]|]. split; [|auto].
    rewrite R, combine_length. lia.
  - rewrite Rq, exchanges_snoc, E. destruct (send_and_receive h p handle q w1) as [o w2]. exists (os ++ [o]), w2.
    assert (LL : List.length ss = List.length os).
    { apply exchanges_length in E. pose proof (senders_length ns) as X. rewrite Sd, Rq, !app_length in X. cbn [List.length] in X. lia. }
    split; [reflexivity|]. rewrite Sd, !app_length. cbn [List.length]. split; [lia|]. rewrite combine_snoc by exact LL.
    split.
    { rewrite firstn_app, firstn_all2 by (rewrite R; lia). rewrite R, combine_length, LL, Nat.min_id, Nat.sub_diag. cbn [firstn]. now rewrite app_nil_r. }
    split; [rewrite R, combine_length; lia|]. intros Q. rewrite Q in O. destruct O.
Qed.

Lemma threads_own h p handle calls w es rs : let s := run_threads h p handle (threads_start calls w) es in
  let ns := ts_notes s in
  locked h p handle (threads_start calls w) es ->
  answers p (n_sent w) (requests ns) rs -> all_accepted (n_results w) (map encaps_pack (requests ns)) -> drained (n_in w) ->
  returns ns = firstn (List.length (returns ns)) (combine (senders ns) (map (verdict handle) rs))
  /\ (List.length (senders ns) <= S (List.length (returns ns)))%nat
  /\ (quiet s -> returns ns = combine (senders ns) (map (verdict handle) rs)).
Proof.
  intros s ns L A R D. destruct (threads_locked h p handle calls w es L) as (os & w' & E & _ & F & C & Q).
  fold s in E, F, C, Q. fold ns in E, F, C, Q.
  destruct (exchanges_answered h p handle _ _ _ A w eq_refl R D) as (w2 & E2 & _).
  rewrite E in E2. apply (f_equal fst) in E2. cbn [fst] in E2. rewrite <- E2. split; [exact F|]. split; [exact C|]. intros X. apply Q, X.
Qed.

(** ** Every schedule: the calls that are made *)

Lemma go_inside_calls h p handle t s : open (th_place (ts_threads s t)) ->
  exists w pl ns, go h p handle t s = at_place s t w (th_calls (ts_threads s t)) pl ns /\ forall i, requests_of i ns = [].
Proof.
  intros O. destruct (go_inside h p handle t s O) as [(pl & w & ns & E & _ & _ & _ & _ & _ & N)|(o & w & ns & E & _ & _ & _ & _ & N)]; eauto 6.
Qed.

Definition accounted (calls : nat -> list encaps) (s : shared) : Prop :=
  forall i, requests_of i (ts_notes s) ++ th_calls (ts_threads s i) = calls i.
Lemma accounted_at calls s t w qs pl ns : accounted calls s -> (forall i, i <> t -> requests_of i ns = []) ->
  requests_of t ns ++ qs = th_calls (ts_threads s t) -> accounted calls (at_place s t w qs pl ns).
Proof.
  intros A N E i. cbn [at_place ts_notes]. rewrite requests_of_app, <- app_assoc.
  change (mkShared w _ _) with (at_place s t w qs pl ns).
  destruct (Nat.eq_dec i t) as [->|D].
  - rewrite at_place_same. cbn [th_calls]. rewrite E. apply A.
  - rewrite N by exact D. rewrite at_place_other by exact D. apply A.
Qed.
Lemma handed_other t q i r : i <> t -> requests_of i (Handed t q :: r) = requests_of i r.
Proof. intros N. cbn [requests_of]. destruct (Nat.eqb_spec t i); [congruence|reflexivity]. Qed.
Lemma handed_same t q r : requests_of t (Handed t q :: r) = q :: requests_of t r.
Proof. cbn [requests_of]. now rewrite Nat.eqb_refl. Qed.
Lemma accounted_step h p handle calls s e : proper s -> accounted calls s -> accounted calls (step h p handle s e).
Proof.
  intros P A. destruct e as [t|t]; cbn [step].
  - destruct (P t) as [E|O].
    + pose proof (go_outside h p handle t s E) as H. destruct (th_calls (ts_threads s t)) as [|q qs] eqn:C.
      * rewrite H. exact A.
      * destruct H as (w' & [[-> _]|(e & -> & _)]); apply accounted_at; try exact A; intros;
          rewrite ?handed_other by assumption; rewrite ?handed_same; try reflexivity; symmetry; exact C.
    + destruct (go_inside_calls h p handle t s O) as (w & pl & ns & -> & N). apply accounted_at; [exact A|auto|]. now rewrite N.
  - destruct (P t) as [E|O].
    + unfold late. rewrite E. exact A.
    + destruct (late_inside h handle t s O) as [->|(_ & -> & _)]; [exact A|]. now apply accounted_at.
Qed.
Lemma threads_calls h p handle calls w es : let s := run_threads h p handle (threads_start calls w) es in
  forall t, requests_of t (ts_notes s) ++ th_calls (ts_threads s t) = calls t.
Proof.
  cbv zeta. change (accounted calls (run_threads h p handle (threads_start calls w) es)).
  induction es as [|e es IH] using rev_ind; [intros t; reflexivity|].
  rewrite run_snoc. apply accounted_step; [apply run_proper, start_proper|exact IH].
Qed.

(** ** Every schedule: how calls end *)

Lemma turn_bytes n got segs : is_bytes got -> Forall byte_seg segs ->
  let '(x, segs') := receive_turn n got segs in
  Forall byte_seg segs' /\ match x with Again d | Full d => is_bytes d | Stops _ => True end.
Proof.
  intros B F. unfold receive_turn, recv_once. destruct segs as [|[l|e|] segs]; [auto| | |]; inversion F as [|x y F1 F2]; subst.
  - cbn [byte_seg] in F1. destruct (Nat.leb _ (n - _)).
    + split; [exact F2|]. destruct (Nat.leb n _); apply is_bytes_app; auto.
    + split; [constructor; [|exact F2]; cbn [byte_seg]; apply is_bytes_skipn, F1|].
      destruct (Nat.leb n _); apply is_bytes_app; auto using is_bytes_firstn.
  - split; [exact F2|]. destruct (e =? EINTR); auto.
  - split; [exact F|]. apply is_bytes_app. split; [exact B|]. apply zeros_bytes.
Qed.

Definition byte_place (pl : place) : Prop :=
  match pl with
  | Outside => True
  | InHeader got => is_bytes got
  | InData header _ got => is_bytes header /\ is_bytes got
  end.
Lemma conclude_decent h handle header data : is_bytes (header ++ data) -> decent handle (conclude h handle header data).
Proof.
  intros B. unfold conclude. pose proof (encaps_reject h encaps0 (header ++ data) B eq_refl) as R.
  destruct (encaps_expand h encaps0 (header ++ data)) as [r o]. cbn [snd] in R.
  destruct R as [->|[->| ->]]; cbn [finished bind]; [|exact Logic.I..].
  rewrite check_verdict. unfold verdict, acceptable. destruct (Z.eqb_spec (e_status r) 0) as [S|S]; cbn [andb].
  - destruct (Z.eqb_spec handle 0) as [H|H]; cbn [orb].
    + cbn [decent]. auto.
    + destruct (Z.eqb_spec (e_handle r) handle) as [K|K]; [cbn [decent]; auto|exact Logic.I].
  - exact Logic.I.
Qed.
Definition sound (handle : Z) (s : shared) : Prop :=
  Forall byte_seg (n_in (ts_net s)) /\ (forall t, byte_place (th_place (ts_threads s t)))
  /\ Forall (fun x => decent handle (snd x)) (returns (ts_notes s)).
Lemma sound_at handle s t w qs pl ns : sound handle s -> Forall byte_seg (n_in w) -> byte_place pl ->
  Forall (fun x => decent handle (snd x)) (returns ns) -> sound handle (at_place s t w qs pl ns).
Proof.
  intros (A & B & C) F P R. split; [exact F|]. split.
  - intros i. destruct (Nat.eq_dec i t) as [->|D]; [rewrite at_place_same; exact P|rewrite at_place_other by exact D; apply B].
  - cbn [at_place ts_notes]. rewrite returns_app. apply Forall_app. auto.
Qed.
Lemma first_bytes_returns t got x : returns (first_bytes t got x) = [].
Proof. destruct got, x as [[|]| |]; reflexivity. Qed.
Lemma sound_step h p handle s e : byte_peer p -> proper s -> sound handle s -> sound handle (step h p handle s e).
Proof.
  intros Bp P So. destruct e as [t|t]; cbn [step].
  2: { destruct (P t) as [E|O].
       - unfold late. rewrite E. exact So.
       - destruct (late_inside h handle t s O) as [->|(_ & -> & _)]; [exact So|].
         apply sound_at; [exact So|apply So|exact Logic.I|]. constructor; [exact Logic.I|constructor]. }
  destruct (P t) as [E|O].
  - pose proof (go_outside h p handle t s E) as H. destruct (th_calls (ts_threads s t)) as [|q qs].
    + rewrite H. exact So.
    + assert (N : forall w' o, net_send p (encaps_pack q) (ts_net s) = (o, w') -> Forall byte_seg (n_in w')).
      { intros w' o X. apply (f_equal snd) in X. cbn [snd net_send] in X. subst w'. cbn [n_in]. apply Forall_app. split; [apply So|apply Bp]. }
      destruct H as (w' & [[-> X]|(e & -> & X)]); (apply sound_at; [exact So|eapply N, X| |]).
      * constructor.
      * constructor.
      * exact Logic.I.
      * constructor; [exact Logic.I|constructor].
  - pose proof So as (A & B & C). specialize (B t). unfold go. destruct (th_place (ts_threads s t)) as [|got|header n got]; [destruct O| |].
    + cbn [open byte_place] in *. pose proof (turn_bytes HEADER_SIZE got _ B A) as T.
      pose proof (turn_loop HEADER_SIZE got (n_in (ts_net s)) O) as Tl.
      destruct (receive_turn HEADER_SIZE got (n_in (ts_net s))) as [x segs]. destruct T as [T1 T2].
      destruct x as [d|d|e].
      * apply sound_at; auto. rewrite first_bytes_returns. constructor.
      * destruct Tl as [_ Ld]. unfold header_there. rewrite length_from_header_ok by (assumption || (rewrite Ld; unfold HEADER_SIZE; lia)).
        destruct (Nat.eqb _ 0).
        -- apply sound_at; [assumption..|exact Logic.I|]. rewrite returns_app, first_bytes_returns. constructor; [|constructor].
           apply conclude_decent. now rewrite app_nil_r.
        -- apply sound_at; auto; [split; [assumption|constructor]|]. rewrite first_bytes_returns. constructor.
      * apply sound_at; auto. constructor; [exact Logic.I|constructor].
    + cbn [open byte_place] in *. destruct B as [B1 B2]. pose proof (turn_bytes n got _ B2 A) as T.
      destruct (receive_turn n got (n_in (ts_net s))) as [x segs]. destruct T as [T1 T2]. destruct x as [d|d|e].
      * apply sound_at; cbn [byte_place]; auto. constructor.
      * apply sound_at; cbn [byte_place]; auto. constructor; [|constructor]. apply conclude_decent. apply is_bytes_app. auto.
      * apply sound_at; cbn [byte_place]; auto. constructor; [exact Logic.I|constructor].
Qed.
Lemma threads_safe h p handle calls w es : byte_peer p -> byte_net w ->
  Forall (fun x => decent handle (snd x)) (returns (ts_notes (run_threads h p handle (threads_start calls w) es))).
Proof.
  intros Bp Bw. enough (S : sound handle (run_threads h p handle (threads_start calls w) es)) by apply S.
  induction es as [|e es IH] using rev_ind.
  - split; [exact Bw|]. split; [intros t; exact Logic.I|constructor].
  - rewrite run_snoc. apply sound_step; [exact Bp|apply run_proper, start_proper|exact IH].
Qed.

(** ** Every schedule: a thread alone can finish its calls *)

Definition alone (h : heap) (p : peer) (handle : Z) (t : nat) (s : shared) (calls : list encaps) : Prop :=
  exists es, Forall (fun e => who e = t) es /\ ts_threads (run_threads h p handle s es) t = mkThread calls Outside.
Lemma alone_step h p handle t s calls e : who e = t -> alone h p handle t (step h p handle s e) calls -> alone h p handle t s calls.
Proof. intros W (es & F & E). exists (e :: es). split; [constructor; assumption|exact E]. Qed.
Lemma alone_now h p handle t s calls : ts_threads s t = mkThread calls Outside -> alone h p handle t s calls.
Proof. intros E. exists []. split; [constructor|exact E]. Qed.
Lemma thread_eta th c pl : th_calls th = c -> th_place th = pl -> th = mkThread c pl.
Proof. destruct th. cbn. intros -> ->. reflexivity. Qed.

Lemma turn_consumes n got y segs : (List.length got < n)%nat ->
  match receive_turn n got (y :: segs) with (Again got', segs') => segs' = segs /\ (List.length got' < n)%nat | _ => True end.
Proof.
  intros L. pose proof (turn_loop n got (y :: segs) L) as T. revert T. unfold receive_turn, recv_once. destruct y as [l|e|].
  - destruct (Nat.leb_spec (List.length l) (n - List.length got)) as [A|A].
    + destruct (Nat.leb n _); [auto|]. intros [T _]. auto.
    + destruct (Nat.leb_spec n (List.length (got ++ firstn (n - List.length got) l))) as [B|B]; [auto|].
      exfalso. rewrite app_length, firstn_length in B. lia.
  - destruct (e =? EINTR); auto.
  - auto.
Qed.
Lemma alone_data h p handle t c : forall segs s header n got, n_in (ts_net s) = segs -> ts_threads s t = mkThread c (InData header n got) ->
  (List.length got < n)%nat -> alone h p handle t s c.
Proof.
  induction segs as [|y segs IH]; intros s header n got E T L.
  - apply alone_step with (Late t); [reflexivity|]. apply alone_now. cbn [step]. unfold late. rewrite T. cbn [th_place th_calls]. rewrite E. apply at_place_same.
  - apply alone_step with (Go t); [reflexivity|]. cbn [step]. unfold go. rewrite T. cbn [th_place th_calls]. rewrite E.
    pose proof (turn_consumes n got y segs L) as C. destruct (receive_turn n got (y :: segs)) as [[d|d|e] segs'].
    + destruct C as [-> C]. eapply IH; [reflexivity|apply at_place_same|exact C].
    + apply alone_now, at_place_same.
    + apply alone_now, at_place_same.
Qed.
Lemma alone_header h p handle t c : forall segs s got, n_in (ts_net s) = segs -> ts_threads s t = mkThread c (InHeader got) ->
  (List.length got < HEADER_SIZE)%nat -> alone h p handle t s c.
Proof.
  induction segs as [|y segs IH]; intros s got E T L.
  - apply alone_step with (Late t); [reflexivity|]. apply alone_now. cbn [step]. unfold late. rewrite T. cbn [th_place th_calls]. rewrite E. apply at_place_same.
  - apply alone_step with (Go t); [reflexivity|]. cbn [step]. unfold go. rewrite T. cbn [th_place th_calls]. rewrite E.
    pose proof (turn_consumes HEADER_SIZE got y segs L) as C. destruct (receive_turn HEADER_SIZE got (y :: segs)) as [[d|d|e] segs'].
    + destruct C as [-> C]. eapply IH; [reflexivity|apply at_place_same|exact C].
    + pose proof (header_there_resume h handle d) as H. unfold header_there in *.
      destruct (length_from_header h d) as [len| | |]; try (apply alone_now, at_place_same).
      destruct (Nat.eqb (Z.to_nat len) 0); [apply alone_now, at_place_same|].
      eapply alone_data; [reflexivity|apply at_place_same|apply H].
    + apply alone_now, at_place_same.
Qed.
Lemma alone_then h p handle t s c c' : alone h p handle t s c ->
  (forall s', ts_threads s' t = mkThread c Outside -> alone h p handle t s' c') -> alone h p handle t s c'.
Proof.
  intros (es & F & E) H. destruct (H _ E) as (es' & F' & E'). exists (es ++ es'). split; [apply Forall_app; auto|].
  unfold run_threads in *. now rewrite fold_left_app.
Qed.
Lemma alone_outside h p handle t c : forall s, ts_threads s t = mkThread c Outside -> alone h p handle t s [].
Proof.
  induction c as [|q c IH]; intros s T; [apply alone_now, T|].
  apply alone_step with (Go t); [reflexivity|]. cbn [step].
  pose proof (go_outside h p handle t s) as H. rewrite T in H. specialize (H eq_refl). cbn [th_calls] in H.
  destruct H as (w' & [[-> _]|(e & -> & _)]).
  - eapply alone_then; [|exact IH]. eapply alone_header; [reflexivity|apply at_place_same|cbn; unfold HEADER_SIZE; lia].
  - apply IH, at_place_same.
Qed.
Lemma threads_finish h p handle calls w es t : exists es', Forall (fun e => who e = t) es'
  /\ let s := run_threads h p handle (threads_start calls w) (es ++ es') in
     th_place (ts_threads s t) = Outside /\ requests_of t (ts_notes s) = calls t.
Proof.
  pose proof (run_proper h p handle es _ (start_proper calls w) t) as P. set (s := run_threads h p handle (threads_start calls w) es) in *.
  assert (A : alone h p handle t s []).
  { destruct (ts_threads s t) as [c pl] eqn:T. cbn [th_place] in P. destruct pl as [|got|header n got].
    - eapply alone_outside, T.
    - destruct P as [P|P]; [discriminate|]. eapply alone_then; [eapply alone_header; [reflexivity|exact T|exact P]|]. intros s' T'. eapply alone_outside, T'.
    - destruct P as [P|P]; [discriminate|]. eapply alone_then; [eapply alone_data; [reflexivity|exact T|exact P]|]. intros s' T'. eapply alone_outside, T'. }
  destruct A as (es' & F & E). exists es'. split; [exact F|]. cbv zeta.
  pose proof (threads_calls h p handle calls w (es ++ es') t) as C. cbv zeta in C.
  assert (X : run_threads h p handle (threads_start calls w) (es ++ es') = run_threads h p handle s es').
  { unfold s, run_threads. now rewrite fold_left_app. }
  rewrite X in *. rewrite E in *. cbn [th_place th_calls] in *. rewrite app_nil_r in C. auto.
Qed.
