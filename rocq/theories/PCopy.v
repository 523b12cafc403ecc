(** Proofs: copied sessions. *)
From Verif Require Import Base MBuffer PBase MEip MSocket MConn MFd MRes MCopy SCopy.
Ltac Zify.zify_post_hook ::= Z.div_mod_to_equations.

Lemma update_same {A} (f : nat -> A) i a : update f i a i = a.
Proof. unfold update. now rewrite Nat.eqb_refl. Qed.
Lemma update_other {A} (f : nat -> A) i a j : j <> i -> update f i a j = f j.
Proof. intros N. unfold update. destruct (Nat.eqb_spec j i); congruence. Qed.
Lemma set_tab_same t fd x : set_tab t fd x fd = x.
Proof. unfold set_tab. now rewrite Z.eqb_refl. Qed.
Lemma set_tab_other t fd x n : n <> fd -> set_tab t fd x n = t n.
Proof. intros N. unfold set_tab. destruct (Z.eqb_spec n fd); congruence. Qed.

Lemma crun_app h a b s : crun h (a ++ b) s = crun h b (crun h a s).
Proof.
  revert s. induction a as [|c a IH]; intros s; [reflexivity|]. cbn [app crun]. destruct (cw_over s) eqn:E; [|apply IH].
  destruct b; cbn [crun]; [reflexivity|]. now rewrite E.
Qed.
Lemma crun_snoc h cs c s : crun h (cs ++ [c]) s = if cw_over (crun h cs s) then crun h cs s else cstep h c (crun h cs s).
Proof. rewrite crun_app. cbn [crun]. reflexivity. Qed.

(** A bad descriptor: Send says nothing, Receive throws. *)
Lemma bad_send data e e' : zlen data < 2 ^ 31 -> net_send silent data (bad_net e e') = (Ok tt, mkNet [[]] [Err e'] []).
Proof.
  intros L. unfold net_send, bad_net, silent. cbn [n_results n_sent n_in tl s_count s_errno]. f_equal.
  unfold send_check. cbn [s_count s_errno]. change (-1 <? 0) with true. cbv iota. destruct (Z.ltb_spec (2 ^ 64 + -1) (zlen data)); [lia|reflexivity].
Qed.
Lemma bad_exchange h handle q e e' : zlen (encaps_pack q) < 2 ^ 31 -> e' <> EINTR ->
  fst (send_and_receive h silent handle q (bad_net e e')) = Throw (SystemError e').
Proof.
  intros L N. unfold send_and_receive, st_bind. rewrite bad_send by exact L. unfold net_receive, tcp_receive.
  change HEADER_SIZE with (Datatypes.S 23). cbn [n_in recv_loop]. destruct (Z.eqb_spec e' EINTR); [congruence|]. reflexivity.
Qed.
Lemma bad_destroy handle e e' : fst (session_destroy silent handle (bad_net e e')) = Ok tt.
Proof.
  unfold session_destroy. rewrite bad_send; [reflexivity|]. 
  vm_compute. reflexivity.
Qed.

(** ** What every program keeps *)
Definition kept (s : cworld) : Prop :=
  (forall i x, cw_obj s i = Some x -> (i < cw_next s)%nat /\ (ob_link x < cw_next s)%nat)
  /\ (forall i j x y, cw_obj s i = Some x -> cw_obj s j = Some y -> ob_link x = ob_link y -> x = y).

Lemma on_fd_obj {A} fd (act : peer -> st net A) s : cw_obj (snd (on_fd fd act s)) = cw_obj s /\ cw_next (snd (on_fd fd act s)) = cw_next s
  /\ cw_tab (snd (on_fd fd act s)) = cw_tab s.
Proof. unfold on_fd. destruct (cw_tab s fd) as [[|g]|]; try (repeat split; reflexivity). destruct (act (fst (cw_link s g)) (snd (cw_link s g))). repeat split; reflexivity. Qed.
Lemma on_fd_link {A} fd (act : peer -> st net A) s g : cw_tab s fd <> Some (Link g) -> cw_link (snd (on_fd fd act s)) g = cw_link s g.
Proof.
  intros N. unfold on_fd. destruct (cw_tab s fd) as [[|g']|]; try reflexivity. destruct (act (fst (cw_link s g')) (snd (cw_link s g'))).
  cbn [snd cw_link]. apply update_other. congruence.
Qed.

(** What a step does to the objects, the table and the connections. *)
Lemma destroy_obj i x s : cw_next (snd (copy_destroy i x s)) = cw_next s /\ cw_obj (snd (copy_destroy i x s)) = update (cw_obj s) i None
  /\ (forall n, n <> ob_fd x -> cw_tab (snd (copy_destroy i x s)) n = cw_tab s n)
  /\ (cw_over (snd (copy_destroy i x s)) = false -> cw_tab (snd (copy_destroy i x s)) (ob_fd x) = None).
Proof.
  unfold copy_destroy. destruct (on_fd_obj (ob_fd x) (fun p => session_destroy p (ob_handle x)) s) as (A & B & C).
  assert (E : cw_over (snd (on_fd (ob_fd x) (fun p => session_destroy p (ob_handle x)) s)) = ends (fst (on_fd (ob_fd x) (fun p => session_destroy p (ob_handle x)) s))).
  { unfold on_fd. destruct (cw_tab s (ob_fd x)) as [[|g]|]; try reflexivity. destruct (session_destroy _ _ _). reflexivity. }
  assert (T : forall e, fst (on_fd (ob_fd x) (fun p => session_destroy p (ob_handle x)) s) <> Throw e).
  { intros e. unfold on_fd. destruct (cw_tab s (ob_fd x)) as [[|g]|]; cbn [fst]; try (rewrite bad_destroy; discriminate).
    unfold session_destroy. destruct (net_send _ _ _) as [[v|e'|u|] w']; cbn [fst]; discriminate. }
  destruct (on_fd (ob_fd x) (fun p => session_destroy p (ob_handle x)) s) as [o s1]. cbn [fst snd] in *.
  cbn [cw_next cw_obj cw_tab cw_over snd]. rewrite A, B, C. split; [reflexivity|]. split; [reflexivity|]. split.
  - intros n N. destruct o; try reflexivity. now apply set_tab_other.
  - rewrite E. destruct o as [v|e|u|]; cbn [ends]; try discriminate; [intros _; apply set_tab_same|destruct (T e eq_refl)].
Qed.
Lemma destroy_link i x s g : cw_tab s (ob_fd x) <> Some (Link g) -> cw_link (snd (copy_destroy i x s)) g = cw_link s g.
Proof.
  intros N. unfold copy_destroy. pose proof (on_fd_link (ob_fd x) (fun p => session_destroy p (ob_handle x)) s g N) as H.
  destruct (on_fd (ob_fd x) (fun p => session_destroy p (ob_handle x)) s) as [o s1]. exact H.
Qed.
Lemma send_obj h x q s : cw_next (snd (copy_send h x q s)) = cw_next s /\ cw_obj (snd (copy_send h x q s)) = cw_obj s
  /\ cw_tab (snd (copy_send h x q s)) = cw_tab s.
Proof. unfold copy_send. destruct (on_fd_obj (ob_fd x) (fun p => send_and_receive h p (ob_handle x) q) s) as (A & B & C). repeat split; assumption. Qed.

(** A construction: nothing is taken, or the next number. *)
Lemma open_cases h fd k p w s (s' := copy_open h fd k p w s) :
  s' = s
  \/ cw_next s' = Datatypes.S (cw_next s)
     /\ ((cw_obj s' = cw_obj s /\ (forall n, cw_tab s n <> None -> cw_tab s' n = cw_tab s n) /\ (forall n g, cw_tab s' n = Some (Link g) -> cw_tab s n = Some (Link g)))
         \/ (exists handle, cw_tab s fd = None /\ k_socket k = None /\ cw_obj s' = update (cw_obj s) (cw_next s) (Some (mkObj handle fd (cw_next s)))
             /\ cw_tab s' = set_tab (cw_tab s) fd (Some (Link (cw_next s)))))
     /\ (forall g, g <> cw_next s -> cw_link s' g = cw_link s g)
     /\ (forall n, n <> fd -> cw_tab s' n = cw_tab s n).
Proof.
  subst s'. unfold copy_open. destruct (session_open_fd h fd k p w) as [[o w'] ev]. destruct (k_socket k) eqn:K.
  - right. cbn [cw_next cw_obj cw_tab cw_link]. split; [reflexivity|]. split; [left; repeat split; auto|]. split; auto.
  - destruct (cw_tab s fd) eqn:T; [now left|]. right.
    assert (Free : forall y n, cw_tab s n <> None -> set_tab (cw_tab s) fd y n = cw_tab s n) by (intros y n N; apply set_tab_other; congruence).
    assert (Left : forall n g, set_tab (cw_tab s) fd (left_behind k) n = Some (Link g) -> cw_tab s n = Some (Link g)).
    { intros n g. unfold set_tab. destruct (Z.eqb_spec n fd); [|auto]. unfold left_behind. destruct (k_getfl1 k), (k_setfl1 k); discriminate. }
    destruct o as [handle|e|u|]; cbn [cw_next cw_obj cw_tab cw_link]; (split; [reflexivity|]); (split; [|split; [intros g N; now apply update_other|intros n N; now apply set_tab_other]]).
    + right. exists handle. repeat split; auto.
    + left. repeat split; auto.
    + left. repeat split; auto.
    + left. repeat split; auto.
Qed.

Lemma kept_update s i y s' : kept s -> cw_next s' = cw_next s \/ cw_next s' = Datatypes.S (cw_next s) -> (i < cw_next s')%nat ->
  (exists j, cw_obj s j = Some y) -> cw_obj s' = update (cw_obj s) i (Some y) -> kept s'.
Proof.
  intros [K1 K2] N Li (j & Ej) E. assert (L : (ob_link y < cw_next s')%nat) by (apply K1 in Ej; lia).
  assert (G : forall a x, cw_obj s' a = Some x -> x = y \/ cw_obj s a = Some x).
  { intros a x. rewrite E. unfold update. destruct (Nat.eqb_spec a i); [intros H; injection H as <-; now left|now right]. }
  split.
  - intros a x H. rewrite E in H. unfold update in H. destruct (Nat.eqb_spec a i) as [->|]; [injection H as <-; now split|]. apply K1 in H. lia.
  - intros a b x z Ha Hb Q. destruct (G _ _ Ha) as [->|A], (G _ _ Hb) as [->|B]; [reflexivity| | |]; eauto.
Qed.
Lemma kept_less s s' : kept s -> (cw_next s <= cw_next s')%nat -> (forall i x, cw_obj s' i = Some x -> cw_obj s i = Some x) -> kept s'.
Proof. intros [K1 K2] N E. split; [intros i x H; apply E, K1 in H; lia|]. intros i j x y A B. apply E in A, B. eauto. Qed.

Lemma kept_step h c s : kept s -> kept (cstep h c s).
Proof.
  intros K. destruct c as [fd k p w|i|i j|i q|i]; cbn [cstep].
  - destruct (open_cases h fd k p w s) as [->|(N & [(E & _)|(handle & T & _ & E & _)] & _)]; [exact K| |].
    + apply (kept_less s); [exact K|lia|]. intros a x. now rewrite E.
    + destruct K as [K1 K2]. split.
      * intros a x. rewrite E, N. unfold update. destruct (Nat.eqb_spec a (cw_next s)) as [->|]; [intros H; injection H as <-; cbn; lia|].
        intros H; apply K1 in H; lia.
      * intros a b x y. rewrite E. unfold update. destruct (Nat.eqb_spec a (cw_next s)), (Nat.eqb_spec b (cw_next s)); intros A B Q; [congruence| | |eauto].
        -- injection A as <-. apply K1 in B. cbn in Q. lia.
        -- injection B as <-. apply K1 in A. cbn in Q. lia.
  - destruct (cw_obj s i) as [x|] eqn:E; [|exact K]. eapply kept_update with (y := x) (i := cw_next s); [exact K|right; reflexivity|cbn; lia|eauto|reflexivity].
  - destruct (cw_obj s i) as [x0|] eqn:Ei; [|exact K]. destruct (cw_obj s j) as [x|] eqn:E; [|exact K].
    eapply kept_update with (y := x) (i := i); [exact K|left; reflexivity|cbn; apply K in Ei; tauto|eauto|reflexivity].
  - destruct (cw_obj s i) as [x|] eqn:E; [|exact K]. destruct (send_obj h x q s) as (A & B & _). apply (kept_less s); [exact K|lia|]. intros a y. now rewrite B.
  - destruct (cw_obj s i) as [x|] eqn:E; [|exact K]. destruct (destroy_obj i x s) as (A & B & _). apply (kept_less s); [exact K|lia|].
    intros a y. rewrite B. unfold update. destruct (Nat.eqb_spec a i); [discriminate|auto].
Qed.
Lemma kept_start : kept cstart.
Proof. split; cbn; discriminate. Qed.
Lemma kept_run h cs s : kept s -> kept (crun h cs s).
Proof. revert s. induction cs as [|c cs IH]; intros s K; [exact K|]. cbn [crun]. destruct (cw_over s); [exact K|]. apply IH, kept_step, K. Qed.

(** ** Programs that destroy only the last copy *)
Definition owned (s : cworld) : Prop := forall i x, cw_obj s i = Some x -> cw_tab s (ob_fd x) = Some (Link (ob_link x)).

Lemma owned_step h c s : kept s -> owned s -> (forall i, c = KDestroy i -> alone s i) -> owned (cstep h c s).
Proof.
  intros K O Al. destruct c as [fd k p w|i|i j|i q|i]; cbn [cstep].
  - destruct (open_cases h fd k p w s) as [->|(N & [(E & T & _)|(handle & F & _ & E & T)] & _)]; [exact O| |]; intros a x; rewrite E.
    + intros H. apply O in H. rewrite T; [exact H|congruence].
    + rewrite T. unfold update. destruct (Nat.eqb_spec a (cw_next s)); intros H.
      * injection H as <-. apply set_tab_same.
      * apply O in H. rewrite set_tab_other; [exact H|congruence].
  - destruct (cw_obj s i) as [x|] eqn:E; [|exact O]. intros a y. cbn [cw_obj cw_tab]. unfold update. destruct (Nat.eqb_spec a (cw_next s)); [intros H; injection H as <-|]; eapply O; eassumption.
  - destruct (cw_obj s i) as [x0|] eqn:Ei; [|exact O]. destruct (cw_obj s j) as [x|] eqn:E; [|exact O].
    intros a y. cbn [cw_obj cw_tab]. unfold update. destruct (Nat.eqb_spec a i); [intros H; injection H as <-; eapply O|eapply O]; eassumption.
  - destruct (cw_obj s i) as [x|] eqn:E; [|exact O]. destruct (send_obj h x q s) as (_ & B & T). intros a y. rewrite B, T. apply O.
  - destruct (cw_obj s i) as [x|] eqn:E; [|exact O]. destruct (destroy_obj i x s) as (_ & B & T & _). intros a y. rewrite B. unfold update.
    destruct (Nat.eqb_spec a i) as [|Na]; [discriminate|]. intros H. pose proof (O _ _ H) as Ha. rewrite T; [exact Ha|].
    intros Q. apply Na. apply (Al i eq_refl x a y E H). apply O in E. congruence.
Qed.
Lemma careful_prefix h a b : careful h (a ++ b) -> careful h a.
Proof. intros C before i after E. apply (C before i (after ++ b)). rewrite E, <- app_assoc. reflexivity. Qed.
Lemma owned_run h cs : careful h cs -> owned (crun h cs cstart).
Proof.
  induction cs as [|c cs IH] using rev_ind; intros C; [intros i x; discriminate|].
  rewrite crun_snoc. pose proof (IH (careful_prefix _ _ _ C)) as O. destruct (cw_over _); [exact O|].
  apply owned_step; [apply kept_run, kept_start|exact O|]. intros i ->. exact (C cs i [] eq_refl).
Qed.

Lemma owned_sound h s x : cw_tab s (ob_fd x) = Some (Link (ob_link x)) -> sound h s x.
Proof.
  intros T. split; [exact T|]. intros q o s'. unfold copy_send, on_fd. rewrite T.
  destruct (send_and_receive h (fst (cw_link s (ob_link x))) (ob_handle x) q (snd (cw_link s (ob_link x)))) as [o1 w1] eqn:E.
  intros H. injection H as <- <-. cbn [cw_link cw_obj cw_tab fst snd]. rewrite update_same.
  split; [reflexivity|]. split; [reflexivity|]. split; [intros g' N; now apply update_other|]. split; reflexivity.
Qed.
Theorem copies_sound h cs : careful h cs -> let s := crun h cs cstart in forall i x, cw_obj s i = Some x -> sound h s x.
Proof. intros C s i x E. apply owned_sound. exact (owned_run h cs C i x E). Qed.

(** The last one: the session is unregistered and the descriptor closed. *)
Theorem last_closes h cs i x : careful h (cs ++ [KDestroy i]) -> let s := crun h cs cstart in
  cw_over s = false -> cw_obj s i = Some x -> let g := ob_link x in
  let '(o, w') := session_destroy (fst (cw_link s g)) (ob_handle x) (snd (cw_link s g)) in
  let s' := crun h (cs ++ [KDestroy i]) cstart in
  cw_link s' g = (fst (cw_link s g), w') /\ (forall g', g' <> g -> cw_link s' g' = cw_link s g') /\ cw_over s' = ends o
  /\ (forall e, o <> Throw e) /\ (o = Ok tt -> cw_tab s' (ob_fd x) = None) /\ (forall n, n <> ob_fd x -> cw_tab s' n = cw_tab s n).
Proof.
  intros C s Ov E g. destruct (session_destroy (fst (cw_link s g)) (ob_handle x) (snd (cw_link s g))) as [o w'] eqn:D. cbv zeta.
  rewrite crun_snoc. fold s. rewrite Ov. cbn [cstep]. rewrite E.
  assert (T : cw_tab s (ob_fd x) = Some (Link g)) by exact (owned_run h cs (careful_prefix _ _ _ C) i x E).
  unfold copy_destroy, on_fd. rewrite T, D. cbn [snd cw_link cw_over cw_tab]. rewrite update_same.
  split; [reflexivity|]. split; [intros g' N; now apply update_other|]. split; [reflexivity|]. split.
  - intros e ->. unfold session_destroy in D. destruct (net_send _ _ _) as [[v|e1|u|] w1]; discriminate.
  - split; [intros ->; apply set_tab_same|]. intros n N. destruct o; try reflexivity. now apply set_tab_other.
Qed.

(** ** Copies are the same session *)
Theorem copies_same h cs i j x y : let s := crun h cs cstart in
  cw_obj s i = Some x -> cw_obj s j = Some y -> ob_link x = ob_link y -> x = y.
Proof. intros s A B Q. pose proof (kept_run h cs cstart kept_start) as [_ K]. exact (K i j x y A B Q). Qed.

(** ** A copy that is left behind *)
Definition stale (g : nat) (f : Z) (s : cworld) : Prop :=
  kept s /\ (g < cw_next s)%nat /\ (forall i x, cw_obj s i = Some x -> ob_link x = g -> ob_fd x = f).
Lemma stale_step h g f c s : stale g f s -> stale g f (cstep h c s).
Proof.
  intros (K & L & F). assert (K' := kept_step h c s K). split; [exact K'|]. destruct c as [fd k p w|i|i j|i q|i]; cbn [cstep] in *.
  - destruct (open_cases h fd k p w s) as [E|(N & [(E & _)|(handle & _ & _ & E & _)] & _)]; [rewrite E; now split| |]; rewrite N; (split; [lia|]); intros a x; rewrite E.
    + apply F.
    + unfold update. destruct (Nat.eqb_spec a (cw_next s)); [intros H; injection H as <-; cbn; lia|apply F].
  - destruct (cw_obj s i) as [x|] eqn:E; [|now split]. cbn [cw_next cw_obj]. split; [lia|]. intros a y. unfold update. destruct (Nat.eqb_spec a (cw_next s)); [intros H; injection H as <-; eapply F; eassumption|apply F].
  - destruct (cw_obj s i) as [x0|] eqn:Ei; [|now split]. destruct (cw_obj s j) as [x|] eqn:E; [|now split].
    cbn [cw_next cw_obj]. split; [lia|]. intros a y. unfold update. destruct (Nat.eqb_spec a i); [intros H; injection H as <-; apply (F j)|apply F]; assumption.
  - destruct (cw_obj s i) as [x|] eqn:E; [|now split]. destruct (send_obj h x q s) as (A & B & _). rewrite A, B. now split.
  - destruct (cw_obj s i) as [x|] eqn:E; [|now split]. destruct (destroy_obj i x s) as (A & B & _). rewrite A, B. split; [exact L|].
    intros a y. unfold update. destruct (Nat.eqb_spec a i); [discriminate|apply F].
Qed.
Lemma stale_run h g f cs s : stale g f s -> stale g f (crun h cs s).
Proof. revert s. induction cs as [|c cs IH]; intros s H; [exact H|]. cbn [crun]. destruct (cw_over s); [exact H|]. apply IH, stale_step, H. Qed.
Lemma closed_step h f c s : (forall k p w, c <> KOpen f k p w) -> cw_tab s f = None -> cw_tab (cstep h c s) f = None.
Proof.
  intros N T. destruct c as [fd k p w|i|i j|i q|i]; cbn [cstep].
  - destruct (open_cases h fd k p w s) as [->|(_ & _ & _ & U)]; [exact T|]. rewrite U; [exact T|]. intros ->. exact (N k p w eq_refl).
  - destruct (cw_obj s i); exact T.
  - destruct (cw_obj s i), (cw_obj s j); exact T.
  - destruct (cw_obj s i) as [x|]; [|exact T]. destruct (send_obj h x q s) as (_ & _ & ->). exact T.
  - destruct (cw_obj s i) as [x|]; [|exact T]. destruct (Z.eq_dec f (ob_fd x)) as [->|D].
    + unfold copy_destroy. destruct (on_fd_obj (ob_fd x) (fun p => session_destroy p (ob_handle x)) s) as (_ & _ & Q).
      destruct (on_fd (ob_fd x) (fun p => session_destroy p (ob_handle x)) s) as [o s1]. cbn [snd cw_tab] in *. rewrite Q. destruct o; try exact T. apply set_tab_same.
    + destruct (destroy_obj i x s) as (_ & _ & U & _). now rewrite U.
Qed.
Lemma closed_run h f cs s : unused f cs -> cw_tab s f = None -> cw_tab (crun h cs s) f = None.
Proof.
  revert s. induction cs as [|c cs IH]; intros s U T; [exact T|]. cbn [crun]. destruct (cw_over s); [exact T|]. apply IH; [|apply closed_step; [|exact T]].
  - intros k p w H. apply (U k p w). now right.
  - intros k p w ->. apply (U k p w). now left.
Qed.

Lemma over_run h cs s : cw_over s = true -> crun h cs s = s.
Proof. destruct cs; [reflexivity|]. cbn [crun]. now intros ->. Qed.

Lemma after_destroy h before i after x (s := crun h before cstart) (s' := crun h (before ++ KDestroy i :: after) cstart) :
  cw_obj s i = Some x -> cw_over s' = false ->
  stale (ob_link x) (ob_fd x) s' /\ (unused (ob_fd x) after -> cw_tab s' (ob_fd x) = None).
Proof.
  intros E Ov. subst s s'. rewrite crun_app in *. set (s := crun h before cstart) in *. cbn [crun] in *.
  destruct (cw_over s) eqn:O1; [congruence|]. cbn [cstep] in *. rewrite E in *. set (s1 := snd (copy_destroy i x s)) in *.
  assert (K : kept s) by apply kept_run, kept_start.
  assert (O2 : cw_over s1 = false) by (destruct (cw_over s1) eqn:Q; [rewrite over_run in Ov; congruence|reflexivity]).
  split.
  - apply stale_run. replace s1 with (cstep h (KDestroy i) s) by (cbn [cstep]; now rewrite E). apply stale_step.
    split; [exact K|]. split; [now apply K in E|]. intros a y A Q. destruct K as [_ K]. now rewrite (K _ _ _ _ A E Q).
  - intros U. apply closed_run; [exact U|]. destruct (destroy_obj i x s) as (_ & _ & _ & T). now apply T.
Qed.

Theorem copy_stale h before i after x j y q (s := crun h before cstart) (s' := crun h (before ++ KDestroy i :: after) cstart) :
  cw_obj s i = Some x -> cw_over s' = false -> unused (ob_fd x) after ->
  cw_obj s' j = Some y -> ob_link y = ob_link x -> zlen (encaps_pack q) < 2 ^ 31 ->
  copy_send h y q s' = (Throw (SystemError EBADF), s')
  /\ fst (copy_destroy j y s') = Ok tt /\ cw_link (snd (copy_destroy j y s')) = cw_link s'.
Proof.
  intros E Ov U Ej Q L. destruct (after_destroy h before i after x E Ov) as ((_ & _ & F) & T). fold s' in F, T.
  specialize (T U). pose proof (F j y Ej Q) as Fd. rewrite <- Fd in T.
  split; [|split].
  - unfold copy_send, on_fd. rewrite T. rewrite bad_exchange by (try exact L; discriminate). cbn [ends]. rewrite <- Ov. destruct s'; reflexivity.
  - unfold copy_destroy, on_fd. rewrite T, bad_destroy. reflexivity.
  - unfold copy_destroy, on_fd. rewrite T, bad_destroy. reflexivity.
Qed.
