(** Proofs: copied sessions, numbers that are used again, assignment, programs without copies. *)
From Verif Require Import Base MBuffer PBase MEip MSocket MConn MFd MRes MCopy SCopy PCopy.
Ltac Zify.zify_post_hook ::= Z.div_mod_to_equations.

(** ** The number is given to another session *)
Theorem copy_wrong h before i after x fd k p w handle w' ev j y q :
  let s := crun h before cstart in let cs := before ++ KDestroy i :: after in let s1 := crun h cs cstart in
  let s2 := crun h (cs ++ [KOpen fd k p w]) cstart in let n := cw_next s1 in
  cw_obj s i = Some x -> cw_over s1 = false -> unused (ob_fd x) after -> fd = ob_fd x -> 
  session_open_fd h fd k p w = (Ok handle, w', ev) -> k_socket k = None ->
  cw_obj s1 j = Some y -> ob_link y = ob_link x ->
  cw_obj s2 j = Some y /\ cw_obj s2 n = Some (mkObj handle fd n) /\ cw_link s2 n = (p, w')
  /\ (let r := send_and_receive h p (ob_handle y) q w' in
      fst (copy_send h y q s2) = fst r /\ cw_link (snd (copy_send h y q s2)) n = (p, snd r))
  /\ (let r := session_destroy p (ob_handle y) w' in
      fst (copy_destroy j y s2) = fst r /\ cw_link (snd (copy_destroy j y s2)) n = (p, snd r)
      /\ (fst r = Ok tt -> cw_tab (snd (copy_destroy j y s2)) fd = None)).
Proof.
  intros s cs s1 s2 n E Ov U -> O K Ej Q. destruct (after_destroy h before i after x E Ov) as ((Kp & _ & F) & T). fold cs s1 in Kp, F, T.
  specialize (T U). pose proof (F j y Ej Q) as Fd.
  assert (S2 : s2 = mkCw (Datatypes.S n) (update (cw_obj s1) n (Some (mkObj handle (ob_fd x) n))) (set_tab (cw_tab s1) (ob_fd x) (Some (Link n))) (update (cw_link s1) n (p, w')) false).
  { subst s2. rewrite crun_snoc. fold s1. rewrite Ov. cbn [cstep]. unfold copy_open. rewrite O, K, T. reflexivity. }
  assert (Nj : j <> n) by (apply Kp in Ej; subst n; lia).
  assert (T2 : cw_tab s2 (ob_fd y) = Some (Link n)) by (rewrite S2, Fd; apply set_tab_same).
  assert (L2 : cw_link s2 n = (p, w')) by (rewrite S2; apply update_same).
  split; [rewrite S2; cbn [cw_obj]; now rewrite update_other|]. split; [rewrite S2; apply update_same|]. split; [exact L2|]. split.
  - cbv zeta. unfold copy_send, on_fd. rewrite T2, L2. cbn [fst snd]. destruct (send_and_receive h p (ob_handle y) q w') as [o w1]. cbn [fst snd cw_link].
    split; [reflexivity|]. apply update_same.
  - cbv zeta. unfold copy_destroy, on_fd. rewrite T2, L2. cbn [fst snd]. destruct (session_destroy p (ob_handle y) w') as [o w1]. cbn [fst snd cw_link cw_tab].
    split; [reflexivity|]. split; [apply update_same|]. intros ->. rewrite Fd. apply set_tab_same.
Qed.

(** ** Assignment *)
Definition lost (g : nat) (f : Z) (l : peer * net) (s : cworld) : Prop :=
  kept s /\ owned s /\ (g < cw_next s)%nat /\ cw_tab s f = Some (Link g) /\ cw_link s g = l /\ (forall i x, cw_obj s i = Some x -> ob_link x <> g).
Lemma lost_step h g f l c s : lost g f l s -> (forall i, c = KDestroy i -> alone s i) -> lost g f l (cstep h c s).
Proof.
  intros (K & O & L & T & Lk & N) Al. assert (K' := kept_step h c s K). assert (O' := owned_step h c s K O Al).
  assert (Fd : forall i x, cw_obj s i = Some x -> ob_fd x <> f) by (intros i x H Q; pose proof (N _ _ H); apply O in H; congruence).
  split; [exact K'|]. split; [exact O'|]. destruct c as [fd k p w|i|i j|i q|i]; cbn [cstep] in *.
  - destruct (open_cases h fd k p w s) as [E|(Nx & [(E & Tb & _)|(handle & Fr & _ & E & Tb)] & Ln & _)]; [rewrite E; tauto| |]; rewrite Nx; (split; [lia|]).
    + split; [rewrite Tb; congruence|]. split; [rewrite Ln; [exact Lk|lia]|]. rewrite E. exact N.
    + split; [rewrite Tb, set_tab_other; congruence|]. split; [rewrite Ln; [exact Lk|lia]|]. intros a y. rewrite E. unfold update.
      destruct (Nat.eqb_spec a (cw_next s)); [intros H; injection H as <-; cbn; lia|apply N].
  - destruct (cw_obj s i) as [x|] eqn:E; [|tauto]. cbn [cw_next cw_obj cw_tab cw_link]. split; [lia|]. split; [exact T|]. split; [exact Lk|].
    intros a y. unfold update. destruct (Nat.eqb_spec a (cw_next s)); [intros H; injection H as <-; eapply N; eassumption|apply N].
  - destruct (cw_obj s i) as [x0|] eqn:Ei; [|tauto]. destruct (cw_obj s j) as [x|] eqn:E; [|tauto].
    cbn [cw_next cw_obj cw_tab cw_link]. split; [lia|]. split; [exact T|]. split; [exact Lk|].
    intros a y. unfold update. destruct (Nat.eqb_spec a i); [intros H; injection H as <-; eapply N; eassumption|apply N].
  - destruct (cw_obj s i) as [x|] eqn:E; [|tauto]. destruct (send_obj h x q s) as (A & B & C). rewrite A, B, C. split; [exact L|]. split; [exact T|].
    split; [|exact N]. unfold copy_send. rewrite on_fd_link; [exact Lk|]. rewrite (O _ _ E). pose proof (N _ _ E). congruence.
  - destruct (cw_obj s i) as [x|] eqn:E; [|tauto]. destruct (destroy_obj i x s) as (A & B & C & _). rewrite A, B. split; [exact L|].
    pose proof (Fd _ _ E). split; [rewrite C; [exact T|congruence]|]. split; [rewrite destroy_link; [exact Lk|]; rewrite (O _ _ E); pose proof (N _ _ E); congruence|].
    intros a y. unfold update. destruct (Nat.eqb_spec a i); [discriminate|apply N].
Qed.
Theorem assigned_lost h before i j after x y : let s := crun h before cstart in
  let cs := before ++ KAssign i j :: after in
  careful h cs -> cw_over s = false -> cw_obj s i = Some x -> cw_obj s j = Some y -> alone s i -> i <> j ->
  let s' := crun h cs cstart in
  cw_tab s' (ob_fd x) = Some (Link (ob_link x)) /\ cw_link s' (ob_link x) = cw_link s (ob_link x)
  /\ forall a z, cw_obj s' a = Some z -> ob_link z <> ob_link x.
Proof.
  intros s cs C Ov Ei Ej Al Nij s'. subst cs.
  enough (G : lost (ob_link x) (ob_fd x) (cw_link s (ob_link x)) s') by (destruct G as (_ & _ & _ & T & L & N); repeat split; assumption).
  assert (K : kept s) by apply kept_run, kept_start. assert (O : owned s) by (apply owned_run; eapply careful_prefix; exact C).
  assert (S1 : lost (ob_link x) (ob_fd x) (cw_link s (ob_link x)) (cstep h (KAssign i j) s)).
  { split; [now apply kept_step|]. split; [apply owned_step; [exact K|exact O|discriminate]|]. cbn [cstep]. rewrite Ei, Ej. cbn [cw_next cw_tab cw_link cw_obj].
    split; [now apply K in Ei|]. split; [now apply (O i)|]. split; [reflexivity|]. intros a z. unfold update. destruct (Nat.eqb_spec a i) as [|Na].
    - intros H Q. injection H as <-. apply Nij. symmetry. exact (Al x j y Ei Ej Q).
    - intros H Q. apply Na. exact (Al x a z Ei H Q). }
  assert (R : forall l, careful h (before ++ KAssign i j :: l) -> lost (ob_link x) (ob_fd x) (cw_link s (ob_link x)) (crun h (before ++ KAssign i j :: l) cstart)).
  { induction l as [|c l IH] using rev_ind; intros Cl.
    - rewrite crun_snoc. fold s. rewrite Ov. exact S1.
    - change (before ++ KAssign i j :: l ++ [c]) with (before ++ (KAssign i j :: l) ++ [c]) in *. rewrite app_assoc in *. rewrite crun_snoc.
      pose proof (IH (careful_prefix _ _ _ Cl)) as G. destruct (cw_over (crun h (before ++ KAssign i j :: l) cstart)); [exact G|]. apply lost_step; [exact G|]. intros a ->. exact (Cl _ a [] eq_refl). }
  exact (R after C).
Qed.

(** ** Without copies *)
Lemma rrun_snoc h cs c s : rrun h (cs ++ [c]) s = if rw_over (rrun h cs s) then rrun h cs s else rstep h c (rrun h cs s).
Proof.
  revert s. induction cs as [|d cs IH]; intros s; [reflexivity|]. cbn [app rrun]. destruct (rw_over s) eqn:E; [now rewrite E|]. apply IH.
Qed.
Definition agree (r : rworld) (s : cworld) : Prop :=
  rw_next r = cw_next s /\ rw_over r = cw_over s
  /\ (forall i, rw_live r i <> None -> (i < rw_next r)%nat)
  /\ (forall i, match rw_live r i, cw_obj s i with
        | Some v, Some x => x = mkObj (lv_handle v) (lv_fd v) i /\ cw_link s i = (lv_peer v, lv_net v) /\ cw_tab s (lv_fd v) = Some (Link i)
        | None, None => True
        | _, _ => False
        end).
Lemma agree_step h c c' r s : agree r s -> same_call c c' ->
  (forall fd k p w, c = KOpen fd k p w -> k_socket k = None -> cw_tab s fd = None) -> agree (rstep h c' r) (cstep h c s).
Proof.
  intros (N & Ov & Lt & A) S P. destruct S as [fd k p w|i q|i]; cbn [rstep cstep].
  - specialize (P fd k p w eq_refl). unfold copy_open. destruct (session_open_fd h fd k p w) as [[o w'] ev] eqn:O. rewrite <- N.
    assert (Ln : forall l i, rw_live r i <> None -> update (cw_link s) (rw_next r) l i = cw_link s i) by (intros l i H; apply Lt in H; apply update_other; lia).
    destruct (k_socket k) as [e|] eqn:K.
    + assert (E : o = Throw (SystemError e)).
      { unfold session_open_fd, tcp_connect_fd, tcp_connect in O. rewrite K in O. cbn in O. now inversion O. }
      subst o. split; [reflexivity|]. split; [reflexivity|]. split; [cbn [rw_live rw_next]; intros i H; apply Lt in H; lia|]. cbn [rw_live cw_obj cw_link cw_tab]. exact A.
    + specialize (P eq_refl). rewrite P.
      assert (Tb : forall y i, match rw_live r i, cw_obj s i with
        | Some v, Some x => x = mkObj (lv_handle v) (lv_fd v) i /\ update (cw_link s) (rw_next r) (p, w') i = (lv_peer v, lv_net v) /\ set_tab (cw_tab s) fd y (lv_fd v) = Some (Link i)
        | None, None => True
        | _, _ => False
        end).
      { intros y i. specialize (A i). destruct (rw_live r i) as [v|] eqn:V, (cw_obj s i) as [x|] eqn:X; auto. destruct A as (A1 & A2 & A3).
        split; [exact A1|]. split; [rewrite Ln; [exact A2|congruence]|]. rewrite set_tab_other; congruence. }
      destruct o as [handle|e|u|]; (split; [reflexivity|]; split; [reflexivity|]; split; [cbn [rw_live rw_next]|cbn [rw_live cw_obj cw_link cw_tab]]).
      all: try (intros i H; apply Lt in H; lia). all: try (apply Tb).
      * intros i. unfold update at 1. destruct (Nat.eqb_spec i (rw_next r)); [lia|]. intros H; apply Lt in H; lia.
      * intros i. destruct (Nat.eq_dec i (rw_next r)) as [->|Ni].
        -- rewrite !update_same. cbn. split; [reflexivity|]. split; [reflexivity|apply set_tab_same].
        -- rewrite (update_other (rw_live r)), (update_other (cw_obj s)) by exact Ni. apply Tb.
  - pose proof (A i) as Ai. destruct (rw_live r i) as [v|] eqn:V, (cw_obj s i) as [x|] eqn:X; try easy. destruct Ai as (-> & L & T).
    unfold copy_send, on_fd. cbn [ob_fd ob_handle]. rewrite T, L. cbn [fst snd]. destruct (send_and_receive h (lv_peer v) (lv_handle v) q (lv_net v)) as [o w'].
    cbn [snd]. split; [exact N|]. split; [reflexivity|]. split.
    + cbn [rw_live rw_next]. intros a. destruct (Nat.eq_dec a i) as [->|Na]; [intros _; apply Lt; congruence|]. rewrite update_other by exact Na. apply Lt.
    + cbn [rw_live cw_obj cw_link cw_tab]. intros a. destruct (Nat.eq_dec a i) as [->|Na].
      * rewrite !update_same, X. cbn. repeat split; auto.
      * rewrite (update_other (rw_live r)), (update_other (cw_link s)) by exact Na. apply A.
  - pose proof (A i) as Ai. destruct (rw_live r i) as [v|] eqn:V, (cw_obj s i) as [x|] eqn:X; try easy. destruct Ai as (-> & L & T).
    unfold session_close_fd, copy_destroy, on_fd. cbn [ob_fd ob_handle]. rewrite T, L. cbn [fst snd].
    destruct (session_destroy (lv_peer v) (lv_handle v) (lv_net v)) as [o w']. cbn [snd fst].
    split; [exact N|]. split; [reflexivity|]. split.
    + cbn [rw_live rw_next]. intros a. destruct (Nat.eq_dec a i) as [->|Na]; [rewrite update_same; congruence|]. rewrite update_other by exact Na. apply Lt.
    + cbn [rw_live cw_obj cw_link cw_tab]. intros a. destruct (Nat.eq_dec a i) as [->|Na]; [now rewrite !update_same|].
      rewrite (update_other (rw_live r)), (update_other (cw_link s)), (update_other (cw_obj s)) by exact Na. specialize (A a).
      destruct (rw_live r a) as [u|] eqn:Va, (cw_obj s a) as [y|] eqn:Xa; auto. destruct A as (A1 & A2 & A3). split; [exact A1|]. split; [exact A2|].
      destruct o; try exact A3. rewrite set_tab_other; [exact A3|]. intros Q. rewrite Q, T in A3. congruence.
Qed.
Lemma agree_run h cs rs : Forall2 same_call cs rs -> proper h cs -> agree (rrun h rs rstart) (crun h cs cstart).
Proof.
  revert rs. induction cs as [|c cs IH] using rev_ind; intros rs F P.
  - inversion F. cbn. split; [reflexivity|]. split; [reflexivity|]. split; [now intros|]. now intros.
  - apply Forall2_app_inv_l in F as (rs1 & rs2 & F1 & F2 & ->). inversion F2 as [|? c' ? ? S F3]; subst. inversion F3; subst.
    rewrite crun_snoc, rrun_snoc.
    assert (P1 : proper h cs) by (intros b fd k p w a E; apply (P b fd k p w (a ++ [c])); rewrite E, <- app_assoc; reflexivity).
    pose proof (IH rs1 F1 P1) as G. assert (Ov := G). destruct Ov as (_ & Ov & _). rewrite Ov. destruct (cw_over (crun h cs cstart)); [exact G|].
    apply agree_step; [exact G|exact S|]. intros fd k p w ->. exact (P cs fd k p w [] eq_refl).
Qed.
Theorem uncopied_same h cs rs : Forall2 same_call cs rs -> proper h cs ->
  let r := rrun h rs rstart in let s := crun h cs cstart in
  rw_over r = cw_over s
  /\ forall i, match rw_live r i with
     | Some v => cw_obj s i = Some (mkObj (lv_handle v) (lv_fd v) i) /\ cw_link s i = (lv_peer v, lv_net v)
     | None => cw_obj s i = None
     end.
Proof.
  intros F P r s. destruct (agree_run h cs rs F P) as (_ & Ov & _ & A). fold r s in Ov, A. split; [exact Ov|].
  intros i. specialize (A i). destruct (rw_live r i), (cw_obj s i); try easy. destruct A as (-> & L & _). now split.
Qed.
