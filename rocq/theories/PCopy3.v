(** Proofs: what the numbers stand for in programs without copies. *)
From Verif Require Import Base MBuffer PBase MEip MSocket MConn MFd SFd MRes SRes MCopy SCopy PCopy PCopy2.
Ltac Zify.zify_post_hook ::= Z.div_mod_to_equations.

Definition listed (rs : list rcall) (r : rworld) (s : cworld) : Prop :=
  rw_over r = false -> forall fd,
  (forall g, cw_tab s fd = Some (Link g) -> exists v, rw_live r g = Some v /\ lv_fd v = fd)
  /\ (cw_tab s fd = Some Unconnected <-> exists c, In c rs /\ leaks c fd).

Lemma leaks_snoc rs c fd : (exists d, In d (rs ++ [c]) /\ leaks d fd) <-> (exists d, In d rs /\ leaks d fd) \/ leaks c fd.
Proof.
  split.
  - intros (d & I & L). apply in_app_or in I as [I|[<-|[]]]; [left; eauto|now right].
  - intros [(d & I & L)|L]; [exists d; split; [apply in_or_app; now left|exact L]|exists c; split; [apply in_or_app; right; now left|exact L]].
Qed.
Lemma early_failure h fd k p w : k_socket k = None -> (k_getfl1 k <> None \/ k_setfl1 k <> None) ->
  exists e w' ev, session_open_fd h fd k p w = (Throw e, w', ev).
Proof.
  intros K L. unfold session_open_fd, tcp_connect_fd, tcp_connect. rewrite K. destruct (k_getfl1 k) as [e|], (k_setfl1 k) as [e'|];
    destruct (k_connect k); eauto; destruct L as [L|L]; congruence.
Qed.
Lemma left_cases k : (left_behind k = Some Unconnected /\ (k_getfl1 k <> None \/ k_setfl1 k <> None)) \/ (left_behind k = None /\ ~ (k_getfl1 k <> None \/ k_setfl1 k <> None)).
Proof. unfold left_behind. destruct (k_getfl1 k), (k_setfl1 k); [left|left|left|right]; (split; [reflexivity|]); try (left; discriminate); try (right; discriminate). intros [H|H]; congruence. Qed.

Lemma listed_step h c c' rs r s : agree r s -> listed rs r s -> same_call c c' -> rw_over r = false ->
  (forall fd k p w, c = KOpen fd k p w -> k_socket k = None -> cw_tab s fd = None) -> listed (rs ++ [c']) (rstep h c' r) (cstep h c s).
Proof.
  intros A L S Ov P. specialize (L Ov). assert (A' := agree_step h c c' r s A S P). intros Ov'. destruct A as (N & _ & Lt & A).
  destruct S as [fd k p w|i q|i]; intros f; rewrite leaks_snoc; cbn [leaks]; destruct (L f) as (L1 & L2).
  - specialize (P fd k p w eq_refl). cbn [rstep cstep] in *. unfold copy_open in *. destruct (session_open_fd h fd k p w) as [[o w'] ev] eqn:O. rewrite <- N in *.
    destruct (k_socket k) as [e|] eqn:K.
    + assert (E : o = Throw (SystemError e)).
      { unfold session_open_fd, tcp_connect_fd, tcp_connect in O. rewrite K in O. cbn in O. now inversion O. }
      subst o. cbn [cw_tab rw_live]. split; [exact L1|]. rewrite L2. split; [now left|]. intros [H|(_ & H & _)]; [exact H|discriminate].
    + specialize (P eq_refl). rewrite P in *. destruct (left_cases k) as [(Lb & Le)|(Lb & Le)].
      * destruct (early_failure h fd k p w K Le) as (e & w1 & ev1 & E). rewrite E in O. injection O as <- <- <-. cbn [cw_tab rw_live]. rewrite Lb.
        destruct (Z.eq_dec f fd) as [->|Nf].
        -- rewrite set_tab_same. split; [discriminate|]. split; [intros _; right; repeat split; assumption|reflexivity].
        -- rewrite set_tab_other by exact Nf. split; [exact L1|]. rewrite L2. split; [now left|]. intros [H|(H & _)]; [exact H|congruence].
      * assert (G : forall y, y <> Some Unconnected -> set_tab (cw_tab s) fd y f = Some Unconnected <-> (exists d, In d rs /\ leaks d f) \/ fd = f /\ (@None Z) = None /\ (k_getfl1 k <> None \/ k_setfl1 k <> None)).
        { intros y Y. destruct (Z.eq_dec f fd) as [->|Nf].
          - rewrite set_tab_same. split; [congruence|]. intros [H|(_ & _ & H)]; [|now apply Le in H]. apply L2 in H. congruence.
          - rewrite set_tab_other by exact Nf. rewrite L2. split; [now left|]. intros [H|(H & _)]; [exact H|congruence]. }
        destruct o as [handle|e|u|]; cbn [cw_tab rw_live]; try (rewrite Lb); (split; [|apply G; discriminate]); intros g.
        -- destruct (Z.eq_dec f fd) as [->|Nf]; [rewrite set_tab_same; intros H; injection H as <-; rewrite update_same; eexists; split; reflexivity|].
           rewrite set_tab_other by exact Nf. intros H. apply L1 in H as (v & V & F). exists v. split; [|exact F]. rewrite update_other; [exact V|].
           assert (g < rw_next r)%nat by (apply Lt; congruence). lia.
        -- destruct (Z.eq_dec f fd) as [->|Nf]; [rewrite set_tab_same; discriminate|]. rewrite set_tab_other by exact Nf. apply L1.
        -- discriminate Ov'.
        -- discriminate Ov'.
  - cbn [rstep cstep] in *. pose proof (A i) as Ai. destruct (rw_live r i) as [v|] eqn:V, (cw_obj s i) as [x|] eqn:X; try easy.
    + destruct (send_obj h x q s) as (_ & _ & T). rewrite T. destruct (send_and_receive h (lv_peer v) (lv_handle v) q (lv_net v)) as [o w1]. cbn [rw_live].
      split; [|rewrite L2; tauto]. intros g H. apply L1 in H as (u & U & F). destruct (Nat.eq_dec g i) as [->|Ng].
      * rewrite update_same. eexists. split; [reflexivity|]. cbn. congruence.
      * rewrite update_other by exact Ng. eauto.
    + split; [exact L1|]. rewrite L2. tauto.
  - cbn [rstep cstep] in *. pose proof (A i) as Ai. destruct (rw_live r i) as [v|] eqn:V, (cw_obj s i) as [x|] eqn:X; try easy.
    + destruct Ai as (-> & _ & T). destruct (destroy_obj i (mkObj (lv_handle v) (lv_fd v) i) s) as (_ & _ & B & C). cbn [ob_fd] in *.
      destruct A' as (_ & Ov2 & _). rewrite Ov' in Ov2. symmetry in Ov2. specialize (C Ov2).
      unfold session_close_fd. cbn [rw_live].
      destruct (Z.eq_dec f (lv_fd v)) as [->|Nf].
      * rewrite C. split; [discriminate|]. split; [discriminate|]. intros [H|[]]. apply L2 in H. congruence.
      * rewrite B by exact Nf. split; [|rewrite L2; tauto]. intros g H. apply L1 in H as (u & U & F). rewrite update_other; [eauto|]. intros ->. congruence.
    + split; [exact L1|]. rewrite L2. tauto.
Qed.
Lemma proper_prefix h cs c : proper h (cs ++ [c]) -> proper h cs.
Proof. intros P b fd k p w a E. apply (P b fd k p w (a ++ [c])). rewrite E, <- app_assoc. reflexivity. Qed.
Lemma over_listed rs c r s : listed rs r s -> rw_over r = true -> listed (rs ++ [c]) r s.
Proof. intros _ O H. congruence. Qed.
Theorem uncopied_held h cs rs : Forall2 same_call cs rs -> proper h cs ->
  let r := rrun h rs rstart in let s := crun h cs cstart in
  cw_over s = false -> forall fd, cw_tab s fd <> None <-> (exists i, open_session r i fd) \/ exists c, In c rs /\ leaks c fd.
Proof.
  intros F P r s Ov fd. assert (A := agree_run h cs rs F P). fold r s in A.
  assert (L : listed rs r s).
  { clear Ov A fd. subst r s. revert rs F P. induction cs as [|c cs IH] using rev_ind; intros rs F P.
    - inversion F. subst. intros _ fd. split; [discriminate|]. split; [discriminate|]. intros (c & [] & _).
    - apply Forall2_app_inv_l in F as (rs1 & rs2 & F1 & F2 & ->). inversion F2 as [|? c' ? ? S F3]; subst. inversion F3; subst.
      rewrite crun_snoc, rrun_snoc. pose proof (IH rs1 F1 (proper_prefix _ _ _ P)) as G. pose proof (agree_run h cs rs1 F1 (proper_prefix _ _ _ P)) as A.
      assert (Ov := A). destruct Ov as (_ & Ov & _). rewrite <- Ov. destruct (rw_over (rrun h rs1 rstart)) eqn:O1; [intros O2; congruence|].
      apply listed_step; try assumption. intros fd k p w ->. exact (P cs fd k p w [] eq_refl). }
  destruct A as (_ & Ov' & _ & A). rewrite Ov in Ov'. destruct (L Ov' fd) as (L1 & L2). split.
  - destruct (cw_tab s fd) as [[|g]|] eqn:T; [|intros _|congruence].
    + intros _. right. now apply L2.
    + left. destruct (L1 g eq_refl) as (v & V & E). exists g, v. now split.
  - intros [(i & v & V & E)|H]; [|apply L2 in H; congruence]. specialize (A i). rewrite V in A. destruct (cw_obj s i); [|contradiction]. destruct A as (_ & _ & T). rewrite E in T. congruence.
Qed.
