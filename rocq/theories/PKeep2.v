(** Connections that the application keeps: whole programs. *)
From Verif Require Import Base MBuffer SBuffer PBase PBuffer MEip SEip PEip PRouter MSocket SSocket PSocket MConnReq SConnReq PConnReq MConn SConn PConnOpen PConnMap PIo
  PConnCall PConnCall2 PConnHist PIo2 PConnTop SLife PLife MMany PMany MKeep SKeep PKeep.

Record kinv {S} (x : kstate S) : Prop := {
  ki_mgr : mgr_inv (fst (fst (fst x))) (snd (fst (fst x)));
  ki_gone : forall c, In c (kp_gone (snd x)) -> In (io_oid c) (kp_held (snd x)) /\ lock (io_oid c) (snd (fst (fst x))) = None
                                                 /\ (io_oid c < g_oid (fst (fst (fst x))))%nat;
  ki_held : forall o, In o (kp_held (snd x)) -> lock_kept o (snd (fst (fst x))) (snd x) <> None }.

Lemma held_in o k : is_held o k = true <-> In o (kp_held k).
Proof. unfold is_held. rewrite existsb_exists. split; [intros (y & I & E); apply Nat.eqb_eq in E; now subst|intros I; exists o; now rewrite Nat.eqb_refl]. Qed.
Lemma taken_in m m' k c : In c (taken m m' k) <-> (exists i, In (i, c) (m_map m)) /\ In (io_oid c) (kp_held k) /\ lock (io_oid c) m' = None.
Proof.
  unfold taken. rewrite filter_In, in_map_iff, andb_true_iff, held_in. split.
  - intros (([i c'] & E & I) & H & L). cbn [snd] in E. subst c'. split; [eauto|]. split; [exact H|]. now destruct (lock _ m').
  - intros ((i & I) & H & L). split; [exists (i, c); auto|]. split; [exact H|]. now rewrite L.
Qed.
Lemma find_app {A} (f : A -> bool) (a b : list A) : find f (a ++ b) = match find f a with Some x => Some x | None => find f b end.
Proof. induction a as [|x a IH]; [reflexivity|]. cbn [app find]. destruct (f x); [reflexivity|exact IH]. Qed.
Lemma find_output oid d o l : find (fun c => Nat.eqb (io_oid c) o) (new_output oid d l)
  = option_map (fun c => if Nat.eqb (io_oid c) oid then io_set_output c d else c) (find (fun c => Nat.eqb (io_oid c) o) l).
Proof.
  induction l as [|c l IH]; [reflexivity|]. cbn [new_output map find]. fold (new_output oid d l).
  assert (E : io_oid (if Nat.eqb (io_oid c) oid then io_set_output c d else c) = io_oid c) by now destruct (Nat.eqb _ _).
  rewrite E. destruct (Nat.eqb (io_oid c) o); [reflexivity|exact IH].
Qed.
Lemma output_in oid d c l : In c (new_output oid d l) -> exists c0, In c0 l /\ io_static c = io_static c0.
Proof.
  unfold new_output. rewrite in_map_iff. intros (c0 & <- & I). exists c0. split; [exact I|]. now destruct (Nat.eqb _ _).
Qed.
Lemma static_same c c' : io_static c' = io_static c -> same_con c c'.
Proof. intros E. unfold io_static in E. unfold same_con. inversion E. repeat split; congruence. Qed.
Lemma oid_static c c' : io_static c' = io_static c -> io_oid c' = io_oid c.
Proof. intros E. apply static_same in E. apply E. Qed.

(** The object of a kept connection after a call. *)
Lemma step_object {S} h (op : call S) g m s k g' m' s' k' o oid c : kinv (g, m, s, k) ->
  kstep h (KCall op) (g, m, s, k) = (o, (g', m', s', k')) -> In oid (kp_held k) -> lock_kept oid m k = Some c ->
  exists c', lock_kept oid m' k' = Some c' /\ io_static c' = io_static c.
Proof.
  intros V E H L. cbn [kstep] in E. destruct (call_kept h op k (g, m, s)) as [o1 [[g1 m1] s1]] eqn:C. inv E.
  pose proof (ki_mgr _ V) as I. cbn [fst snd] in I. destruct (kept_grown _ _ _ _ _ _ _ _ _ _ I C) as (G & I' & _).
  unfold lock_kept in *. cbn [kp_gone]. destruct (lock oid m') as [c1|] eqn:L1.
  - exists c1. split; [reflexivity|]. destruct (grown_lock _ _ _ _ _ _ I I' G L1) as [N|(c0 & L0 & T)].
    + exfalso. destruct (lock oid m) as [c2|] eqn:L2.
      * apply lock_in in L2 as [<- [i J]]. apply (mi_fresh _ _ I) in J. lia.
      * apply find_some in L as [J E]. apply Nat.eqb_eq in E. destruct (ki_gone _ V _ J) as (_ & _ & B). cbn [fst snd] in B. lia.
    + rewrite L0 in L. inv L. exact T.
  - rewrite find_app. destruct (lock oid m) as [c2|] eqn:L2.
    + inv L. assert (N : find (fun c => Nat.eqb (io_oid c) oid) (match op with CData q d => new_output q d (kp_gone k) | _ => kp_gone k end) = None).
      { assert (N : find (fun c => Nat.eqb (io_oid c) oid) (kp_gone k) = None).
        { destruct (find _ _) as [c3|] eqn:F; [|reflexivity]. exfalso. apply find_some in F as [J E]. apply Nat.eqb_eq in E.
          destruct (ki_gone _ V _ J) as (_ & B & _). cbn [fst snd] in B. congruence. }
        destruct op; try exact N. rewrite find_output, N. reflexivity. }
      rewrite N. pose proof L2 as L3. apply lock_in in L2 as [E [i J]].
      destruct (find (fun c => Nat.eqb (io_oid c) oid) (taken m m' k)) as [c3|] eqn:F.
      * exists c3. split; [reflexivity|]. apply find_some in F as [K E3]. apply Nat.eqb_eq in E3. apply taken_in in K as ((i3 & J3) & _).
        apply (lock_some _ _ _ _ I) in J3. rewrite E3, L3 in J3. now inv J3.
      * exfalso. refine (eq_true_false_abs _ (proj2 (Nat.eqb_eq (io_oid c) oid) E) _).
        refine (List.find_none _ _ F c _). apply taken_in. rewrite E. eauto.
    + destruct op; try (rewrite L; exists c; split; reflexivity). rewrite find_output, L. cbn [option_map].
      eexists. split; [reflexivity|]. now destruct (Nat.eqb _ _).
Qed.
Lemma step_kinv {S} h (c : kcall S) x : kinv x -> kinv (snd (kstep h c x)).
Proof.
  destruct x as [[[g m] s] k]. intros V. destruct c as [op|oid|oid].
  - destruct (kstep h (KCall op) (g, m, s, k)) as [o [[[g' m'] s'] k']] eqn:E. cbn [snd]. pose proof E as E0.
    cbn [kstep] in E. destruct (call_kept h op k (g, m, s)) as [o1 [[g1 m1] s1]] eqn:C. inv E.
    pose proof (ki_mgr _ V) as I. cbn [fst snd] in I. destruct (kept_grown _ _ _ _ _ _ _ _ _ _ I C) as (G & I' & Le).
    constructor; cbn [fst snd kp_gone kp_held].
    + exact I'.
    + intros c J. apply in_app_iff in J as [J|J].
      * assert (K : exists c0, In c0 (kp_gone k) /\ io_static c = io_static c0) by (destruct op; eauto using output_in).
        destruct K as (c0 & K & T). apply oid_static in T. destruct (ki_gone _ V _ K) as (A & B & D). cbn [fst snd] in *. rewrite T.
        split; [exact A|]. split; [|lia]. destruct (lock (io_oid c0) m') as [c1|] eqn:L1; [|reflexivity]. exfalso.
        destruct (grown_lock _ _ _ _ _ _ I I' G L1) as [N|(c2 & L2 & _)]; [lia|congruence].
      * apply taken_in in J as ((i & J) & A & B). split; [exact A|]. split; [exact B|]. apply (mi_fresh _ _ I) in J. lia.
    + intros q Q. pose proof (ki_held _ V q Q) as Z0. cbn [fst snd] in Z0. destruct (lock_kept q m k) as [c|] eqn:L; [|contradiction].
      destruct (step_object h op g m s k g' m' s' _ o q c V E0 Q L) as (c' & L' & _). rewrite L'. discriminate.
  - cbn [kstep]. destruct (lock_kept oid m k) as [c|] eqn:L; cbn [snd]; [|exact V]. constructor; cbn [fst snd kp_gone kp_held].
    + exact (ki_mgr _ V).
    + intros c1 J. destruct (ki_gone _ V c1 J) as (A & B). split; [now right|exact B].
    + intros q [<-|Q]; [|exact (ki_held _ V q Q)]. unfold lock_kept in *. cbn [kp_gone]. rewrite L. discriminate.
  - cbn [kstep snd]. constructor; cbn [fst snd kp_gone kp_held].
    + exact (ki_mgr _ V).
    + intros c J. apply filter_In in J as [J N]. destruct (ki_gone _ V c J) as (A & B). split; [|exact B]. apply filter_In. auto.
    + intros q Q. apply filter_In in Q as [Q N]. pose proof (ki_held _ V q Q) as Z0. cbn [fst snd] in Z0. unfold lock_kept in *. cbn [kp_gone].
      destruct (lock q m); [exact Z0|]. destruct (find (fun c => Nat.eqb (io_oid c) q) (kp_gone k)) as [c|] eqn:F; [|contradiction].
      apply find_some in F as [J E]. intros X.
      refine (eq_true_false_abs _ E _). refine (List.find_none _ _ X c _). apply filter_In. split; [exact J|]. apply Nat.eqb_eq in E. now rewrite E.
Qed.
Lemma run_kinv {S} h (cs : list (kcall S)) : forall x, kinv x -> kinv (snd (krun h cs x)).
Proof.
  induction cs as [|c cs IH]; intros x V; [exact V|]. cbn [krun]. pose proof (step_kinv h c x V) as V1. destruct (kstep h c x) as [o x1]. cbn [snd] in V1.
  specialize (IH x1 V1). destruct (krun h cs x1). exact IH.
Qed.
Lemma start_kinv {S} g inc (s : S) : kinv (kstart g inc s).
Proof. constructor; cbn [kstart fst snd kp_gone kp_held]; [apply inv_new|intros c []|intros o []]. Qed.
Lemma reach_kinv {S} (x : kstate S) : kreachable S x -> kinv x.
Proof. intros (h & cs & g & inc & s & ->). apply run_kinv, start_kinv. Qed.
