(** The connection map: find, insert, erase and the invariant of the manager. *)
From Coq Require Import Sorted.
From Verif Require Import Base MBuffer SBuffer PBase PBuffer PReader MEip SEip PEip PRouter
  MSocket MConnReq SConnReq PConnReq MConn SConn PConnOpen.
Ltac Zify.zify_post_hook ::= Z.div_mod_to_equations.
Local Open Scope outcome_scope.

Definition keys (l : list (Z * iocon)) : list Z := map fst l.
Definition oids (l : list (Z * iocon)) : list nat := map (fun e => io_oid (snd e)) l.
Definition sorted (l : list (Z * iocon)) : Prop := StronglySorted Z.lt (keys l).

Lemma sorted_nodup l : sorted l -> NoDup (keys l).
Proof.
  unfold sorted. induction (keys l) as [|k r IH]; intros S; [constructor|]. inversion S as [|? ? S1 F]; subst.
  constructor; [|auto]. intros I. rewrite Forall_forall in F. specialize (F k I). lia.
Qed.

Lemma find_in k l c : map_find k l = Some c -> In (k, c) l.
Proof.
  unfold map_find. intros E. destruct (find _ l) as [[k' c']|] eqn:F; [|discriminate]. inv E.
  apply find_some in F as [I E]. cbn [fst snd] in *. apply Z.eqb_eq in E. now subst.
Qed.
Lemma find_none k l : map_find k l = None <-> ~ In k (keys l).
Proof.
  unfold map_find, keys. induction l as [|[k' c'] l IH]; cbn [find map fst In option_map]; [intuition|].
  destruct (Z.eqb_spec k' k); cbn [option_map]; [split; [discriminate|intros N; exfalso; apply N; auto]|].
  rewrite IH. intuition.
Qed.
Lemma find_iff k l c : NoDup (keys l) -> (map_find k l = Some c <-> In (k, c) l).
Proof.
  intros N. split; [apply find_in|]. unfold map_find.
  induction l as [|[k' c'] l IH]; [contradiction|]. cbn [keys map fst] in N. inversion N as [|? ? N1 N2]; subst.
  intros [E|I]; cbn [find fst]; [inv E; rewrite Z.eqb_refl; reflexivity|].
  destruct (Z.eqb_spec k' k) as [->|]; [|auto]. exfalso. apply N1. apply in_map_iff. exists (k, c). auto.
Qed.

Lemma in_keys k c l : In (k, c) l -> In k (keys l).
Proof. intros I. apply in_map_iff. exists (k, c). auto. Qed.

(** ** insert *)
Lemma insert_in k c l e : ~ In k (keys l) -> (In e (map_insert k c l) <-> e = (k, c) \/ In e l).
Proof.
  induction l as [|[k' c'] l IH]; intros N; cbn [map_insert].
  - cbn [In]. intuition.
  - destruct (k <? k'); [cbn [In]; intuition|]. destruct (Z.eqb_spec k k') as [->|]; [exfalso; apply N; left; reflexivity|].
    cbn [In]. rewrite IH; [intuition|]. intros I. apply N. right. exact I.
Qed.
Lemma insert_same k c l : sorted l -> In k (keys l) -> map_insert k c l = l.
Proof.
  unfold sorted. induction l as [|[k' c'] l IH]; intros S I; [contradiction|]. cbn [keys map fst] in *.
  inversion S as [|? ? S1 F]; subst. cbn [map_insert]. destruct I as [->|I].
  - rewrite Z.ltb_irrefl, Z.eqb_refl. reflexivity.
  - rewrite Forall_forall in F. specialize (F k I).
    destruct (Z.ltb_spec k k'); [lia|]. destruct (Z.eqb_spec k k'); [reflexivity|]. f_equal. now apply IH.
Qed.
Lemma insert_keys k c l k' : In k' (keys (map_insert k c l)) -> k' = k \/ In k' (keys l).
Proof.
  induction l as [|[k1 c1] l IH]; cbn [map_insert keys map fst]; [intros [|]; auto|].
  destruct (k <? k1); [cbn [keys map fst In]; intuition|]. destruct (k =? k1); [auto|].
  cbn [map fst In]. intros [E|I]; [auto|]. destruct (IH I); auto.
Qed.
Lemma insert_sorted k c l : sorted l -> sorted (map_insert k c l).
Proof.
  unfold sorted. induction l as [|[k' c'] l IH]; intros S; cbn [map_insert].
  - repeat constructor.
  - cbn [keys map fst] in S. inversion S as [|? ? S1 F]; subst.
    destruct (Z.ltb_spec k k').
    + cbn [keys map fst]. constructor; [constructor; assumption|]. constructor; [assumption|].
      apply (Forall_impl _ (fun a => Z.lt_trans _ _ _ H)) in F. exact F.
    + destruct (Z.eqb_spec k k'); [exact S|]. cbn [keys map fst]. constructor; [apply IH; assumption|].
      apply Forall_forall. intros x I. apply insert_keys in I as [->|I]; [lia|]. rewrite Forall_forall in F. auto.
Qed.
Lemma insert_length k c l : ~ In k (keys l) -> List.length (map_insert k c l) = S (List.length l).
Proof.
  induction l as [|[k' c'] l IH]; intros N; cbn [map_insert]; [reflexivity|].
  destruct (k <? k'); [reflexivity|]. destruct (Z.eqb_spec k k') as [->|]; [exfalso; apply N; left; reflexivity|].
  cbn [List.length]. rewrite IH; [reflexivity|]. intros I. apply N. right. exact I.
Qed.

(** ** erase and update *)
Lemma erase_in k l e : In e (map_erase k l) <-> In e l /\ fst e <> k.
Proof.
  unfold map_erase. rewrite filter_In. destruct (Z.eqb_spec (fst e) k); cbn [negb]; intuition; discriminate.
Qed.
Lemma erase_keys k l : keys (map_erase k l) = filter (fun x => negb (x =? k)) (keys l).
Proof. unfold keys, map_erase. induction l as [|[k' c'] l IH]; [reflexivity|]. cbn [filter map fst]. destruct (negb (k' =? k)); cbn [map fst]; now rewrite IH. Qed.
Lemma filter_sorted f l : StronglySorted Z.lt l -> StronglySorted Z.lt (filter f l).
Proof.
  induction 1 as [|a l S IH F]; cbn [filter]; [constructor|]. destruct (f a); [|exact IH].
  constructor; [exact IH|]. apply Forall_forall. intros x I. apply filter_In in I as [I _]. rewrite Forall_forall in F. auto.
Qed.
Lemma erase_sorted k l : sorted l -> sorted (map_erase k l).
Proof. unfold sorted. rewrite erase_keys. apply filter_sorted. Qed.
Lemma update_keys k c l : keys (map_update k c l) = keys l.
Proof.
  unfold keys, map_update. rewrite map_map. apply map_ext. intros [k' c']. cbn [fst].
  destruct (Z.eqb_spec k' k) as [->|]; reflexivity.
Qed.
Lemma update_oids k c l : (forall c', In (k, c') l -> io_oid c' = io_oid c) -> oids (map_update k c l) = oids l.
Proof.
  intros H. unfold oids, map_update. rewrite map_map. apply map_ext_in. intros [k' c'] I. cbn [fst].
  destruct (Z.eqb_spec k' k) as [->|]; [|reflexivity]. cbn [snd]. symmetry. auto.
Qed.
Lemma update_in k c l e : In e (map_update k c l) <->
  (In e l /\ fst e <> k) \/ (e = (k, c) /\ In k (keys l)).
Proof.
  unfold map_update. rewrite in_map_iff. split.
  - intros ([k' c'] & E & I). cbn [fst] in E. destruct (Z.eqb_spec k' k) as [->|N].
    + right. split; [now symmetry|]. now apply in_keys in I.
    + left. subst e. auto.
  - intros [[I N]|[-> I]].
    + exists e. destruct (Z.eqb_spec (fst e) k); [contradiction|auto].
    + apply in_map_iff in I as ([k' c'] & E & I). cbn [fst] in E. subst k'. exists (k, c'). cbn [fst].
      rewrite Z.eqb_refl. auto.
Qed.

(** ** The invariant *)
Record mgr_inv (g : globals) (m : mgr) : Prop := {
  mi_sorted : sorted (m_map m);
  mi_key : forall k c, In (k, c) (m_map m) -> k = u16 (io_t2oId c);
  mi_oids : NoDup (oids (m_map m));
  mi_fresh : forall k c, In (k, c) (m_map m) -> (io_oid c < g_oid g)%nat }.

Lemma inv_new g inc : mgr_inv g (mgr0 inc).
Proof. constructor; cbn; [constructor|contradiction|constructor|contradiction]. Qed.

Lemma inv_later g g' m : mgr_inv g m -> (g_oid g <= g_oid g')%nat -> mgr_inv g' m.
Proof. intros [A B C D] L. constructor; auto. intros k c I. specialize (D k c I). lia. Qed.

Lemma lock_in oid m c : lock oid m = Some c -> io_oid c = oid /\ exists k, In (k, c) (m_map m).
Proof.
  unfold lock. intros E. destruct (find _ _) as [[k c']|] eqn:F; [|discriminate]. inv E.
  apply find_some in F as [I E]. cbn [snd] in *. apply Nat.eqb_eq in E. eauto.
Qed.
Lemma lock_some g m k c : mgr_inv g m -> In (k, c) (m_map m) -> lock (io_oid c) m = Some c.
Proof.
  intros [_ _ N _]. unfold lock, oids in *. induction (m_map m) as [|[k' c'] l IH]; [contradiction|].
  cbn [map snd] in N. inversion N as [|? ? N1 N2]; subst. intros [E|I]; cbn [find snd].
  - inv E. now rewrite Nat.eqb_refl.
  - destruct (Nat.eqb_spec (io_oid c') (io_oid c)) as [E|]; [|auto]. exfalso. apply N1. rewrite E.
    apply in_map_iff. exists (k, c). auto.
Qed.
Lemma lock_none oid m : lock oid m = None <-> ~ In oid (oids (m_map m)).
Proof.
  unfold lock, oids. induction (m_map m) as [|[k' c'] l IH]; cbn [find map snd In option_map]; [intuition|].
  destruct (Nat.eqb_spec (io_oid c') oid); cbn [option_map]; [split; [discriminate|intros N; exfalso; apply N; auto]|].
  rewrite IH. intuition.
Qed.
Lemma lock_iff g m oid c : mgr_inv g m -> (lock oid m = Some c <-> io_oid c = oid /\ In (u16 (io_t2oId c), c) (m_map m)).
Proof.
  intros I. split.
  - intros L. apply lock_in in L as [E [k K]]. split; [assumption|].
    now rewrite <- (mi_key g m I k c K).
  - intros [<- K]. eapply lock_some; eauto.
Qed.
(** Two managers agree on a pointer when they have the same entry. *)
Lemma lock_same g g' m m' oid : mgr_inv g m -> mgr_inv g' m' ->
  (forall k c, io_oid c = oid -> (In (k, c) (m_map m) <-> In (k, c) (m_map m'))) -> lock oid m' = lock oid m.
Proof.
  intros I I' H. destruct (lock oid m) as [c|] eqn:L.
  - apply (lock_iff g) in L as [E K]; [|assumption]. apply (lock_iff g'); [assumption|]. split; [assumption|]. now apply H.
  - destruct (lock oid m') as [c|] eqn:L'; [|reflexivity]. exfalso.
    apply (lock_iff g') in L' as [E K]; [|assumption]. apply H in K; [|assumption].
    apply (lock_some g) in K; [|assumption]. congruence.
Qed.

Lemma nodup_oids_insert k c l : ~ In (io_oid c) (oids l) -> NoDup (oids l) -> NoDup (oids (map_insert k c l)).
Proof.
  induction l as [|[k' c'] l IH]; intros N D; cbn [map_insert]; cbn [oids map snd] in *.
  - repeat constructor. intros [].
  - inversion D as [|? ? D1 D2]; subst. destruct (k <? k'); [constructor; [exact N|exact D]|].
    destruct (k =? k'); [exact D|]. cbn [oids map snd]. constructor.
    + intros I. apply D1. unfold oids in I. clear -I N. revert I.
      induction l as [|[k1 c1] l IH]; cbn [map_insert map snd In] in *.
      * intros [E|[]]. exfalso. apply N. left. now symmetry.
      * destruct (k <? k1); cbn [map snd In].
        -- intros [E|I]; [exfalso; apply N; left; now symmetry|exact I].
        -- destruct (k =? k1); cbn [map snd In]; [auto|]. intros [E|I]; [auto|]. right. apply IH; [|exact I].
           intros [E|J]; apply N; auto.
    + apply IH; [|assumption]. intros I. apply N. now right.
Qed.
Lemma insert_oid_in k c l e : In e (map_insert k c l) -> e = (k, c) \/ In e l.
Proof.
  induction l as [|[k' c'] l IH]; cbn [map_insert In]; [intuition|].
  destruct (k <? k'); [cbn [In]; intuition|]. destruct (k =? k'); [auto|]. cbn [In]. intuition.
Qed.
Lemma nodup_filter {A B} (f : A -> B) (p : A -> bool) l : NoDup (map f l) -> NoDup (map f (filter p l)).
Proof.
  induction l as [|a l IH]; cbn [map filter]; [auto|]. intros N. inversion N as [|? ? N1 N2]; subst.
  destruct (p a); [|auto]. cbn [map]. constructor; [|auto]. intros I. apply N1. apply in_map_iff in I as (x & E & I).
  apply filter_In in I as [I _]. apply in_map_iff. eauto.
Qed.

Lemma inv_erase g m k : mgr_inv g m -> mgr_inv g (set_map m (map_erase k (m_map m))).
Proof.
  intros [A B C D]. constructor; cbn [set_map m_map].
  - now apply erase_sorted.
  - intros k' c I. apply erase_in in I as [I _]. auto.
  - unfold oids, map_erase. apply nodup_filter. exact C.
  - intros k' c I. apply erase_in in I as [I _]. eauto.
Qed.

Lemma inv_update g m k c c' : mgr_inv g m -> map_find k (m_map m) = Some c ->
  io_oid c' = io_oid c -> io_t2oId c' = io_t2oId c -> mgr_inv g (set_map m (map_update k c' (m_map m))).
Proof.
  intros [A B C D] F O T. pose proof (sorted_nodup _ A) as N. 
  assert (I : In (k, c) (m_map m)) by now apply find_in.
  constructor; cbn [set_map m_map].
  - unfold sorted. now rewrite update_keys.
  - intros k1 c1 J. apply update_in in J as [[J _]|[E _]]; [auto|]. inv E. rewrite T. auto.
  - rewrite update_oids; [exact C|]. intros c1 J. rewrite O. f_equal.
    apply (find_iff k (m_map m) c1 N) in J. congruence.
  - intros k1 c1 J. apply update_in in J as [[J _]|[E _]]; [eauto|]. inv E. rewrite O. eauto.
Qed.

Lemma inv_insert g m k c : mgr_inv g m -> k = u16 (io_t2oId c) -> io_oid c = g_oid g ->
  mgr_inv (mkGlobals (g_serial g) (g_o2t g) (g_t2o g) (S (g_oid g))) (set_map m (map_insert k c (m_map m))).
Proof.
  intros [A B C D] E O. constructor; cbn [set_map m_map g_oid].
  - now apply insert_sorted.
  - intros k1 c1 J. apply insert_oid_in in J as [J|J]; [inv J; auto|auto].
  - apply nodup_oids_insert; [|assumption]. rewrite O. intros J. apply in_map_iff in J as ([k1 c1] & E1 & J).
    cbn [snd] in E1. specialize (D k1 c1 J). lia.
  - intros k1 c1 J. apply insert_oid_in in J as [J|J]; [inv J; lia|]. specialize (D k1 c1 J). lia.
Qed.
