(** Which schedules give every connection its own serial number. *)
From Verif Require Import Base MLog SLog PLog.

Lemma set_nth_length {A} n (x : A) : forall l, List.length (set_nth n x l) = List.length l.
Proof. induction n as [|n IH]; intros [|y l]; cbn; [reflexivity..|]. now rewrite IH. Qed.
Lemma set_nth_same {A} n (x : A) : forall l, (n < List.length l)%nat -> nth_error (set_nth n x l) n = Some x.
Proof. induction n as [|n IH]; intros [|y l] L; cbn in *; try lia; [reflexivity|]. apply IH. lia. Qed.
Lemma set_nth_other {A} n m (x : A) : n <> m -> forall l, nth_error (set_nth n x l) m = nth_error l m.
Proof.
  revert m. induction n as [|n IH]; intros [|m] N [|y l]; cbn; try reflexivity; [lia|]. apply IH. lia.
Qed.

Lemma nth_error_ext {A} : forall l m : list A, (forall i, nth_error l i = nth_error m i) -> l = m.
Proof.
  induction l as [|x l IH]; intros [|y m] E; [reflexivity|specialize (E O); discriminate..|].
  f_equal; [specialize (E O); now inversion E|]. apply IH. intros i. exact (E (Datatypes.S i)).
Qed.

(** One access *)
Lemma access_keeps t s s' : access t s = (Ok tt, s') ->
  List.length (sh_held s') = List.length (sh_held s)
  /\ (forall u, u <> t -> nth_error (sh_held s') u = nth_error (sh_held s) u)
  /\ exists new, sh_given s' = sh_given s ++ new.
Proof.
  unfold access. destruct (nth_error (sh_held s) t) as [[v|]|] eqn:E.
  - destruct (v =? 2147483647); intros H; inversion H; subst s'; cbn [sh_held sh_given].
    split; [apply set_nth_length|]. split; [|eauto]. intros u N. apply set_nth_other. auto.
  - intros H; inversion H; subst s'; cbn [sh_held sh_given].
    split; [apply set_nth_length|]. split; [|exists []; symmetry; apply app_nil_r]. intros u N. apply set_nth_other. auto.
  - intros H; inversion H; subst s'. split; [reflexivity|]. split; [reflexivity|]. exists []. symmetry. apply app_nil_r.
Qed.
Lemma accesses_cons t r s : accesses (t :: r) s = match access t s with (Ok _, s1) => accesses r s1 | (Throw e, s1) => (Throw e, s1)
  | (Undef u, s1) => (Undef u, s1) | (Abort, s1) => (Abort, s1) end.
Proof. reflexivity. Qed.
Lemma accesses_given ts : forall s s', accesses ts s = (Ok tt, s') -> exists new, sh_given s' = sh_given s ++ new.
Proof.
  induction ts as [|t r IH]; intros s s' E.
  - inversion E; subst. exists []. symmetry. apply app_nil_r.
  - rewrite accesses_cons in E. destruct (access t s) as [o s1] eqn:A. destruct o as [[]| | |]; try discriminate E.
    destruct (access_keeps t s s1 A) as (_ & _ & new1 & G1). destruct (IH s1 s' E) as (new2 & G2).
    exists (new1 ++ new2). rewrite G2, G1, app_assoc. reflexivity.
Qed.

(** Who holds [v] and finishes is given [v + 1]. *)
Lemma finishes t v ts : forall s s', nth_error (sh_held s) t = Some (Some v) -> accesses ts s = (Ok tt, s') ->
  nth_error (sh_held s') t = Some None ->
  exists new, sh_given s' = sh_given s ++ new /\ In (t, u16 (v + 1)) new.
Proof.
  induction ts as [|u r IH]; intros s s' H E F.
  - inversion E; subst. congruence.
  - rewrite accesses_cons in E. destruct (access u s) as [o s1] eqn:A. destruct o as [[]| | |]; try discriminate E.
    destruct (Nat.eq_dec t u) as [<-|N].
    + unfold access in A. rewrite H in A. destruct (v =? 2147483647); [discriminate A|]. inversion A; subst s1.
      destruct (accesses_given r _ s' E) as (new & G). cbn [sh_given] in G.
      exists ((t, u16 (v + 1)) :: new). split; [rewrite G, <- app_assoc; reflexivity|left; reflexivity].
    + destruct (access_keeps u s s1 A) as (_ & K & new1 & G1).
      destruct (IH s1 s') as (new & G & I); [rewrite K by auto; exact H|exact E|exact F|].
      exists (new1 ++ new). rewrite G, G1, <- app_assoc. split; [reflexivity|]. apply in_or_app. auto.
Qed.

Lemma nodup_same {A B} (l : list (A * B)) a b x : In (a, x) l -> In (b, x) l -> NoDup (map snd l) -> a = b.
Proof.
  induction l as [|[c y] l IH]; intros I J N; [destruct I|]. cbn [map snd] in N. inversion_clear N as [|? ? N1 N2].
  destruct I as [I|I], J as [J|J].
  - congruence.
  - inversion I; subst. destruct N1. apply (in_map snd _ _ J).
  - inversion J; subst. destruct N1. apply (in_map snd _ _ I).
  - exact (IH I J N2).
Qed.
Lemma nodup_suffix {A} (l m : list A) : NoDup (l ++ m) -> NoDup m.
Proof. induction l as [|x l IH]; [auto|]. intros N. inversion_clear N. auto. Qed.

(** Distinct numbers: nobody was disturbed. *)
Lemma distinct_turns k : forall ts s s' n, (List.length ts <= k)%nat -> sh_held s = repeat None n -> Forall (fun t => (t < n)%nat) ts ->
  accesses ts s = (Ok tt, s') -> sh_held s' = repeat None n ->
  forall new, sh_given s' = sh_given s ++ new -> NoDup (map snd new) -> exists turns, ts = one_at_a_time turns.
Proof.
  induction k as [|k IH]; intros ts s s' n L H F E H' new G N.
  { destruct ts; [exists []; reflexivity|cbn in L; lia]. }
  destruct ts as [|t r]; [exists []; reflexivity|]. inversion_clear F as [|? ? T F'].
  assert (Ht : nth_error (sh_held s) t = Some None) by (rewrite H; now apply held0).
  assert (Lt : (t < List.length (sh_held s))%nat) by (apply nth_error_Some; congruence).
  rewrite accesses_cons in E. unfold access in E at 1. rewrite Ht in E.
  set (s1 := mkShared _ _ _) in E.
  assert (H1 : nth_error (sh_held s1) t = Some (Some (sh_counter s))) by (cbn; now apply set_nth_same).
  destruct r as [|u r].
  { inversion E; subst s'. rewrite H', held0 in H1 by assumption. discriminate. }
  inversion_clear F' as [|? ? U F]. destruct (Nat.eq_dec t u) as [<-|NE].
  - rewrite accesses_cons in E. unfold access in E. rewrite H1 in E.
    destruct (sh_counter s =? 2147483647); [discriminate E|]. set (s2 := mkShared _ _ _) in E.
    assert (H2 : sh_held s2 = repeat None n).
    { cbn. rewrite <- H. apply nth_error_ext. intros i. destruct (Nat.eq_dec t i) as [<-|Ni].
      - rewrite set_nth_same by (rewrite set_nth_length; exact Lt). symmetry. exact Ht.
      - rewrite !set_nth_other by assumption. reflexivity. }
    destruct (accesses_given r s2 s' E) as (new2 & G2).
    assert (Q : new = (t, u16 (sh_counter s + 1)) :: new2).
    { cbn [s2 s1 sh_given] in G2. rewrite G2, <- app_assoc in G. apply app_inv_head in G. symmetry. exact G. }
    subst new. cbn [map snd] in N. inversion_clear N as [|? ? _ N2].
    cbn [List.length] in L.
    destruct (IH r s2 s' n) with (new := new2) as (turns & ->); try assumption; [lia|].
    exists (t :: turns). reflexivity.
  - exfalso. assert (Hu : nth_error (sh_held s) u = Some None) by (rewrite H; now apply held0).
    assert (Lu : (u < List.length (sh_held s))%nat) by (apply nth_error_Some; congruence).
    rewrite accesses_cons in E. unfold access in E.
    assert (Hu1 : nth_error (sh_held s1) u = Some None) by (cbn; rewrite set_nth_other by assumption; exact Hu).
    rewrite Hu1 in E. set (s2 := mkShared _ _ _) in E.
    assert (A : nth_error (sh_held s2) t = Some (Some (sh_counter s))).
    { cbn [s2 sh_held]. rewrite set_nth_other by auto. exact H1. }
    assert (B : nth_error (sh_held s2) u = Some (Some (sh_counter s))).
    { cbn [s2 sh_held s1 sh_counter]. apply set_nth_same. cbn. rewrite set_nth_length. exact Lu. }
    assert (End : forall i, (i < n)%nat -> nth_error (sh_held s') i = Some None) by (intros i I; rewrite H'; now apply held0).
    destruct (finishes t _ r s2 s' A E (End t T)) as (n1 & G1 & I1).
    destruct (finishes u _ r s2 s' B E (End u U)) as (n2 & G2 & I2).
    cbn [s2 s1 sh_given] in G1, G2. assert (n1 = new) by (apply (app_inv_head (sh_given s)); congruence).
    assert (n2 = new) by (apply (app_inv_head (sh_given s)); congruence). subst n1 n2.
    exact (NE (nodup_same new t u _ I1 I2 N)).
Qed.

(** A thread holds a value after an odd number of accesses. *)
Definition waiting (s : shared) (t : nat) : bool := match nth_error (sh_held s) t with Some (Some _) => true | _ => false end.
Lemma runs_even ts : forall s n, List.length (sh_held s) = n -> Forall (fun t => (t < n)%nat) ts ->
  (forall t v, nth_error (sh_held s) t = Some (Some v) -> v + zlen ts < 2147483647) -> sh_counter s + zlen ts < 2147483647 ->
  (forall t, (t < n)%nat -> Nat.even (count_occ Nat.eq_dec ts t) = negb (waiting s t)) ->
  exists s', accesses ts s = (Ok tt, s') /\ sh_held s' = repeat None n.
Proof.
  induction ts as [|t r IH]; intros s n L F V C P.
  - exists s. split; [reflexivity|]. apply nth_error_ext. intros i. destruct (Nat.lt_ge_cases i n) as [I|I].
    + rewrite held0 by exact I. specialize (P i I). cbn in P. unfold waiting in P.
      destruct (nth_error (sh_held s) i) as [[v|]|] eqn:E; try discriminate P; [reflexivity|].
      apply nth_error_None in E. lia.
    + rewrite (proj2 (nth_error_None _ _)) by lia. symmetry. apply nth_error_None. rewrite repeat_length. exact I.
  - inversion_clear F as [|? ? T F']. rewrite accesses_cons. unfold access.
    assert (Z1 : zlen (t :: r) = zlen r + 1) by (unfold zlen; cbn [List.length]; lia). rewrite Z1 in *.
    assert (Zr : 0 <= zlen r) by (unfold zlen; lia).
    destruct (nth_error (sh_held s) t) as [[v|]|] eqn:E.
    + assert (W := V t v E). destruct (Z.eqb_spec v 2147483647); [lia|].
      apply IH with (n := n); cbn [sh_held sh_counter]; [now rewrite set_nth_length|assumption| |lia|].
      * intros u w. destruct (Nat.eq_dec t u) as [<-|N]; [rewrite set_nth_same by lia; discriminate|].
        rewrite set_nth_other by assumption. intros X. specialize (V u w X). lia.
      * intros u U. specialize (P u U). cbn [count_occ] in P. unfold waiting in *. cbn [sh_held].
        destruct (Nat.eq_dec t u) as [<-|N].
        -- rewrite set_nth_same by lia. rewrite E in P. rewrite Nat.even_succ, <- Nat.negb_even in P. now destruct (Nat.even _).
        -- rewrite set_nth_other by assumption. exact P.
    + apply IH with (n := n); cbn [sh_held sh_counter]; [now rewrite set_nth_length|assumption| |lia|].
      * intros u w. destruct (Nat.eq_dec t u) as [<-|N]; [rewrite set_nth_same by lia; intros X; inversion X; subst; lia|].
        rewrite set_nth_other by assumption. intros X. specialize (V u w X). lia.
      * intros u U. specialize (P u U). cbn [count_occ] in P. unfold waiting in *. cbn [sh_held].
        destruct (Nat.eq_dec t u) as [<-|N].
        -- rewrite set_nth_same by lia. rewrite E in P. rewrite Nat.even_succ, <- Nat.negb_even in P. now destruct (Nat.even _).
        -- rewrite set_nth_other by assumption. exact P.
    + apply nth_error_None in E. lia.
Qed.

(** More than 65536 numbers are not distinct. *)
Lemma numbers_repeat c n : 65536 < Z.of_nat n -> ~ NoDup (numbers c n).
Proof.
  intros L N. set (j := Z.to_nat 65536) in *. assert (J : Z.of_nat j = 65536) by (unfold j; apply Z2Nat.id; lia).
  clearbody j. assert (j = 0%nat); [|subst j; cbn in J; lia].
  apply (proj1 (NoDup_nth (numbers c n) 0) N); [rewrite numbers_length; lia|rewrite numbers_length; lia|].
  unfold numbers. rewrite !(nth_indep _ 0 (u16 (c + 1 + Z.of_nat 0))) by (rewrite map_length, seq_length; lia).
  rewrite !(map_nth (fun i => u16 (c + 1 + Z.of_nat i))), !seq_nth by lia. unfold u16.
  rewrite !Nat.add_0_l, J, Z.add_0_r. replace (c + 1 + 65536) with (c + 1 + 1 * 65536) by lia.
  rewrite Z.mod_add by lia. reflexivity.
Qed.
Lemma turns_length turns : zlen (one_at_a_time turns) = 2 * zlen turns.
Proof.
  induction turns as [|t r IH]; [reflexivity|]. unfold one_at_a_time, zlen in *. cbn [map List.concat app List.length]. lia.
Qed.

Theorem distinct_iff n ts : Forall (fun t => (t < n)%nat) ts ->
  (forall t, Nat.even (count_occ Nat.eq_dec ts t) = true) -> zlen ts < 2147483647 ->
  exists s, accesses ts (shared0 n) = (Ok tt, s)
    /\ (NoDup (map snd (sh_given s)) <-> exists turns, ts = one_at_a_time turns /\ zlen turns <= 65536).
Proof.
  intros F P L.
  destruct (runs_even ts (shared0 n) n) as (s & E & H).
  - cbn. apply repeat_length.
  - exact F.
  - intros t v X. cbn in X. apply nth_error_In in X. apply repeat_spec in X. discriminate.
  - cbn [shared0 sh_counter]. lia.
  - intros t T. rewrite P. unfold waiting. cbn [shared0 sh_held]. rewrite held0 by exact T. reflexivity.
  - assert (Fi : forall turns, ts = one_at_a_time turns -> Forall (fun t => (t < n)%nat) turns).
    { intros turns ->. clear -F. induction turns as [|t r IH]; [constructor|]. unfold one_at_a_time in F. cbn [map List.concat app] in F.
      inversion_clear F as [|? ? A B]. inversion_clear B as [|? ? _ C]. constructor; [exact A|]. apply IH. exact C. }
    exists s. split; [exact E|]. split.
    + intros N.
      destruct (distinct_turns (List.length ts) ts (shared0 n) s n (le_n _) eq_refl F E H (sh_given s) eq_refl N) as (turns & Q).
      exists turns. split; [exact Q|]. specialize (Fi turns Q). subst ts. rewrite turns_length in L.
      rewrite turns_run in E; cbn [shared0 sh_held sh_counter sh_given app] in *.
      * inversion E; subst s. cbn [sh_given] in N. rewrite map_snd_combine in N by (now rewrite numbers_length).
        destruct (Z.le_gt_cases (zlen turns) 65536) as [B|B]; [exact B|]. destruct (numbers_repeat _ _ B N).
      * revert Fi. apply Forall_impl. intros t T. now apply held0.
      * unfold zlen in *. lia.
    + intros (turns & Q & B). specialize (Fi turns Q). subst ts.
      destruct (turns_distinct n turns Fi B) as (s0 & E0 & _ & N). assert (s0 = s) by congruence. subst s0. exact N.
Qed.
