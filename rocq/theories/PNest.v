(** Proofs about upload handlers that use the file object. *)
From Verif Require Import Base MBuffer SBuffer PBase PBuffer PReader MEip SEip PEip PRouter SObj PObj MFile SFile PFile PFile2
  MSync SSync PSync MNest SNest.

Lemma within_refl l : within l l.
Proof. induction l; constructor; assumption. Qed.
Lemma within_nil l : within [] l.
Proof. induction l; constructor; assumption. Qed.
Lemma within_app a b a' b' : within a a' -> within b b' -> within (a ++ b) (a' ++ b').
Proof. intros A B. induction A; cbn [app]; [exact B| |]; constructor; assumption. Qed.

Section Any.
Context {W : Type}.
Variables (h : heap) (use8 : bool) (si : session_if W).
Notation flatrun := (fops_run h use8 si).
Notation step := (fop_run h use8 si).

Lemma fops_app l1 l2 : forall s os1 s1, flatrun l1 s = (os1, s1) -> Forall goes_on os1 ->
  flatrun (l1 ++ l2) s = (os1 ++ fst (flatrun l2 s1), snd (flatrun l2 s1)).
Proof.
  induction l1 as [|x l1 IH]; intros s os1 s1 E G.
  - inversion E; subst. cbn [app]. destruct (flatrun l2 s1); reflexivity.
  - cbn [fops_run app] in *. destruct (step x s) as [o s2]. destruct o as [b|e|u|].
    1-2: destruct (flatrun l1 s2) as [os s3] eqn:Q; inversion E; subst; inversion G; subst;
      rewrite (IH _ _ _ Q) by assumption; reflexivity.
    + inversion E; subst. inversion G as [|? ? K]. destruct K.
    + inversion E; subst. inversion G as [|? ? K]. destruct K.
Qed.
Lemma fops_one x s o s' : step x s = (o, s') -> flatrun [x] s = ([o], s').
Proof. intros E. cbn [fops_run]. rewrite E. destruct o; reflexivity. Qed.

(** ** What a single call does to the state and the calls *)
Definition loading (f : fobj) : Prop := match fo_state f with FUpload _ _ _ _ _ => True | _ => False end.

Lemma begin_loading hid f w : loading f -> step (FoBegin hid) (f, w) = (Ok false, (f, w)).
Proof. unfold loading. intros L. cbn [fop_run]. unfold st_bind, begin_upload. destruct (fo_state f); try destruct L. reflexivity. Qed.
Lemma transfer_loading f w o f' w' : loading f -> step FoTransfer (f, w) = (o, (f', w')) -> loading f'.
Proof.
  unfold loading. intros L E. cbn [fop_run] in E. unfold handle_transfers in E. destruct (fo_state f) as [| | | |size T c k hid] eqn:S0; try destruct L.
  destruct (send_request _ _ _ _ _ _ _ _) as [r w2]. destruct (bind r _) as [[b f2]| | |] eqn:X; inversion E; subst; try (now rewrite S0).
  destruct r as [r| | |]; try discriminate. cbn [bind] in X. unfold transferred in X.
  destruct (r_status r =? GSC_SUCCESS); [|inversion X; subst; cbn; now rewrite S0].
  destruct (get_u8 h _) as [[x b1]| | |]; try discriminate. cbn [bind] in X.
  destruct (get_u8 h b1) as [[y b2]| | |]; try discriminate. cbn [bind] in X.
  destruct (negb (x =? k)); [inversion X; subst; cbn; now rewrite S0|].
  destruct ((y =? 0) || (y =? 1)); [destruct (get_bytes _ _ _) as [[z b3]| | |]; try discriminate; inversion X; subst; exact I|].
  destruct ((y =? 2) || (y =? 4)); [|discriminate]. destruct (Nat.ltb _ _); [discriminate|].
  destruct (get_bytes _ _ _) as [[z b3]| | |]; try discriminate. inversion X; subst. exact I.
Qed.
Lemma transfer_quiet f w : ~ loading f -> step FoTransfer (f, w) = (Ok false, (f, w)).
Proof. unfold loading. intros L. cbn [fop_run]. unfold handle_transfers. destruct (fo_state f); try reflexivity. now destruct L. Qed.
Lemma loading_dec f : loading f \/ ~ loading f.
Proof. unfold loading. destruct (fo_state f); auto. Qed.
Lemma sync_no_call f w o f' w' : step FoSync (f, w) = (o, (f', w')) -> skipn (List.length (fo_calls f)) (fo_calls f') = [].
Proof.
  intros E. destruct (own_step h use8 si FoSync f w o f' w' E) as (_ & cs & C & _ & _ & _ & N). rewrite C, (N eq_refl), app_nil_r. apply skipn_all.
Qed.

Variable H : hcall -> fobj * W -> hact W.
Notation nrun := (hrun h use8 si H).

(** ** Handlers that make no calls *)
Lemma idle_same n x g s : idle_handlers H ->
  fst (nrun (S n) x (g, s)) = fst (step x s) /\ snd (snd (nrun (S n) x (g, s))) = snd (step x s).
Proof.
  intros I. destruct s as [f w]. cbn [hrun]. destruct (step x (f, w)) as [o [f' w']].
  destruct o as [b| | |]; [|split; reflexivity..]. destruct (skipn _ _) as [|c r]; [split; reflexivity|].
  rewrite I. cbn [hbody]. split; reflexivity.
Qed.

(** ** A handler that throws, or makes one call *)
Lemma called n x g f w b f' w' c : step x (f, w) = (Ok b, (f', w')) -> fo_calls f' = fo_calls f ++ [c] ->
  match H c (f', w') with
  | HDone => snd (nrun (S n) x (g, (f, w))) = (g, (f', w')) /\ fst (nrun (S n) x (g, (f, w))) = Ok b
  | HThrow e => snd (nrun (S n) x (g, (f, w))) = (g, (f', w')) /\ fst (nrun (S n) x (g, (f, w))) = Throw e
  | HDo y k => (forall o s, k o s = match o with Throw e => HThrow e | _ => HDone end) ->
               snd (nrun (S n) x (g, (f, w))) = snd (nrun n y (g, (f', w')))
               /\ fst (nrun (S n) x (g, (f, w))) = omap (fun _ => b) (fst (nrun n y (g, (f', w'))))
  end.
Proof.
  intros E C.
  assert (NR : replaces x (Ok b) f f' = false).
  { destruct x as [hid| |]; cbn [replaces]; [|reflexivity|].
    - destruct (fo_state f) eqn:S0; try reflexivity. destruct (fo_state f') eqn:S1; try reflexivity. exfalso.
      cbn [fop_run] in E. unfold st_bind, begin_upload in E. rewrite S0 in E. destruct (send_request _ _ _ _ _ _ _ _) as [r w2].
      destruct r as [r| | |]; try discriminate. cbn [bind] in E. unfold initiated in E. destruct (r_status r =? GSC_SUCCESS).
      + destruct (get_u32 h _) as [[x b1]| | |]; try discriminate. cbn [bind] in E. destruct (get_u8 h b1) as [[y b2]| | |]; try discriminate.
        inversion E; subst. cbn [f_set fo_calls] in C. apply (f_equal (@List.length hcall)) in C. rewrite app_length in C. cbn in C. lia.
      + inversion E; subst. cbn [f_call fo_state] in S1. congruence.
    - exfalso. pose proof (sync_no_call _ _ _ _ _ E) as Q. rewrite C, skipn_app, skipn_all, Nat.sub_diag in Q. discriminate. }
  cbn [hrun]. rewrite E, NR. replace (skipn _ _) with [c] by (rewrite C, skipn_app, skipn_all, Nat.sub_diag; reflexivity).
  destruct (H c (f', w')) as [|e|y k]; cbn [hbody].
  - now split.
  - now split.
  - intros K. replace (match match x with FoTransfer => Some g | _ => None end with Some g0 => Nat.eqb g0 (fst (g, (f', w'))) | None => true end) with true
      by (destruct x; [reflexivity|symmetry; apply Nat.eqb_refl|reflexivity]).
    destruct (nrun n y (g, (f', w'))) as [o s2]. destruct o; rewrite ?K; now split.
Qed.

(** ** The depth of the stack *)
Lemma body_ext (run run' : fop -> @nview W -> outcome bool * @nview W) own (a : hact W) : (forall x s, fst (run x s) <> Abort -> run' x s = run x s) ->
  forall s, fst (hbody run own a s) <> Abort -> hbody run' own a s = hbody run own a s.
Proof.
  intros E. induction a as [|e|x k IH]; intros s N; cbn [hbody] in *; [reflexivity..|].
  destruct (match own with Some g => Nat.eqb g (fst s) | None => true end); [|reflexivity].
  specialize (E x s). destruct (run x s) as [o s1]. destruct o as [b|e|u|]; cbn [fst] in *.
  - rewrite E by discriminate. now apply IH.
  - rewrite E by discriminate. now apply IH.
  - rewrite E by discriminate. reflexivity.
  - now destruct N.
Qed.
Lemma deeper n : forall x s m, (n <= m)%nat -> fst (nrun n x s) <> Abort -> nrun m x s = nrun n x s.
Proof.
  induction n as [|n IH]; intros x s m L N; [now destruct N|]. destruct m as [|m]; [lia|]. cbn [hrun] in *.
  destruct s as [g [f w]]. destruct (step x (f, w)) as [o [f' w']]. destruct o as [b| | |]; try reflexivity.
  destruct (skipn _ _) as [|c r]; [reflexivity|].
  set (own := match x with FoTransfer => Some g | _ => None end) in *. set (s' := (_, (f', w'))) in *.
  rewrite (body_ext (nrun n) (nrun m) own (H c (f', w'))); [reflexivity| |].
  - intros y t K. apply IH; [lia|exact K].
  - intros K. destruct (hbody (nrun n) own (H c (f', w')) s') as [o2 s2]. cbn [fst] in *. subst o2. now apply N.
Qed.

(** ** A nested run is a sequence of plain calls *)
Definition ends (o : outcome unit) (os : list (outcome bool)) : Prop :=
  match o with
  | Ok _ | Throw _ => Forall goes_on os
  | Undef u => u = UbDangling /\ Forall goes_on os \/ exists os', os = os' ++ [Undef u]
  | Abort => True
  end.
Definition flat (must : list fop) (s : fobj * W) (r : outcome unit * nview) : Prop :=
  exists l os, within must l /\ flatrun l s = (os, snd (snd r)) /\ ends (fst r) os.
Definition drop {A S} (r : outcome A * S) : outcome unit * S := (omap (fun _ => tt) (fst r), snd r).

Lemma ends_omap {A B} (f : A -> B) o os : ends (omap (fun _ => tt) (omap f o)) os <-> ends (omap (fun _ => tt) o) os.
Proof. destruct o; reflexivity. Qed.

Lemma body_flat (run : fop -> @nview W -> outcome bool * @nview W) own : (forall x s, flat [] (snd s) (drop (run x s))) ->
  forall a s, flat [] (snd s) (hbody run own a s).
Proof.
  intros R. induction a as [|e|x k IH]; intros s; cbn [hbody].
  - exists [], []. repeat split; constructor.
  - exists [], []. repeat split; constructor.
  - destruct (match own with Some g => Nat.eqb g (fst s) | None => true end).
    2:{ exists [], []. split; [constructor|]. split; [reflexivity|]. left. split; [reflexivity|constructor]. }
    destruct (R x s) as (l1 & os1 & _ & E1 & G1). destruct (run x s) as [o s1]. cbn [drop fst snd] in *.
    assert (GO : Forall goes_on os1 -> flat [] (snd s) (hbody run own (k o (snd s1)) s1)).
    { intros G. destruct (IH o (snd s1) s1) as (l2 & os2 & _ & E2 & G2). exists (l1 ++ l2), (os1 ++ os2). split; [apply within_nil|].
      rewrite (fops_app _ l2 _ _ _ E1 G), E2. split; [reflexivity|]. destruct (fst (hbody run own (k o (snd s1)) s1)); cbn [ends] in *.
      - now apply Forall_app.
      - now apply Forall_app.
      - destruct G2 as [[-> G2]|(os' & ->)]; [left; split; [reflexivity|now apply Forall_app]|right]. exists (os1 ++ os'). apply app_assoc.
      - exact I. }
    destruct o as [b|e|u|]; cbn [omap ends] in G1; [now apply GO|now apply GO| |].
    + exists l1, os1. split; [apply within_nil|]. split; [exact E1|exact G1].
    + exists l1, os1. split; [apply within_nil|]. split; [exact E1|exact I].
Qed.

Lemma run_flat n : forall x s, flat (if Nat.eqb n 0 then [] else [x]) (snd s) (drop (nrun n x s)).
Proof.
  induction n as [|n IH]; intros x s; [exists [], []; repeat split; constructor|].
  cbn [Nat.eqb hrun]. destruct s as [g [f w]]. cbn [snd]. destruct (step x (f, w)) as [o [f' w']] eqn:E. pose proof (fops_one _ _ _ _ E) as E1.
  assert (ST : ends (omap (fun _ => tt) o) [o] -> flat [x] (f, w) (drop (o, (if replaces x o f f' then S g else g, (f', w'))))).
  { intros G. exists [x], [o]. split; [apply within_refl|]. split; [exact E1|exact G]. }
  assert (SE : ends (omap (fun _ => tt) o) [o]).
  { destruct o; cbn [omap ends]; [repeat constructor..| |exact I]. right. now exists []. }
  destruct o as [b| | |]; try (apply ST; exact SE). destruct (skipn _ _) as [|c r]; [apply ST; exact SE|].
  set (own := match x with FoTransfer => Some g | _ => None end). set (s' := (_, (f', w'))).
  assert (R : forall y t, flat [] (snd t) (drop (nrun n y t))).
  { intros y t. destruct (IH y t) as (l & os & _ & P). exists l, os. split; [apply within_nil|exact P]. }
  destruct (body_flat (nrun n) own R (H c (f', w')) s') as (l & os & _ & E2 & G2).
  destruct (hbody (nrun n) own (H c (f', w')) s') as [o2 s2]. unfold s' in E2. cbn [drop fst snd] in *.
  exists (x :: l), (Ok b :: os). split; [constructor; apply within_nil|].
  change (x :: l) with ([x] ++ l). rewrite (fops_app [x] l _ _ _ E1) by (repeat constructor). rewrite E2. split; [reflexivity|].
  destruct o2 as [[]|e|u|]; cbn [omap ends fst] in *.
  - now constructor.
  - now constructor.
  - destruct G2 as [[-> G2]|(os' & ->)]; [left; split; [reflexivity|now constructor]|right]. now exists (Ok b :: os').
  - exact I.
Qed.

Lemma nested_flat n x g s : goes_on (fst (nrun n x (g, s))) ->
  exists l os, within [x] l /\ flatrun l s = (os, snd (snd (nrun n x (g, s)))) /\ Forall goes_on os.
Proof.
  intros G. destruct n as [|n]; [destruct G|]. destruct (run_flat (S n) x (g, s)) as (l & os & Wi & E & EN). cbn [Nat.eqb snd drop] in *.
  exists l, os. split; [exact Wi|]. split; [exact E|]. unfold drop in EN. cbn [fst] in EN. destruct (fst (nrun (S n) x (g, s))); try destruct G; exact EN.
Qed.
Lemma history_flat n l : forall g s, Forall goes_on (fst (hruns h use8 si H n l (g, s))) ->
  exists l' os, within l l' /\ flatrun l' s = (os, snd (snd (hruns h use8 si H n l (g, s)))) /\ Forall goes_on os.
Proof.
  induction l as [|x l IH]; intros g s G; [exists [], []; repeat split; constructor|]. cbn [hruns] in *.
  pose proof (nested_flat n x g s) as N. destruct (nrun n x (g, s)) as [o [g1 s1]] eqn:E. cbn [fst snd] in N.
  assert (O : goes_on o) by (destruct o; [exact I|exact I| |]; inversion G as [|? ? K]; exact K).
  destruct (N O) as (l1 & os1 & W1 & E1 & G1).
  assert (R : fst (hruns h use8 si H n (x :: l) (g, s)) = o :: fst (hruns h use8 si H n l (g1, s1))
              /\ snd (hruns h use8 si H n (x :: l) (g, s)) = snd (hruns h use8 si H n l (g1, s1))).
  { cbn [hruns]. rewrite E. destruct o; try destruct O; destruct (hruns h use8 si H n l (g1, s1)); split; reflexivity. }
  cbn [hruns] in R. rewrite E in R. destruct R as [R1 R2]. rewrite R1 in G. inversion G as [|? ? _ G']. destruct (IH g1 s1 G') as (l2 & os2 & W2 & E2 & G2).
  exists (l1 ++ l2), (os1 ++ os2). split; [exact (within_app [x] l l1 l2 W1 W2)|]. rewrite R2.
  rewrite (fops_app _ l2 _ _ _ E1 G1), E2. split; [reflexivity|now apply Forall_app].
Qed.

(** ** Handlers that leave their own state object alone *)
Definition flat_ub (s : fobj * W) (r : outcome unit * @nview W) : Prop :=
  exists l os, flatrun l s = (os, snd (snd r))
  /\ match fst r with Ok _ | Throw _ => Forall goes_on os | Undef u => exists os', os = os' ++ [Undef u] | Abort => True end.

(** What a run must keep for a handler that is a member of state object [g]. *)
Definition keeps (s : @nview W) (r : outcome unit * @nview W) : Prop :=
  loading (fst (snd s)) -> fst (snd r) = fst s /\ loading (fst (snd (snd r))).

Lemma flat_app s l1 os1 s1 r : flatrun l1 s = (os1, s1) -> Forall goes_on os1 -> flat_ub s1 r -> flat_ub s r.
Proof.
  intros E1 G1 (l2 & os2 & E2 & G2). exists (l1 ++ l2), (os1 ++ os2). rewrite (fops_app _ l2 _ _ _ E1 G1), E2. split; [reflexivity|].
  destruct (fst r); [now apply Forall_app..| |exact I]. destruct G2 as (os' & ->). exists (os1 ++ os'). apply app_assoc.
Qed.
Lemma flat_stop s (o : outcome unit) g : match o with Ok _ | Throw _ | Abort => True | Undef _ => False end -> flat_ub s (o, (g, s)).
Proof. intros K. exists [], []. split; [reflexivity|]. destruct o; try destruct K; try exact I; constructor. Qed.

Lemma body_no_sync (run : fop -> @nview W -> outcome bool * @nview W) own a :
  (forall x s, x <> FoSync -> flat_ub (snd s) (drop (run x s)) /\ keeps s (drop (run x s))) ->
  no_sync a -> forall s, match own with Some g => g = fst s /\ loading (fst (snd s)) | None => True end ->
  flat_ub (snd s) (hbody run own a s) /\ keeps s (hbody run own a s).
Proof.
  intros R N. induction N as [|e|x k X NK IH]; intros s O; cbn [hbody].
  - split; [destruct s; now apply flat_stop|now split].
  - split; [destruct s; now apply flat_stop|now split].
  - assert (B : match own with Some g => Nat.eqb g (fst s) | None => true end = true) by (destruct own; [destruct O as [-> _]; apply Nat.eqb_refl|reflexivity]).
    rewrite B. destruct (R x s X) as [(l1 & os1 & E1 & G1) K1]. destruct (run x s) as [o s1]. cbn [drop fst snd] in *.
    assert (GO : Forall goes_on os1 -> flat_ub (snd s) (hbody run own (k o (snd s1)) s1) /\ keeps s (hbody run own (k o (snd s1)) s1)).
    { intros G. assert (O1 : match own with Some g => g = fst s1 /\ loading (fst (snd s1)) | None => True end).
      { destruct own; [|exact I]. destruct O as [-> L]. destruct (K1 L) as [Q L1]. split; [symmetry; exact Q|exact L1]. }
      destruct (IH o (snd s1) s1 O1) as [F2 K2]. split; [exact (flat_app _ _ _ _ _ E1 G F2)|].
      intros L. destruct (K1 L) as [Q L1]. cbn [snd fst] in *. destruct (K2 L1) as [Q2 L2]. split; [etransitivity; [exact Q2|exact Q]|exact L2]. }
    destruct o as [b|e|u|]; cbn [omap] in G1; [now apply GO|now apply GO| |].
    + split; [exists l1, os1; split; [exact E1|exact G1]|exact K1].
    + split; [exists l1, os1; split; [exact E1|exact I]|exact K1].
Qed.

Lemma replaces_loading x o f f' : x <> FoSync -> loading f -> replaces x o f f' = false.
Proof. unfold loading. intros X L. destruct x; cbn [replaces]; try reflexivity; [|now destruct X]. destruct o; try reflexivity. destruct (fo_state f); try destruct L; reflexivity. Qed.
Lemma step_loading x f w o f' w' : x <> FoSync -> loading f -> step x (f, w) = (o, (f', w')) -> loading f'.
Proof.
  intros X L E. destruct x as [hid| |]; [|now apply (transfer_loading f w o f' w')|now destruct X].
  rewrite (begin_loading hid f w L) in E. now inversion E; subst.
Qed.
Lemma single_flat x f w o f' w' g : step x (f, w) = (o, (f', w')) -> flat_ub (f, w) (drop (o, (g, (f', w')))).
Proof.
  intros E. exists [x], [o]. split; [now apply fops_one|]. destruct o; cbn; [repeat constructor..| |exact I]. now exists [].
Qed.
(** a transfer that calls a handler was one of an upload in progress *)
Lemma transfer_called f w o f' w' c r : step FoTransfer (f, w) = (o, (f', w')) ->
  skipn (List.length (fo_calls f)) (fo_calls f') = c :: r -> loading f.
Proof.
  intros E Q. destruct (loading_dec f) as [L|L]; [exact L|]. rewrite (transfer_quiet f w L) in E. inversion E; subst. now rewrite skipn_all in Q.
Qed.

Lemma run_no_sync n : (forall c s, no_sync (H c s)) -> forall x s,
  flat_ub (snd s) (drop (nrun n x s)) /\ (x <> FoSync -> keeps s (drop (nrun n x s))).
Proof.
  intros N. induction n as [|n IH]; intros x s; [split; [destruct s; now apply flat_stop|now split]|].
  cbn [hrun]. destruct s as [g [f w]]. cbn [snd]. destruct (step x (f, w)) as [o [f' w']] eqn:E.
  assert (ST : flat_ub (f, w) (drop (o, (if replaces x o f f' then S g else g, (f', w'))))
    /\ (x <> FoSync -> keeps (g, (f, w)) (drop (o, (if replaces x o f f' then S g else g, (f', w')))))).
  { split; [now apply (single_flat x)|]. intros X L. cbn [fst snd drop] in *. rewrite (replaces_loading x o f f' X L).
    split; [reflexivity|exact (step_loading x f w o f' w' X L E)]. }
  destruct o as [b| | |]; try exact ST. destruct (skipn _ _) as [|c r] eqn:SK; [exact ST|].
  set (own := match x with FoTransfer => Some g | _ => None end). set (s' := (_, (f', w'))).
  assert (O : match own with Some g' => g' = fst s' /\ loading (fst (snd s')) | None => True end).
  { unfold own, s'. destruct x; try exact I. cbn [replaces fst snd]. split; [reflexivity|]. apply (transfer_loading f w _ _ _ (transfer_called f w _ _ _ c r E SK) E). }
  destruct (body_no_sync (nrun n) own (H c (f', w')) (fun y t Y => conj (proj1 (IH y t)) (proj2 (IH y t) Y)) (N c (f', w')) s' O) as [F2 K2].
  destruct (hbody (nrun n) own (H c (f', w')) s') as [o2 s2]. unfold s' in *. cbn [drop fst snd] in *. split.
  - pose proof (flat_app _ _ _ _ _ (fops_one _ _ _ _ E) ltac:(repeat constructor) F2) as (l & os & E3 & G3). exists l, os. split; [exact E3|]. now destruct o2 as [[]| | |].
  - intros X L. cbn [fst snd] in *. rewrite (replaces_loading x (Ok b) f f' X L) in K2.
    destruct (K2 (step_loading x f w _ _ _ X L E)) as [Q L2]. now split.
Qed.

Lemma body_leaves (run : fop -> @nview W -> outcome bool * @nview W) own a s : leaves a ->
  snd (hbody run own a s) = s /\ match fst (hbody run own a s) with Ok _ | Throw _ => True | _ => False end.
Proof. destruct a; intros K; [| |destruct K]; now split. Qed.

Lemma body_sync_last n own a : (forall y s, flat_ub (snd s) (drop (nrun n y s))) ->
  sync_last a -> forall s, match own with Some g => g = fst s /\ loading (fst (snd s)) | None => True end ->
  flat_ub (snd s) (hbody (nrun n) own a s).
Proof.
  intros R N. induction N as [|e|hid k NK IH|k LK]; intros s O.
  - destruct s; now apply flat_stop.
  - destruct s; now apply flat_stop.
  - cbn [hbody].
    assert (B : match own with Some g => Nat.eqb g (fst s) | None => true end = true) by (destruct own; [destruct O as [-> _]; apply Nat.eqb_refl|reflexivity]).
    rewrite B. destruct (R (FoBegin hid) s) as (l1 & os1 & E1 & G1).
    assert (K : fst (nrun n (FoBegin hid) s) = Abort \/ match own with Some g => g = fst (snd (nrun n (FoBegin hid) s)) /\ loading (fst (snd (snd (nrun n (FoBegin hid) s)))) | None => True end).
    { destruct own; [|now right]. destruct O as [-> L]. destruct n as [|n]; [now left|right]. destruct s as [g [f w]]. cbn [fst snd hrun] in *.
      rewrite (begin_loading hid f w L), skipn_all. cbn [snd]. rewrite (replaces_loading (FoBegin hid) (Ok false) f f ltac:(discriminate) L). now split. }
    destruct (nrun n (FoBegin hid) s) as [o s1]. cbn [drop fst snd] in *.
    destruct o as [b|e|u|]; cbn [omap] in G1.
    + destruct K as [K|K]; [discriminate|]. exact (flat_app _ _ _ _ _ E1 G1 (IH _ (snd s1) s1 K)).
    + destruct K as [K|K]; [discriminate|]. exact (flat_app _ _ _ _ _ E1 G1 (IH _ (snd s1) s1 K)).
    + exists l1, os1. split; [exact E1|exact G1].
    + exists l1, os1. split; [exact E1|exact I].
  - cbn [hbody].
    assert (B : match own with Some g => Nat.eqb g (fst s) | None => true end = true) by (destruct own; [destruct O as [-> _]; apply Nat.eqb_refl|reflexivity]).
    rewrite B. destruct (R FoSync s) as (l1 & os1 & E1 & G1). destruct (nrun n FoSync s) as [o s1]. cbn [drop fst snd] in *.
    assert (GO : Forall goes_on os1 -> flat_ub (snd s) (hbody (nrun n) own (k o (snd s1)) s1)).
    { intros G. destruct (body_leaves (nrun n) own (k o (snd s1)) s1 (LK o (snd s1))) as [Q1 Q2]. exists l1, os1. rewrite Q1. split; [exact E1|].
      destruct (fst (hbody (nrun n) own (k o (snd s1)) s1)); try destruct Q2; exact G. }
    destruct o as [b|e|u|]; cbn [omap] in G1; [now apply GO|now apply GO| |].
    + exists l1, os1. split; [exact E1|exact G1].
    + exists l1, os1. split; [exact E1|exact I].
Qed.
Lemma run_sync_last n : (forall c s, sync_last (H c s)) -> forall x s, flat_ub (snd s) (drop (nrun n x s)).
Proof.
  intros N. induction n as [|n IH]; intros x s; [destruct s; now apply flat_stop|].
  cbn [hrun]. destruct s as [g [f w]]. cbn [snd]. destruct (step x (f, w)) as [o [f' w']] eqn:E.
  pose proof (single_flat x f w o f' w' (if replaces x o f f' then S g else g) E) as ST.
  destruct o as [b| | |]; try exact ST. destruct (skipn _ _) as [|c r] eqn:SK; [exact ST|].
  set (own := match x with FoTransfer => Some g | _ => None end). set (s' := (_, (f', w'))).
  assert (O : match own with Some g' => g' = fst s' /\ loading (fst (snd s')) | None => True end).
  { unfold own, s'. destruct x; try exact I. cbn [replaces fst snd]. split; [reflexivity|]. apply (transfer_loading f w _ _ _ (transfer_called f w _ _ _ c r E SK) E). }
  pose proof (body_sync_last n own (H c (f', w')) IH (N c (f', w')) s' O) as F2.
  destruct (hbody (nrun n) own (H c (f', w')) s') as [o2 s2]. unfold s' in *. cbn [drop fst snd] in *.
  pose proof (flat_app _ _ _ _ _ (fops_one _ _ _ _ E) ltac:(repeat constructor) F2) as (l & os & E3 & G3). exists l, os. split; [exact E3|]. now destruct o2 as [[]| | |].
Qed.

Lemma kind_flat n x g s : kind_handlers H -> flat_ub s (drop (nrun n x (g, s))).
Proof. intros [N|N]; [exact (proj1 (run_no_sync n N x (g, s)))|exact (run_sync_last n N x (g, s))]. Qed.
Lemma kind_safe n x g s u : kind_handlers H -> fst (nrun n x (g, s)) = Undef u ->
  exists l os s', flatrun l s = (os ++ [Undef u], s').
Proof.
  intros K E. destruct (kind_flat n x g s K) as (l & os & Q & G). unfold drop in *. cbn [fst snd] in *. rewrite E in G. cbn [omap] in G. destruct G as (os' & ->).
  now exists l, os', (snd (snd (nrun n x (g, s)))).
Qed.
Lemma kind_history n l : kind_handlers H -> forall g s, exists l' os, flatrun l' s = (os, snd (snd (hruns h use8 si H n l (g, s))))
  /\ (Forall goes_on (fst (hruns h use8 si H n l (g, s))) -> Forall goes_on os)
  /\ (forall u, In (Undef u) (fst (hruns h use8 si H n l (g, s))) -> In (Undef u) os).
Proof.
  intros K. induction l as [|x l IH]; intros g s; [exists [], []; repeat split; auto|]. cbn [hruns].
  destruct (kind_flat n x g s K) as (l1 & os1 & E1 & G1). unfold drop in *. cbn [fst snd] in *. destruct (nrun n x (g, s)) as [o [g1 s1]]. cbn [fst snd] in *.
  destruct (IH g1 s1) as (l2 & os2 & E2 & G2 & U2). destruct (hruns h use8 si H n l (g1, s1)) as [os sn]. cbn [fst snd] in *.
  assert (GO : Forall goes_on os1 -> (forall u, o <> Undef u) -> exists l' os', flatrun l' s = (os', snd sn)
     /\ (Forall goes_on (o :: os) -> Forall goes_on os') /\ (forall u, In (Undef u) (o :: os) -> In (Undef u) os')).
  { intros G NU. exists (l1 ++ l2), (os1 ++ os2). rewrite (fops_app _ l2 _ _ _ E1 G), E2. split; [reflexivity|]. split.
    - intros F. inversion F; subst. apply Forall_app; auto.
    - intros u [Q|Q]; [now destruct (NU u)|]. apply in_app_iff. right. now apply U2. }
  destruct o as [b|e|u|]; cbn [omap] in G1.
  - apply GO; [exact G1|discriminate].
  - apply GO; [exact G1|discriminate].
  - destruct G1 as (os' & ->). exists l1, (os' ++ [Undef u]). split; [exact E1|]. cbn [fst]. split.
    + intros F. inversion F as [|? ? K']. destruct K'.
    + intros v [Q|[]]. inversion Q; subst. apply in_app_iff. right. now left.
  - exists l1, os1. split; [exact E1|]. cbn [fst]. split.
    + intros F. inversion F as [|? ? K']. destruct K'.
    + intros v [Q|[]]. discriminate.
Qed.

(** ** A handler that goes on after synchronising *)
Lemma dangling n b b2 f w f' w' c r s2 k y k2 g :
  step FoTransfer (f, w) = (Ok b, (f', w')) -> fo_calls f' = fo_calls f ++ c :: r ->
  H c (f', w') = HDo FoSync k -> step FoSync (f', w') = (Ok b2, s2) -> k (Ok b2) s2 = HDo y k2 ->
  fst (nrun (S (S n)) FoTransfer (g, (f, w))) = Undef UbDangling.
Proof.
  intros E C HC ES K.
  assert (ST : nrun (S n) FoSync (g, (f', w')) = (Ok b2, (S g, s2))).
  { cbn [hrun]. rewrite ES. destruct s2 as [f2 w2]. now rewrite (sync_no_call _ _ _ _ _ ES). }
  remember (S n) as m eqn:M. cbn [hrun]. rewrite E. replace (skipn _ _) with (c :: r) by (rewrite C, skipn_app, skipn_all, Nat.sub_diag; reflexivity).
  rewrite HC. cbn [replaces hbody fst]. rewrite Nat.eqb_refl, ST. cbn [snd]. rewrite K. cbn [hbody fst].
  replace (Nat.eqb g (S g)) with false by (symmetry; apply Nat.eqb_neq; lia). reflexivity.
Qed.
End Any.

(** ** Against an adapter that follows the protocol *)
Section Adapter.
Variables (h : heap) (use8 : bool) (handle id : Z) (F : bytes) (T : Z) (crc : bytes).
Hypothesis Hh : is_u32 handle.
Hypothesis Hid : sendable use8 id.
Hypothesis HF : is_bytes F.
Hypothesis LF : zlen F < 2 ^ 32.
Hypothesis HT : 1 <= T <= 255.
Hypothesis HC : is_bytes crc.
Hypothesis LC : List.length crc = 2%nat.
Let si := served handle (uploader id F T crc).
Variable H : hcall -> fobj * (option nat * trace) -> hact (option nat * trace).

Lemma nested_told n l g f k tr os g' f' w' : fo_id f = id -> state_code (fo_state f) <> 5 ->
  hruns h use8 si H n l (g, (f, (k, tr))) = (os, (g', (f', w'))) -> Forall goes_on os ->
  exists l' cs, within l l' /\ fo_id f' = id /\ fo_calls f' = fo_calls f ++ cs /\ Forall (told F) cs
  /\ (List.length (filter succeeded cs) <= List.length (begins l'))%nat
  /\ Forall (fun c => In (hc_handler c) (begins l')) cs.
Proof.
  intros I S0 E G. pose proof (history_flat h use8 si H n l g (f, (k, tr))) as X. rewrite E in X. cbn [fst snd] in X.
  destruct (X G) as (l' & os' & Wi & E2 & _).
  destruct (any_history h use8 handle id F T crc Hh Hid HF LF HT HC LC l' f k tr I S0) as (os2 & f2 & w2 & cs & E3 & _ & _ & I2 & C2 & P).
  fold si in E3. rewrite E2 in E3. inversion E3; subst. exists l', cs. repeat (split; [assumption|]). exact P.
Qed.
Lemma nested_safe n l g f k tr u : fo_id f = id -> state_code (fo_state f) <> 5 -> kind_handlers H ->
  ~ In (Undef u) (fst (hruns h use8 si H n l (g, (f, (k, tr))))).
Proof.
  intros I S0 K U. destruct (kind_history h use8 si H n l K g (f, (k, tr))) as (l' & os & E & _ & X). apply X in U.
  destruct (any_history h use8 handle id F T crc Hh Hid HF LF HT HC LC l' f k tr I S0) as (os2 & f2 & w2 & cs & E3 & _ & A & _).
  fold si in E3. rewrite E in E3. inversion E3; subst. rewrite Forall_forall in A. destruct (A _ U) as [b Q]. discriminate.
Qed.
End Adapter.

(** ** Asking again *)
Lemma refused_step {D} h use8 handle (dev : device D) f hid d tr a d' :
  is_u32 handle -> sendable use8 (fo_id f) -> fo_state f = FLoaded -> dev d (initiate_request (fo_id f)) = (a, d') -> answer_wf a -> a_status a <> 0 ->
  fop_run h use8 (served handle dev) (FoBegin hid) (f, (d, tr))
  = (Ok false, (f_call f (mkCall hid (a_status a) []), (d', tr ++ [(initiate_request (fo_id f), a)]))).
Proof.
  intros Hh Hid S0 E Wf N. cbn [fop_run]. unfold st_bind. rewrite (begin_request h use8 handle dev f hid d tr a d' Hh Hid S0 E Wf).
  unfold initiated. cbn [r_status]. apply Z.eqb_neq in N. unfold GSC_SUCCESS. now rewrite N.
Qed.
Lemma accepted_step {D} h use8 handle (dev : device D) f hid d tr a d' size T more :
  is_u32 handle -> sendable use8 (fo_id f) -> fo_state f = FLoaded -> dev d (initiate_request (fo_id f)) = (a, d') -> answer_wf a -> a_status a = 0 ->
  is_u32 size -> a_data a = le 4 size ++ T :: more ->
  fop_run h use8 (served handle dev) (FoBegin hid) (f, (d, tr))
  = (Ok false, (f_set f (FUpload size T [] 0 hid), (d', tr ++ [(initiate_request (fo_id f), a)]))).
Proof.
  intros Hh Hid S0 E Wf Z0 Hs Ed. cbn [fop_run]. unfold st_bind. rewrite (begin_request h use8 handle dev f hid d tr a d' Hh Hid S0 E Wf).
  unfold initiated. cbn [r_status r_data]. rewrite Z0. cbn [Z.eqb GSC_SUCCESS].
  rewrite Ed, buf_of_at, get_u32_le. cbn [bind]. rewrite get_u8_at. cbn [bind].
  replace (u32 size) with size by (unfold u32, is_u32 in *; symmetry; now apply Z.mod_small). reflexivity.
Qed.

Lemma asks_again h use8 handle hid a rest size T more refusals : is_u32 handle ->
  Forall (fun r => answer_wf r /\ a_status r <> 0) refusals -> answer_wf a -> a_status a = 0 -> is_u32 size -> a_data a = le 4 size ++ T :: more ->
  forall n f g tr, sendable use8 (fo_id f) -> fo_state f = FLoaded -> (List.length refusals < n)%nat ->
  hrun h use8 (served handle scripted) (retry hid) n (FoBegin hid) (g, (f, (refusals ++ a :: rest, tr)))
  = (Ok false, (S g, (mkFile (fo_id f) (FUpload size T [] 0 hid) (fo_calls f ++ map (fun r => mkCall hid (a_status r) []) refusals),
                      (rest, tr ++ map (fun r => (initiate_request (fo_id f), r)) (refusals ++ [a]))))).
Proof.
  intros Hh R Wa Za Hs Ed. induction R as [|r rs [Wr Nr] R IH]; intros n f g tr Hid S0 L; destruct n as [|n]; try (cbn in L; lia).
  - cbn [hrun app]. rewrite (accepted_step h use8 handle scripted f hid (a :: rest) tr a rest size T more Hh Hid S0 eq_refl Wa Za Hs Ed).
    cbn [f_set fo_calls map app]. rewrite skipn_all, app_nil_r. cbn [replaces fo_state]. now rewrite S0.
  - cbn [hrun app]. rewrite (refused_step h use8 handle scripted f hid (r :: rs ++ a :: rest) tr r (rs ++ a :: rest) Hh Hid S0 eq_refl Wr Nr).
    set (c := mkCall hid (a_status r) []). unfold f_call. cbn [fo_calls fo_id fo_state]. rewrite skipn_app, skipn_all, Nat.sub_diag. cbn [skipn app].
    assert (Q : replaces (FoBegin hid) (Ok false) f (mkFile (fo_id f) (fo_state f) (fo_calls f ++ [c])) = false).
    { cbn [replaces fo_state]. now rewrite S0. }
    assert (RT : forall s : fobj * (list answer * trace), retry hid c s = HDo (FoBegin hid) (fun _ _ => HDone)).
    { intros s. unfold retry. now replace (hc_status c =? 0) with false by (symmetry; now apply Z.eqb_neq). }
    rewrite Q, RT. cbn [hbody].
    pose proof (IH n (mkFile (fo_id f) (fo_state f) (fo_calls f ++ [c])) g (tr ++ [(initiate_request (fo_id f), r)]) Hid S0 ltac:(cbn in L; lia)) as E2.
    match type of E2 with ?x = _ => match goal with |- context [hrun ?a1 ?a2 ?a3 ?a4 ?a5 ?a6 ?a7] => change (hrun a1 a2 a3 a4 a5 a6 a7) with x end end. rewrite E2.
    cbn [hbody omap fo_id fo_calls map]. now rewrite <- !app_assoc.
Qed.
Lemma asks_for_ever {D} h use8 handle (dev : device D) hid : is_u32 handle -> device_wf dev ->
  forall n f g d tr, sendable use8 (fo_id f) -> fo_state f = FLoaded -> (forall d, a_status (fst (dev d (initiate_request (fo_id f)))) <> 0) ->
  exists f' d' tr', hrun h use8 (served handle dev) (retry hid) n (FoBegin hid) (g, (f, (d, tr))) = (Abort, (g, (f', (d', tr'))))
  /\ List.length tr' = (List.length tr + n)%nat /\ List.length (fo_calls f') = (List.length (fo_calls f) + n)%nat.
Proof.
  intros Hh DW. induction n as [|n IH]; intros f g d tr Hid S0 N.
  - do 3 eexists. split; [reflexivity|]. lia.
  - cbn [hrun]. pose proof (DW d (initiate_request (fo_id f))) as Wa. pose proof (N d) as Na. destruct (dev d (initiate_request (fo_id f))) as [a d'] eqn:E. cbn [fst] in *.
    rewrite (refused_step h use8 handle dev f hid d tr a d' Hh Hid S0 E Wa Na).
    set (c := mkCall hid (a_status a) []). unfold f_call. cbn [fo_calls fo_id fo_state]. rewrite skipn_app, skipn_all, Nat.sub_diag. cbn [skipn app].
    assert (Q : replaces (FoBegin hid) (Ok false) f (mkFile (fo_id f) (fo_state f) (fo_calls f ++ [c])) = false).
    { cbn [replaces fo_state]. now rewrite S0. }
    assert (RT : forall s : fobj * (D * trace), retry hid c s = HDo (FoBegin hid) (fun _ _ => HDone)).
    { intros s. unfold retry. now replace (hc_status c =? 0) with false by (symmetry; now apply Z.eqb_neq). }
    rewrite Q, RT. cbn [hbody].
    destruct (IH (mkFile (fo_id f) (fo_state f) (fo_calls f ++ [c])) g d' (tr ++ [(initiate_request (fo_id f), a)]) Hid S0 N) as (f2 & d2 & tr2 & E2 & L2 & C2).
    match type of E2 with ?x = _ => match goal with |- context [hrun ?a1 ?a2 ?a3 ?a4 ?a5 ?a6 ?a7] => change (hrun a1 a2 a3 a4 a5 a6 a7) with x end end.
    rewrite E2. do 3 eexists. split; [reflexivity|]. rewrite L2, C2. cbn [fo_calls]. rewrite !app_length. cbn [List.length]. lia.
Qed.
