(** Proofs about texts and comparisons. *)
From Coq Require Import DecimalString DecimalN DecimalFacts.
From Verif Require Import Base MBuffer SBuffer PBase PBuffer MEip SEip MYaskawa SText PPath PPathT.
Local Open Scope Z_scope.

Definition uval := fix uval (acc : Z) (d : Decimal.uint) : Z :=
  match d with
  | Decimal.Nil => acc
  | Decimal.D0 l => uval (10 * acc) l
  | Decimal.D1 l => uval (10 * acc + 1) l
  | Decimal.D2 l => uval (10 * acc + 2) l
  | Decimal.D3 l => uval (10 * acc + 3) l
  | Decimal.D4 l => uval (10 * acc + 4) l
  | Decimal.D5 l => uval (10 * acc + 5) l
  | Decimal.D6 l => uval (10 * acc + 6) l
  | Decimal.D7 l => uval (10 * acc + 7) l
  | Decimal.D8 l => uval (10 * acc + 8) l
  | Decimal.D9 l => uval (10 * acc + 9) l
  end.
Lemma reads_uint d : forall acc, reads acc (NilEmpty.string_of_uint d) = Some (uval acc d).
Proof.
  induction d as [|d IH|d IH|d IH|d IH|d IH|d IH|d IH|d IH|d IH|d IH]; intros acc; [reflexivity|..]; cbn [NilEmpty.string_of_uint uval];
    match goal with |- reads acc (String ?c _) = Some (uval ?v _) =>
      let x := eval vm_compute in (Z.of_nat (nat_of_ascii c) - 48) in
      transitivity (reads (10 * acc + x) (NilEmpty.string_of_uint d));
      [reflexivity|rewrite IH; f_equal; apply (f_equal (fun z => uval z d)); lia] end.
Qed.
Lemma uval_acc d : forall p, uval (Zpos p) d = Zpos (Pos.of_uint_acc d p).
Proof.
  induction d as [|d IH|d IH|d IH|d IH|d IH|d IH|d IH|d IH|d IH|d IH]; intros p; [reflexivity|..]; cbn [uval Pos.of_uint_acc];
    rewrite <- IH; f_equal; lia.
Qed.
Lemma uval_of d : uval 0 d = Z.of_N (N.of_uint d).
Proof.
  unfold N.of_uint. induction d as [|d IH|d IH|d IH|d IH|d IH|d IH|d IH|d IH|d IH|d IH]; [reflexivity|exact IH|..];
    cbn [uval Pos.of_uint Z.of_N]; rewrite <- uval_acc; reflexivity.
Qed.
Lemma to_uint_norm n : Decimal.unorm (N.to_uint n) = N.to_uint n.
Proof. rewrite <- (Unsigned.to_of (N.to_uint n)). now rewrite Unsigned.of_to. Qed.
Lemma uint_eq_dec (a b : Decimal.uint) : {a = b} + {a <> b}.
Proof. decide equality. Qed.
Lemma to_string_numeral x : 0 <= x -> numeral (to_string x) x.
Proof.
  intros P. unfold to_string. set (n := Z.to_N x).
  assert (V : uval 0 (N.to_uint n) = x) by (rewrite uval_of, Unsigned.of_to; unfold n; lia).
  pose proof (to_uint_norm n) as No.
  destruct (N.to_uint n) as [|d|d|d|d|d|d|d|d|d|d] eqn:E; cbn [NilZero.string_of_uint].
  - cbn [uval] in V. subst x. split; [discriminate|]. split; [reflexivity|]. intros r R. now inv R.
  - assert (D : d = Decimal.Nil).
    { destruct (uint_eq_dec d Decimal.Nil) as [X|X]; [exact X|]. exfalso.
      change (Decimal.unorm d = Decimal.D0 d) in No. pose proof (nb_digits_unorm d X) as K. rewrite No in K. cbn [Decimal.nb_digits] in K. lia. }
    subst d. split; [discriminate|]. split; [rewrite reads_uint, V; reflexivity|]. intros r R. now inv R.
  - split; [discriminate|]. split; [rewrite reads_uint, V; reflexivity|]. intros r R. inv R.
  - split; [discriminate|]. split; [rewrite reads_uint, V; reflexivity|]. intros r R. inv R.
  - split; [discriminate|]. split; [rewrite reads_uint, V; reflexivity|]. intros r R. inv R.
  - split; [discriminate|]. split; [rewrite reads_uint, V; reflexivity|]. intros r R. inv R.
  - split; [discriminate|]. split; [rewrite reads_uint, V; reflexivity|]. intros r R. inv R.
  - split; [discriminate|]. split; [rewrite reads_uint, V; reflexivity|]. intros r R. inv R.
  - split; [discriminate|]. split; [rewrite reads_uint, V; reflexivity|]. intros r R. inv R.
  - split; [discriminate|]. split; [rewrite reads_uint, V; reflexivity|]. intros r R. inv R.
  - split; [discriminate|]. split; [rewrite reads_uint, V; reflexivity|]. intros r R. inv R.
Qed.

(** ** Texts with numbers in them *)
Lemma to_string_inj x y : 0 <= x -> 0 <= y -> to_string x = to_string y -> x = y.
Proof.
  intros X Y E. destruct (to_string_numeral x X) as (_ & A & _), (to_string_numeral y Y) as (_ & B & _). congruence.
Qed.
(** A numeral followed by something that is no digit. *)
Definition nondigit (s : string) : Prop := match s with EmptyString => True | String c _ => reads 0 (String c EmptyString) = None end.
Lemma reads_char a c r : reads a (String c r) = None \/ reads 0 (String c EmptyString) <> None.
Proof. cbn [reads]. destruct (_ && _); [right; discriminate|now left]. Qed.
Lemma numeral_split a : forall b r s x y, reads x a <> None -> reads y b <> None -> nondigit r -> nondigit s ->
  (a ++ r)%string = (b ++ s)%string -> a = b /\ r = s.
Proof.
  induction a as [|c a IH]; intros [|c' b] r s x y A B R S E; cbn [append] in E.
  - auto.
  - subst r. cbn [nondigit] in R. destruct (reads_char y c' b) as [Q|Q]; contradiction.
  - subst s. cbn [nondigit] in S. destruct (reads_char x c a) as [Q|Q]; contradiction.
  - inv E. cbn [reads] in A, B. destruct (_ && _); [|contradiction].
    destruct (IH _ _ _ _ _ A B R S H1) as [-> ->]. auto.
Qed.
Lemma split_text x y r s : 0 <= x -> 0 <= y -> nondigit r -> nondigit s ->
  (to_string x ++ r)%string = (to_string y ++ s)%string -> x = y /\ r = s.
Proof.
  intros X Y R S E. destruct (to_string_numeral x X) as (_ & A & _), (to_string_numeral y Y) as (_ & B & _).
  apply (numeral_split _ _ _ _ 0 0) in E; [|congruence|congruence|assumption|assumption]. destruct E as [E ->].
  split; [|reflexivity]. congruence.
Qed.
Lemma append_inj a r s : (a ++ r)%string = (a ++ s)%string -> r = s.
Proof. induction a as [|c a IH]; cbn [append]; intros E; [exact E|]. inv E. auto. Qed.

Lemma rev_eqb_iff a b : rev_eqb a b = true <-> a = b.
Proof.
  unfold rev_eqb. destruct a as [x y], b as [z w]; cbn [rev_major rev_minor]. rewrite andb_true_iff, !Z.eqb_eq.
  split; [now intros [-> ->]|]. intros E. now inv E.
Qed.
Lemma rev_text a b : 0 <= rev_major a -> 0 <= rev_minor a -> 0 <= rev_major b -> 0 <= rev_minor b ->
  rev_to_string a = rev_to_string b -> a = b.
Proof.
  destruct a as [x y], b as [z w]; cbn [rev_major rev_minor]. unfold rev_to_string. cbn [rev_major rev_minor]. intros X Y Z W E.
  apply split_text in E as [-> E]; [|assumption|assumption|reflexivity|reflexivity]. apply (append_inj ".") in E.
  apply to_string_inj in E; [|assumption|assumption]. now subst.
Qed.

(** ** Paths *)
Definition path_u16 (p : epath) : Prop := is_u16 (p_class p) /\ is_u16 (p_object p) /\ is_u16 (p_attr p).
Definition named (c o a size : Z) : list Z := c :: (if size >? 1 then o :: (if size >? 2 then [a] else []) else []).
Definition text_of (c o a size : Z) : string :=
  ("[classId=" ++ to_string c ++
   (if size >? 1 then " objectId=" ++ to_string o ++ (if size >? 2 then " attributeId=" ++ to_string a else "") else "") ++ "]")%string.
Lemma app_assoc_str a b c : ((a ++ b) ++ c)%string = (a ++ b ++ c)%string.
Proof. induction a as [|x a IH]; cbn [append]; [reflexivity|now rewrite IH]. Qed.
Lemma text_named c o a n c' o' a' n' : 0 <= c -> 0 <= o -> 0 <= a -> 0 <= c' -> 0 <= o' -> 0 <= a' ->
  (text_of c o a n = text_of c' o' a' n' <-> named c o a n = named c' o' a' n').
Proof.
  intros H1 H2 H3 H4 H5 H6. unfold text_of, named. split.
  - intros E. apply append_inj in E.
    apply split_text in E as [-> E]; [|assumption|assumption|destruct (n >? 1); reflexivity|destruct (n' >? 1); reflexivity].
    f_equal. destruct (n >? 1), (n' >? 1); [|discriminate E|discriminate E|reflexivity].
    rewrite !app_assoc_str in E. apply append_inj in E.
    apply split_text in E as [-> E]; [|assumption|assumption|destruct (n >? 2); reflexivity|destruct (n' >? 2); reflexivity].
    f_equal. destruct (n >? 2), (n' >? 2); [|discriminate E|discriminate E|reflexivity].
    rewrite !app_assoc_str in E. apply append_inj in E.
    apply split_text in E as [-> _]; [reflexivity|assumption|assumption|reflexivity|reflexivity].
  - destruct (n >? 1), (n' >? 1); intros E; try discriminate; [|now inv E].
    destruct (n >? 2), (n' >? 2); try discriminate; now inv E.
Qed.
Lemma pack_named p : epath_pack false p
  = concat (map (fun e => le 2 (fst e) ++ le 2 (snd e)) (combine [33; 37; 49] (named (p_class p) (p_object p) (p_attr p) (p_size p)))).
Proof.
  unfold epath_pack, named. destruct (p_size p >? 1), (p_size p >? 2); rewrite !put_u16_le; cbn [bdata buf_new app combine map concat fst snd];
    rewrite <- ?app_assoc, ?app_nil_r; reflexivity.
Qed.
Lemma le2_inj v w a b : is_u16 v -> is_u16 w -> le 2 v ++ a = le 2 w ++ b -> v = w /\ a = b.
Proof.
  intros V W E. pose proof (f_equal (firstn 2) E) as F. pose proof (f_equal (skipn 2) E) as G.
  pose proof (firstn_app_exact (le 2 v) a) as P. pose proof (firstn_app_exact (le 2 w) b) as Q. rewrite le_length in P, Q. rewrite P, Q in F.
  pose proof (skipn_app_exact (le 2 v) a) as P2. pose proof (skipn_app_exact (le 2 w) b) as Q2. rewrite le_length in P2, Q2. rewrite P2, Q2 in G.
  split; [|assumption]. apply (f_equal le_val) in F. rewrite !le_val_le in F. unfold is_u16 in *. change (256 ^ Z.of_nat 2) with 65536 in F. rewrite !Z.mod_small in F by lia. exact F.
Qed.
Lemma named_pack p q : path_u16 p -> path_u16 q ->
  (named (p_class p) (p_object p) (p_attr p) (p_size p) = named (p_class q) (p_object q) (p_attr q) (p_size q)
   <-> epath_pack false p = epath_pack false q).
Proof.
  intros (P1 & P2 & P3) (Q1 & Q2 & Q3). rewrite !pack_named. split; [now intros ->|]. unfold named.
  assert (L : forall x y, le 2 x ++ y <> []) by (intros x y E; apply (f_equal (@List.length Z)) in E; rewrite app_length, le_length in E; discriminate).
  destruct (p_size p >? 1), (p_size p >? 2), (p_size q >? 1), (p_size q >? 2);
    cbn [combine map concat fst snd]; rewrite <- ?app_assoc, ?app_nil_r; intros E;
    repeat (match goal with
            | E : le 2 ?v ++ ?a = le 2 ?w ++ ?b |- _ => apply le2_inj in E as [? E]; [|(assumption || (unfold is_u16; lia))..]
            | E : le 2 ?v = le 2 ?w |- _ => rewrite <- (app_nil_r (le 2 v)), <- (app_nil_r (le 2 w)) in E
            | E : le 2 ?v = le 2 ?w ++ ?b |- _ => rewrite <- (app_nil_r (le 2 v)) in E
            | E : le 2 ?v ++ ?a = le 2 ?w |- _ => rewrite <- (app_nil_r (le 2 w)) in E
            | E : [] = le 2 _ ++ _ |- _ => symmetry in E; now apply L in E
            | E : le 2 _ ++ _ = [] |- _ => now apply L in E
            end); congruence.
Qed.
Lemma path_text_iff p q : path_u16 p -> path_u16 q ->
  (epath_to_string p = epath_to_string q <-> epath_pack false p = epath_pack false q).
Proof.
  intros P Q. rewrite <- named_pack by assumption. destruct P as (P1 & P2 & P3), Q as (Q1 & Q2 & Q3). unfold is_u16 in *.
  apply text_named; lia.
Qed.

Definition ypath_u8 (p : ypath) : Prop := is_u8 (y_class p) /\ is_u8 (y_object p) /\ is_u8 (y_attr p).
Lemma ypath_text_iff p q : ypath_u8 p -> ypath_u8 q -> (ypath_to_string p = ypath_to_string q <-> ypath_pack p = ypath_pack q).
Proof.
  intros (P1 & P2 & P3) (Q1 & Q2 & Q3). unfold is_u8 in *.
  change (ypath_to_string p) with (text_of (y_class p) (y_object p) (y_attr p) (y_size p)).
  change (ypath_to_string q) with (text_of (y_class q) (y_object q) (y_attr q) (y_size q)).
  rewrite text_named by lia. unfold ypath_pack, named, put_u8, push.
  destruct (y_size p >? 1), (y_size p >? 2), (y_size q >? 1), (y_size q >? 2); cbn [bdata buf_new app];
    split; intros E; inv E; congruence.
Qed.
Lemma ypath_eqb_iff a b : ypath_eqb a b = true <-> a = b.
Proof.
  unfold ypath_eqb. destruct a as [c1 o1 a1 s1], b as [c2 o2 a2 s2]; cbn [y_size y_class y_object y_attr].
  rewrite !andb_true_iff, !Z.eqb_eq. split; [intros [[[-> ->] ->] ->]; reflexivity|]. intros E. now inv E.
Qed.

(** ** End points *)
Lemma ep_eqb_iff a b : ep_eqb a b = true <-> a = b.
Proof.
  unfold ep_eqb. destruct a as [h1 p1 [f1 q1 i1]], b as [h2 p2 [f2 q2 i2]]; cbn [ep_host ep_port ep_addr sa_family sa_port sa_addr].
  rewrite !andb_true_iff, !Z.eqb_eq, String.eqb_eq. split; [intros [[[[-> ->] ->] ->] ->]; reflexivity|]. intros E. now inv E.
Qed.
Lemma no_colon s : forall x t r, reads x s <> None -> s = (t ++ ":" ++ r)%string -> False.
Proof.
  induction s as [|c s IH]; intros x t r N E; [destruct t; discriminate|].
  destruct t as [|c' t]; cbn [append] in E; inv E; cbn [reads] in N.
  - apply N. reflexivity.
  - destruct (_ && _); [|contradiction]. eapply IH; [exact N|reflexivity].
Qed.
Lemma colon_split a : forall b m n x y, reads x m <> None -> reads y n <> None ->
  (a ++ ":" ++ m)%string = (b ++ ":" ++ n)%string -> a = b /\ m = n.
Proof.
  induction a as [|c a IH]; intros [|c' b] m n x y M N E; cbn [append] in E.
  - now inv E.
  - exfalso. inv E. exact (no_colon _ x b n M eq_refl).
  - exfalso. inv E. exact (no_colon _ y a m N eq_refl).
  - inv E. destruct (IH _ _ _ _ _ M N H1) as [-> ->]. auto.
Qed.
Lemma ep_text_iff a b : 0 <= ep_port a -> 0 <= ep_port b ->
  (ep_to_string a = ep_to_string b <-> ep_host a = ep_host b /\ ep_port a = ep_port b).
Proof.
  intros A B. unfold ep_to_string. split; [|now intros [-> ->]]. intros E.
  destruct (to_string_numeral _ A) as (_ & RA & _), (to_string_numeral _ B) as (_ & RB & _).
  apply (colon_split _ _ _ _ 0 0) in E as [E1 E2]; [|congruence|congruence]. split; [assumption|].
  now apply to_string_inj.
Qed.
Lemma ep_host_iff aton h p h' p' : 0 <= p -> 0 <= p' ->
  (ep_to_string (ep_of_host aton h p) = ep_to_string (ep_of_host aton h' p') <-> ep_eqb (ep_of_host aton h p) (ep_of_host aton h' p') = true).
Proof.
  intros P Q. rewrite ep_text_iff, ep_eqb_iff by assumption. unfold ep_of_host; cbn [ep_host ep_port].
  split; [now intros [-> ->]|]. intros E. inv E. auto.
Qed.
Lemma rev_text_iff a b : is_u8 (rev_major a) -> is_u8 (rev_minor a) -> is_u8 (rev_major b) -> is_u8 (rev_minor b) ->
  (rev_to_string a = rev_to_string b <-> rev_eqb a b = true).
Proof.
  unfold is_u8. intros. rewrite rev_eqb_iff. split; [|now intros ->]. intros E. apply rev_text; lia || assumption.
Qed.
Lemma yaskawa_text i : ypath_to_string (ybuild i) = epath_to_string (build i).
Proof. destruct i; reflexivity. Qed.
Lemma build_same_text i j : ids_wf i -> ids_wf j ->
  (epath_to_string (build i) = epath_to_string (build j)
   <-> epath_eqb (build i) (build j) = true \/ (i = Ids0 /\ j = Ids1 0) \/ (i = Ids1 0 /\ j = Ids0)).
Proof.
  intros I J.
  assert (W : forall k, ids_wf k -> path_u16 (build k)).
  { intros k K. unfold ids_wf in K. destruct k; cbn [ids_list] in K; repeat match goal with H : Forall _ (_ :: _) |- _ => inv H end; unfold path_u16; cbn; repeat split; try assumption; unfold is_u16 in *; cbn [snd] in *; lia. }
  rewrite path_text_iff by auto. rewrite <- named_pack by auto. rewrite eqb_iff.
  destruct i, j; cbn; (split; [intros E; inv E; auto|intros [E|[[E1 E2]|[E1 E2]]]; try congruence; try (inv E; reflexivity); inv E1; inv E2; reflexivity]).
Qed.
Lemma addr_text a b : is_u32 (sa_addr a) -> is_u32 (sa_addr b) -> inet_ntoa (sa_addr a) = inet_ntoa (sa_addr b) -> sa_addr a = sa_addr b.
Proof.
  unfold inet_ntoa, is_u32. intros A B E.
  assert (N : forall x, 0 <= u8 x) by (intros; unfold u8; apply Z.mod_pos_bound; lia).
  apply split_text in E as [E1 E]; [|apply N|apply N|reflexivity|reflexivity]. apply (append_inj ".") in E.
  apply split_text in E as [E2 E]; [|apply N|apply N|reflexivity|reflexivity]. apply (append_inj ".") in E.
  apply split_text in E as [E3 E]; [|apply N|apply N|reflexivity|reflexivity]. apply (append_inj ".") in E.
  apply to_string_inj in E; [|apply N|apply N].
  rewrite !Z.shiftr_div_pow2 in * by lia. unfold u8 in *. change (2 ^ 8) with 256 in *. change (2 ^ 16) with 65536 in *. change (2 ^ 24) with 16777216 in *.
  Ltac Zify.zify_post_hook ::= Z.div_mod_to_equations. lia.
Qed.

(** ** The texts *)
Lemma rev_shape r : is_u8 (rev_major r) -> is_u8 (rev_minor r) ->
  exists a b, numeral a (rev_major r) /\ numeral b (rev_minor r) /\ rev_to_string r = (a ++ "." ++ b)%string.
Proof. intros [A _] [B _]. exists (to_string (rev_major r)), (to_string (rev_minor r)). repeat split; try apply to_string_numeral; assumption. Qed.
Lemma ep_shape e : 0 <= ep_port e -> exists p, numeral p (ep_port e) /\ ep_to_string e = (ep_host e ++ ":" ++ p)%string.
Proof. intros P. exists (to_string (ep_port e)). split; [now apply to_string_numeral|reflexivity]. Qed.
Lemma addr_shape a : is_u32 (sa_addr a) -> exists w x y z, Forall2 numeral [w; x; y; z] (le 4 (sa_addr a))
  /\ ep_host (ep_of_addr a) = (w ++ "." ++ x ++ "." ++ y ++ "." ++ z)%string.
Proof.
  intros A. unfold ep_of_addr; cbn [ep_host]. unfold inet_ntoa. do 4 eexists. split; [|reflexivity].
  cbn [le]. rewrite !Z.shiftr_div_pow2 by lia. change (2 ^ 8) with 256. change (2 ^ 16) with (256 * 256). change (2 ^ 24) with (256 * 256 * 256).
  unfold u8, is_u32 in *. rewrite <- !Z.div_div by lia.
  repeat (constructor; [apply to_string_numeral; lia|]). constructor.
Qed.
Lemma path_text_shape i : ids_wf i -> path_shape (named_ids i) (epath_to_string (build i)).
Proof.
  intros W. destruct i as [|c|c o|c o a]; unfold ids_wf in W; cbn [ids_list] in W; repeat match goal with H : Forall _ (_ :: _) |- _ => inv H end; cbn [snd] in *;
    unfold path_shape, named_ids; cbn [map snd fst combine]; eexists;
    (split; [repeat (apply Forall2_cons; [apply to_string_numeral; unfold is_u16 in *; lia|]); apply Forall2_nil|]);
    unfold epath_to_string; cbn; do 4 (rewrite ?app_assoc_str; cbn [append]); reflexivity.
Qed.
