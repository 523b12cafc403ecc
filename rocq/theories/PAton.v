(** Proofs about texts of addresses. *)
From Verif Require Import Base MBuffer SBuffer PBase PBuffer MAton SAton.

Lemma digit_is base c d : base <= 36 -> digit base c d -> digit_value c = d.
Proof.
  intros B (D & [[L ->]|[L [-> | ->]]]); unfold digit_value.
  - destruct (Z.leb_spec 48 (48 + d)), (Z.leb_spec (48 + d) 57); cbn [andb]; lia.
  - destruct (Z.leb_spec 48 (97 + (d - 10))), (Z.leb_spec (97 + (d - 10)) 57); cbn [andb]; try lia.
    destruct (Z.leb_spec 97 (97 + (d - 10))), (Z.leb_spec (97 + (d - 10)) 122); cbn [andb]; lia.
  - destruct (Z.leb_spec 48 (65 + (d - 10))), (Z.leb_spec (65 + (d - 10)) 57); cbn [andb]; try lia.
    destruct (Z.leb_spec 97 (65 + (d - 10))), (Z.leb_spec (65 + (d - 10)) 122); cbn [andb]; try lia;
      destruct (Z.leb_spec 65 (65 + (d - 10))), (Z.leb_spec (65 + (d - 10)) 90); cbn [andb]; lia.
Qed.
Lemma is_digit base c : base <= 36 -> digit_value c < base -> digit base c (digit_value c).
Proof.
  intros B. unfold digit_value, digit.
  destruct (Z.leb_spec 48 c), (Z.leb_spec c 57); cbn [andb]; intros L; try lia;
    destruct (Z.leb_spec 97 c), (Z.leb_spec c 122); cbn [andb] in *; try lia;
    destruct (Z.leb_spec 65 c), (Z.leb_spec c 90); cbn [andb] in *; lia.
Qed.
Definition stops (base : Z) (l : list Z) : Prop := match l with [] => True | c :: _ => base <= digit_value c end.

Lemma take_sound base l : base <= 36 -> forall t0 acc v rest, written base t0 acc -> take_digits base acc l = (v, rest) ->
  exists t, l = t ++ rest /\ written base (t0 ++ t) v /\ stops base rest.
Proof.
  intros B. induction l as [|c r IH]; intros t0 acc v rest W E; cbn [take_digits] in E.
  - inv E. exists []. rewrite !app_nil_r. now repeat split.
  - destruct (Z.ltb_spec (digit_value c) base).
    + destruct (IH (t0 ++ [c]) _ _ _ (written_digit base t0 acc c _ W (is_digit base c B H)) E) as (t & -> & W' & S).
      exists (c :: t). rewrite <- app_assoc in W'. now repeat split.
    + inv E. exists []. rewrite app_nil_r. repeat split; [assumption|]. exact H.
Qed.
Lemma take_written base t v : base <= 36 -> written base t v -> forall rest, take_digits base 0 (t ++ rest) = take_digits base v rest.
Proof.
  intros B. induction 1 as [|t v c d W IH D]; intros rest; [reflexivity|]. rewrite <- app_assoc, IH. cbn [app take_digits].
  rewrite (digit_is base c d B D). destruct D as [D _]. destruct (Z.ltb_spec d base); [reflexivity|lia].
Qed.
Lemma take_stops base v rest : stops base rest -> take_digits base v rest = (v, rest).
Proof. destruct rest as [|c r]; [reflexivity|]. cbn. intros H. destruct (Z.ltb_spec (digit_value c) base); [lia|reflexivity]. Qed.
Lemma written_digits base t v : written base t v -> Forall (fun c => exists d, digit base c d) t.
Proof. induction 1 as [|t v c d W IH D]; [constructor|]. apply Forall_app. split; [assumption|]. repeat constructor. eauto. Qed.

Lemma number_sound l v rest : 48 <= nth 0 l 0 <= 57 -> number l = (v, rest) -> exists t, l = t ++ rest /\ part t v.
Proof.
  intros D E. unfold number in E. destruct l as [|c0 r]; cbn [nth] in *; [lia|]. destruct (Z.eqb_spec c0 48) as [->|N].
  - destruct (((nth 0 r 0 =? 120) || (nth 0 r 0 =? 88)) && (digit_value (nth 1 r 0) <? 16)) eqn:X.
    + apply andb_prop in X. destruct X as [X Y]. apply Z.ltb_lt in Y. destruct r as [|x r]; [cbn in X; discriminate|]. cbn [nth skipn] in *.
      destruct (take_sound 16 r ltac:(lia) [] 0 v rest (written_nothing 16) E) as (t & -> & W & S). exists (48 :: x :: t). split; [reflexivity|].
      constructor; [| |assumption].
      * apply orb_prop in X. rewrite !Z.eqb_eq in X. exact X.
      * intros ->. cbn [app] in Y. destruct rest as [|d r]; [vm_compute in Y; discriminate|]. cbn in S, Y. lia.
    + destruct (take_sound 8 (48 :: r) ltac:(lia) [] 0 v rest (written_nothing 8) E) as (t & Et & W & S). exists t. split; [assumption|].
      destruct t as [|c t]; [|cbn [app] in *; injection Et as <- _; now constructor].
      cbn [app] in Et. subst rest. vm_compute in S. now destruct S.
  - destruct (take_sound 10 (c0 :: r) ltac:(lia) [] 0 v rest (written_nothing 10) E) as (t & Et & W & S). exists t. split; [assumption|].
    destruct t as [|c t]; [|cbn [app] in *; injection Et as <- _; constructor; [lia|assumption]].
    cbn [app] in Et. subst rest. cbn [stops] in S. unfold digit_value in S.
    destruct (Z.leb_spec 48 c0), (Z.leb_spec c0 57); cbn [andb] in S; lia.
Qed.
(** What can follow a number. *)
Definition follows (rest : list Z) : Prop := rest = [] \/ exists c r, rest = c :: r /\ (c = 46 \/ c = 32 \/ 9 <= c <= 13).
Lemma follows_stops base rest : base <= 36 -> follows rest -> stops base rest.
Proof.
  intros B [->|(c & r & -> & H)]; [exact Logic.I|]. cbn. unfold digit_value.
  destruct (Z.leb_spec 48 c), (Z.leb_spec c 57); cbn [andb]; try lia; destruct (Z.leb_spec 97 c), (Z.leb_spec c 122); cbn [andb]; try lia;
    destruct (Z.leb_spec 65 c), (Z.leb_spec c 90); cbn [andb]; lia.
Qed.
Lemma number_complete t v rest : part t v -> follows rest -> number (t ++ rest) = (v, rest).
Proof.
  intros P F. destruct P as [c t v C W|t v W|x t v X N W]; unfold number; cbn [app nth].
  - destruct (Z.eqb_spec c 48); [lia|]. change (c :: t ++ rest) with ((c :: t) ++ rest). rewrite (take_written 10 _ v ltac:(lia) W).
    now apply take_stops, follows_stops.
  - rewrite Z.eqb_refl. assert (Nx : (nth 0 (t ++ rest) 0 =? 120) || (nth 0 (t ++ rest) 0 =? 88) = false).
    { apply written_digits in W. inv W. destruct t as [|c t]; cbn [app nth].
      - destruct F as [->|(c & r & -> & H)]; [reflexivity|]. cbn [nth]. apply orb_false_intro; apply Z.eqb_neq; lia.
      - inv H2. destruct H3 as (d & D & Y). apply orb_false_intro; apply Z.eqb_neq; lia. }
    rewrite Nx. cbn [andb]. change (48 :: t ++ rest) with ((48 :: t) ++ rest). rewrite (take_written 8 _ v ltac:(lia) W).
    now apply take_stops, follows_stops.
  - rewrite Z.eqb_refl. replace ((x =? 120) || (x =? 88)) with true by (destruct X as [-> | ->]; reflexivity).
    pose proof (written_digits _ _ _ W) as Ds. destruct t as [|c t]; [contradiction|]. inv Ds. destruct H1 as (d & D).
    cbn [app nth skipn]. rewrite (digit_is 16 c d ltac:(lia) D). destruct (Z.ltb_spec d 16); [|destruct D; lia]. cbn [andb].
    change (c :: t ++ rest) with ((c :: t) ++ rest). rewrite (take_written 16 _ v ltac:(lia) W). now apply take_stops, follows_stops.
Qed.
Lemma written_pos base t v : 0 < base -> written base t v -> 0 <= v.
Proof. intros B. induction 1 as [|t v c d W IH [D _]]; [lia|nia]. Qed.
Lemma part_pos t v : part t v -> 0 <= v.
Proof. intros []; eapply written_pos; eauto; lia. Qed.
Lemma part_first t v rest : part t v -> 48 <= nth 0 (t ++ rest) 0 <= 57.
Proof. intros []; cbn; lia. Qed.
Lemma is_space_iff c : is_space c = true <-> c = 32 \/ 9 <= c <= 13.
Proof. unfold is_space. destruct (Z.eqb_spec c 32), (Z.leb_spec 9 c), (Z.leb_spec c 13); cbn; lia. Qed.

Definition limit (n : nat) : Z := nth n [4294967295; 16777215; 65535; 255] 0.
Lemma limit_is n : (n <= 3)%nat -> limit n = 256 ^ (4 - Z.of_nat n) - 1.
Proof. intros H. destruct n as [|[|[|[|n]]]]; try reflexivity. lia. Qed.
Lemma limit_most n : limit n <= 4294967295.
Proof. destruct n as [|[|[|[|[|n]]]]]; vm_compute; discriminate. Qed.

Definition laid_out (acc : list Z) (more : nat) (l : list Z) (a : Z) : Prop :=
  exists parts t v rest, l = concat (map (fun x => fst x ++ [46]) parts) ++ t ++ rest
    /\ (rest = [] \/ exists c r, rest = c :: r /\ (c = 32 \/ 9 <= c <= 13))
    /\ Forall (fun x => part (fst x) (snd x) /\ snd x <= 255) parts /\ part t v
    /\ (List.length parts <= more)%nat /\ v <= limit (List.length acc + List.length parts)
    /\ a = Z.lor (word_of (acc ++ map snd parts)) (htonl v).
Lemma numbers_sound more : forall acc l a, Forall (fun c => 0 < c) l -> numbers more acc l = Some a -> laid_out acc more l a.
Proof.
  induction more as [|more IH]; intros acc l a Ps E; cbn [numbers] in E.
  - destruct (negb _) eqn:D in E; [discriminate|]. apply negb_false_iff, andb_prop in D. rewrite !Z.leb_le in D.
    destruct (number l) as [v rest] eqn:En. destruct (number_sound l v rest D En) as (t & -> & P).
    destruct (Z.ltb_spec 4294967295 v); [discriminate|]. destruct (nth 0 rest 0 =? 46); [discriminate|].
    destruct (negb _) eqn:Z in E; [discriminate|]. apply negb_false_iff, orb_prop in Z. fold (limit (List.length acc)) in E.
    destruct (Z.ltb_spec (limit (List.length acc)) v); [discriminate|]. inv E.
    exists [], t, v, rest. cbn [map concat app List.length]. rewrite Nat.add_0_r, app_nil_r. repeat split; try assumption; [|constructor|lia].
    destruct rest as [|c r]; [now left|]. right. exists c, r. split; [reflexivity|]. cbn [nth] in Z. apply Forall_app in Ps. destruct Ps as [_ Ps]. inv Ps.
    destruct Z as [Z|Z]; [apply Z.eqb_eq in Z; lia|now apply is_space_iff].
  - destruct (negb _) eqn:D in E; [discriminate|]. apply negb_false_iff, andb_prop in D. rewrite !Z.leb_le in D.
    destruct (number l) as [v rest] eqn:En. destruct (number_sound l v rest D En) as (t & -> & P).
    destruct (Z.ltb_spec 4294967295 v); [discriminate|]. destruct (Z.eqb_spec (nth 0 rest 0) 46) as [Dot|Nd].
    + destruct (Z.ltb_spec 255 v); [discriminate|]. destruct rest as [|c r]; [discriminate|]. cbn [nth skipn] in *. subst c.
      apply Forall_app in Ps. destruct Ps as [_ Ps]. inv Ps. destruct (IH _ _ _ H4 E) as (parts & t' & v' & rest' & -> & A & B & C & L & M & ->).
      exists ((t, v) :: parts), t', v', rest'. cbn [map concat fst snd List.length]. rewrite <- !app_assoc. cbn [app].
      repeat split; try assumption; [now constructor|lia|]. rewrite app_length in M. cbn [List.length] in M. now rewrite <- Nat.add_assoc in M.
    + destruct (negb _) eqn:Z in E; [discriminate|]. apply negb_false_iff, orb_prop in Z. fold (limit (List.length acc)) in E.
      destruct (Z.ltb_spec (limit (List.length acc)) v); [discriminate|]. inv E.
      exists [], t, v, rest. cbn [map concat app List.length]. rewrite Nat.add_0_r, app_nil_r. repeat split; try assumption; [|constructor|lia].
      destruct rest as [|c r]; [now left|]. right. exists c, r. split; [reflexivity|]. cbn [nth] in Z. apply Forall_app in Ps. destruct Ps as [_ Ps]. inv Ps.
      destruct Z as [Z|Z]; [apply Z.eqb_eq in Z; lia|now apply is_space_iff].
Qed.
Lemma numbers_step more acc l : numbers more acc l =
  if negb ((48 <=? nth 0 l 0) && (nth 0 l 0 <=? 57)) then None
  else let '(v, rest) := number l in
    if 4294967295 <? v then None
    else if nth 0 rest 0 =? 46 then
      match more with O => None | S more => if 255 <? v then None else numbers more (acc ++ [v]) (skipn 1 rest) end
    else if negb ((nth 0 rest 0 =? 0) || is_space (nth 0 rest 0)) then None
    else if limit (List.length acc) <? v then None else Some (Z.lor (word_of acc) (htonl v)).
Proof. destruct more; reflexivity. Qed.
Lemma numbers_complete parts : forall more acc t v rest, 
  (rest = [] \/ exists c r, rest = c :: r /\ (c = 32 \/ 9 <= c <= 13)) ->
  Forall (fun x => part (fst x) (snd x) /\ snd x <= 255) parts -> part t v ->
  (List.length parts <= more)%nat -> v <= limit (List.length acc + List.length parts) ->
  numbers more acc (concat (map (fun x => fst x ++ [46]) parts) ++ t ++ rest) = Some (Z.lor (word_of (acc ++ map snd parts)) (htonl v)).
Proof.
  assert (F : forall t v rest, part t v -> negb ((48 <=? nth 0 (t ++ rest) 0) && (nth 0 (t ++ rest) 0 <=? 57)) = false).
  { intros t v rest P. apply negb_false_iff, andb_true_intro. rewrite !Z.leb_le. exact (part_first t v rest P). }
  induction parts as [|[t0 v0] parts IH]; intros more acc t v rest R B P L M; cbn [map concat app] in *; rewrite numbers_step.
  - rewrite (F _ _ _ P), (number_complete t v rest P); [|destruct R as [->|(c & r & -> & H)]; [now left|right; eauto]].
    cbn [List.length] in M. rewrite Nat.add_0_r in M. pose proof (limit_most (List.length acc)).
    destruct (Z.ltb_spec 4294967295 v); [lia|]. destruct (Z.ltb_spec (limit (List.length acc)) v); [lia|]. rewrite app_nil_r.
    destruct R as [->|(c & r & -> & Hs)]; cbn [nth]; [reflexivity|]. destruct (Z.eqb_spec c 46); [lia|].
    replace (is_space c) with true by (symmetry; now apply is_space_iff). now rewrite orb_true_r.
  - inv B. cbn [fst snd] in *. destruct H1 as [P0 S0]. rewrite <- !app_assoc. rewrite (F _ _ _ P0), (number_complete t0 v0 _ P0); [|right; eexists _, _; split; [reflexivity|now left]].
    destruct (Z.ltb_spec 4294967295 v0); [lia|]. cbn [app nth skipn]. cbn [Z.eqb Pos.eqb]. destruct more as [|more]; [cbn in L; lia|].
    destruct (Z.ltb_spec 255 v0); [lia|]. rewrite (IH more (acc ++ [v0]) t v rest); try assumption; [now rewrite <- app_assoc|cbn in L; lia|].
    rewrite app_length. cbn [List.length] in M |- *. now rewrite <- Nat.add_assoc.
Qed.
Lemma c_text_pos s : Forall (fun c => 0 < c) (c_text s).
Proof.
  induction s as [|c s IH]; cbn [c_text]; [constructor|]. destruct (Z.eqb_spec (Z.of_nat (nat_of_ascii c)) 0); [constructor|].
  constructor; [lia|assumption].
Qed.

(** The bytes of the address. *)
Lemma lor_high a b k : 0 <= k -> 0 <= a < 2 ^ k -> Z.lor a (b * 2 ^ k) = a + b * 2 ^ k.
Proof.
  intros K A. assert (L : Z.land a (b * 2 ^ k) = 0).
  { apply Z.bits_inj'. intros i I. rewrite Z.land_spec, Z.bits_0. destruct (Z.ltb_spec i k).
    - rewrite (Z.mul_pow2_bits_low b k i) by assumption. apply andb_false_r.
    - destruct (Z.eq_dec a 0) as [->|N]; [now rewrite Z.bits_0|]. rewrite Z.bits_above_log2; [reflexivity|lia|].
      apply Z.log2_lt_pow2; [lia|]. apply Z.lt_le_trans with (2 ^ k); [lia|]. apply Z.pow_le_mono_r; lia. }
  rewrite Z.add_nocarry_lxor by assumption. now rewrite Z.lxor_lor.
Qed.
Lemma htonl_is x : 0 <= x < 4294967296 -> htonl x = x / 16777216 + 256 * (x / 65536 mod 256) + 65536 * (x / 256 mod 256) + 16777216 * (x mod 256).
Proof.
  intros H. unfold htonl, u8. rewrite !Z.shiftl_mul_pow2, !Z.shiftr_div_pow2 by lia. change (2 ^ 24) with 16777216. change (2 ^ 16) with 65536. change (2 ^ 8) with 256. lia.
Qed.
Lemma address_is vs v : Forall (fun x => 0 <= x <= 255) vs -> (List.length vs <= 3)%nat -> 0 <= v <= limit (List.length vs) ->
  Z.lor (word_of vs) (htonl v) = le_val (vs ++ rev (le (4 - List.length vs) v)).
Proof.
  intros F L V. rewrite limit_is in V by assumption. destruct vs as [|a [|b [|c [|d vs]]]]; cbn [List.length Nat.sub le rev app le_val word_of] in *; [..|lia];
    repeat match goal with H : Forall _ (_ :: _) |- _ => inv H end.
  - change (256 ^ (4 - Z.of_nat 0)) with 4294967296 in V. rewrite Z.lor_0_l, htonl_is by lia. lia.
  - change (256 ^ (4 - Z.of_nat 1)) with 16777216 in V. rewrite htonl_is by lia.
    replace (v / 16777216 + _ + _ + _) with ((v / 65536 mod 256 + 256 * (v / 256 mod 256) + 65536 * (v mod 256)) * 2 ^ 8) by (change (2 ^ 8) with 256; lia).
    rewrite lor_high by lia. change (2 ^ 8) with 256. lia.
  - change (256 ^ (4 - Z.of_nat 2)) with 65536 in V. rewrite htonl_is by lia.
    replace (v / 16777216 + _ + _ + _) with ((v / 256 mod 256 + 256 * (v mod 256)) * 2 ^ 16) by (change (2 ^ 16) with 65536; lia).
    rewrite lor_high by lia. change (2 ^ 16) with 65536. lia.
  - change (256 ^ (4 - Z.of_nat 3)) with 256 in V. rewrite htonl_is by lia.
    replace (v / 16777216 + _ + _ + _) with ((v mod 256) * 2 ^ 24) by (change (2 ^ 24) with 16777216; lia).
    rewrite lor_high by lia. change (2 ^ 24) with 16777216. lia.
Qed.

Lemma aton_denotes host a : inet_aton host = Some a <-> denotes host a.
Proof.
  split.
  - intros E. destruct (numbers_sound 3 [] _ a (c_text_pos host) E) as (parts & t & v & rest & A & B & C & D & L & M & ->).
    exists parts, t, v, rest. cbn [List.length Nat.add app] in *. pose proof (part_pos _ _ D). repeat split; try assumption.
    + rewrite limit_is in M by assumption. unfold zlen. lia.
    + rewrite <- (map_length snd parts). apply address_is; [|now rewrite map_length|rewrite map_length; lia].
      apply Forall_map. eapply Forall_impl; [|exact C]. intros [x y] [P Q]. cbn in *. apply part_pos in P. lia.
  - intros (parts & t & v & rest & A & B & C & D & L & M & ->). unfold inet_aton. rewrite A.
    assert (M' : v <= limit (List.length parts)) by (rewrite limit_is by assumption; unfold zlen in M; lia). pose proof (part_pos _ _ D).
    rewrite (numbers_complete parts 3 [] t v rest B C D L M'). f_equal. cbn [app].
    rewrite <- (map_length snd parts). apply address_is; [|now rewrite map_length|rewrite map_length; lia].
    apply Forall_map. eapply Forall_impl; [|exact C]. intros [x y] [P Q]. cbn in *. apply part_pos in P. lia.
Qed.

(** Texts that the library shows. *)
Definition plain (s : string) : bool := forallb (fun c => negb (Z.of_nat (nat_of_ascii c) =? 0)) (list_ascii_of_string s).
Lemma c_text_app s r : plain s = true -> c_text (s ++ r) = c_text s ++ c_text r.
Proof.
  unfold plain. induction s as [|c s IH]; [reflexivity|]. cbn. intros H. apply andb_prop in H. destruct H as [H1 H2]. apply negb_true_iff in H1.
  rewrite H1. cbn. now rewrite IH.
Qed.
Definition shown_well (n : nat) : bool :=
  let s := to_string (Z.of_nat n) in plain s && match number (c_text s) with (v, []) => v =? Z.of_nat n | _ => false end
  && (48 <=? nth 0 (c_text s) 0) && (nth 0 (c_text s) 0 <=? 57).
Lemma all_shown : forallb shown_well (seq 0 256) = true.
Proof. vm_compute. reflexivity. Qed.
Lemma byte_shown x : is_u8 x -> plain (to_string x) = true /\ part (c_text (to_string x)) x.
Proof.
  intros H. unfold is_u8 in H. pose proof all_shown as A. rewrite forallb_forall in A. specialize (A (Z.to_nat x)).
  assert (I : In (Z.to_nat x) (seq 0 256)) by (apply in_seq; lia). apply A in I. unfold shown_well in I. rewrite Z2Nat.id in I by lia.
  apply andb_prop in I. destruct I as [I I4]. apply andb_prop in I. destruct I as [I I3]. apply andb_prop in I. destruct I as [I1 I2]. split; [assumption|].
  destruct (number (c_text (to_string x))) as [v [|c r]] eqn:E; [|discriminate]. apply Z.eqb_eq in I2. subst v. apply Z.leb_le in I3, I4.
  destruct (number_sound _ _ _ (conj I3 I4) E) as (t & Et & P). rewrite app_nil_r in Et. now rewrite Et.
Qed.
Lemma dotted_denotes a b c d : is_u8 a -> is_u8 b -> is_u8 c -> is_u8 d -> denotes (dotted a b c d) (a + 256 * b + 65536 * c + 16777216 * d).
Proof.
  intros A B C D. destruct (byte_shown a A) as [Pa Na], (byte_shown b B) as [Pb Nb], (byte_shown c C) as [Pc Nc], (byte_shown d D) as [Pd Nd].
  exists [(c_text (to_string a), a); (c_text (to_string b), b); (c_text (to_string c), c)], (c_text (to_string d)), d, [].
  unfold is_u8 in *. split; [|split; [now left|split; [|split; [assumption|split; [cbn; lia|split; [cbn; lia|]]]]]].
  - unfold dotted. rewrite !c_text_app by (assumption || reflexivity). cbn [map concat fst app]. rewrite !app_nil_r, <- !app_assoc. reflexivity.
  - repeat constructor; cbn; assumption || lia.
  - cbn [map snd List.length Nat.sub le rev app le_val]. lia.
Qed.
