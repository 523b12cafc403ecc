(** Correct rounding of the operations of [SpecFloat] at 53 bits. *)
From Coq Require Import ZArith QArith Qabs Qpower SpecFloat Lia Lqa.
From Verif Require Import SFloat.
Local Open Scope Q_scope.

Definition p2 (e : Z) : Q := Qpower (2 # 1) e.
Lemma two_nz : ~ (2 # 1) == 0.
Proof. discriminate. Qed.
Lemma p2_pos e : 0 < p2 e.
Proof. apply Qpower_0_lt. reflexivity. Qed.
Lemma p2_plus a b : p2 (a + b) == p2 a * p2 b.
Proof. apply Qpower_plus. exact two_nz. Qed.
Lemma p2_Z e : (0 <= e)%Z -> p2 e == inject_Z (2 ^ e).
Proof. intros H. unfold p2. rewrite <- (Zpower_Qpower 2 e H). reflexivity. Qed.
Lemma p2_1 : p2 1 == 2.
Proof. reflexivity. Qed.
Lemma p2_le a b : (a <= b)%Z -> p2 a <= p2 b.
Proof.
  intros H. replace b with (a + (b - a))%Z by lia. rewrite p2_plus, (p2_Z (b - a)) by lia.
  pose proof (p2_pos a). assert (1 <= inject_Z (2 ^ (b - a))).
  { change 1 with (inject_Z 1). rewrite <- Zle_Qle. pose proof (Z.pow_pos_nonneg 2 (b - a)). lia. }
  nra.
Qed.
Lemma p2_lt_inv a b : p2 a < p2 b -> (a < b)%Z.
Proof.
  intros H. destruct (Z_lt_le_dec a b) as [L|L]; [exact L|]. apply p2_le in L. lra.
Qed.

Ltac unconj := repeat match goal with H : _ /\ _ |- _ => destruct H end.

(** ** Shifting right *)
(** [y] lies at the place [mrs] describes *)
Definition at_place (y : Q) (r : shr_record) : Prop :=
  let m := inject_Z (shr_m r) in
  match shr_r r, shr_s r with
  | false, false => y == m
  | false, true => m < y /\ y < m + (1 # 2)
  | true, false => y == m + (1 # 2)
  | true, true => m + (1 # 2) < y /\ y < m + 1
  end.
Definition located (y : Q) (m : Z) (l : location) : Prop := at_place y (shr_record_of_loc m l).

Lemma place_eq y y' r : y == y' -> at_place y r -> at_place y' r.
Proof. unfold at_place. intros E K. destruct (shr_r r), (shr_s r); unconj; lra || (split; lra). Qed.

Lemma shr_1_m r : (0 <= shr_m r)%Z -> shr_m (shr_1 r) = (shr_m r / 2)%Z /\ shr_r (shr_1 r) = Z.odd (shr_m r)
  /\ shr_s (shr_1 r) = orb (shr_r r) (shr_s r).
Proof.
  destruct r as [[|[p|p|]|p] r s]; cbn [shr_m shr_r shr_s shr_1]; intros H; try lia; repeat split; try reflexivity.
  - rewrite Pos2Z.inj_xI. replace (2 * Z.pos p + 1)%Z with (1 + Z.pos p * 2)%Z by lia. rewrite Z.div_add by lia. reflexivity.
  - rewrite Pos2Z.inj_xO. rewrite Z.mul_comm, Z.div_mul by lia. reflexivity.
Qed.
Lemma shr_1_place y r : (0 <= shr_m r)%Z -> at_place y r -> at_place (y * (1 # 2)) (shr_1 r).
Proof.
  intros H. destruct (shr_1_m r H) as (E1 & E2 & E3). unfold at_place. rewrite E1, E2, E3.
  pose proof (Z.div_mod (shr_m r) 2 ltac:(lia)) as D. rewrite Zmod_odd in D.
  set (q := (shr_m r / 2)%Z) in *.
  destruct (Z.odd (shr_m r)).
  - assert (V : inject_Z (shr_m r) == 2 * inject_Z q + 1).
    { rewrite D at 1. rewrite inject_Z_plus, inject_Z_mult. reflexivity. }
    destruct (shr_r r), (shr_s r); cbn [orb]; intros K; unconj; lra || (split; lra).
  - assert (V : inject_Z (shr_m r) == 2 * inject_Z q).
    { rewrite D at 1. rewrite Z.add_0_r, inject_Z_mult. reflexivity. }
    destruct (shr_r r), (shr_s r); cbn [orb]; intros K; unconj; lra || (split; lra).
Qed.

Lemma iter_add {A} (f : A -> A) a b x : Nat.iter a f (Nat.iter b f x) = Nat.iter (a + b) f x.
Proof. induction a as [|a IH]; [reflexivity|]. cbn. now f_equal. Qed.
Lemma iter_pos_nat {A} (f : A -> A) p x : SpecFloat.iter_pos f p x = Nat.iter (Pos.to_nat p) f x.
Proof.
  revert x. induction p as [p IH|p IH|]; intros x; cbn [SpecFloat.iter_pos].
  - rewrite !IH, Pos2Nat.inj_xI. change (f x) with (Nat.iter 1 f x). rewrite !iter_add. f_equal. lia.
  - rewrite !IH, Pos2Nat.inj_xO. rewrite iter_add. f_equal. lia.
  - reflexivity.
Qed.
Lemma shr_n_place n : forall y r, (0 <= shr_m r)%Z -> at_place y r ->
  (0 <= shr_m (Nat.iter n shr_1 r))%Z /\ shr_m (Nat.iter n shr_1 r) = (shr_m r / 2 ^ Z.of_nat n)%Z
  /\ at_place (y * p2 (- Z.of_nat n)) (Nat.iter n shr_1 r).
Proof.
  induction n as [|n IH]; intros y r H K.
  - cbn [Nat.iter nat_rect]. split; [exact H|]. split; [cbn; now rewrite Z.div_1_r|].
    unfold at_place in *. change (p2 (- Z.of_nat 0)) with 1. destruct (shr_r r), (shr_s r); unconj; lra || (split; lra).
  - destruct (IH y r H K) as (A & B & C). change (Nat.iter (S n) shr_1 r) with (shr_1 (Nat.iter n shr_1 r)).
    destruct (shr_1_m _ A) as (E1 & _ & _). rewrite E1. split; [apply Z.div_pos; lia|]. split.
    + rewrite B. rewrite Z.div_div by (try apply Z.pow_pos_nonneg; lia). f_equal.
      rewrite Nat2Z.inj_succ, Z.pow_succ_r by lia. lia.
    + apply shr_1_place in C; [|exact A].
      assert (E : y * p2 (- Z.of_nat (S n)) == y * p2 (- Z.of_nat n) * (1 # 2)).
      { replace (- Z.of_nat (S n))%Z with (- Z.of_nat n + -1)%Z by lia. rewrite p2_plus. change (p2 (-1)) with (1 # 2). ring. }
      exact (place_eq _ _ _ (Qeq_sym _ _ E) C).
Qed.
Lemma shr_place y r e n : (0 <= shr_m r)%Z -> (0 <= n)%Z -> at_place y r ->
  exists r', shr r e n = (r', (e + n)%Z) /\ shr_m r' = (shr_m r / 2 ^ n)%Z /\ at_place (y * p2 (- n)) r'.
Proof.
  intros H N K. destruct n as [|p|p]; [| |lia].
  - exists r. cbn [shr]. rewrite Z.add_0_r. split; [reflexivity|]. split; [now rewrite Z.div_1_r|].
    unfold at_place in *. change (p2 (- 0)) with 1. destruct (shr_r r), (shr_s r); unconj; lra || (split; lra).
  - exists (SpecFloat.iter_pos shr_1 p r). cbn [shr]. split; [reflexivity|]. rewrite iter_pos_nat.
    destruct (shr_n_place (Pos.to_nat p) y r H K) as (A & B & C). rewrite positive_nat_Z in *. auto.
Qed.
Lemma shr_neg r e n : (n <= 0)%Z -> shr r e n = (r, e).
Proof. destruct n; cbn; auto; lia. Qed.

(** ** Digits *)
Lemma digits2 p : (2 ^ (Zpos (digits2_pos p) - 1) <= Zpos p < 2 ^ Zpos (digits2_pos p))%Z.
Proof.
  induction p as [p IH|p IH|]; cbn [digits2_pos]; [| |cbn; lia];
    rewrite Pos2Z.inj_succ; replace (Z.succ (Z.pos (digits2_pos p)) - 1)%Z with (Z.succ (Z.pos (digits2_pos p) - 1)) by lia;
    rewrite !Z.pow_succ_r by lia; lia.
Qed.
Lemma digits_le p k : (Zpos p < 2 ^ k)%Z -> (0 <= k)%Z -> (Zpos (digits2_pos p) <= k)%Z.
Proof.
  intros H K. pose proof (digits2 p) as [D _]. destruct (Z_le_gt_dec (Zpos (digits2_pos p)) k) as [L|L]; [exact L|].
  pose proof (Z.pow_le_mono_r 2 k (Zpos (digits2_pos p) - 1) ltac:(lia) ltac:(lia)). lia.
Qed.
Lemma digits_ge p k : (2 ^ k <= Zpos p)%Z -> (k < Zpos (digits2_pos p))%Z.
Proof.
  intros H. pose proof (digits2 p) as [_ D]. destruct (Z_le_gt_dec (Zpos (digits2_pos p)) k) as [L|L]; [|lia].
  pose proof (Z.pow_le_mono_r 2 _ k ltac:(lia) L). lia.
Qed.

(** ** Rounding to the nearest integer *)
Lemma rne_half y r : at_place y r ->
  let m := round_nearest_even (shr_m r) (loc_of_shr_record r) in
  Qabs (y - inject_Z m) <= 1 # 2 /\ (shr_m r <= m <= shr_m r + 1)%Z.
Proof.
  destruct r as [m r s]. unfold at_place. cbn [shr_m shr_r shr_s loc_of_shr_record].
  assert (S1 : inject_Z (m + 1) == inject_Z m + 1) by (rewrite inject_Z_plus; reflexivity).
  destruct r, s; cbn [round_nearest_even]; intros K; unconj.
  - split; [|lia]. apply Qabs_Qle_condition. split; lra.
  - destruct (Z.even m); (split; [|lia]); apply Qabs_Qle_condition; split; lra.
  - split; [|lia]. apply Qabs_Qle_condition. split; lra.
  - split; [|lia]. apply Qabs_Qle_condition. split; lra.
Qed.
Lemma place_floor y r : at_place y r -> inject_Z (shr_m r) <= y /\ y < inject_Z (shr_m r) + 1.
Proof. unfold at_place. destruct (shr_r r), (shr_s r); intros K; unconj; split; lra. Qed.

(** an integer nearest to y is nearer than any other *)
Lemma nearest_int y m k : Qabs (y - inject_Z m) <= 1 # 2 -> Qabs (y - inject_Z m) <= Qabs (y - inject_Z k).
Proof.
  intros H. destruct (Z.eq_dec k m) as [->|N]; [lra|].
  apply Qle_trans with (1 # 2); [exact H|]. apply Qabs_Qle_condition in H as [H1 H2].
  destruct (Z_lt_le_dec k m) as [L|L].
  - assert (inject_Z k + 1 <= inject_Z m).
    { change 1 with (inject_Z 1). rewrite <- inject_Z_plus, <- Zle_Qle. lia. }
    apply Qle_trans with (y - inject_Z k); [lra|apply Qle_Qabs].
  - assert (inject_Z m + 1 <= inject_Z k).
    { change 1 with (inject_Z 1). rewrite <- inject_Z_plus, <- Zle_Qle. lia. }
    apply Qle_trans with (- (y - inject_Z k)); [lra|]. rewrite <- Qabs_opp. apply Qle_Qabs.
Qed.

(** ** Rounding *)
Notation fexp := (SpecFloat.fexp 53 1024).
Lemma fexp_big e : (-1021 <= e)%Z -> fexp e = (e - 53)%Z.
Proof. unfold SpecFloat.fexp, emin. lia. Qed.
Lemma fexp_min e : (-1074 <= fexp e)%Z.
Proof. unfold SpecFloat.fexp, emin. lia. Qed.

Lemma inj_le a b : (a <= b)%Z -> inject_Z a <= inject_Z b.
Proof. intros H. now rewrite <- Zle_Qle. Qed.
Lemma inj_lt a b : (a < b)%Z -> inject_Z a < inject_Z b.
Proof. intros H. now rewrite <- Zlt_Qlt. Qed.
Lemma dyadic_shift m e k : (0 <= k)%Z -> dyadic (m * 2 ^ k) (e - k) == dyadic m e.
Proof.
  intros K. unfold dyadic. fold (p2 e) (p2 (e - k)). rewrite inject_Z_mult, <- (p2_Z k K).
  replace e with (e - k + k)%Z at 2 by lia. rewrite p2_plus. ring.
Qed.

(** the second step of rounding: a significand of at most 2^53 *)
Lemma settle s m e : (0 < m <= 2 ^ 53)%Z -> (-1074 <= e < 971)%Z ->
  exists p e', (let '(mrs, e'') := shr_fexp 53 1024 m e loc_Exact in
    match shr_m mrs with
    | Z0 => S754_zero s
    | Zpos m => if Zle_bool e'' (1024 - 53) then S754_finite s m e'' else S754_infinity s
    | _ => S754_nan
    end) = S754_finite s p e' /\ (Zpos p < 2 ^ 53)%Z /\ dyadic (Zpos p) e' == dyadic m e /\ (-1074 <= e' <= 971)%Z.
Proof.
  intros M E. destruct m as [|p|p]; try lia. unfold shr_fexp. cbn [shr_record_of_loc Zdigits2].
  destruct (Z.eq_dec (Zpos p) (2 ^ 53)) as [X|X].
  - injection X as ->. change (Z.pos (digits2_pos 9007199254740992)) with 54%Z.
    rewrite fexp_big by lia. replace (54 + e - 53 - e)%Z with 1%Z by lia.
    cbn [shr SpecFloat.iter_pos]. exists 4503599627370496%positive, (e + 1)%Z.
    cbn [shr_1 shr_m].
    cbv beta iota. replace (Zle_bool (e + 1) (1024 - 53)) with true by (symmetry; apply Z.leb_le; lia).
    split; [reflexivity|]. split; [reflexivity|]. split; [|lia].
    rewrite <- (dyadic_shift 4503599627370496 (e + 1) 1) by lia. now replace (e + 1 - 1)%Z with e by lia.
  - rewrite shr_neg. 
    2:{ pose proof (digits_le p 53 ltac:(lia) ltac:(lia)). unfold SpecFloat.fexp, emin. lia. }
    cbn [shr_m]. exists p, e. replace (Zle_bool e (1024 - 53)) with true by (symmetry; apply Z.leb_le; lia).
    split; [reflexivity|]. split; [lia|]. split; [reflexivity|lia].
Qed.

(** no 53-bit number is closer than the integer multiple *)
Lemma no_closer x m0 m e : (2 ^ 52 <= m0)%Z ->
  inject_Z m0 * p2 e <= x -> Qabs (x * p2 (- e) - inject_Z m) <= 1 # 2 ->
  forall k f, (Z.abs k < 2 ^ 53)%Z -> Qabs (x - dyadic m e) <= Qabs (x - dyadic k f).
Proof.
  intros M L N k f K. pose proof (p2_pos e) as Pe. pose proof (p2_pos (- e)) as Pme.
  assert (PP : p2 e * p2 (- e) == 1) by (rewrite <- p2_plus; replace (e + - e)%Z with 0%Z by lia; reflexivity).
  set (y := x * p2 (- e)) in *.
  assert (X : x == y * p2 e) by (unfold y; rewrite <- Qmult_assoc, (Qmult_comm (p2 (- e))), PP; ring).
  assert (Sc : forall z, Qabs (x - z * p2 e) == Qabs (y - z) * p2 e).
  { intros z. rewrite X. rewrite <- (Qabs_pos (p2 e)) at 3 by lra. rewrite <- Qabs_Qmult. apply Qabs_wd. ring. }
  unfold dyadic. fold (p2 e) (p2 f). rewrite (Sc (inject_Z m)).
  destruct (Z_le_gt_dec e f) as [G|G].
  - assert (E : inject_Z k * p2 f == inject_Z (k * 2 ^ (f - e)) * p2 e).
    { rewrite inject_Z_mult, <- (p2_Z (f - e)) by lia. replace f with (f - e + e)%Z at 1 by lia. rewrite p2_plus. ring. }
    rewrite E, Sc. pose proof (nearest_int y m (k * 2 ^ (f - e)) N). nra.
  - (* below the binade *)
    assert (B : inject_Z k * p2 f <= inject_Z (2 ^ 52) * p2 e).
    { assert (p2 f <= p2 (e - 1)) by (apply p2_le; lia).
      assert (P1 : p2 e == 2 * p2 (e - 1)) by (replace e with (1 + (e - 1))%Z at 1 by lia; rewrite p2_plus; reflexivity).
      pose proof (p2_pos f). 
      assert (inject_Z k <= inject_Z (2 ^ 53)) by (apply inj_le; lia).
      assert (T : inject_Z (2 ^ 53) == 2 * inject_Z (2 ^ 52)) by reflexivity.
      assert (0 < inject_Z (2 ^ 52)) by reflexivity.
      apply Qle_trans with (inject_Z (2 ^ 53) * p2 f); [nra|]. rewrite P1, T. nra. }
    assert (Y : inject_Z (2 ^ 52) <= y).
    { assert (inject_Z (2 ^ 52) <= inject_Z m0) by (apply inj_le; lia).
      assert (inject_Z (2 ^ 52) * p2 e <= y * p2 e) by (rewrite <- X; nra). nra. }
    apply Qle_trans with (Qabs (y - inject_Z (2 ^ 52)) * p2 e).
    + pose proof (nearest_int y m (2 ^ 52) N). nra.
    + rewrite (Qabs_pos (y - inject_Z (2 ^ 52))) by lra. 
      apply Qle_trans with (x - inject_Z k * p2 f); [rewrite X; nra|apply Qle_Qabs].
Qed.

(** the rounding of a located number *)
Lemma round_located s x m e l : (0 < m)%Z -> located (x * p2 (- e)) m l ->
  (l = loc_Exact \/ (2 ^ 52 <= m)%Z) -> p2 (-960) <= x -> x < p2 960 ->
  exists p e', binary_round_aux 53 1024 s m e l = S754_finite s p e' /\ (Zpos p < 2 ^ 53)%Z
  /\ (forall k f, (Z.abs k < 2 ^ 53)%Z -> Qabs (x - dyadic (Zpos p) e') <= Qabs (x - dyadic k f))
  /\ Qabs (x - dyadic (Zpos p) e') <= x * p2 (- 53)
  /\ (-1074 <= e' <= 971)%Z.
Proof.
  intros M K HL X1 X2. destruct m as [|pm|pm]; try lia.
  pose proof (p2_pos e) as Pe. pose proof (p2_pos (- e)) as Pme.
  assert (PP : p2 e * p2 (- e) == 1) by (rewrite <- p2_plus; replace (e + - e)%Z with 0%Z by lia; reflexivity).
  pose proof (place_floor _ _ K) as [F1 F2].
  assert (SM : shr_m (shr_record_of_loc (Zpos pm) l) = Zpos pm) by (destruct l as [|[]]; reflexivity).
  rewrite SM in F1, F2.
  set (d := Zpos (digits2_pos pm)).
  pose proof (digits2 pm) as [D1 D2]. fold d in D1, D2.
  (* size of x *)
  assert (XL : p2 (d - 1 + e) <= x).
  { rewrite p2_plus, p2_Z by (unfold d; lia). pose proof (inj_le _ _ D1). 
    assert (x == x * p2 (- e) * p2 e) by (rewrite <- Qmult_assoc, (Qmult_comm (p2 (- e))), PP; ring). rewrite H0. nra. }
  assert (XU : x < p2 (d + e)).
  { rewrite p2_plus, p2_Z by (unfold d; lia). assert (inject_Z (Zpos pm) + 1 <= inject_Z (2 ^ d)).
    { change 1 with (inject_Z 1). rewrite <- inject_Z_plus. apply inj_le. lia. }
    assert (x == x * p2 (- e) * p2 e) by (rewrite <- Qmult_assoc, (Qmult_comm (p2 (- e))), PP; ring). rewrite H0. nra. }
  assert (DE : (-960 < d + e)%Z) by (apply p2_lt_inv; lra).
  assert (DE' : (d - 1 + e < 960)%Z) by (apply p2_lt_inv; lra).
  unfold binary_round_aux. unfold shr_fexp at 1. cbn [Zdigits2]. fold d. rewrite fexp_big by lia.
  destruct (Z_le_gt_dec 53 d) as [G|G].
  - (* shift to 53 bits *)
    replace (d + e - 53 - e)%Z with (d - 53)%Z by lia.
    destruct (shr_place (x * p2 (- e)) (shr_record_of_loc (Zpos pm) l) e (d - 53) ltac:(rewrite SM; lia) ltac:(lia) K) as (r & E1 & E2 & E3).
    rewrite E1. rewrite SM in E2.
    set (e1 := (e + (d - 53))%Z) in *.
    assert (E3' : at_place (x * p2 (- e1)) r).
    { assert (EE : x * p2 (- e1) == x * p2 (- e) * p2 (- (d - 53))).
      { rewrite <- Qmult_assoc, <- p2_plus. now replace (- e + - (d - 53))%Z with (- e1)%Z by (unfold e1; lia). }
      exact (place_eq _ _ _ (Qeq_sym _ _ EE) E3). }
    assert (R1 : (2 ^ 52 <= shr_m r)%Z).
    { rewrite E2. apply Z.div_le_lower_bound; [apply Z.pow_pos_nonneg; lia|].
      rewrite <- Z.pow_add_r by lia. replace (d - 53 + 52)%Z with (d - 1)%Z by lia. exact D1. }
    assert (R2 : (shr_m r < 2 ^ 53)%Z).
    { rewrite E2. apply Z.div_lt_upper_bound; [apply Z.pow_pos_nonneg; lia|].
      rewrite <- Z.pow_add_r by lia. replace (d - 53 + 53)%Z with d by lia. exact D2. }
    destruct (rne_half _ _ E3') as [N NB].
    set (m2 := round_nearest_even (shr_m r) (loc_of_shr_record r)) in *.
    destruct (settle s m2 e1 ltac:(lia) ltac:(unfold e1; lia)) as (p & e' & S1 & S2 & S3 & S4).
    exists p, e'. split; [exact S1|]. split; [exact S2|].
    pose proof (p2_pos e1) as Pe1.
    assert (XX : x == x * p2 (- e1) * p2 e1).
    { rewrite <- Qmult_assoc, <- p2_plus. replace (- e1 + e1)%Z with 0%Z by lia. change (p2 0) with 1. ring. }
    pose proof (place_floor _ _ E3') as [G1 G2].
    assert (LX : inject_Z (2 ^ 52) * p2 e1 <= x).
    { pose proof (inj_le _ _ R1). rewrite XX. nra. }
    split; [|split; [|exact S4]].
    + intros k f Kk. rewrite (Qabs_wd (x - dyadic (Z.pos p) e') (x - dyadic m2 e1)) by (rewrite S3; reflexivity).
      apply (no_closer x (shr_m r) m2 e1 R1); [|exact N|exact Kk]. rewrite XX. nra.
    + rewrite (Qabs_wd (x - dyadic (Z.pos p) e') (x - dyadic m2 e1)) by (rewrite S3; reflexivity).
      unfold dyadic. fold (p2 e1).
      assert (Sc : Qabs (x - inject_Z m2 * p2 e1) == Qabs (x * p2 (- e1) - inject_Z m2) * p2 e1).
      { transitivity (Qabs ((x * p2 (- e1) - inject_Z m2) * p2 e1)); [apply Qabs_wd; rewrite XX at 1; ring|].
        rewrite Qabs_Qmult, (Qabs_pos (p2 e1)) by lra. reflexivity. }
      rewrite Sc. 
      assert (T : p2 (-53) * inject_Z (2 ^ 52) == 1 # 2) by reflexivity.
      assert (0 < p2 (-53)) by reflexivity.
      apply Qle_trans with ((1 # 2) * p2 e1); [nra|]. rewrite <- T.
      apply Qle_trans with (inject_Z (2 ^ 52) * p2 e1 * p2 (-53)); [rewrite (Qmult_comm (p2 (-53))); apply Qle_lteq; right; ring|nra].
  - (* fewer than 53 bits: exact *)
    assert (D3 : (Zpos pm < 2 ^ 52)%Z).
    { pose proof (Z.pow_le_mono_r 2 d 52 ltac:(lia) ltac:(lia)). lia. }
    destruct HL as [->|HL]; [|lia].
    rewrite shr_neg by lia. cbn [shr_record_of_loc shr_m loc_of_shr_record round_nearest_even].
    assert (EX : x == dyadic (Zpos pm) e).
    { unfold located, at_place in K. cbn [shr_record_of_loc shr_m shr_r shr_s] in K. unfold dyadic. fold (p2 e). rewrite <- K.
      rewrite <- Qmult_assoc, (Qmult_comm (p2 (- e))), PP. ring. }
    destruct (settle s (Zpos pm) e ltac:(lia) ltac:(lia)) as (p & e' & S1 & S2 & S3 & S4).
    exists p, e'. split; [exact S1|]. split; [exact S2|].
    assert (Z0 : Qabs (x - dyadic (Zpos p) e') == 0).
    { rewrite (Qabs_wd _ 0); [reflexivity|]. rewrite S3, EX. ring. }
    split; [|split; [|exact S4]].
    + intros k f _. rewrite Z0. apply Qabs_nonneg.
    + rewrite Z0. assert (0 < p2 (-53)) by reflexivity. assert (0 < p2 (-960)) by reflexivity. nra.
Qed.

(** ** Operations *)
(** a correctly rounded result, with its relative error *)
Definition rounds (f : spec_float) (x : Q) : Prop := nearest f x /\ Qabs (x - sfq f) <= Qabs x * p2 (-53).
(** no overflow and no loss of precision *)
Definition ordinary (x : Q) : Prop := x == 0 \/ p2 (-960) <= Qabs x < p2 960.

Lemma rounds_eq f x y : x == y -> rounds f x -> rounds f y.
Proof.
  intros E ((A & B & C) & D). split; [split; [exact A|split; [exact B|]]|].
  - intros m e M. specialize (C m e M). rewrite <- (Qabs_wd (x - sfq f) (y - sfq f)), <- (Qabs_wd (x - dyadic m e) (y - dyadic m e)) by (rewrite E; reflexivity). exact C.
  - rewrite <- (Qabs_wd (x - sfq f) (y - sfq f)), <- (Qabs_wd x y) by (rewrite E; reflexivity). exact D.
Qed.
Lemma rounds_zero s x : x == 0 -> rounds (S754_zero s) x.
Proof.
  intros E. split; [split; [exact I|split]|].
  - exists 0%Z, 0%Z. split; [reflexivity|reflexivity].
  - intros m e M. rewrite (Qabs_wd (x - sfq (S754_zero s)) 0); [apply Qabs_nonneg|]. cbn [sfq]. rewrite E. ring.
  - rewrite (Qabs_wd (x - sfq (S754_zero s)) 0); [|cbn [sfq]; rewrite E; ring]. 
    assert (0 < p2 (-53)) by reflexivity. pose proof (Qabs_nonneg x). change (Qabs 0) with 0. nra.
Qed.
Lemma dyadic_opp m e : dyadic (- m) e == - dyadic m e.
Proof. unfold dyadic. rewrite inject_Z_opp. ring. Qed.
Lemma rounds_aux s x m e l : (0 < m)%Z -> located (x * p2 (- e)) m l ->
  (l = loc_Exact \/ (2 ^ 52 <= m)%Z) -> p2 (-960) <= x -> x < p2 960 ->
  rounds (binary_round_aux 53 1024 s m e l) (if s then - x else x).
Proof.
  intros M L HL X1 X2. destruct (round_located s x m e l M L HL X1 X2) as (p & e' & E & P & N & R & _). rewrite E.
  assert (X0 : 0 < x) by (assert (0 < p2 (-960)) by reflexivity; lra).
  split; [split; [exact I|split]|].
  - exists (if s then Zneg p else Zpos p), e'. split; [destruct s; lia|]. cbn [sfq]. reflexivity.
  - intros k f K. cbn [sfq]. destruct s; [|exact (N k f K)].
    specialize (N (- k)%Z f ltac:(lia)). change (Zneg p) with (- Zpos p)%Z.
    rewrite <- (Qabs_opp (- x - dyadic (- Z.pos p) e')), <- (Qabs_opp (- x - dyadic k f)).
    rewrite (Qabs_wd (- (- x - dyadic (- Z.pos p) e')) (x - dyadic (Zpos p) e')) by (rewrite dyadic_opp; ring).
    rewrite (Qabs_wd (- (- x - dyadic k f)) (x - dyadic (- k) f)) by (rewrite dyadic_opp; ring). exact N.
  - cbn [sfq]. destruct s.
    + change (Zneg p) with (- Zpos p)%Z. rewrite <- (Qabs_opp (- x - dyadic (- Z.pos p) e')).
      rewrite (Qabs_wd (- (- x - dyadic (- Z.pos p) e')) (x - dyadic (Zpos p) e')) by (rewrite dyadic_opp; ring).
      rewrite Qabs_opp, (Qabs_pos x) by lra. exact R.
    + rewrite (Qabs_pos x) by lra. exact R.
Qed.
Lemma located_exact m e : located (dyadic m e * p2 (- e)) m loc_Exact.
Proof.
  unfold located, at_place. cbn [shr_record_of_loc shr_m shr_r shr_s]. unfold dyadic. fold (p2 e).
  rewrite <- Qmult_assoc, <- p2_plus. replace (e + - e)%Z with 0%Z by lia. change (p2 0) with 1. ring.
Qed.
Lemma dyadic_mul m e n f : dyadic m e * dyadic n f == dyadic (m * n) (e + f).
Proof. unfold dyadic. fold (p2 e) (p2 f) (p2 (e + f)). rewrite inject_Z_mult, p2_plus. ring. Qed.
Lemma dyadic_pos p e : 0 < dyadic (Zpos p) e.
Proof. unfold dyadic. fold (p2 e). pose proof (p2_pos e). assert (0 < inject_Z (Zpos p)) by reflexivity. nra. Qed.
Lemma sign_mul (s t : bool) (x y : Q) : (if s then - x else x) * (if t then - y else y) == (if xorb s t then - (x * y) else x * y).
Proof. destruct s, t; cbn [xorb]; ring. Qed.
Lemma sfq_finite s m e : sfq (S754_finite s m e) == (if s then - dyadic (Zpos m) e else dyadic (Zpos m) e).
Proof. destruct s; cbn [sfq]; [|reflexivity]. change (Zneg m) with (- Zpos m)%Z. apply dyadic_opp. Qed.
Lemma ordinary_pos x (s : bool) : 0 < x -> ordinary (if s then - x else x) -> p2 (-960) <= x /\ x < p2 960.
Proof.
  intros P. unfold ordinary. destruct s.
  - rewrite Qabs_opp, Qabs_pos by lra. intros [E|E]; [lra|exact E].
  - rewrite Qabs_pos by lra. intros [E|E]; [lra|exact E].
Qed.
Lemma ordinary_eq x y : x == y -> ordinary x -> ordinary y.
Proof. intros E. unfold ordinary. rewrite (Qabs_wd x y E), E. auto. Qed.

Theorem mul_rounds a b : finite a -> finite b -> ordinary (sfq a * sfq b) -> rounds (SFmul 53 1024 a b) (sfq a * sfq b).
Proof.
  destruct a as [sa| | |sa ma ea], b as [sb| | |sb mb eb]; cbn [finite]; try contradiction; intros _ _ O; cbn [SFmul].
  - apply rounds_zero. reflexivity.
  - apply rounds_zero. cbn [sfq]. ring.
  - apply rounds_zero. cbn [sfq]. ring.
  - assert (E : sfq (S754_finite sa ma ea) * sfq (S754_finite sb mb eb)
       == (if xorb sa sb then - dyadic (Zpos (ma * mb)) (ea + eb) else dyadic (Zpos (ma * mb)) (ea + eb))).
    { rewrite !sfq_finite, sign_mul. destruct (xorb sa sb); rewrite dyadic_mul; reflexivity. }
    apply (rounds_eq _ _ _ (Qeq_sym _ _ E)). apply (ordinary_eq _ _ E) in O.
    destruct (ordinary_pos _ _ (dyadic_pos _ _) O) as [O1 O2].
    apply rounds_aux; [lia|apply located_exact|now left|exact O1|exact O2].
Qed.

Lemma shift_pos_mul d m : Zpos (shift_pos d m) = (Zpos m * 2 ^ Zpos d)%Z.
Proof.
  unfold shift_pos.
  revert m. induction d as [|d IH] using Pos.peano_ind; intros m.
  - cbn [Pos.iter]. lia.
  - rewrite Pos.iter_succ. rewrite Pos2Z.inj_succ, Z.pow_succ_r by lia. rewrite Pos2Z.inj_xO, IH. lia.
Qed.
Lemma shl_align_value m e f : exists m', shl_align m e f = (m', Z.min e f) /\ dyadic (Zpos m') (Z.min e f) == dyadic (Zpos m) e.
Proof.
  unfold shl_align. destruct (f - e)%Z as [|d|d] eqn:D.
  - exists m. replace (Z.min e f) with e by lia. split; reflexivity.
  - exists m. replace (Z.min e f) with e by lia. split; reflexivity.
  - exists (shift_pos d m). replace (Z.min e f) with f by lia. split; [reflexivity|].
    rewrite shift_pos_mul. rewrite <- (dyadic_shift (Zpos m) e (Zpos d)) by lia. replace (e - Zpos d)%Z with f by lia. reflexivity.
Qed.
Lemma round_rounds s m e : ordinary (dyadic (Zpos m) e) ->
  rounds (binary_round 53 1024 s m e) (if s then - dyadic (Zpos m) e else dyadic (Zpos m) e).
Proof.
  intros O. unfold binary_round. destruct (shl_align_value m e (fexp (Z.pos (digits2_pos m) + e))) as (m' & E & V). rewrite E.
  set (e' := Z.min e (fexp (Z.pos (digits2_pos m) + e))) in *.
  destruct (ordinary_pos _ false (dyadic_pos m e) O) as [O1 O2].
  eapply rounds_eq; [|apply (rounds_aux s (dyadic (Zpos m) e)); [lia| |now left|exact O1|exact O2]].
  - reflexivity.
  - unfold located. eapply place_eq; [|apply (located_exact (Zpos m') e')]. rewrite V. reflexivity.
Qed.
Theorem normalize_rounds z e sz : ordinary (dyadic z e) -> rounds (binary_normalize 53 1024 z e sz) (dyadic z e).
Proof.
  intros O. destruct z as [|p|p]; cbn [binary_normalize].
  - apply rounds_zero. unfold dyadic. change (inject_Z 0) with 0. ring.
  - apply (round_rounds false p e O).
  - change (Zneg p) with (- Zpos p)%Z in *. eapply rounds_eq; [|apply (round_rounds true p e)].
    + symmetry. apply dyadic_opp.
    + unfold ordinary in *. rewrite dyadic_opp, Qabs_opp in O. destruct O as [O|O]; [left; lra|now right].
Qed.
Theorem add_rounds a b : finite a -> finite b ->
  (exists m e, (Z.abs m < 2 ^ 53)%Z /\ sfq a == dyadic m e) -> (exists m e, (Z.abs m < 2 ^ 53)%Z /\ sfq b == dyadic m e) ->
  ordinary (sfq a + sfq b) -> rounds (SFadd 53 1024 a b) (sfq a + sfq b).
Proof.
  assert (R : forall f, finite f -> (exists m e, (Z.abs m < 2 ^ 53)%Z /\ sfq f == dyadic m e) -> rounds f (sfq f)).
  { intros f F B. split; [split; [exact F|split; [exact B|]]|].
    - intros m e M. rewrite (Qabs_wd (sfq f - sfq f) 0) by ring. apply Qabs_nonneg.
    - rewrite (Qabs_wd (sfq f - sfq f) 0) by ring. change (Qabs 0) with 0. pose proof (Qabs_nonneg (sfq f)).
      assert (0 < p2 (-53)) by reflexivity. nra. }
  intros Fa Fb Ba Bb O.
  destruct a as [sa| | |sa ma ea], b as [sb| | |sb mb eb]; cbn [finite] in Fa, Fb; try contradiction; cbn [SFadd].
  - destruct (Bool.eqb sa sb); apply rounds_zero; reflexivity.
  - eapply rounds_eq; [|apply R; [exact I|exact Bb]]. cbn [sfq]. ring.
  - eapply rounds_eq; [|apply R; [exact I|exact Ba]]. cbn [sfq]. ring.
  - destruct (shl_align_value ma ea (Z.min ea eb)) as (ma' & Ea & Va). destruct (shl_align_value mb eb (Z.min ea eb)) as (mb' & Eb & Vb).
    rewrite Ea, Eb. cbn [fst]. replace (Z.min ea (Z.min ea eb)) with (Z.min ea eb) in Va by lia.
    replace (Z.min eb (Z.min ea eb)) with (Z.min ea eb) in Vb by lia. set (e := Z.min ea eb) in *.
    assert (E : sfq (S754_finite sa ma ea) + sfq (S754_finite sb mb eb)
       == dyadic (cond_Zopp sa (Zpos ma') + cond_Zopp sb (Zpos mb')) e).
    { rewrite !sfq_finite. unfold dyadic at 5. rewrite inject_Z_plus.
      unfold dyadic at 1 in Va. unfold dyadic at 1 in Vb.
      destruct sa, sb; unfold cond_Zopp; rewrite ?inject_Z_opp; lra. }
    apply (rounds_eq _ _ _ (Qeq_sym _ _ E)). apply normalize_rounds. exact (ordinary_eq _ _ E O).
Qed.

(** ** Division *)
Lemma new_location_ok n r q : (0 < n)%Z -> (0 <= r < n)%Z ->
  located (inject_Z q + inject_Z r / inject_Z n) q (new_location n r).
Proof.
  intros N R. unfold located, new_location, new_location_even, new_location_odd.
  assert (Pn : 0 < inject_Z n) by (change 0 with (inject_Z 0); apply inj_lt; lia).
  set (t := inject_Z r / inject_Z n).
  assert (T : t * inject_Z n == inject_Z r) by (unfold t; field; lra).
  assert (T1 : t < 1).
  { assert (inject_Z r < inject_Z n) by (apply inj_lt; lia). rewrite <- T in H. nra. }
  assert (H2 : forall a, inject_Z (2 * a) == 2 * inject_Z a) by (intros; rewrite inject_Z_mult; reflexivity).
  assert (Lt2 : (2 * r < n)%Z -> t < 1 # 2).
  { intros L. apply inj_lt in L. rewrite H2, <- T in L. nra. }
  assert (Gt2 : (n < 2 * r)%Z -> (1 # 2) < t).
  { intros L. apply inj_lt in L. rewrite H2, <- T in L. nra. }
  assert (Pos : (0 < r)%Z -> 0 < t).
  { intros L. apply inj_lt in L. change (inject_Z 0) with 0 in L. rewrite <- T in L. nra. }
  replace ((if Z.even n then fun k => if Zeq_bool k 0 then loc_Exact else loc_Inexact (2 * k ?= n)%Z
            else fun k => if Zeq_bool k 0 then loc_Exact else loc_Inexact match (2 * k + 1 ?= n)%Z with Gt => Gt | _ => Lt end) r)
    with (if Zeq_bool r 0 then loc_Exact else
          if Z.even n then loc_Inexact (2 * r ?= n)%Z else loc_Inexact match (2 * r + 1 ?= n)%Z with Gt => Gt | _ => Lt end)
    by (destruct (Z.even n), (Zeq_bool r 0); reflexivity).
  destruct (Zeq_bool r 0) eqn:R0.
  - apply Zeq_bool_eq in R0. subst r. assert (t == 0) by (unfold t; change (inject_Z 0) with 0; field; lra).
    unfold at_place; cbn [shr_record_of_loc shr_m shr_r shr_s]; lra.
  - apply Zeq_bool_neq in R0. specialize (Pos ltac:(lia)).
    destruct (Z.even n) eqn:Ev.
    + destruct (Z.compare_spec (2 * r) n) as [C|C|C]; unfold at_place; cbn [shr_record_of_loc shr_m shr_r shr_s].
      * assert (t == 1 # 2). { assert (inject_Z (2 * r) == inject_Z n) by (rewrite C; reflexivity). rewrite H2, <- T in H. nra. }
        lra.
      * specialize (Lt2 C). split; lra.
      * specialize (Gt2 C). split; lra.
    + assert (O : Z.odd n = true) by (rewrite <- Z.negb_even, Ev; reflexivity). apply Z.odd_spec in O as [k O].
      destruct (Z.compare_spec (2 * r + 1) n) as [C|C|C]; unfold at_place; cbn [shr_record_of_loc shr_m shr_r shr_s].
      * specialize (Lt2 ltac:(lia)). split; lra.
      * specialize (Lt2 ltac:(lia)). split; lra.
      * specialize (Gt2 ltac:(lia)). split; lra.
Qed.

Theorem div_rounds a b : finite a -> finite b -> ~ sfq b == 0 -> ordinary (sfq a / sfq b) ->
  rounds (SFdiv 53 1024 a b) (sfq a / sfq b).
Proof.
  intros Fa Fb NZ O.
  destruct a as [sa| | |sa ma ea], b as [sb| | |sb mb eb]; cbn [finite] in Fa, Fb; try contradiction; cbn [SFdiv];
    try (exfalso; apply NZ; reflexivity).
  - apply rounds_zero. cbn [sfq]. unfold Qdiv. ring.
  - pose proof (dyadic_pos ma ea) as Pa. pose proof (dyadic_pos mb eb) as Pb.
    assert (Px : 0 < dyadic (Zpos ma) ea / dyadic (Zpos mb) eb) by (apply Qlt_shift_div_l; [exact Pb|lra]).
    assert (E : sfq (S754_finite sa ma ea) / sfq (S754_finite sb mb eb)
       == (if xorb sa sb then - (dyadic (Zpos ma) ea / dyadic (Zpos mb) eb) else dyadic (Zpos ma) ea / dyadic (Zpos mb) eb)).
    { rewrite !sfq_finite. destruct sa, sb; cbn [xorb]; field; lra. }
    apply (ordinary_eq _ _ E) in O. destruct (ordinary_pos _ _ Px O) as [O1 O2].
    unfold SFdiv_core_binary. cbn [Zdigits2].
    set (d1 := Zpos (digits2_pos ma)). set (d2 := Zpos (digits2_pos mb)).
    pose proof (digits2 ma) as [A1 A2]. pose proof (digits2 mb) as [B1 B2]. fold d1 in A1, A2. fold d2 in B1, B2.
    assert (P1 : (0 < d1)%Z) by reflexivity. assert (P2 : (0 < d2)%Z) by reflexivity.
    set (x := dyadic (Zpos ma) ea / dyadic (Zpos mb) eb) in *.
    (* the exponent *)
    assert (XB : x * dyadic (Zpos mb) eb == dyadic (Zpos ma) ea) by (unfold x; field; lra).
    assert (DE : (-961 <= d1 + ea - (d2 + eb))%Z).
    { assert (x < p2 (d1 + ea - (d2 - 1 + eb))).
      { apply Qlt_shift_div_r; [exact Pb|]. apply Qlt_le_trans with (p2 (d1 + ea - (d2 - 1 + eb)) * p2 (d2 - 1 + eb)).
        - rewrite <- p2_plus. replace (d1 + ea - (d2 - 1 + eb) + (d2 - 1 + eb))%Z with (d1 + ea)%Z by lia.
          rewrite p2_plus, p2_Z by lia. unfold dyadic. fold (p2 ea). pose proof (inj_lt _ _ A2). pose proof (p2_pos ea). nra.
        - pose proof (p2_pos (d1 + ea - (d2 - 1 + eb))). 
          assert (p2 (d2 - 1 + eb) <= dyadic (Zpos mb) eb).
          { rewrite p2_plus, p2_Z by lia. unfold dyadic. fold (p2 eb). pose proof (inj_le _ _ B1). pose proof (p2_pos eb). nra. }
          nra. }
      assert (-960 < d1 + ea - (d2 - 1 + eb))%Z by (apply p2_lt_inv; lra). lia. }
    rewrite fexp_big by lia.
    set (e := Z.min (d1 + ea - (d2 + eb) - 53) (ea - eb)).
    set (s := (ea - eb - e)%Z).
    assert (S0 : (0 <= s)%Z) by (unfold s, e; lia).
    replace (match s with Z0 => Zpos ma | Zpos _ => Z.shiftl (Zpos ma) s | Zneg _ => 0%Z end) with (Zpos ma * 2 ^ s)%Z.
    2:{ destruct s eqn:Es; [lia| |lia]. rewrite Z.shiftl_mul_pow2 by lia. reflexivity. }
    pose proof (Z_div_mod (Zpos ma * 2 ^ s) (Zpos mb) ltac:(lia)) as DM.
    destruct (Z.div_eucl (Zpos ma * 2 ^ s) (Zpos mb)) as [q r]. destruct DM as [DM1 DM2].
    assert (Q52 : (2 ^ 52 <= q)%Z).
    { assert (B : (2 ^ 52 * 2 ^ d2 <= Zpos ma * 2 ^ s)%Z).
      { apply Z.le_trans with (2 ^ (d1 - 1) * 2 ^ s)%Z.
        - rewrite <- !Z.pow_add_r by lia. apply Z.pow_le_mono_r; [lia|]. unfold s, e. lia.
        - apply Z.mul_le_mono_nonneg_r; [apply Z.pow_nonneg; lia|exact A1]. }
      assert (0 < 2 ^ d2)%Z by (apply Z.pow_pos_nonneg; lia). nia. }
    apply (rounds_eq _ _ _ (Qeq_sym _ _ E)).
    apply rounds_aux; [lia| |now right|exact O1|exact O2].
    unfold located. eapply place_eq; [|apply (new_location_ok (Zpos mb) r q); lia].
    assert (Pm : 0 < inject_Z (Zpos mb)) by reflexivity.
    assert (V : inject_Z q + inject_Z r / inject_Z (Zpos mb) == inject_Z (Zpos ma * 2 ^ s) / inject_Z (Zpos mb)).
    { rewrite DM1. rewrite inject_Z_plus, inject_Z_mult. field. lra. }
    rewrite V. unfold x, dyadic. fold (p2 ea) (p2 eb). rewrite inject_Z_mult, <- p2_Z by lia.
    pose proof (p2_pos eb). 
    assert (T : p2 ea * p2 (- e) == p2 s * p2 eb) by (rewrite <- !p2_plus; now replace (ea + - e)%Z with (s + eb)%Z by (unfold s; lia)).
    transitivity (inject_Z (Zpos ma) * (p2 s * p2 eb) / (inject_Z (Zpos mb) * p2 eb)).
    + field. split; lra.
    + rewrite <- T. field. split; lra.
Qed.

(** ** Consequences *)
(** a representable number is not changed *)
Theorem rounds_exact f x m e : rounds f x -> (Z.abs m < 2 ^ 53)%Z -> x == dyadic m e -> sfq f == x.
Proof.
  intros ((_ & _ & N) & _) M E. specialize (N m e M). rewrite (Qabs_wd (x - dyadic m e) 0) in N by (rewrite E; ring).
  change (Qabs 0) with 0 in N. apply Qabs_Qle_condition in N as [N1 N2]. lra.
Qed.
Lemma dyadic_int m : dyadic m 0 == inject_Z m.
Proof. unfold dyadic. change (Qpower (2 # 1) 0) with 1. ring. Qed.
Lemma p2_big : inject_Z (2 ^ 128) <= p2 900.
Proof. rewrite <- p2_Z by lia. apply p2_le. lia. Qed.
Lemma ordinary_int z : (Z.abs z < 2 ^ 900)%Z -> ordinary (inject_Z z).
Proof.
  intros L. destruct (Z.eq_dec z 0) as [->|N]; [left; reflexivity|right].
  assert (A : Qabs (inject_Z z) == inject_Z (Z.abs z)) by reflexivity.
  rewrite A. split.
  - apply Qle_trans with (inject_Z 1); [discriminate|]. apply inj_le. lia.
  - apply Qlt_le_trans with (p2 900); [|apply p2_le; lia]. rewrite p2_Z by lia. now apply inj_lt.
Qed.
Theorem of_int_rounds z : (Z.abs z < 2 ^ 900)%Z -> rounds (binary_normalize 53 1024 z 0 false) (inject_Z z).
Proof.
  intros L. eapply rounds_eq; [apply dyadic_int|]. apply normalize_rounds. eapply ordinary_eq; [symmetry; apply dyadic_int|].
  now apply ordinary_int.
Qed.
(** integers below 2^53 are exact *)
Theorem of_int_exact z : (Z.abs z < 2 ^ 53)%Z ->
  finite (binary_normalize 53 1024 z 0 false) /\ sfq (binary_normalize 53 1024 z 0 false) == inject_Z z.
Proof.
  intros L. assert (T : (2 ^ 53 < 2 ^ 900)%Z) by (apply Z.pow_lt_mono_r; lia).
  pose proof (of_int_rounds z ltac:(lia)) as R. split; [apply R|].
  apply (rounds_exact _ _ z 0 R L). symmetry. apply dyadic_int.
Qed.
