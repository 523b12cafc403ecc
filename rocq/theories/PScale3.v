(** Scaling back to actual values in binary64. *)
From Coq Require Import ZArith QArith Qabs Qpower SpecFloat Lia Lqa.
From Verif Require Import Base MBuffer SBuffer MParam SParam PParam3 SFloat PFloat PScale PScale2.
Local Open Scope Q_scope.

Definition u53 : Q := p2 (-53).
Definition err (n : nat) : Q := match n with 0%nat => 0 | 1%nat => u53 | 2%nat => u53 + u53 + u53 * u53 | _ => u53 + (u53 + u53 + u53 * u53) * (1 + u53) end.
(** [f] is [x] after [n] roundings *)
Definition approx (f : spec_float) (x : Q) (n : nat) : Prop := rep f /\ Qabs (x - sfq f) <= Qabs x * err n.
Definition sized (a : Z) (x : Q) : Prop := x == 0 \/ p2 (- a) <= Qabs x /\ Qabs x < p2 a.

Lemma abs_scale (x c : Q) : 0 <= c -> Qabs (x * c) == Qabs x * c.
Proof. intros C. rewrite Qabs_Qmult, (Qabs_pos c) by assumption. reflexivity. Qed.
Lemma le_mul_r a b c : 0 <= c -> a <= b -> a * c <= b * c.
Proof. intros C L. apply Qmult_le_compat_r; assumption. Qed.
Lemma u53_pos : 0 < u53. Proof. reflexivity. Qed.
Lemma err_step n : (n <= 2)%nat -> err n + (1 + err n) * u53 == err (S n) /\ 0 <= err n /\ err n <= 1 # 4.
Proof. intros L. destruct n as [|[|[|n]]]; [| | |lia]; cbn [err]; (split; [ring|split; discriminate]). Qed.
Lemma approx_bounds f x n : (n <= 2)%nat -> approx f x n -> (3 # 4) * Qabs x <= Qabs (sfq f) /\ Qabs (sfq f) <= Qabs x * (1 + err n) /\ Qabs (sfq f) <= 2 * Qabs x.
Proof.
  intros L [_ A]. destruct (err_step n L) as (_ & E0 & E1).
  pose proof (Qabs_triangle (sfq f) (x - sfq f)) as T1. rewrite (Qabs_wd (sfq f + (x - sfq f)) x) in T1 by ring.
  pose proof (Qabs_triangle x (- (x - sfq f))) as T2. rewrite (Qabs_wd (x + - (x - sfq f)) (sfq f)), Qabs_opp in T2 by ring.
  pose proof (Qabs_nonneg x) as X. assert (Qabs x * err n <= Qabs x * (1 # 4)) by nra. repeat split; lra.
Qed.
(** one more operation, exact up to rounding: multiplication by [c] *)
Lemma approx_next f x n c h : (n <= 2)%nat -> 0 < c -> approx f x n -> rounds h (sfq f * c) -> approx h (x * c) (S n).
Proof.
  intros L C A [[F [B _]] R]. destruct (approx_bounds f x n L A) as (_ & U & _). destruct A as [_ A]. destruct (err_step n L) as (E & E0 & _).
  split; [split; assumption|].
  pose proof (Qabs_triangle ((x - sfq f) * c) (sfq f * c - sfq h)) as T. rewrite (Qabs_wd ((x - sfq f) * c + (sfq f * c - sfq h)) (x * c - sfq h)) in T by ring.
  rewrite (abs_scale (x - sfq f) c) in T by lra. rewrite (abs_scale (sfq f) c) in R by lra. rewrite (abs_scale x c) by lra. rewrite <- E.
  assert (H1 : Qabs (x - sfq f) * c <= Qabs x * err n * c) by (apply le_mul_r; lra).
  assert (H2 : Qabs (sfq f) * c * u53 <= Qabs x * (1 + err n) * c * u53).
  { apply le_mul_r; [discriminate|]. apply le_mul_r; lra. }
  fold u53 in R. assert (H3 : Qabs x * c * (err n + (1 + err n) * u53) == Qabs x * err n * c + Qabs x * (1 + err n) * c * u53) by ring. lra.
Qed.
Lemma approx_zero f x n : approx f x n -> x == 0 -> sfq f == 0.
Proof.
  intros [_ A] E. rewrite (Qabs_wd x 0 E) in A. change (Qabs 0) with 0 in A. assert (A' : Qabs (x - sfq f) <= 0) by lra.
  apply Qabs_Qle_condition in A' as [U V]. lra.
Qed.
Lemma sized_mul a x c : (0 <= a)%Z -> 1 <= c -> c < p2 60 -> sized a x -> sized (a + 60) (x * c).
Proof.
  intros A C1 C2 [E|[L U]]; [left; rewrite E; ring|right]. rewrite abs_scale by lra. pose proof (Qabs_nonneg x). split.
  - apply Qle_trans with (p2 (- a)); [apply p2_le; lia|]. nra.
  - rewrite p2_plus. apply Qle_lt_trans with (Qabs x * p2 60); [nra|]. apply Qmult_lt_r; [reflexivity|assumption].
Qed.
Lemma sized_div a x d : (0 <= a)%Z -> 1 <= d -> d < p2 60 -> sized a x -> sized (a + 60) (x * / d).
Proof.
  intros A C1 C2 H. assert (D : 0 < / d) by (apply Qinv_lt_0_compat; lra). assert (I : / d * d == 1) by (field; lra).
  destruct H as [E|[L U]]; [left; rewrite E; ring|right]. rewrite abs_scale by lra. pose proof (Qabs_nonneg x) as X.
  assert (I1 : / d <= 1) by nra. assert (I2 : p2 (-60) <= / d).
  { destruct (Qlt_le_dec (/ d) (p2 (-60))) as [K|K]; [|exact K]. exfalso. assert (p2 (-60) * p2 60 == 1) by reflexivity.
    assert (0 < p2 (-60)) by reflexivity.
    assert (/ d * d <= / d * p2 60) by nra. assert (/ d * p2 60 < p2 (-60) * p2 60) by (apply Qmult_lt_r; [reflexivity|assumption]). lra. }
  split.
  - replace (- (a + 60))%Z with (- a + -60)%Z by lia. rewrite p2_plus. pose proof (p2_pos (- a)). assert (0 < p2 (-60)) by reflexivity.
    apply Qle_trans with (Qabs x * p2 (-60)); [apply le_mul_r; lra|]. nra.
  - apply Qle_lt_trans with (Qabs x); [nra|]. apply Qlt_le_trans with (p2 a); [assumption|apply p2_le; lia].
Qed.
Lemma sized_ordinary f x n a c : (n <= 2)%nat -> (0 <= a <= 900)%Z -> 0 < c -> approx f x n -> sized a (x * c) -> ordinary (sfq f * c).
Proof.
  intros L Aa C A [E|[Lo Up]].
  - left. assert (x == 0) as X0. { destruct (Qeq_dec x 0) as [X|X]; [exact X|]. exfalso. assert (x * c / c == 0) by (rewrite E; field; lra). apply X. rewrite <- H. field. lra. }
    rewrite (approx_zero f x n A X0). ring.
  - right. destruct (approx_bounds f x n L A) as (B1 & _ & B2). rewrite abs_scale in * by lra.
    assert (T1 : (3 # 4) * Qabs x * c <= Qabs (sfq f) * c) by (apply le_mul_r; lra). assert (T2 : Qabs (sfq f) * c <= 2 * Qabs x * c) by (apply le_mul_r; lra).
    assert (P1 : p2 (-960) <= (1 # 2) * p2 (- a)).
    { assert (H : p2 (- 1) == 1 # 2) by reflexivity. rewrite <- H, <- p2_plus. apply p2_le. lia. }
    assert (P2 : 2 * p2 a <= p2 960).
    { assert (H : p2 1 == 2) by reflexivity. rewrite <- H, <- p2_plus. apply p2_le. lia. }
    pose proof (p2_pos (- a)). split; nra.
Qed.
Lemma step_mul f x n a g c : (n <= 2)%nat -> (0 <= a <= 800)%Z -> approx f x n -> sized a x -> finite g -> sfq g == c -> 1 <= c -> c < p2 60 ->
  approx (SFmul 53 1024 f g) (x * c) (S n) /\ sized (a + 60) (x * c).
Proof.
  intros L Aa A S0 G E C1 C2. assert (S1 : sized (a + 60) (x * c)) by (apply sized_mul; [lia|assumption..]). split; [|exact S1].
  apply (approx_next f x n c); [assumption|lra|assumption|].
  apply (rounds_eq _ (sfq f * sfq g)); [rewrite E; reflexivity|]. apply mul_rounds; [apply A|exact G|].
  apply (ordinary_eq (sfq f * c)); [rewrite E; reflexivity|]. apply (sized_ordinary f x n (a + 60)); [assumption|lia|lra|assumption|assumption].
Qed.
Lemma step_div f x n a g d : (n <= 2)%nat -> (0 <= a <= 800)%Z -> approx f x n -> sized a x -> finite g -> sfq g == d -> 1 <= d -> d < p2 60 ->
  approx (SFdiv 53 1024 f g) (x * / d) (S n) /\ sized (a + 60) (x * / d).
Proof.
  intros L Aa A S0 G E C1 C2. assert (S1 : sized (a + 60) (x * / d)) by (apply sized_div; [lia|assumption..]). split; [|exact S1].
  assert (D : 0 < / d) by (apply Qinv_lt_0_compat; lra).
  apply (approx_next f x n (/ d)); [assumption|assumption|assumption|].
  apply (rounds_eq _ (sfq f / sfq g)); [rewrite E; reflexivity|]. apply div_rounds; [apply A|exact G|rewrite E; lra|].
  apply (ordinary_eq (sfq f * / d)); [rewrite E; reflexivity|]. apply (sized_ordinary f x n (a + 60)); [assumption|lia|assumption|assumption|assumption].
Qed.

(** ** Subtraction of an integer *)
Lemma sub_add a b : SFsub 53 1024 a b = SFadd 53 1024 a (SFopp b).
Proof.
  destruct a as [sa|sa| |sa ma ea], b as [sb|sb| |sb mb eb]; cbn [SFsub SFadd SFopp]; try reflexivity.
  f_equal. destruct sa, sb; cbn [cond_Zopp negb]; lia.
Qed.
Lemma opp_value f : sfq (SFopp f) == - sfq f.
Proof. destruct f as [s|s| |s m e]; cbn [SFopp sfq]; try reflexivity. destruct s; cbn [negb]; rewrite <- dyadic_opp; reflexivity. Qed.
Lemma dyadic_multiple m e k : (k <= e)%Z -> dyadic m e == inject_Z (m * 2 ^ (e - k)) * p2 k.
Proof.
  intros L. unfold dyadic. fold (p2 e). replace e with (e - k + k)%Z at 1 by lia. rewrite p2_plus, (p2_Z (e - k)) by lia. rewrite inject_Z_mult. ring.
Qed.
Lemma sub_ordinary f k : rep f -> sfq f == 0 \/ (p2 (-900) <= Qabs (sfq f) /\ Qabs (sfq f) < p2 900) -> (Z.abs k < 2 ^ 53)%Z -> ordinary (sfq f - inject_Z k).
Proof.
  intros [F (m & e & M & E)] [Z0|[L U]] K.
  - apply (ordinary_eq (inject_Z (- k))); [rewrite Z0, inject_Z_opp; ring|]. apply ordinary_int, small_big. lia.
  - destruct (Z.eq_dec k 0) as [->|Kn].
    { right. change (inject_Z 0) with 0. rewrite (Qabs_wd (sfq f - 0) (sfq f)) by ring. split; [apply Qle_trans with (p2 (-900)); [apply p2_le; lia|assumption]|].
      apply Qlt_le_trans with (p2 900); [assumption|apply p2_le; lia]. }
    assert (K1 : Qabs (inject_Z k) == inject_Z (Z.abs k)) by reflexivity.
    assert (K2 : inject_Z (Z.abs k) < p2 53) by (rewrite p2_Z by lia; apply inj_lt; lia).
    assert (K3 : 1 <= inject_Z (Z.abs k)) by (change 1 with (inject_Z 1); apply inj_le; lia).
    assert (Up : Qabs (sfq f - inject_Z k) < p2 960).
    { pose proof (Qabs_triangle (sfq f) (- inject_Z k)) as T. rewrite Qabs_opp, K1 in T. fold (sfq f - inject_Z k) in T.
      assert (p2 900 + p2 53 <= p2 960).
      { assert (p2 53 <= p2 900) by (apply p2_le; lia). assert (H1 : p2 (1 + 900) <= p2 960) by (apply p2_le; lia). rewrite p2_plus, p2_1 in H1. lra. }
      lra. }
    destruct (Qlt_le_dec (Qabs (sfq f)) (1 # 2)) as [Sm|Bg].
    + right. split; [|assumption]. pose proof (Qabs_triangle (sfq f) (- (sfq f - inject_Z k))) as T.
      rewrite (Qabs_wd (sfq f + - (sfq f - inject_Z k)) (inject_Z k)), Qabs_opp, K1 in T by ring.
      assert (p2 (-960) <= p2 (-1)) by (apply p2_le; lia). assert (p2 (-1) == 1 # 2) by reflexivity. lra.
    + assert (He : (-54 <= e)%Z).
      { destruct (Z_lt_le_dec e (-54)) as [B|B]; [|exact B]. exfalso.
        assert (A1 : Qabs (sfq f) == inject_Z (Z.abs m) * p2 e).
        { rewrite (Qabs_wd _ _ E). unfold dyadic. fold (p2 e). rewrite Qabs_Qmult, (Qabs_pos (p2 e)) by (pose proof (p2_pos e); lra). reflexivity. }
        assert (A2 : inject_Z (Z.abs m) < p2 53) by (rewrite p2_Z by lia; apply inj_lt; lia).
        assert (A3 : p2 e <= p2 (-55)) by (apply p2_le; lia). pose proof (p2_pos e).
        assert (A5 : 0 <= inject_Z (Z.abs m)) by (change 0 with (inject_Z 0); apply inj_le; lia).
        assert (inject_Z (Z.abs m) * p2 e <= p2 53 * p2 (-55)) by (apply Qle_trans with (p2 53 * p2 e); [apply le_mul_r; lra|]; rewrite !(Qmult_comm (p2 53)); apply le_mul_r; [discriminate|assumption]).
        assert (p2 53 * p2 (-55) == 1 # 4) by reflexivity. lra. }
      set (z := (m * 2 ^ (e - -54) - k * 2 ^ 54)%Z).
      assert (Ez : sfq f - inject_Z k == inject_Z z * p2 (-54)).
      { unfold z. rewrite E, (dyadic_multiple m e (-54) He). unfold Z.sub at 2. rewrite inject_Z_plus, inject_Z_opp, (inject_Z_mult k).
        assert (inject_Z (2 ^ 54) * p2 (-54) == 1) by reflexivity. rewrite Qmult_plus_distr_l. 
        assert (- (inject_Z k * inject_Z (2 ^ 54)) * p2 (-54) == - inject_Z k).
        { rewrite <- (Qmult_1_r (inject_Z k)) at 2. rewrite <- H. ring. }
        rewrite H0. reflexivity. }
      destruct (Z.eq_dec z 0) as [Z0|Zn]; [left; rewrite Ez, Z0; reflexivity|]. right. split; [|assumption].
      rewrite (Qabs_wd _ _ Ez), abs_scale by discriminate. assert (1 <= Qabs (inject_Z z)).
      { assert (Qabs (inject_Z z) == inject_Z (Z.abs z)) by reflexivity. rewrite H. change 1 with (inject_Z 1). apply inj_le. lia. }
      assert (p2 (-960) <= p2 (-54)) by (apply p2_le; lia). assert (0 < p2 (-54)) by reflexivity. nra.
Qed.
Lemma sub_rounds f k : rep f -> sfq f == 0 \/ (p2 (-900) <= Qabs (sfq f) /\ Qabs (sfq f) < p2 900) -> (Z.abs k < 2 ^ 53)%Z ->
  rounds (nsub double f (of_int double k)) (sfq f - inject_Z k).
Proof.
  intros R S0 K. destruct (holds_int k K) as [G1 G2]. cbn [nsub double]. rewrite sub_add.
  assert (E : sfq (SFopp (of_int double k)) == - inject_Z k) by (rewrite opp_value, G2; reflexivity).
  assert (F : finite (SFopp (of_int double k))) by (revert G1; destruct (of_int double k); intros; exact G1).
  apply (rounds_eq _ (sfq f + sfq (SFopp (of_int double k)))); [rewrite E; ring|].
  apply add_rounds; [apply R|exact F|apply R| |].
  - exists (- k)%Z, 0%Z. split; [lia|]. rewrite E, dyadic_int, inject_Z_opp. reflexivity.
  - apply (ordinary_eq (sfq f - inject_Z k)); [rewrite E; ring|]. now apply sub_ordinary.
Qed.

(** ** The whole computation *)
Definition back (p : param) (x : Q) : Q := x * inject_Z (pa_div p) * inject_Z (10 ^ pa_precision p) * / inject_Z (pa_mult p * pa_base p).
Definition scale_back_ok (p : param) : Prop :=
  pa_scalable p = true /\ attributes_ok p /\ (0 < pa_mult p * pa_base p < 2 ^ 31)%Z.
Lemma eng_back_close p f : scale_back_ok p -> rep f -> sized 500 (sfq f) ->
  exists r, eng_to_actual double p f = Ok r /\ rep r
    /\ Qabs (back p (sfq f) - inject_Z (pa_offset p) - sfq r) <= Qabs (back p (sfq f)) * (1 # 1125899906842624) + Qabs (inject_Z (pa_offset p)) * (1 # 9007199254740992).
Proof.
  intros (S0 & (A1 & A2 & A3 & A4 & A5 & A6) & M) R Sz. unfold is_u16, is_s16 in *.
  assert (T : (0 < 10 ^ pa_precision p <= 100000000000)%Z).
  { split; [apply Z.pow_pos_nonneg; lia|]. change 100000000000%Z with (10 ^ 11)%Z. apply Z.pow_le_mono_r; lia. }
  change (2 ^ 31)%Z with 2147483648%Z in M.
  assert (B53 : (2 ^ 53 = 9007199254740992)%Z) by reflexivity.
  assert (Big : forall z, (0 < z < 9007199254740992)%Z -> 1 <= inject_Z z /\ inject_Z z < p2 60).
  { intros z Hz. split; [change 1 with (inject_Z 1); apply inj_le; lia|]. apply Qlt_le_trans with (p2 53); [|apply p2_le; lia]. rewrite p2_Z by lia. apply inj_lt. lia. }
  unfold eng_to_actual. rewrite S0. destruct (Z.ltb_spec (pa_mult p * pa_base p) 2147483648); [|lia].
  destruct (holds_int (pa_div p)) as [G1 G2]; [lia|]. destruct (holds_pow (pa_precision p)) as [G3 G4]; [lia|lia|]. destruct (holds_int (pa_mult p * pa_base p)) as [G5 G6]; [lia|].
  destruct (Big (pa_div p)) as [b1 b2]; [lia|]. destruct (Big (10 ^ pa_precision p)%Z) as [b3 b4]; [lia|]. destruct (Big (pa_mult p * pa_base p)%Z) as [b5 b6]; [lia|].
  assert (X0 : approx f (sfq f) 0).
  { split; [exact R|]. rewrite (Qabs_wd (sfq f - sfq f) 0) by ring. change (Qabs 0) with 0. cbn [err]. rewrite Qmult_0_r. apply Qle_refl. }
  destruct (step_mul f (sfq f) 0 500 _ _ ltac:(lia) ltac:(lia) X0 Sz G1 G2 b1 b2) as [X1 Z1].
  destruct (step_mul _ _ 1 560 _ _ ltac:(lia) ltac:(lia) X1 Z1 G3 G4 b3 b4) as [X2 Z2].
  destruct (step_div _ _ 2 620 _ _ ltac:(lia) ltac:(lia) X2 Z2 G5 G6 b5 b6) as [X3 Z3].
  change (620 + 60)%Z with 680%Z in Z3. fold (back p (sfq f)) in X3, Z3. cbn [nmul ndiv double] in *.
  set (w := SFdiv 53 1024 _ _) in *. set (y := back p (sfq f)) in *.
  assert (E3 : err 3 <= 1 # 2251799813685248) by discriminate. destruct X3 as [Rw Cw].
  pose proof (Qabs_triangle (sfq w) (y - sfq w)) as T1. rewrite (Qabs_wd (sfq w + (y - sfq w)) y) in T1 by ring.
  pose proof (Qabs_triangle y (- (y - sfq w))) as T2. rewrite (Qabs_wd (y + - (y - sfq w)) (sfq w)), Qabs_opp in T2 by ring.
  pose proof (Qabs_nonneg y) as Y0.
  assert (Cw' : Qabs (y - sfq w) <= Qabs y * (1 # 2251799813685248)).
  { apply Qle_trans with (Qabs y * err 3); [exact Cw|]. rewrite !(Qmult_comm (Qabs y)). apply le_mul_r; assumption. }
  assert (Sw : sfq w == 0 \/ p2 (-900) <= Qabs (sfq w) /\ Qabs (sfq w) < p2 900).
  { destruct Z3 as [Z3|[L U]].
    - left. exact (approx_zero w y 3 (conj Rw Cw) Z3).
    - right. pose proof (p2_pos (-680)). assert (p2 (-900) <= p2 (-1) * p2 (-680)) by (rewrite <- p2_plus; apply p2_le; lia).
      assert (p2 1 * p2 680 <= p2 900) by (rewrite <- p2_plus; apply p2_le; lia). assert (Hm : p2 (-1) == 1 # 2) by reflexivity. rewrite p2_1 in *. rewrite Hm in *.
      change (- (680))%Z with (-680)%Z in L. split; lra. }
  pose proof (sub_rounds w (pa_offset p) Rw Sw ltac:(lia)) as [[Fr [Br _]] Rr].
  exists (nsub double w (of_int double (pa_offset p))). split; [reflexivity|]. split; [split; assumption|].
  set (r := sfq (nsub double w (of_int double (pa_offset p)))) in *. set (k := inject_Z (pa_offset p)) in *.
  pose proof (Qabs_triangle (y - sfq w) (sfq w - k - r)) as T3. rewrite (Qabs_wd (y - sfq w + (sfq w - k - r)) (y - k - r)) in T3 by ring.
  pose proof (Qabs_triangle (sfq w) (- k)) as T4. rewrite Qabs_opp in T4. fold (sfq w - k) in T4.
  assert (P53 : p2 (-53) == 1 # 9007199254740992) by reflexivity. rewrite P53 in Rr.
  pose proof (Qabs_nonneg k). lra.
Qed.

(** ** There and back *)
Lemma back_of_exact p v : scale_back_ok p ->
  back p (inject_Z (numerator p v) / inject_Z (denominator p)) == inject_Z (v + pa_offset p).
Proof.
  intros (S0 & (A1 & A2 & A3 & A4 & A5 & A6) & M). unfold is_u16, is_s16 in *. unfold back, numerator, denominator.
  assert (T : (0 < 10 ^ pa_precision p)%Z) by (apply Z.pow_pos_nonneg; lia).
  rewrite !inject_Z_mult.
  assert (P : forall z, (0 < z)%Z -> ~ inject_Z z == 0) by (intros z Hz; change 0 with (inject_Z 0); rewrite inject_Z_injective; lia).
  assert (N1 : ~ inject_Z (pa_mult p) == 0) by (apply P; nia). assert (N2 : ~ inject_Z (pa_base p) == 0) by (apply P; nia).
  assert (N3 : ~ inject_Z (pa_div p) == 0) by (apply P; lia). assert (N4 : ~ inject_Z (10 ^ pa_precision p) == 0) by (apply P; lia).
  field. repeat split; assumption.
Qed.
Lemma back_factor p : scale_back_ok p -> exists c, 0 < c /\ forall x, back p x == x * c.
Proof.
  intros (S0 & (A1 & A2 & A3 & A4 & A5 & A6) & M). unfold is_u16, is_s16 in *.
  exists (inject_Z (pa_div p) * inject_Z (10 ^ pa_precision p) * / inject_Z (pa_mult p * pa_base p)). split; [|intros x; unfold back; ring].
  assert (T : (0 < 10 ^ pa_precision p)%Z) by (apply Z.pow_pos_nonneg; lia).
  assert (P : forall z, (0 < z)%Z -> 0 < inject_Z z) by (intros z Hz; change 0 with (inject_Z 0); apply inj_lt; lia).
  apply Qmult_lt_0_compat; [apply Qmult_lt_0_compat; apply P; lia|]. apply Qinv_lt_0_compat, P. lia.
Qed.
Lemma eng_sized p v : scale_back_ok p -> (Z.abs v < 2 ^ 32)%Z -> sized 500 (sfq (actual_to_eng double p (of_int double v))).
Proof.
  intros (S0 & A & M) V. destruct (eng_close p v S0 (attributes_fit p v A V)) as [R C]. cbv zeta in C.
  destruct (denominator_fits p v (attributes_fit p v A V)) as [D _].
  set (f := sfq (actual_to_eng double p (of_int double v))) in *. set (d := inject_Z (denominator p)) in *.
  assert (Pd : 1 <= d) by (unfold d; change 1 with (inject_Z 1); apply inj_le; lia).
  assert (Ud : d < p2 60) by (apply Qlt_le_trans with (p2 53); [unfold d; rewrite p2_Z by lia; apply inj_lt; lia|apply p2_le; lia]).
  destruct A as (A1 & A2 & A3 & A4 & A5 & A6). unfold is_u16, is_s16 in *.
  assert (N : sized 100 (inject_Z (numerator p v))).
  { destruct (Z.eq_dec (numerator p v) 0) as [E|E]; [left; rewrite E; reflexivity|right].
    assert (Q0 : Qabs (inject_Z (numerator p v)) == inject_Z (Z.abs (numerator p v))) by reflexivity. rewrite Q0. split.
    - apply Qle_trans with 1; [discriminate|]. change 1 with (inject_Z 1). apply inj_le. lia.
    - rewrite p2_Z by lia. apply inj_lt. unfold numerator. rewrite <- Z.mul_assoc, Z.abs_mul. rewrite (Z.abs_eq (pa_mult p * pa_base p)) by lia.
      change (2 ^ 100)%Z with (2 ^ 69 * 2 ^ 31)%Z. assert (Z.abs (v + pa_offset p) < 2 ^ 69)%Z by lia. nia. }
  pose proof (sized_div 100 _ d ltac:(lia) Pd Ud N) as X. fold (inject_Z (numerator p v) / d) in X. set (x := inject_Z (numerator p v) / d) in *.
  assert (P51 : p2 (-51) == 1 # 2251799813685248) by reflexivity. rewrite P51 in C.
  destruct X as [X|[L U]].
  - left. rewrite (Qabs_wd x 0 X) in C. change (Qabs 0) with 0 in C. assert (C' : Qabs (x - f) <= 0) by lra. apply Qabs_Qle_condition in C' as [? ?]. lra.
  - right. pose proof (Qabs_triangle f (x - f)) as T1. rewrite (Qabs_wd (f + (x - f)) x) in T1 by ring.
    pose proof (Qabs_triangle x (- (x - f))) as T2. rewrite (Qabs_wd (x + - (x - f)) f), Qabs_opp in T2 by ring.
    assert (H1 : p2 (- (500)) <= p2 (-1) * p2 (- (100 + 60))) by (rewrite <- p2_plus; apply p2_le; lia).
    assert (H2 : p2 1 * p2 (100 + 60) <= p2 500) by (rewrite <- p2_plus; apply p2_le; lia).
    rewrite p2_1 in H2. assert (Hm : p2 (-1) == 1 # 2) by reflexivity. rewrite Hm in H1. pose proof (p2_pos (- (100 + 60))). split; lra.
Qed.
Theorem there_and_back p v : scale_back_ok p -> (Z.abs v < 2 ^ 32)%Z ->
  exists r, eng_to_actual double p (actual_to_eng double p (of_int double v)) = Ok r /\ finite r
    /\ Qabs (inject_Z v - sfq r) <= inject_Z (Z.abs v + Z.abs (pa_offset p)) * (1 # 2 ^ 49).
Proof.
  intros K V. pose proof (eng_sized p v K V) as Sz. destruct K as (S0 & A & M). destruct (eng_close p v S0 (attributes_fit p v A V)) as [R C]. cbv zeta in C.
  pose proof (conj S0 (conj A M) : scale_back_ok p) as K. destruct (eng_back_close p _ K R Sz) as (r & E & [F _] & B).
  exists r. split; [exact E|]. split; [exact F|]. destruct (back_factor p K) as (c & Pc & Bc). pose proof (back_of_exact p v K) as X.
  set (f := sfq (actual_to_eng double p (of_int double v))) in *. set (x := inject_Z (numerator p v) / inject_Z (denominator p)) in *.
  rewrite inject_Z_plus in X. set (k := inject_Z (pa_offset p)) in *. set (w := inject_Z v) in *. set (y := back p f) in *.
  assert (D : Qabs (w + k - y) <= Qabs (w + k) * (1 # 2251799813685248)).
  { rewrite <- (Qabs_wd _ _ X). unfold y. rewrite (Qabs_wd (w + k - back p f) ((x - f) * c)).
    - rewrite (Qabs_wd (back p x) (x * c)) by apply Bc. rewrite !abs_scale by lra.
      assert (P51 : p2 (-51) == 1 # 2251799813685248) by reflexivity. rewrite P51 in C. pose proof (le_mul_r _ _ c ltac:(lra) C). lra.
    - rewrite <- X, !Bc. ring. }
  pose proof (Qabs_triangle (w + k - y) (y - k - sfq r)) as T1. rewrite (Qabs_wd (w + k - y + (y - k - sfq r)) (w - sfq r)) in T1 by ring.
  pose proof (Qabs_triangle (w + k) (- (w + k - y))) as T2. rewrite (Qabs_wd (w + k + - (w + k - y)) y), Qabs_opp in T2 by ring.
  pose proof (Qabs_triangle w k) as T3. pose proof (Qabs_nonneg w). pose proof (Qabs_nonneg k).
  rewrite inject_Z_plus. assert (E1 : inject_Z (Z.abs v) == Qabs w) by reflexivity. assert (E2 : inject_Z (Z.abs (pa_offset p)) == Qabs k) by reflexivity.
  rewrite E1, E2. change (1 # 2 ^ 49) with (1 # 562949953421312). lra.
Qed.

(** ** Truncation *)
Lemma trunc_double f : finite f -> exists n, ntrunc double f = Some n /\ integer_part (sfq f) n.
Proof.
  destruct f as [s|s| |s m e]; cbn [finite ntrunc double]; intros F; try contradiction.
  - exists 0%Z. split; [reflexivity|]. apply (integer_part_int 0).
  - eexists. split; [reflexivity|]. cbn [sfq]. destruct (Z.leb_spec 0 e) as [E|E].
    + assert (Q0 : dyadic (if s then Z.neg m else Z.pos m) e == inject_Z (if s then - (Z.pos m * 2 ^ e) else Z.pos m * 2 ^ e)).
      { unfold dyadic. fold (p2 e). rewrite p2_Z by assumption. rewrite <- inject_Z_mult. destruct s; [|reflexivity]. change (Z.neg m) with (- Z.pos m)%Z. now rewrite Z.mul_opp_l. }
      eapply integer_part_eq; [symmetry; exact Q0|]. apply integer_part_int.
    + set (b := (2 ^ (- e))%Z). assert (Pb : (0 < b)%Z) by (apply Z.pow_pos_nonneg; lia).
      pose proof (Z.mul_div_le (Z.pos m) b Pb) as L. pose proof (Z.mul_succ_div_gt (Z.pos m) b Pb) as G. set (q := (Z.pos m / b)%Z) in *.
      assert (Q0 : inject_Z b * p2 e == 1).
      { unfold b. rewrite <- (p2_Z (- e)) by lia. rewrite <- p2_plus. replace (- e + e)%Z with 0%Z by lia. reflexivity. }
      pose proof (p2_pos e) as Pe.
      assert (L' : inject_Z q <= dyadic (Z.pos m) e).
      { unfold dyadic. fold (p2 e). apply inj_le in L. rewrite inject_Z_mult in L. apply (le_mul_r _ _ (p2 e)) in L; [|lra].
        assert (inject_Z b * inject_Z q * p2 e == inject_Z q) by (transitivity (inject_Z q * (inject_Z b * p2 e)); [ring|rewrite Q0; ring]). lra. }
      assert (G' : dyadic (Z.pos m) e < inject_Z (q + 1)).
      { unfold dyadic. fold (p2 e). assert (G1 : inject_Z (Z.pos m) < inject_Z b * inject_Z (q + 1)) by (rewrite <- inject_Z_mult; apply inj_lt; lia).
        assert (G2 : inject_Z (Z.pos m) * p2 e < inject_Z b * inject_Z (q + 1) * p2 e) by (apply Qmult_lt_r; assumption).
        assert (inject_Z b * inject_Z (q + 1) * p2 e == inject_Z (q + 1)) by (transitivity (inject_Z (q + 1) * (inject_Z b * p2 e)); [ring|rewrite Q0; ring]). lra. }
      assert (q0 : (0 <= q)%Z) by (apply Z.div_pos; lia).
      assert (q0' : 0 <= inject_Z q) by (change 0 with (inject_Z 0); apply inj_le; lia).
      destruct s.
      * assert (N : dyadic (Z.neg m) e == - dyadic (Z.pos m) e) by (change (Z.neg m) with (- Z.pos m)%Z; apply dyadic_opp).
        split; intros H; rewrite N in H |- *.
        -- assert (inject_Z q == 0) by lra. change 0 with (inject_Z 0) in H0. rewrite inject_Z_injective in H0. rewrite H0 in *. change (- 0)%Z with 0%Z. change (inject_Z 0) with 0 in *. change (inject_Z (0 + 1)) with 1 in *. lra.
        -- rewrite inject_Z_opp. replace (- q - 1)%Z with (- (q + 1))%Z by lia. rewrite inject_Z_opp. repeat split; lra.
      * split; intros H; [split; assumption|lra].
Qed.
Lemma trunc_near q v n : Qabs (inject_Z v - q) < 1 -> integer_part q n -> (Z.abs n <= Z.abs v /\ Z.abs (v - n) <= 1 /\ 0 <= n * v)%Z.
Proof.
  intros C [P N]. apply Qabs_Qlt_condition in C as [C1 C2].
  assert (I : forall a b, inject_Z a < inject_Z b -> (a < b)%Z) by (intros a b; rewrite <- Zlt_Qlt; auto).
  assert (J : forall a b, inject_Z a <= inject_Z b -> (a <= b)%Z) by (intros a b; rewrite <- Zle_Qle; auto).
  destruct (Qlt_le_dec q 0) as [H|H].
  - destruct (N H) as (N1 & N2 & N3). change 0 with (inject_Z 0) in N3. apply J in N3.
    unfold Z.sub in N2. rewrite inject_Z_plus in N2. change (inject_Z (- (1))) with (-1 # 1) in N2.
    assert (v < n + 1)%Z by (apply I; rewrite inject_Z_plus; change (inject_Z 1) with 1; lra).
    assert (n - 2 < v)%Z by (apply I; unfold Z.sub; rewrite inject_Z_plus; change (inject_Z (- (2))) with (-2 # 1); lra).
    assert (v < 1)%Z by (apply I; change (inject_Z 1) with 1; lra). lia.
  - destruct (P H) as (P1 & P2). rewrite inject_Z_plus in P2. change (inject_Z 1) with 1 in P2.
    assert (0 < n + 1)%Z by (apply I; rewrite inject_Z_plus; change (inject_Z 1) with 1; change (inject_Z 0) with 0; lra).
    assert (v < n + 2)%Z by (apply I; rewrite inject_Z_plus; change (inject_Z 2) with (2 # 1); lra).
    assert (n - 1 < v)%Z by (apply I; unfold Z.sub; rewrite inject_Z_plus; change (inject_Z (- (1))) with (-1 # 1); lra).
    assert (-1 < v)%Z by (apply I; change (inject_Z (-1)) with (-1 # 1); lra). nia.
Qed.

(** A limit given as the engineering value of [v] is stored as [v] or as the
    number next to it towards zero. *)
Theorem set_eng_double t p v : scale_back_ok p -> (Z.abs v < 2 ^ 32)%Z -> in_type t v ->
  exists v', set_eng double t p (actual_to_eng double p (of_int double v)) = Ok (le (width t) v')
    /\ in_type t v' /\ (Z.abs v' <= Z.abs v /\ Z.abs (v - v') <= 1)%Z.
Proof.
  intros K V T. destruct (there_and_back p v K V) as (r & E & F & B). destruct (trunc_double r F) as (n & En & In).
  assert (C : Qabs (inject_Z v - sfq r) < 1).
  { eapply Qle_lt_trans; [exact B|]. destruct K as (_ & (_ & _ & _ & _ & A5 & _) & _). unfold is_s16 in A5.
    assert (U : inject_Z (Z.abs v + Z.abs (pa_offset p)) <= inject_Z (2 ^ 33)) by (apply inj_le; lia).
    change (inject_Z (2 ^ 33)) with (8589934592 # 1) in U. change (1 # 2 ^ 49) with (1 # 562949953421312). lra. }
  destruct (trunc_near (sfq r) v n C In) as (N1 & N2 & N3).
  assert (T' : in_type t n).
  { revert T. unfold in_type. destruct (signed t).
    - assert (0 < 2 ^ (8 * Z.of_nat (width t) - 1))%Z by (apply Z.pow_pos_nonneg; destruct t; cbn; lia). nia.
    - nia. }
  exists n. split; [|split; [exact T'|split; assumption]].
  unfold set_eng. rewrite E. cbn [bind]. rewrite En, (proj2 (type_range t n) T'). now rewrite decode_value_le.
Qed.
Lemma set_eng_unscaled t p v : pa_scalable p = false -> (Z.abs v < 2 ^ 53)%Z -> in_type t v ->
  set_eng double t p (actual_to_eng double p (of_int double v)) = Ok (le (width t) v).
Proof.
  intros S0 V T. destruct (identity_any double p (of_int double v) S0) as [E _]. rewrite E.
  destruct (identity_any double p (of_int double v) S0) as [_ E']. unfold set_eng. rewrite E'. cbn [bind].
  destruct (holds_int v V) as [F G]. destruct (trunc_double _ F) as (n & En & In). rewrite En.
  rewrite (integer_part_unique _ n v In (integer_part_eq _ _ _ (Qeq_sym _ _ G) (integer_part_int v))).
  rewrite (proj2 (type_range t v) T). now rewrite decode_value_le.
Qed.
