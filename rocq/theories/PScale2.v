(** Scaling of parameters in binary64. *)
From Coq Require Import ZArith QArith Qabs Qpower SpecFloat Lia Lqa.
From Verif Require Import Base MParam SFloat PFloat.
Local Open Scope Q_scope.

Notation rep f := (finite f /\ exists m e, (Z.abs m < 2 ^ 53)%Z /\ sfq f == dyadic m e).
Definition holds (f : spec_float) (z : Z) : Prop := finite f /\ sfq f == inject_Z z.

Lemma small_big z : (Z.abs z < 2 ^ 53)%Z -> (Z.abs z < 2 ^ 900)%Z.
Proof. intros L. assert (T : (2 ^ 53 < 2 ^ 900)%Z) by (apply Z.pow_lt_mono_r; lia). lia. Qed.
Lemma holds_int z : (Z.abs z < 2 ^ 53)%Z -> holds (of_int double z) z.
Proof. apply of_int_exact. Qed.
Lemma holds_pow n : (0 <= n)%Z -> (10 ^ n < 2 ^ 53)%Z -> holds (npow10 double n) (10 ^ n).
Proof. intros N L. apply of_int_exact. pose proof (Z.pow_nonneg 10 n). lia. Qed.
Lemma holds_mul f g a b : holds f a -> holds g b -> (Z.abs (a * b) < 2 ^ 53)%Z -> holds (nmul double f g) (a * b).
Proof.
  intros [F1 F2] [G1 G2] L. assert (E : sfq f * sfq g == inject_Z (a * b)) by (rewrite F2, G2, inject_Z_mult; reflexivity).
  pose proof (mul_rounds f g F1 G1 (ordinary_eq _ _ (Qeq_sym _ _ E) (ordinary_int _ (small_big _ L)))) as R.
  split; [apply R|]. rewrite (rounds_exact _ _ (a * b) 0 R L); [exact E|]. rewrite E. symmetry. apply dyadic_int.
Qed.
Lemma holds_add f g a b : (Z.abs a < 2 ^ 53)%Z -> (Z.abs b < 2 ^ 53)%Z -> holds f a -> holds g b -> (Z.abs (a + b) < 2 ^ 53)%Z ->
  holds (nadd double f g) (a + b).
Proof.
  intros A B [F1 F2] [G1 G2] L. assert (E : sfq f + sfq g == inject_Z (a + b)) by (rewrite F2, G2, inject_Z_plus; reflexivity).
  assert (R : rounds (SFadd 53 1024 f g) (sfq f + sfq g)).
  { apply add_rounds; try assumption.
    - exists a, 0%Z. split; [exact A|]. rewrite F2. symmetry. apply dyadic_int.
    - exists b, 0%Z. split; [exact B|]. rewrite G2. symmetry. apply dyadic_int.
    - exact (ordinary_eq _ _ (Qeq_sym _ _ E) (ordinary_int _ (small_big _ L))). }
  split; [apply R|]. rewrite (rounds_exact _ _ (a + b) 0 R L); [exact E|]. rewrite E. symmetry. apply dyadic_int.
Qed.
Lemma ordinary_quot n d x : (0 < d < 2 ^ 53)%Z -> (Z.abs n < 2 ^ 900)%Z -> x == inject_Z n / inject_Z d -> ordinary x.
Proof.
  intros D N X. assert (Pd : 0 < inject_Z d) by (change 0 with (inject_Z 0); apply inj_lt; lia).
  assert (XE : x * inject_Z d == inject_Z n) by (rewrite X; field; lra).
  destruct (Z.eq_dec n 0) as [->|NZ].
  - left. rewrite X. change (inject_Z 0) with 0. field. lra.
  - right. assert (A : Qabs x * inject_Z d == inject_Z (Z.abs n)).
    { rewrite <- (Qabs_pos (inject_Z d)) by lra. rewrite <- Qabs_Qmult. rewrite (Qabs_wd _ _ XE). reflexivity. }
    assert (D1 : inject_Z d <= inject_Z (2 ^ 53)) by (apply inj_le; lia).
    assert (D0 : 1 <= inject_Z d) by (change 1 with (inject_Z 1); apply inj_le; lia).
    assert (N1 : 1 <= inject_Z (Z.abs n)) by (change 1 with (inject_Z 1); apply inj_le; lia).
    assert (N2 : inject_Z (Z.abs n) < p2 900) by (rewrite p2_Z by lia; now apply inj_lt).
    assert (P9 : p2 900 <= p2 960) by (apply p2_le; lia).
    pose proof (Qabs_nonneg x) as XN. split.
    + apply Qle_trans with (p2 (-53)); [apply p2_le; lia|].
      assert (T : p2 (-53) * inject_Z (2 ^ 53) == 1) by reflexivity. assert (0 < p2 (-53)) by reflexivity.
      rewrite <- A in N1. 
      destruct (Qlt_le_dec (Qabs x) (p2 (-53))) as [C|C]; [|exact C].
      assert (Qabs x * inject_Z d <= Qabs x * inject_Z (2 ^ 53)) by nra.
      assert (Qabs x * inject_Z (2 ^ 53) < p2 (-53) * inject_Z (2 ^ 53)).
      { apply Qmult_lt_r; [reflexivity|exact C]. }
      lra.
    + rewrite <- A in N2. assert (Qabs x <= Qabs x * inject_Z d) by nra. lra.
Qed.

(** All the integers fit 53 bits: one rounding, so the result is nearest. *)
Definition numerator (p : param) (v : Z) : Z := ((v + pa_offset p) * pa_mult p * pa_base p)%Z.
Definition denominator (p : param) : Z := (pa_div p * 10 ^ pa_precision p)%Z.
Definition fits53 (z : Z) : Prop := (Z.abs z < 2 ^ 53)%Z.
Definition scale_fits (p : param) (v : Z) : Prop :=
  fits53 v /\ fits53 (pa_offset p) /\ fits53 (v + pa_offset p) /\ fits53 (pa_mult p) /\ fits53 (pa_base p)
  /\ fits53 ((v + pa_offset p) * pa_mult p) /\ (0 <= pa_precision p)%Z /\ (0 < pa_div p)%Z
  /\ (denominator p < 2 ^ 53)%Z.

Lemma denominator_fits p v : scale_fits p v -> (0 < denominator p < 2 ^ 53)%Z /\ holds (nmul double (of_int double (pa_div p)) (npow10 double (pa_precision p))) (denominator p).
Proof.
  intros (_ & _ & _ & _ & _ & _ & P & D & L). unfold denominator in *.
  pose proof (Z.pow_pos_nonneg 10 (pa_precision p) ltac:(lia) P) as T. split; [nia|].
  apply holds_mul; [apply holds_int; nia|apply holds_pow; [exact P|nia]|nia].
Qed.
Lemma numerator_part p v : scale_fits p v ->
  holds (nmul double (nadd double (of_int double v) (of_int double (pa_offset p))) (of_int double (pa_mult p))) ((v + pa_offset p) * pa_mult p).
Proof.
  intros (A & B & C & D & E & F & _). apply holds_mul; [|apply holds_int; exact D|exact F].
  apply holds_add; try assumption; apply holds_int; assumption.
Qed.

Lemma eng_nearest p v : pa_scalable p = true -> scale_fits p v -> fits53 (numerator p v) ->
  rounds (actual_to_eng double p (of_int double v)) (inject_Z (numerator p v) / inject_Z (denominator p)).
Proof.
  intros S0 Fi N. unfold actual_to_eng. rewrite S0.
  destruct (denominator_fits p v Fi) as [D0 [D1 D2]].
  assert (NH : holds (nmul double (nmul double (nadd double (of_int double v) (of_int double (pa_offset p))) (of_int double (pa_mult p))) (of_int double (pa_base p))) (numerator p v)).
  { apply holds_mul; [apply numerator_part; exact Fi|apply holds_int; apply Fi|exact N]. }
  destruct NH as [N1 N2].
  assert (Pd : 0 < inject_Z (denominator p)) by (change 0 with (inject_Z 0); apply inj_lt; lia).
  eapply rounds_eq; [|apply div_rounds; [exact N1|exact D1| |]].
  - rewrite N2, D2. reflexivity.
  - rewrite D2. lra.
  - apply (ordinary_quot (numerator p v) (denominator p)); [exact D0|apply small_big; exact N|]. rewrite N2, D2. reflexivity.
Qed.

(** In general: two roundings. *)
Lemma eng_close p v : pa_scalable p = true -> scale_fits p v ->
  rep (actual_to_eng double p (of_int double v)) /\
  let x := inject_Z (numerator p v) / inject_Z (denominator p) in
  Qabs (x - sfq (actual_to_eng double p (of_int double v))) <= Qabs x * p2 (-51).
Proof.
  intros S0 Fi. unfold actual_to_eng. rewrite S0.
  destruct (denominator_fits p v Fi) as [D0 [D1 D2]]. destruct (numerator_part p v Fi) as [M1 M2].
  set (D := nmul double (of_int double (pa_div p)) (npow10 double (pa_precision p))) in *.
  set (M := nmul double (nadd double (of_int double v) (of_int double (pa_offset p))) (of_int double (pa_mult p))) in *.
  destruct (holds_int (pa_base p)) as [B1 B2]; [apply Fi|]. set (B := of_int double (pa_base p)) in *.
  assert (NE : sfq M * sfq B == inject_Z (numerator p v)) by (rewrite M2, B2, <- inject_Z_mult; reflexivity).
  assert (NS : (Z.abs (numerator p v) < 2 ^ 900)%Z).
  { destruct Fi as (_ & _ & _ & _ & F1 & F2 & _). unfold fits53, numerator in *. rewrite Z.abs_mul.
    apply Z.lt_trans with (2 ^ 53 * 2 ^ 53)%Z; [nia|]. rewrite <- Z.pow_add_r by lia. apply Z.pow_lt_mono_r; lia. }
  pose proof (mul_rounds M B M1 B1 (ordinary_eq _ _ (Qeq_sym _ _ NE) (ordinary_int _ NS))) as [[F1 [_ _]] R1].
  change (SFmul 53 1024 M B) with (nmul double M B) in F1, R1. set (N := nmul double M B) in *.
  set (n := inject_Z (numerator p v)) in *. set (d := inject_Z (denominator p)) in *.
  assert (Pd : 0 < d) by (unfold d; change 0 with (inject_Z 0); apply inj_lt; lia).
  rewrite (Qabs_wd (sfq M * sfq B - sfq N) (n - sfq N)), (Qabs_wd (sfq M * sfq B) n) in R1 by (rewrite NE; reflexivity).
  assert (R2 : rounds (ndiv double N D) (sfq N / d)).
  { eapply rounds_eq; [|apply div_rounds; [exact F1|exact D1| |]].
    - rewrite D2. reflexivity.
    - rewrite D2. fold d. lra.
    - (* ordinary *)
      destruct (Z.eq_dec (numerator p v) 0) as [Z0|Z0].
      + left. assert (n == 0) by (unfold n; rewrite Z0; reflexivity).
        rewrite (Qabs_wd n 0 H) in R1. change (Qabs 0) with 0 in R1.
        assert (R1' : Qabs (n - sfq N) <= 0) by lra. apply Qabs_Qle_condition in R1' as [U V].
        assert (sfq N == 0) by lra. rewrite H0, D2. fold d. field. lra.
      + right. rewrite D2. fold d.
        assert (NA : 1 <= Qabs n < p2 900).
        { unfold n. assert (A : Qabs (inject_Z (numerator p v)) == inject_Z (Z.abs (numerator p v))) by reflexivity. rewrite A. split.
          - change 1 with (inject_Z 1). apply inj_le. lia.
          - rewrite p2_Z by lia. now apply inj_lt. }
        pose proof (Qabs_triangle (sfq N) (n - sfq N)) as T1. rewrite (Qabs_wd (sfq N + (n - sfq N)) n) in T1 by ring.
        pose proof (Qabs_triangle n (- (n - sfq N))) as T2. rewrite (Qabs_wd (n + - (n - sfq N)) (sfq N)), Qabs_opp in T2 by ring.
        assert (E53 : 0 < p2 (-53) /\ p2 (-53) < 1 # 2) by (split; reflexivity).
        assert (LN : (1 # 2) <= Qabs (sfq N)) by nra. assert (UN : Qabs (sfq N) < 2 * p2 900) by nra.
        assert (QD : Qabs (sfq N / d) * d == Qabs (sfq N)).
        { rewrite <- (Qabs_pos d) at 2 by lra. rewrite <- Qabs_Qmult. apply Qabs_wd. field. lra. }
        assert (d1 : 1 <= d) by (unfold d; change 1 with (inject_Z 1); apply inj_le; lia).
        assert (d2 : d < inject_Z (2 ^ 53)) by (apply inj_lt; lia).
        pose proof (Qabs_nonneg (sfq N / d)) as QN. split.
        * destruct (Qlt_le_dec (Qabs (sfq N / d)) (p2 (-960))) as [C|C]; [|exact C]. exfalso.
          assert (p2 (-960) <= p2 (-54)) by (apply p2_le; lia).
          assert (Qabs (sfq N / d) * d < p2 (-54) * inject_Z (2 ^ 53)).
          { apply Qle_lt_trans with (Qabs (sfq N / d) * inject_Z (2 ^ 53)); [nra|]. apply Qmult_lt_r; [reflexivity|lra]. }
          assert (p2 (-54) * inject_Z (2 ^ 53) == 1 # 2) by reflexivity. lra.
        * assert (2 * p2 900 <= p2 960).
          { apply Qle_trans with (p2 901); [|apply p2_le; lia]. change 901%Z with (1 + 900)%Z. rewrite p2_plus, p2_1. lra. }
          nra. }
  destruct R2 as [[F2 [B2' _]] R2]. split; [exact (conj F2 B2')|]. cbv zeta.
  set (r := sfq (ndiv double N D)) in *.
  (* n/d - r = (n - N)/d + (N/d - r) *)
  assert (TR : Qabs (n / d - r) <= Qabs (n / d - sfq N / d) + Qabs (sfq N / d - r)).
  { rewrite (Qabs_wd (n / d - r) ((n / d - sfq N / d) + (sfq N / d - r))) by ring. apply Qabs_triangle. }
  assert (A1 : Qabs (n / d - sfq N / d) <= Qabs (n / d) * p2 (-53)).
  { assert (S1 : forall a, Qabs (a / d) * d == Qabs a).
    { intros a. rewrite <- (Qabs_pos d) at 2 by lra. rewrite <- Qabs_Qmult. apply Qabs_wd. field. lra. }
    assert (S2 : Qabs (n / d - sfq N / d) == Qabs ((n - sfq N) / d)) by (apply Qabs_wd; field; lra).
    rewrite S2. pose proof (S1 (n - sfq N)) as E1. pose proof (S1 n) as E2.
    rewrite <- E1, <- E2 in R1. set (u := Qabs ((n - sfq N) / d)) in *. set (w := Qabs (n / d)) in *.
    destruct (Qlt_le_dec (w * p2 (-53)) u) as [C|C]; [|exact C]. exfalso.
    assert (w * p2 (-53) * d < u * d) by (apply Qmult_lt_r; assumption).
    assert (w * p2 (-53) * d == w * d * p2 (-53)) by ring. lra. }
  assert (A2 : Qabs (sfq N / d) <= Qabs (n / d) * (1 + p2 (-53))).
  { pose proof (Qabs_triangle (n / d) (- (n / d - sfq N / d))) as T. rewrite (Qabs_wd (n / d + - (n / d - sfq N / d)) (sfq N / d)), Qabs_opp in T by ring. lra. }
  pose proof (Qabs_nonneg (n / d)) as W0. set (w := Qabs (n / d)) in *.
  set (v1 := Qabs (sfq N / d)) in *.
  assert (C1 : p2 (-53) + (1 + p2 (-53)) * p2 (-53) <= p2 (-51)) by discriminate.
  assert (P53 : 0 < p2 (-53)) by reflexivity.
  assert (v1 * p2 (-53) <= w * (1 + p2 (-53)) * p2 (-53)) by (apply Qmult_le_r; assumption).
  assert (w * (p2 (-53) + (1 + p2 (-53)) * p2 (-53)) <= w * p2 (-51)).
  { rewrite (Qmult_comm w), (Qmult_comm w). apply Qmult_le_compat_r; assumption. }
  lra.
Qed.

(** The attributes of a device: 16-bit scaling, up to 11 decimals. *)
Definition attributes_ok (p : param) : Prop :=
  is_u16 (pa_mult p) /\ is_u16 (pa_base p) /\ is_u16 (pa_div p) /\ (pa_div p <> 0)%Z /\ is_s16 (pa_offset p)
  /\ (0 <= pa_precision p <= 11)%Z.
Lemma attributes_fit p v : attributes_ok p -> (Z.abs v < 2 ^ 32)%Z -> scale_fits p v.
Proof.
  unfold attributes_ok, is_u16, is_s16. intros (A & B & C & D & E & F) V.
  change (2 ^ 32)%Z with 4294967296%Z in V.
  assert (T : (0 < 10 ^ pa_precision p <= 100000000000)%Z).
  { split; [apply Z.pow_pos_nonneg; lia|]. change 100000000000%Z with (10 ^ 11)%Z. apply Z.pow_le_mono_r; lia. }
  unfold scale_fits, fits53, denominator. change (2 ^ 53)%Z with 9007199254740992%Z. repeat split; try nia.
Qed.
Lemma exact_ratio p v : pa_scalable p = true -> attributes_ok p ->
  actual_to_eng exact p (inject_Z v) == inject_Z (numerator p v) / inject_Z (denominator p).
Proof.
  intros S0 _. unfold actual_to_eng. rewrite S0. cbn [exact ndiv nmul nadd of_int npow10].
  unfold numerator, denominator. rewrite !inject_Z_mult, inject_Z_plus. reflexivity.
Qed.
Theorem double_nearest p v : pa_scalable p = true -> attributes_ok p -> (Z.abs v < 2 ^ 32)%Z ->
  (Z.abs ((v + pa_offset p) * pa_mult p * pa_base p) < 2 ^ 53)%Z ->
  nearest (actual_to_eng double p (of_int double v)) (actual_to_eng exact p (inject_Z v)).
Proof.
  intros S0 A V N. pose proof (eng_nearest p v S0 (attributes_fit p v A V) N) as R.
  exact (proj1 (rounds_eq _ _ _ (Qeq_sym _ _ (exact_ratio p v S0 A)) R)).
Qed.
Theorem double_close p v : pa_scalable p = true -> attributes_ok p -> (Z.abs v < 2 ^ 32)%Z ->
  let x := actual_to_eng exact p (inject_Z v) in
  let y := actual_to_eng double p (of_int double v) in
  finite y /\ Qabs (x - sfq y) <= Qabs x * (1 # 2 ^ 51).
Proof.
  intros S0 A V. cbv zeta. destruct (eng_close p v S0 (attributes_fit p v A V)) as [[F _] C]. split; [exact F|].
  cbv zeta in C. pose proof (exact_ratio p v S0 A) as E.
  cbn [exact num] in *.
  rewrite (Qabs_wd (actual_to_eng exact p (inject_Z v) - sfq (actual_to_eng double p (of_int double v)))
             (inject_Z (numerator p v) / inject_Z (denominator p) - sfq (actual_to_eng double p (of_int double v)))) by (rewrite E; reflexivity).
  rewrite (Qabs_wd _ _ E). exact C.
Qed.
