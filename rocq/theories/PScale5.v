(** Storing scaled REAL and LREAL values. *)
From Coq Require Import ZArith QArith Qabs Qpower SpecFloat Lia Lqa.
From Verif Require Import Base MBuffer SBuffer PBase MParam SParam SFloat PFloat PScale PScale2 PScale3 PScale4 MReal SReal PReal PRound.
Local Open Scope Q_scope.

(** ** Results are numbers of the format *)
Notation valid64 f := (valid_binary 53 1024 f = true).
Lemma normalize_valid z e b : valid64 (binary_normalize 53 1024 z e b).
Proof. destruct z; cbn [binary_normalize]; [reflexivity|apply round_valid; lia..]. Qed.
Lemma sub_valid a b : valid64 a -> valid64 b -> valid64 (SFsub 53 1024 a b).
Proof.
  intros A B. destruct a as [sa|sa| |sa ma ea], b as [sb|sb| |sb mb eb]; cbn [SFsub]; try reflexivity; try assumption;
    try (match goal with |- context [if ?c then _ else _] => destruct c; reflexivity end). apply normalize_valid.
Qed.
Lemma div_valid a b : finite a -> finite b -> ~ sfq b == 0 -> ordinary (sfq a / sfq b) -> valid64 (SFdiv 53 1024 a b).
Proof.
  intros Fa Fb NZ O.
  destruct a as [sa| | |sa ma ea], b as [sb| | |sb mb eb]; cbn [finite] in Fa, Fb; try contradiction; cbn [SFdiv]; try reflexivity.
  pose proof (dyadic_pos ma ea) as Pa. pose proof (dyadic_pos mb eb) as Pb.
  assert (Px : 0 < dyadic (Zpos ma) ea / dyadic (Zpos mb) eb) by (apply Qlt_shift_div_l; [exact Pb|lra]).
  assert (E : sfq (S754_finite sa ma ea) / sfq (S754_finite sb mb eb)
     == (if xorb sa sb then - (dyadic (Zpos ma) ea / dyadic (Zpos mb) eb) else dyadic (Zpos ma) ea / dyadic (Zpos mb) eb)).
  { rewrite !sfq_finite. destruct sa, sb; cbn [xorb]; field; lra. }
  apply (ordinary_eq _ _ E) in O. destruct (ordinary_pos _ _ Px O) as [O1 O2].
  unfold SFdiv_core_binary. cbn [Zdigits2].
  set (d1 := Zpos (digits2_pos ma)). set (d2 := Zpos (digits2_pos mb)).
  pose proof (digits2 ma) as [A1 A2]. pose proof (digits2 mb) as [B1 B2]. fold d1 in A1, A2. fold d2 in B1, B2.
  assert (P1 : (0 < d1)%Z) by reflexivity. assert (P2 : (0 < d2)%Z) by reflexivity.
  set (x := dyadic (Zpos ma) ea / dyadic (Zpos mb) eb) in *.
  assert (DE : (-961 <= d1 + ea - (d2 + eb))%Z).
  { assert (x < p2 (d1 + ea - (d2 - 1 + eb))).
    { apply Qlt_shift_div_r; [exact Pb|]. apply Qlt_le_trans with (p2 (d1 + ea - (d2 - 1 + eb)) * p2 (d2 - 1 + eb)).
      - rewrite <- p2_plus. replace (d1 + ea - (d2 - 1 + eb) + (d2 - 1 + eb))%Z with (d1 + ea)%Z by lia.
        rewrite p2_plus, p2_Z by lia. unfold dyadic. fold (p2 ea). pose proof (inj_lt _ _ A2). pose proof (p2_pos ea). nra.
      - pose proof (p2_pos (d1 + ea - (d2 - 1 + eb))).
        assert (p2 (d2 - 1 + eb) <= dyadic (Zpos mb) eb).
        { rewrite p2_plus, p2_Z by lia. unfold dyadic. fold (p2 eb). pose proof (inj_le _ _ B1). pose proof (p2_pos eb). nra. }
        nra. }
    assert (-960 < d1 + ea - (d2 - 1 + eb))%Z by (apply p2_lt_inv; lra). lia. }
  rewrite fexp_big by lia.
  set (e := Z.min (d1 + ea - (d2 + eb) - 53) (ea - eb)).
  set (s := (ea - eb - e)%Z).
  assert (S0 : (0 <= s)%Z) by (unfold s, e; lia).
  replace (match s with Z0 => Zpos ma | Zpos _ => Z.shiftl (Zpos ma) s | Zneg _ => 0%Z end) with (Zpos ma * 2 ^ s)%Z.
  2:{ destruct s eqn:Es; [lia| |lia]. rewrite Z.shiftl_mul_pow2 by lia. reflexivity. }
  pose proof (Z_div_mod (Zpos ma * 2 ^ s) (Zpos mb) ltac:(lia)) as DM.
  destruct (Z.div_eucl (Zpos ma * 2 ^ s) (Zpos mb)) as [q r]. destruct DM as [DM1 DM2].
  assert (Q52 : (2 ^ 52 <= q)%Z).
  { assert (B : (2 ^ 52 * 2 ^ d2 <= Zpos ma * 2 ^ s)%Z).
    { apply Z.le_trans with (2 ^ (d1 - 1) * 2 ^ s)%Z.
      - rewrite <- !Z.pow_add_r by lia. apply Z.pow_le_mono_r; [lia|]. unfold s, e. lia.
      - apply Z.mul_le_mono_nonneg_r; [apply Z.pow_nonneg; lia|exact A1]. }
    assert (0 < 2 ^ d2)%Z by (apply Z.pow_pos_nonneg; lia). nia. }
  apply (aux_valid 53 1024 ltac:(lia) _ ((inject_Z q + inject_Z r / inject_Z (Zpos mb)) * p2 e)); [lia| |].
  - unfold located. eapply place_eq; [|apply (new_location_ok (Zpos mb) r q); lia].
    rewrite <- Qmult_assoc, <- p2_plus. replace (e + - e)%Z with 0%Z by lia. change (p2 0) with 1. ring.
  - destruct q as [|q|q]; [lia| |lia]. cbn [Zdigits2]. pose proof (digits_ge q 52 Q52). unfold SpecFloat.fexp, emin. lia.
Qed.

(** ** Bit patterns *)
Lemma float_pattern t f : finite f -> valid_binary (rprec t) (remax t) f = true ->
  exists neg E F, (0 <= E < rtop t)%Z /\ (0 <= F < 2 ^ rfrac t)%Z /\ bits_of_float t f = pattern t neg E F /\ sfq f == ieee_number t neg E F.
Proof.
  intros Fi V.
  assert (K : exists neg E F, (0 <= E < rtop t)%Z /\ (0 <= F < 2 ^ rfrac t)%Z /\ float_of_bits t (pattern t neg E F) = f).
  2:{ destruct K as (neg & E & F & HE & HF & G). exists neg, E, F. split; [exact HE|]. split; [exact HF|].
      pose proof (pattern_float t neg E F ltac:(lia) HF) as P. cbv zeta in P. destruct (Z.eqb_spec E (rtop t)); [lia|].
      rewrite G in P. destruct P as (_ & _ & P1 & P2). split; assumption. }
  assert (T1 : (0 < rtop t)%Z) by (destruct t; reflexivity). assert (T2 : (0 < 2 ^ rfrac t)%Z) by (destruct t; reflexivity).
  assert (Te : (2 ^ exp_bits t - 1 = rtop t)%Z) by (destruct t; reflexivity).
  destruct f as [s|s| |s m e]; cbn [finite] in Fi; try contradiction.
  - exists s, 0%Z, 0%Z. split; [lia|]. split; [lia|]. destruct (pattern_parts t s 0 0 ltac:(lia) ltac:(lia)) as (Q1 & Q2 & Q3 & _). cbv zeta in *.
    unfold float_of_bits. rewrite Q1, Q2, Q3. reflexivity.
  - cbn [valid_binary] in V. apply andb_true_iff in V as [C L]. apply Zeq_bool_eq in C. apply Zle_bool_imp_le in L. unfold SpecFloat.fexp in C.
    assert (Pr : (rprec t = rfrac t + 1)%Z) by (destruct t; reflexivity).
    assert (R0 : (0 <= rfrac t)%Z) by (destruct t; cbn; lia).
    assert (Dl : (Zpos (digits2_pos m) <= rprec t)%Z) by lia.
    assert (M1 : (Zpos m < 2 ^ rprec t)%Z).
    { pose proof (digits2 m) as [_ D]. apply Z.lt_le_trans with (2 ^ Zpos (digits2_pos m))%Z; [exact D|]. apply Z.pow_le_mono_r; lia. }
    destruct (Z_lt_le_dec (Zpos m) (2 ^ rfrac t)) as [H|H].
    + assert (Em : e = emin (rprec t) (remax t)) by (pose proof (digits_le m (rfrac t) H R0); lia).
      exists s, 0%Z, (Zpos m). split; [lia|]. split; [lia|]. destruct (pattern_parts t s 0 (Zpos m) ltac:(lia) ltac:(lia)) as (Q1 & Q2 & Q3 & _). cbv zeta in *.
      unfold float_of_bits. rewrite Q1, Q2, Q3, Em. reflexivity.
    + assert (T : (2 ^ rprec t = 2 * 2 ^ rfrac t)%Z) by (rewrite Pr, Z.pow_add_r by lia; lia).
      set (E := (e - emin (rprec t) (remax t) + 1)%Z). set (F := (Zpos m - 2 ^ rfrac t)%Z).
      assert (HE : (0 < E < rtop t)%Z).
      { unfold E. split; [lia|]. destruct t; cbn [rprec remax rtop] in *; unfold emin in *; lia. }
      assert (HF : (0 <= F < 2 ^ rfrac t)%Z) by (unfold F; lia).
      exists s, E, F. split; [lia|]. split; [exact HF|]. destruct (pattern_parts t s E F ltac:(lia) HF) as (Q1 & Q2 & Q3 & _). cbv zeta in *.
      unfold float_of_bits. rewrite Q1, Q2, Q3, Te. destruct (Z.eqb_spec E 0); [lia|]. destruct (Z.eqb_spec E (rtop t)); [lia|].
      change (frac_bits t) with (rfrac t). replace (F + 2 ^ rfrac t)%Z with (Zpos m) by (unfold F; lia). f_equal. unfold E. lia.
Qed.

(** ** Rounding to binary32 *)
Lemma size_of m e : p2 (Zpos (digits2_pos m) - 1 + e) <= dyadic (Zpos m) e /\ dyadic (Zpos m) e < p2 (Zpos (digits2_pos m) + e).
Proof.
  pose proof (digits2 m) as [A B]. set (d := Zpos (digits2_pos m)) in *. assert (0 < d)%Z by reflexivity. pose proof (p2_pos e).
  rewrite (p2_plus (d - 1)), (p2_plus d), (p2_Z (d - 1)), (p2_Z d) by lia. unfold dyadic. fold (p2 e). apply inj_le in A. apply inj_lt in B. split; nra.
Qed.
Lemma unit_scale x e : x * p2 (- e) * p2 e == x.
Proof. rewrite <- Qmult_assoc, <- p2_plus. replace (- e + e)%Z with 0%Z by lia. change (p2 0) with 1. ring. Qed.
(** a number within a quarter of a unit of a binary32 number is rounded to it *)
Lemma near_rounds s m e n f : bounded 24 128 m e = true -> Qabs (dyadic (Zpos n) f - dyadic (Zpos m) e) < p2 (e - 2) ->
  binary_round 24 128 s n f = S754_finite s m e.
Proof.
  intros B H. pose proof B as Bm. apply andb_true_iff in B as [C T]. apply Zeq_bool_eq in C. apply Zle_bool_imp_le in T.
  pose proof (size_of m e) as [V1 V2]. pose proof (size_of n f) as [X1 X2].
  destruct (round_gen 24 128 ltac:(lia) s n f) as (m2 & N & M2 & M3 & R). cbv zeta in *.
  set (d := Zpos (digits2_pos m)) in *. set (dn := Zpos (digits2_pos n)) in *. set (x := dyadic (Zpos n) f) in *. set (v := dyadic (Zpos m) e) in *.
  assert (d0 : (1 <= d)%Z) by (unfold d; lia).
  apply Qabs_Qlt_condition in H as [H1 H2]. pose proof (p2_pos (e - 2)) as Pq.
  assert (Q4 : p2 e == 4 * p2 (e - 2)) by (replace e with (2 + (e - 2))%Z at 1 by lia; rewrite p2_plus; reflexivity).
  (* the exponents *)
  assert (U1 : (dn - 1 + f < d + e)%Z).
  { apply p2_lt_inv. eapply Qle_lt_trans; [exact X1|].
    assert (v + p2 e <= p2 (d + e)).
    { rewrite (p2_plus d), (p2_Z d) by lia. unfold v, dyadic. fold (p2 e). pose proof (digits2 m) as [_ K]. fold d in K. pose proof (p2_pos e).
      assert (K' : inject_Z (Zpos m) + 1 <= inject_Z (2 ^ d)) by (change 1 with (inject_Z 1); rewrite <- inject_Z_plus; apply inj_le; lia). nra. }
    lra. }
  assert (U2 : (d - 2 + e < dn + f)%Z).
  { apply p2_lt_inv. eapply Qle_lt_trans; [|exact X2].
    assert (p2 (d - 2 + e) + p2 (e - 2) <= p2 (d - 1 + e)).
    { replace (d - 1 + e)%Z with (1 + (d - 2 + e))%Z by lia. rewrite (p2_plus 1), p2_1. assert (p2 (e - 2) <= p2 (d - 2 + e)) by (apply p2_le; lia).
      assert (p2 (e - 2) <= p2 (d - 2 + e)) by assumption. lra. }
    lra. }
  set (e1 := SpecFloat.fexp 24 128 (dn + f)) in *.
  assert (E1 : e1 = e \/ (e1 = e - 1)%Z).
  { unfold e1. rewrite fe_max in *. unfold SpecFloat.fexp in C. lia. }
  pose proof (p2_pos (- e1)) as Pe1. apply Qabs_Qle_condition in N as [N1 N2].
  assert (I : forall a b, inject_Z a - inject_Z b < 1 -> inject_Z b - inject_Z a < 1 -> a = b).
  { intros a b K1 K2. assert (a < b + 1)%Z by (rewrite Zlt_Qlt, inject_Z_plus; change (inject_Z 1) with 1; lra).
    assert (b < a + 1)%Z by (rewrite Zlt_Qlt, inject_Z_plus; change (inject_Z 1) with 1; lra). lia. }
  assert (W : dyadic m2 e1 == v /\ (m2 < 2 ^ 24 /\ e1 <= 128 - 24 \/ e1 + 1 <= 128 - 24)%Z).
  { destruct E1 as [E1|E1]; rewrite E1 in *.
    - assert (S1 : v * p2 (- e) == inject_Z (Zpos m)).
      { unfold v, dyadic. fold (p2 e). rewrite <- Qmult_assoc, <- p2_plus. replace (e + - e)%Z with 0%Z by lia. change (p2 0) with 1. ring. }
      assert (S2 : p2 (e - 2) * p2 (- e) == 1 # 4) by (rewrite <- p2_plus; replace (e - 2 + - e)%Z with (-2)%Z by lia; reflexivity).
      assert (L1 : x * p2 (- e) < (v + p2 (e - 2)) * p2 (- e)) by (apply Qmult_lt_r; lra).
      assert (L2 : (v - p2 (e - 2)) * p2 (- e) < x * p2 (- e)) by (apply Qmult_lt_r; lra).
      assert (m2 = Zpos m) by (apply I; lra). subst m2. split; [reflexivity|]. left. split; [|lia].
      pose proof (digits2 m) as [_ K]. fold d in K. assert (d <= 24)%Z by (unfold SpecFloat.fexp in C; lia).
      apply Z.lt_le_trans with (2 ^ d)%Z; [exact K|]. apply Z.pow_le_mono_r; lia.
    - assert (S1 : v * p2 (- (e - 1)) == inject_Z (2 * Zpos m)).
      { unfold v, dyadic. fold (p2 e). rewrite <- Qmult_assoc, <- p2_plus. replace (e + - (e - 1))%Z with 1%Z by lia. rewrite p2_1, inject_Z_mult. change (inject_Z 2) with 2. ring. }
      assert (S2 : p2 (e - 2) * p2 (- (e - 1)) == 1 # 2) by (rewrite <- p2_plus; replace (e - 2 + - (e - 1))%Z with (-1)%Z by lia; reflexivity).
      assert (L1 : x * p2 (- (e - 1)) < (v + p2 (e - 2)) * p2 (- (e - 1))) by (apply Qmult_lt_r; lra).
      assert (L2 : (v - p2 (e - 2)) * p2 (- (e - 1)) < x * p2 (- (e - 1))) by (apply Qmult_lt_r; lra).
      assert (m2 = (2 * Zpos m)%Z) by (apply I; lra). subst m2. split; [|right; lia].
      unfold v. rewrite <- (dyadic_shift (Zpos m) e 1) by lia. change (2 ^ 1)%Z with 2%Z. rewrite Z.mul_comm. reflexivity. }
  destruct W as [W1 W2].
  assert (m0 : (0 < m2)%Z).
  { destruct (Z.eq_dec m2 0) as [Z0|Z0]; [|lia]. exfalso. subst m2. unfold dyadic in W1. change (inject_Z 0) with 0 in W1. pose proof (dyadic_pos m e). fold v in H. lra. }
  destruct (settled 24 128 ltac:(lia) s m2 e1 M2 (lo_fe 24 128 _) M3) as (S1 & _ & S3).
  destruct (S3 m0 W2) as (p & e' & R' & Vp). rewrite R' in S1. cbn [valid_binary] in S1. rewrite R, R'.
  destruct (same_number 24 128 p e' m e S1 Bm) as [-> ->]; [rewrite Vp; exact W1|reflexivity].
Qed.
(** any number: its relative error, or the smallest unit *)
Lemma narrow_close s n f : dyadic (Zpos n) f < p2 100 -> exists r, binary_round 24 128 s n f = r /\ finite r /\ valid_binary 24 128 r = true
  /\ Qabs ((if s then - dyadic (Zpos n) f else dyadic (Zpos n) f) - sfq r) <= dyadic (Zpos n) f * p2 (-24) + p2 (-150).
Proof.
  intros Up. pose proof (size_of n f) as [X1 X2]. destruct (round_gen 24 128 ltac:(lia) s n f) as (m2 & N & M2 & M3 & R). cbv zeta in *.
  set (dn := Zpos (digits2_pos n)) in *. set (x := dyadic (Zpos n) f) in *. set (e1 := SpecFloat.fexp 24 128 (dn + f)) in *.
  destruct (settled 24 128 ltac:(lia) s m2 e1 M2 (lo_fe 24 128 _) M3) as (S1 & S2 & S3). exists (end_of 24 128 s m2 e1).
  split; [exact R|].
  assert (DN : (dn - 1 + f < 100)%Z) by (apply p2_lt_inv; lra).
  assert (E1 : (e1 + 1 <= 128 - 24)%Z) by (unfold e1; rewrite fe_max; unfold emin; lia).
  assert (Er : Qabs (x - dyadic m2 e1) <= x * p2 (-24) + p2 (-150)).
  { assert (H : Qabs (x - dyadic m2 e1) == Qabs (x * p2 (- e1) - inject_Z m2) * p2 e1).
    { pose proof (p2_pos e1). rewrite <- (abs_scale _ (p2 e1)) by lra. apply Qabs_wd. unfold dyadic. fold (p2 e1). rewrite <- (unit_scale x e1) at 1. ring. }
    rewrite H. pose proof (p2_pos e1). assert (H1 : Qabs (x * p2 (- e1) - inject_Z m2) * p2 e1 <= (1 # 2) * p2 e1) by (apply le_mul_r; lra).
    assert (H2 : (1 # 2) * p2 e1 == p2 (e1 - 1)) by (replace (e1 - 1)%Z with (-1 + e1)%Z by lia; rewrite p2_plus; reflexivity).
    assert (0 < p2 (-150)) by reflexivity. assert (0 < p2 (-24)) by reflexivity. assert (x0 : 0 < x) by apply dyadic_pos.
    assert (e1 = dn + f - 24 \/ e1 = -149)%Z as [K|K] by (unfold e1; rewrite fe_max; unfold emin; lia).
    - assert (p2 (e1 - 1) == p2 (dn - 1 + f) * p2 (-24)) by (rewrite <- p2_plus, K; replace (dn - 1 + f + -24)%Z with (dn + f - 24 - 1)%Z by lia; reflexivity).
      assert (p2 (dn - 1 + f) * p2 (-24) <= x * p2 (-24)) by (apply le_mul_r; lra). lra.
    - rewrite K in *. change (-149 - 1)%Z with (-150)%Z in *. assert (0 <= x * p2 (-24)) by nra. lra. }
  destruct (Z.eq_dec m2 0) as [Z0|Z0].
  - rewrite (S2 Z0). split; [exact I|]. split; [reflexivity|]. cbn [sfq]. subst m2. unfold dyadic in Er at 1. change (inject_Z 0) with 0 in Er.
    rewrite (Qabs_wd (x - 0 * Qpower (2 # 1) e1) x) in Er by ring.
    destruct s; [rewrite (Qabs_wd (- x - 0) (- x)), Qabs_opp by ring|rewrite (Qabs_wd (x - 0) x) by ring]; exact Er.
  - destruct (S3 ltac:(lia) (or_intror E1)) as (p & e' & R' & Vp). rewrite R' in *. split; [exact I|]. split; [exact S1|]. rewrite sfq_finite.
    rewrite <- (Qabs_wd (x - dyadic (Zpos p) e') (x - dyadic m2 e1)) in Er by (rewrite Vp; reflexivity).
    destruct s; [rewrite (Qabs_wd (- x - - dyadic (Z.pos p) e') (- (x - dyadic (Z.pos p) e'))), Qabs_opp by ring|]; exact Er.
Qed.
