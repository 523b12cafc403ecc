(** Rounding to any IEEE 754 binary format: the result is a number of the format,
    and the nearest one. *)
From Coq Require Import ZArith QArith Qabs Qpower SpecFloat Lia Lqa.
From Verif Require Import Base SFloat PFloat PReal.
Local Open Scope Q_scope.

Lemma dyadic_multiple' m e k : (k <= e)%Z -> dyadic (Zpos m) e == inject_Z (Zpos m * 2 ^ (e - k)) * p2 k.
Proof.
  intros L. unfold dyadic. fold (p2 e). replace e with (e - k + k)%Z at 1 by lia. rewrite p2_plus, (p2_Z (e - k)) by lia. rewrite inject_Z_mult. ring.
Qed.

Section Format.
Variables prec emax : Z.
Hypothesis P1 : (1 < prec)%Z.
Notation fe := (SpecFloat.fexp prec emax).
Notation lo := (emin prec emax).

Lemma fe_max d : fe d = Z.max (d - prec) lo.
Proof. reflexivity. Qed.
Definition end_of (s : bool) (m e : Z) : spec_float :=
  let '(mrs, e'') := shr_fexp prec emax m e loc_Exact in
  match shr_m mrs with
  | Z0 => S754_zero s
  | Zpos m => if Zle_bool e'' (emax - prec) then S754_finite s m e'' else S754_infinity s
  | _ => S754_nan
  end.
Lemma settled s m e : (0 <= m <= 2 ^ prec)%Z -> (lo <= e)%Z -> (lo < e -> 2 ^ (prec - 1) <= m)%Z ->
  valid_binary prec emax (end_of s m e) = true
  /\ (m = 0%Z -> end_of s m e = S754_zero s)
  /\ (0 < m -> (m < 2 ^ prec /\ e <= emax - prec \/ e + 1 <= emax - prec) ->
      exists p e', end_of s m e = S754_finite s p e' /\ dyadic (Zpos p) e' == dyadic m e)%Z.
Proof.
  intros M E N. unfold end_of, shr_fexp. destruct m as [|p|p]; [| |lia].
  - cbn [Zdigits2]. rewrite shr_neg by (rewrite fe_max; lia). cbn [shr_record_of_loc shr_m]. repeat split. intros; lia.
  - cbn [Zdigits2]. assert (T : (2 ^ prec = 2 * 2 ^ (prec - 1))%Z) by (rewrite <- Z.pow_succ_r by lia; f_equal; lia).
    destruct (Z.eq_dec (Zpos p) (2 ^ prec)) as [X|X].
    + assert (D : Zpos (digits2_pos p) = (prec + 1)%Z) by (apply digits_eq; [rewrite X; replace (prec + 1 - 1)%Z with prec by lia; rewrite Z.pow_add_r by lia; lia|lia]).
      rewrite D, fe_max. replace (Z.max (prec + 1 + e - prec) lo - e)%Z with 1%Z by lia.
      destruct p as [p|p|]; [exfalso; rewrite Pos2Z.inj_xI in X; lia| |exfalso; assert (0 < 2 ^ (prec - 1))%Z by (apply Z.pow_pos_nonneg; lia); lia].
      cbn [shr SpecFloat.iter_pos shr_record_of_loc shr_1 shr_m orb].
      rewrite Pos2Z.inj_xO in X. assert (Xp : Zpos p = (2 ^ (prec - 1))%Z) by lia.
      assert (Dp : Zpos (digits2_pos p) = prec) by (apply digits_eq; lia).
      split; [|split; [discriminate|]].
      * destruct (Zle_bool (e + 1) (emax - prec)) eqn:L; [|reflexivity]. cbn [valid_binary]. apply andb_true_iff. split; [|exact L].
        apply Zeq_is_eq_bool. rewrite Dp, fe_max. lia.
      * intros _ [H|H]; [lia|]. rewrite (Zle_imp_le_bool _ _ H). exists p, (e + 1)%Z. split; [reflexivity|].
        rewrite <- (dyadic_shift (Zpos p) (e + 1) 1) by lia. replace (e + 1 - 1)%Z with e by lia. rewrite Pos2Z.inj_xO. change (2 ^ 1)%Z with 2%Z. rewrite Z.mul_comm. reflexivity.
    + assert (D : (Zpos (digits2_pos p) <= prec)%Z) by (apply digits_le; lia).
      rewrite shr_neg by (rewrite fe_max; lia). cbn [shr_record_of_loc shr_m]. split; [|split; [discriminate|]].
      * destruct (Zle_bool e (emax - prec)) eqn:L; [|reflexivity]. cbn [valid_binary]. apply andb_true_iff. split; [|exact L].
        apply Zeq_is_eq_bool. rewrite fe_max. destruct (Z.eq_dec e lo) as [->|L']; [lia|].
        assert (prec - 1 < Zpos (digits2_pos p))%Z by (apply digits_ge; apply N; lia). lia.
      * intros _ H. assert (L : (e <= emax - prec)%Z) by lia. rewrite (Zle_imp_le_bool _ _ L). exists p, e. split; reflexivity.
Qed.

(** a number [x], located within a unit of m * 2^e *)
Lemma aux_gen s x m e l : (0 < m)%Z -> located (x * p2 (- e)) m l -> (e <= fe (Zdigits2 m + e))%Z ->
  let e1 := fe (Zdigits2 m + e) in
  exists m2, Qabs (x * p2 (- e1) - inject_Z m2) <= 1 # 2 /\ (0 <= m2 <= 2 ^ prec)%Z /\ (lo < e1 -> 2 ^ (prec - 1) <= m2)%Z
    /\ binary_round_aux prec emax s m e l = end_of s m2 e1.
Proof.
  intros M K E. cbv zeta. set (e1 := fe (Zdigits2 m + e)) in *. destruct m as [|pm|pm]; try lia.
  set (d := Zpos (digits2_pos pm)). change (Zdigits2 (Zpos pm)) with d in *. pose proof (digits2 pm) as [D1 D2]. fold d in D1, D2.
  assert (SM : shr_m (shr_record_of_loc (Zpos pm) l) = Zpos pm) by (destruct l as [|[]]; reflexivity).
  destruct (shr_place (x * p2 (- e)) (shr_record_of_loc (Zpos pm) l) e (e1 - e) ltac:(rewrite SM; lia) ltac:(lia) K) as (r & E1 & E2 & E3).
  assert (E3' : at_place (x * p2 (- e1)) r).
  { eapply place_eq; [|exact E3]. rewrite <- Qmult_assoc, <- p2_plus. replace (- e + - (e1 - e))%Z with (- e1)%Z by lia. reflexivity. }
  destruct (rne_half _ _ E3') as [N NB]. set (m2 := round_nearest_even (shr_m r) (loc_of_shr_record r)) in *.
  exists m2. split; [exact N|]. rewrite SM in E2.
  assert (Pp : (0 < 2 ^ (e1 - e))%Z) by (apply Z.pow_pos_nonneg; lia).
  assert (R0 : (0 <= shr_m r)%Z) by (rewrite E2; apply Z.div_pos; lia).
  assert (R1 : (shr_m r < 2 ^ prec)%Z).
  { rewrite E2. apply Z.div_lt_upper_bound; [lia|]. rewrite <- Z.pow_add_r by lia.
    apply Z.lt_le_trans with (2 ^ d)%Z; [exact D2|]. apply Z.pow_le_mono_r; [lia|]. unfold e1. rewrite fe_max. lia. }
  split; [lia|]. split.
  - intros L. apply Z.le_trans with (shr_m r); [|lia]. rewrite E2. apply Z.div_le_lower_bound; [lia|].
    rewrite <- Z.pow_add_r by lia. apply Z.le_trans with (2 ^ (d - 1))%Z; [|exact D1]. apply Z.pow_le_mono_r; [lia|].
    unfold e1 in L |- *. rewrite fe_max in L |- *. lia.
  - unfold binary_round_aux. unfold shr_fexp at 1. change (Zdigits2 (Zpos pm)) with d. fold e1. rewrite E1. replace (e + (e1 - e))%Z with e1 by lia. reflexivity.
Qed.
Lemma lo_fe d : (lo <= fe d)%Z. Proof. rewrite fe_max. lia. Qed.
Lemma aux_valid s x m e l : (0 < m)%Z -> located (x * p2 (- e)) m l -> (e <= fe (Zdigits2 m + e))%Z ->
  valid_binary prec emax (binary_round_aux prec emax s m e l) = true.
Proof.
  intros M K E. destruct (aux_gen s x m e l M K E) as (m2 & _ & A & B & ->). apply settled; [exact A|apply lo_fe|exact B].
Qed.
(** rounding m * 2^e *)
Lemma round_gen s m e : let e1 := fe (Zpos (digits2_pos m) + e) in
  exists m2, Qabs (dyadic (Zpos m) e * p2 (- e1) - inject_Z m2) <= 1 # 2 /\ (0 <= m2 <= 2 ^ prec)%Z /\ (lo < e1 -> 2 ^ (prec - 1) <= m2)%Z
    /\ binary_round prec emax s m e = end_of s m2 e1.
Proof.
  cbv zeta. unfold binary_round. destruct (shl_align_value m e (fe (Z.pos (digits2_pos m) + e))) as (n & E & V). rewrite E.
  set (z := Z.min e (fe (Z.pos (digits2_pos m) + e))) in *.
  assert (D : (Zpos (digits2_pos n) + z = Zpos (digits2_pos m) + e)%Z).
  { assert (Zpos n = Zpos m * 2 ^ (e - z))%Z.
    { rewrite (dyadic_multiple' m e z) in V by lia. unfold dyadic in V. fold (p2 z) in V. pose proof (p2_pos z).
      apply Qmult_inj_r in V; [|lra]. rewrite inject_Z_injective in V. exact V. }
    rewrite (digits_shift m (e - z) n); lia. }
  assert (K : located (dyadic (Zpos m) e * p2 (- z)) (Zpos n) loc_Exact).
  { unfold located. eapply place_eq; [|apply (located_exact (Zpos n) z)]. rewrite V. reflexivity. }
  destruct (aux_gen s (dyadic (Zpos m) e) (Zpos n) z loc_Exact ltac:(lia) K) as (m2 & A & B & C & F).
  { cbn [Zdigits2]. rewrite D. lia. }
  cbn [Zdigits2] in *. rewrite D in *. exists m2. auto.
Qed.
Lemma round_valid s m e : valid_binary prec emax (binary_round prec emax s m e) = true.
Proof. destruct (round_gen s m e) as (m2 & _ & A & B & ->). apply settled; [exact A|apply lo_fe|exact B]. Qed.

(** numbers of the format are unique *)
Lemma same_number m e p f : bounded prec emax m e = true -> bounded prec emax p f = true -> dyadic (Zpos m) e == dyadic (Zpos p) f -> m = p /\ e = f.
Proof.
  intros A B V. apply andb_true_iff in A as [A _]. apply andb_true_iff in B as [B _]. apply Zeq_bool_eq in A. apply Zeq_bool_eq in B.
  assert (D : (Zpos (digits2_pos m) + e = Zpos (digits2_pos p) + f)%Z).
  { destruct (Z.le_ge_cases e f) as [L|L].
    - rewrite (dyadic_multiple' p f e L) in V. unfold dyadic in V. fold (p2 e) in V. pose proof (p2_pos e). apply Qmult_inj_r in V; [|lra]. rewrite inject_Z_injective in V.
      rewrite (digits_shift p (f - e) m); lia.
    - rewrite (dyadic_multiple' m e f L) in V. unfold dyadic in V. fold (p2 f) in V. pose proof (p2_pos f). apply Qmult_inj_r in V; [|lra]. rewrite inject_Z_injective in V.
      rewrite (digits_shift m (e - f) p); lia. }
  assert (e = f) by (rewrite <- A, <- B, D; reflexivity). subst f. split; [|reflexivity].
  unfold dyadic in V. fold (p2 e) in V. pose proof (p2_pos e). apply Qmult_inj_r in V; [|lra]. rewrite inject_Z_injective in V. congruence.
Qed.
End Format.
