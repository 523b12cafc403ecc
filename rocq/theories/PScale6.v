(** Limits of scaled REAL and LREAL parameters: there and back. *)
From Coq Require Import ZArith QArith Qabs Qpower SpecFloat Lia Lqa.
From Verif Require Import Base MBuffer SBuffer PBase MParam SParam SFloat PFloat PScale PScale2 PScale3 PScale4 PScale5 MReal SReal PReal PRound.
Local Open Scope Q_scope.

Lemma back_valid p f r : scale_back_ok p -> rep f -> sized 500 (sfq f) -> eng_to_actual double p f = Ok r -> valid64 r.
Proof.
  intros (S0 & (A1 & A2 & A3 & A4 & A5 & A6) & M) R Sz. unfold is_u16, is_s16 in *.
  assert (T : (0 < 10 ^ pa_precision p <= 100000000000)%Z).
  { split; [apply Z.pow_pos_nonneg; lia|]. change 100000000000%Z with (10 ^ 11)%Z. apply Z.pow_le_mono_r; lia. }
  change (2 ^ 31)%Z with 2147483648%Z in M.
  assert (B53 : (2 ^ 53 = 9007199254740992)%Z) by reflexivity.
  assert (Big : forall z, (0 < z < 9007199254740992)%Z -> 1 <= inject_Z z /\ inject_Z z < p2 60).
  { intros z Hz. split; [change 1 with (inject_Z 1); apply inj_le; lia|]. apply Qlt_le_trans with (p2 53); [|apply p2_le; lia]. rewrite p2_Z by lia. apply inj_lt. lia. }
  unfold eng_to_actual. rewrite S0. destruct (Z.ltb_spec (pa_mult p * pa_base p) 2147483648); [|lia].
  destruct (holds_int (pa_div p)) as [G1 G2]; [lia|]. destruct (holds_pow (pa_precision p)) as [G3 G4]; [lia|lia|]. destruct (holds_int (pa_mult p * pa_base p)) as [G5 G6]; [lia|].
  destruct (Big (pa_div p)) as [b1 b2]; [lia|]. destruct (Big (10 ^ pa_precision p)%Z) as [b3 b4]; [lia|]. destruct (Big (pa_mult p * pa_base p)%Z) as [b5 b6]; [lia|].
  assert (X0 : approx f (sfq f) 0).
  { split; [exact R|]. rewrite (Qabs_wd (sfq f - sfq f) 0) by ring. change (Qabs 0) with 0. cbn [err]. rewrite Qmult_0_r. apply Qle_refl. }
  destruct (step_mul f (sfq f) 0 500 _ _ ltac:(lia) ltac:(lia) X0 Sz G1 G2 b1 b2) as [X1 Z1].
  destruct (step_mul _ _ 1 560 _ _ ltac:(lia) ltac:(lia) X1 Z1 G3 G4 b3 b4) as [X2 Z2].
  destruct (step_div _ _ 2 620 _ _ ltac:(lia) ltac:(lia) X2 Z2 G5 G6 b5 b6) as [_ Z3].
  assert (D : 0 < / inject_Z (pa_mult p * pa_base p)) by (apply Qinv_lt_0_compat; lra).
  intros K. inv K. cbn [nsub ndiv nmul double]. apply sub_valid; [|apply normalize_valid]. apply div_valid; [apply X2|exact G5|rewrite G6; lra|].
  eapply ordinary_eq; [|apply (sized_ordinary _ _ 2 (620 + 60) _ ltac:(lia) ltac:(lia) D X2 Z3)]. rewrite G6. reflexivity.
Qed.
Lemma rep_of_valid f : finite f -> valid64 f -> rep f.
Proof.
  intros F V. split; [exact F|]. destruct f as [s|s| |s m e]; cbn [finite] in F; try contradiction.
  - exists 0%Z, 0%Z. split; [reflexivity|]. reflexivity.
  - cbn [valid_binary] in V. apply andb_true_iff in V as [C _]. apply Zeq_bool_eq in C. unfold SpecFloat.fexp in C.
    exists (if s then Zneg m else Zpos m), e. split; [|reflexivity]. pose proof (digits2 m) as [_ K].
    assert (Zpos m < 2 ^ 53)%Z by (eapply Z.lt_le_trans; [exact K|apply Z.pow_le_mono_r; lia]). destruct s; lia.
Qed.
Lemma real_sized f : finite f -> valid_binary 24 128 f = true -> sized 300 (sfq f).
Proof.
  intros F V. destruct f as [s|s| |s m e]; cbn [finite] in F; try contradiction; [left; reflexivity|right].
  cbn [valid_binary] in V. apply andb_true_iff in V as [C T]. apply Zeq_bool_eq in C. apply Zle_bool_imp_le in T. unfold SpecFloat.fexp, emin in C.
  pose proof (size_of m e) as [A B]. set (d := Zpos (digits2_pos m)) in *. assert (1 <= d)%Z by (unfold d; lia).
  assert (E : Qabs (sfq (S754_finite s m e)) == dyadic (Zpos m) e).
  { rewrite (Qabs_wd _ _ (sfq_finite s m e)). pose proof (dyadic_pos m e). destruct s; [rewrite Qabs_opp|]; apply Qabs_pos; lra. }
  rewrite E. split; [apply Qle_trans with (p2 (d - 1 + e)); [apply p2_le; lia|exact A]|].
  apply Qlt_le_trans with (p2 (d + e)); [exact B|apply p2_le; lia].
Qed.

(** the float of a pattern, as a double *)
Lemma pattern_double h t neg E F f p rest : (0 <= E < rtop t)%Z -> (0 <= F < 2 ^ rfrac t)%Z ->
  get_eng_real h t p (le (rwidth t) (pattern t neg E F) ++ rest) = Ok f ->
  exists g x, f = actual_to_eng double p x /\ rep x /\ sfq x == ieee_number t neg E F /\ (t = RReal -> sized 300 (sfq x))
    /\ finite g /\ valid_binary (rprec t) (remax t) g = true /\ sfq g == ieee_number t neg E F /\ bits_of_float t g = pattern t neg E F.
Proof.
  intros HE HF G. destruct (pattern_parts t neg E F ltac:(lia) HF) as (_ & _ & _ & R). cbv zeta in R.
  pose proof (pattern_float t neg E F ltac:(lia) HF) as K. cbv zeta in K. destruct (Z.eqb_spec E (rtop t)); [lia|]. destruct K as (K1 & K2 & K4 & K3).
  unfold get_eng_real in G. rewrite (get_real h t _ rest R) in G. cbn [bind] in G. inv G.
  set (g := float_of_bits t (pattern t neg E F)) in *. exists g. eexists. split; [reflexivity|].
  assert (Q : rep (match t with RReal => convert RLreal g | RLreal => g end) /\ sfq (match t with RReal => convert RLreal g | RLreal => g end) == sfq g).
  { destruct t.
    - destruct (widen_exact _ K2) as [W1 W2]. split; [|exact W1]. apply rep_of_valid; [exact (W2 K1)|].
      destruct g as [s|s| |s m e]; cbn [finite] in K1; try contradiction; [reflexivity|]. destruct (widen s m e K2) as (m' & e' & -> & _ & _ & B). exact B.
    - split; [|reflexivity]. apply rep_of_valid; assumption. }
  destruct Q as [Q1 Q2]. split; [exact Q1|]. split; [rewrite Q2; exact K3|]. split.
  - intros ->. eapply sized_eq; [symmetry; exact Q2|]. apply real_sized; assumption.
  - repeat split; assumption.
Qed.

Definition tolerance (t : rtype) : Q := match t with RReal => 1 # 2 ^ 43 | RLreal => 1 # 2 ^ 48 end.

Lemma sign_of s m e v : Qabs (v - sfq (S754_finite s m e)) < Qabs v -> (if s then v < 0 else 0 < v).
Proof.
  intros H. pose proof (dyadic_pos m e) as P. pose proof (sfq_finite s m e) as E. set (x := dyadic (Zpos m) e) in *. set (f := sfq (S754_finite s m e)) in *.
  destruct (Qlt_le_dec v 0) as [N|N].
  - destruct s; [exact N|]. exfalso. rewrite (Qabs_neg v) in H by lra. apply Qabs_Qlt_condition in H as [H1 H2]. lra.
  - destruct s; [exfalso|].
    + rewrite (Qabs_pos v) in H by lra. apply Qabs_Qlt_condition in H as [H1 H2]. lra.
    + rewrite (Qabs_pos v) in H by lra. apply Qabs_Qlt_condition in H as [H1 H2]. lra.
Qed.
(** a double close to a binary32 number becomes that number *)
Lemma narrow_near g r : finite g -> valid_binary 24 128 g = true -> ~ sfq g == 0 -> finite r -> Qabs (sfq g - sfq r) < Qabs (sfq g) * (1 # 2 ^ 26) -> convert RReal r = g.
Proof.
  intros Fg Vg Ng Fr C. destruct g as [s|s| |s m e]; cbn [finite] in Fg; try contradiction; [exfalso; apply Ng; reflexivity|].
  cbn [valid_binary] in Vg. pose proof (dyadic_pos m e) as Pv.
  assert (A : Qabs (sfq (S754_finite s m e)) == dyadic (Zpos m) e).
  { rewrite (Qabs_wd _ _ (sfq_finite s m e)). destruct s; [rewrite Qabs_opp|]; apply Qabs_pos; lra. }
  assert (C' : Qabs (sfq (S754_finite s m e) - sfq r) < Qabs (sfq (S754_finite s m e))).
  { eapply Qlt_le_trans; [exact C|]. change (1 # 2 ^ 26) with (1 # 67108864). lra. }
  destruct r as [sr|sr| |sr n f]; cbn [finite] in Fr; try contradiction.
  { exfalso. change (sfq (S754_zero sr)) with 0 in C'. rewrite (Qabs_wd (sfq (S754_finite s m e) - 0) (sfq (S754_finite s m e))) in C' by ring. lra. }
  pose proof (sign_of sr n f _ C') as Sg. assert (sr = s) as ->.
  { pose proof (sfq_finite s m e) as Es. destruct s, sr; try reflexivity; exfalso; rewrite Es in Sg; lra. }
  cbn [convert rprec remax]. apply near_rounds; [exact Vg|].
  assert (X : Qabs (dyadic (Zpos n) f - dyadic (Zpos m) e) == Qabs (sfq (S754_finite s m e) - sfq (S754_finite s n f))).
  { destruct s.
    - apply Qabs_wd. rewrite !sfq_finite. ring.
    - rewrite <- Qabs_opp. apply Qabs_wd. rewrite !sfq_finite. ring. }
  rewrite X. eapply Qlt_le_trans; [exact C|]. rewrite A.
  pose proof Vg as B. apply andb_true_iff in B as [Cm _]. apply Zeq_bool_eq in Cm. unfold SpecFloat.fexp in Cm.
  pose proof (size_of m e) as [_ U]. set (d := Zpos (digits2_pos m)) in *.
  assert (p2 (d + e) <= p2 (24 + e)) by (apply p2_le; lia). rewrite (p2_plus 24 e) in H.
  replace (e - 2)%Z with (-2 + e)%Z by lia. rewrite (p2_plus (-2) e). change (1 # 2 ^ 26) with (1 # 67108864). change (p2 24) with 16777216 in H. change (p2 (-2)) with (1 # 4). lra.
Qed.
Lemma set_pattern t p f r g : eng_to_actual double p f = Ok r -> match t with RReal => convert RReal r | RLreal => r end = g ->
  set_eng_real t p f = Ok (le (rwidth t) (bits_of_float t g)).
Proof. intros E <-. unfold set_eng_real. rewrite E. cbn [bind]. rewrite put_real. destruct t; reflexivity. Qed.

Theorem real_exact h p neg E F f rest : scale_back_ok p -> (0 <= E < rtop RReal)%Z -> (0 <= F < 2 ^ rfrac RReal)%Z ->
  let v := ieee_number RReal neg E F in ~ v == 0 -> inject_Z (Z.abs (pa_offset p)) <= Qabs v * inject_Z (2 ^ 20) ->
  get_eng_real h RReal p (le 4 (pattern RReal neg E F) ++ rest) = Ok f -> set_eng_real RReal p f = Ok (le 4 (pattern RReal neg E F)).
Proof.
  intros K HE HF v Nv Off G. destruct (pattern_double h RReal neg E F f p rest HE HF G) as (g & x & -> & Rx & Vx & Sz & Fg & Vg & Eg & Bg). specialize (Sz eq_refl).
  fold v in Vx, Eg. destruct (real_there_and_back p x K Rx Sz) as (r & E' & [Fr _] & C).
  rewrite <- Bg. apply (set_pattern RReal p _ r g E'). apply narrow_near; [exact Fg|exact Vg|rewrite Eg; exact Nv|exact Fr|].
  rewrite (Qabs_wd (sfq g - sfq r) (sfq x - sfq r)), (Qabs_wd (sfq g) v) by (rewrite ?Eg, ?Vx; reflexivity).
  eapply Qle_lt_trans; [exact C|]. rewrite (Qabs_wd (sfq x) v Vx). assert (O : Qabs (inject_Z (pa_offset p)) == inject_Z (Z.abs (pa_offset p))) by reflexivity.
  rewrite O. assert (0 < Qabs v).
  { pose proof (Qabs_nonneg v). destruct (Qlt_le_dec 0 (Qabs v)) as [P|P]; [exact P|]. exfalso. apply Nv. assert (Z0 : Qabs v <= 0) by lra. apply Qabs_Qle_condition in Z0 as [? ?]. lra. }
  change (inject_Z (2 ^ 20)) with 1048576 in Off. change (1 # 2 ^ 48) with (1 # 281474976710656). change (1 # 2 ^ 26) with (1 # 67108864). lra.
Qed.
Theorem real_scaled hp t p neg E F f rest : scale_back_ok p -> (0 <= E < rtop t)%Z -> (0 <= F < 2 ^ rfrac t)%Z ->
  let v := ieee_number t neg E F in (t = RLreal -> sized 300 v) ->
  get_eng_real hp t p (le (rwidth t) (pattern t neg E F) ++ rest) = Ok f ->
  exists neg' E' F', (0 <= E' < rtop t)%Z /\ (0 <= F' < 2 ^ rfrac t)%Z
    /\ set_eng_real t p f = Ok (le (rwidth t) (pattern t neg' E' F'))
    /\ Qabs (v - ieee_number t neg' E' F') <= (Qabs v + inject_Z (Z.abs (pa_offset p))) * tolerance t.
Proof.
  intros K HE HF v Sv G. pose proof (pattern_double hp t neg E F f p rest HE HF G) as (g & x & Ef & Rx & Vx & Sz & Fg & Vg & Eg & Bg). fold v in Vx, Eg.
  assert (Sx : sized 300 (sfq x)) by (destruct t; [apply Sz; reflexivity|eapply sized_eq; [symmetry; exact Vx|apply Sv; reflexivity]]).
  destruct (real_forward p x K Rx Sx) as [[Rf _] Zf].
  destruct (real_there_and_back p x K Rx Sx) as (r & E' & [Fr Br] & C). pose proof (back_valid p _ r K Rf Zf E') as Vr. rewrite <- Ef in E'.
  assert (O : Qabs (inject_Z (pa_offset p)) == inject_Z (Z.abs (pa_offset p))) by reflexivity. rewrite O, (Qabs_wd (sfq x) v Vx), (Qabs_wd (sfq x - sfq r) (v - sfq r)) in C by (rewrite Vx; reflexivity).
  set (k := inject_Z (Z.abs (pa_offset p))) in *.
  assert (Done : forall h, finite h -> valid_binary (rprec t) (remax t) h = true -> match t with RReal => convert RReal r | RLreal => r end = h ->
     Qabs (v - sfq h) <= (Qabs v + k) * tolerance t ->
     exists neg' E' F', (0 <= E' < rtop t)%Z /\ (0 <= F' < 2 ^ rfrac t)%Z
       /\ set_eng_real t p f = Ok (le (rwidth t) (pattern t neg' E' F')) /\ Qabs (v - ieee_number t neg' E' F') <= (Qabs v + k) * tolerance t).
  { intros h Fh Vh Ch Bh. destruct (float_pattern t h Fh Vh) as (n1 & E1 & F1 & A1 & A2 & A3 & A4). exists n1, E1, F1. split; [exact A1|]. split; [exact A2|].
    split; [rewrite <- A3; exact (set_pattern t p f r h E' Ch)|]. rewrite <- (Qabs_wd (v - sfq h)) by (rewrite A4; reflexivity). exact Bh. }
  destruct t; [|apply (Done r); [exact Fr|exact Vr|reflexivity|exact C]].
  change (1 # 2 ^ 48) with (1 # 281474976710656) in C. cbn [tolerance] in *. change (1 # 2 ^ 43) with (1 # 8796093022208) in *.
  pose proof (Qabs_nonneg v) as v0. assert (k0 : 0 <= k) by (unfold k; change 0 with (inject_Z 0); apply inj_le; lia).
  destruct (Qlt_le_dec (Qabs v * inject_Z (2 ^ 20)) k) as [Big|Sm].
  - (* the offset is the larger part *)
    change (inject_Z (2 ^ 20)) with 1048576 in Big.
    assert (k1 : 1 <= k).
    { unfold k in *. change 1 with (inject_Z 1). apply inj_le. destruct (Z.eq_dec (pa_offset p) 0) as [Z0|Z0]; [|lia]. rewrite Z0 in Big. change (inject_Z (Z.abs 0)) with 0 in Big. lra. }
    assert (k2 : k <= 32768).
    { unfold k. change 32768 with (inject_Z 32768). apply inj_le. destruct K as (_ & (_ & _ & _ & _ & A5 & _) & _). unfold is_s16 in A5. lia. }
    destruct r as [sr|sr| |sr n e]; cbn [finite] in Fr; try contradiction.
    + apply (Done (S754_zero sr)); [exact I|reflexivity|reflexivity|]. lra.
    + pose proof (Qabs_triangle (sfq (S754_finite sr n e) - v) v) as T. rewrite (Qabs_wd (sfq (S754_finite sr n e) - v + v) (sfq (S754_finite sr n e))) in T by ring.
      rewrite <- (Qabs_opp (sfq (S754_finite sr n e) - v)), (Qabs_wd (- (sfq (S754_finite sr n e) - v)) (v - sfq (S754_finite sr n e))) in T by ring.
      assert (A : Qabs (sfq (S754_finite sr n e)) == dyadic (Zpos n) e).
      { pose proof (dyadic_pos n e). rewrite (Qabs_wd _ _ (sfq_finite sr n e)). destruct sr; [rewrite Qabs_opp|]; apply Qabs_pos; lra. }
      rewrite A in T. assert (P1 : 1 <= p2 100) by discriminate.
      destruct (narrow_close sr n e ltac:(lra)) as (h & H1 & H2 & H3 & H4).
      apply (Done h); [exact H2|exact H3|exact H1|].
      rewrite (Qabs_wd _ (sfq (S754_finite sr n e) - sfq h)) in H4 by (rewrite sfq_finite; reflexivity).
      pose proof (Qabs_triangle (v - sfq (S754_finite sr n e)) (sfq (S754_finite sr n e) - sfq h)) as T2.
      rewrite (Qabs_wd (v - sfq (S754_finite sr n e) + (sfq (S754_finite sr n e) - sfq h)) (v - sfq h)) in T2 by ring.
      assert (P2 : p2 (-24) == 1 # 16777216) by reflexivity. assert (P3 : p2 (-150) <= 1 # 18014398509481984) by discriminate. rewrite P2 in H4. lra.
  - change (inject_Z (2 ^ 20)) with 1048576 in Sm. destruct (Qeq_dec v 0) as [Z0|Nz].
    + (* zero, no offset *)
      assert (a0 : Qabs v == 0) by (rewrite (Qabs_wd v 0 Z0); reflexivity). rewrite a0 in *. assert (C0 : Qabs (v - sfq r) <= 0) by lra.
      apply Qabs_Qle_condition in C0 as [C1 C2].
      destruct r as [sr|sr| |sr n e]; cbn [finite] in Fr; try contradiction.
      * apply (Done (S754_zero sr)); [exact I|reflexivity|reflexivity|]. rewrite (Qabs_wd (v - sfq (S754_zero sr)) 0) by (cbn [sfq]; lra). change (Qabs 0) with 0. lra.
      * exfalso. rewrite sfq_finite in C1, C2. pose proof (dyadic_pos n e). destruct sr; lra.
    + (* exactly the same number *)
      apply (Done g); [exact Fg|exact Vg| |].
      * apply narrow_near; [exact Fg|exact Vg|rewrite Eg; exact Nz|exact Fr|].
        rewrite (Qabs_wd (sfq g - sfq r) (v - sfq r)), (Qabs_wd (sfq g) v) by (rewrite ?Eg; reflexivity).
        assert (0 < Qabs v).
        { destruct (Qlt_le_dec 0 (Qabs v)) as [P|P]; [exact P|]. exfalso. apply Nz. assert (Z0 : Qabs v <= 0) by lra. apply Qabs_Qle_condition in Z0 as [? ?]. lra. }
        change (1 # 2 ^ 26) with (1 # 67108864). eapply Qle_lt_trans; [exact C|]. lra.
      * rewrite (Qabs_wd (v - sfq g) 0) by (rewrite Eg; ring). change (Qabs 0) with 0. lra.
Qed.

Theorem real_close h t p neg E F f rest : scale_back_ok p -> (0 <= E < rtop t)%Z -> (0 <= F < 2 ^ rfrac t)%Z ->
  let v := ieee_number t neg E F in (t = RLreal -> sized 300 v) ->
  get_eng_real h t p (le (rwidth t) (pattern t neg E F) ++ rest) = Ok f ->
  finite f /\ Qabs (actual_to_eng exact p v - sfq f) <= Qabs (actual_to_eng exact p v) * (1 # 2 ^ 50).
Proof.
  intros K HE HF v Sv G. destruct (pattern_double h t neg E F f p rest HE HF G) as (g & x & -> & Rx & Vx & Sz & _). fold v in Vx.
  assert (Sx : sized 300 (sfq x)) by (destruct t; [apply Sz; reflexivity|eapply sized_eq; [symmetry; exact Vx|apply Sv; reflexivity]]).
  destruct (real_forward p x K Rx Sx) as [[[Ff _] C] _]. split; [exact Ff|].
  assert (X : actual_to_eng exact p v == eng p (sfq x)) by (rewrite (eng_exact p v (proj1 K)); unfold eng; rewrite Vx; reflexivity).
  cbn [exact num] in *. rewrite (Qabs_wd (actual_to_eng exact p v - _) (eng p (sfq x) - sfq (actual_to_eng double p x))) by (rewrite X; reflexivity).
  rewrite (Qabs_wd _ _ X). exact C.
Qed.
