(** REAL and LREAL values of parameters. *)
From Coq Require Import ZArith QArith Qabs Qpower SpecFloat Lia Lqa.
From Verif Require Import Base MBuffer SBuffer PBase PBuffer PReader MParam PScale MReal SReal SFloat PFloat.
Local Open Scope Z_scope.

(** ** Rounding a number that fits *)
Lemma digits_shift m k m' : 0 <= k -> Zpos m' = Zpos m * 2 ^ k -> Zpos (digits2_pos m') = Zpos (digits2_pos m) + k.
Proof.
  intros K E. pose proof (digits2 m) as [A B]. pose proof (digits2 m') as [A' B'].
  set (d := Z.pos (digits2_pos m)) in *. set (d' := Z.pos (digits2_pos m')) in *.
  assert (0 < 2 ^ k) by (apply Z.pow_pos_nonneg; lia).
  assert (L : 2 ^ (d - 1 + k) <= Zpos m') by (rewrite Z.pow_add_r by lia; nia).
  assert (U : Zpos m' < 2 ^ (d + k)) by (rewrite Z.pow_add_r by lia; nia).
  assert (d - 1 + k < d') by (apply (Z.pow_lt_mono_r_iff 2); lia).
  assert (d' - 1 < d + k) by (apply (Z.pow_lt_mono_r_iff 2); lia). lia.
Qed.
Lemma place_exact m r : at_place (inject_Z m) r -> shr_m r = m -> loc_of_shr_record r = loc_Exact.
Proof.
  destruct r as [n [] []]; unfold at_place; cbn; intros K E; subst; try reflexivity; exfalso; unconj; lra.
Qed.
Lemma round_fits prec emax s m e m' e' : bounded prec emax m e = true ->
  (e' <= e /\ Zpos m' = Zpos m * 2 ^ (e - e') \/ e <= e' /\ Zpos m = Zpos m' * 2 ^ (e' - e)) ->
  binary_round prec emax s m' e' = S754_finite s m e.
Proof.
  intros B H. apply andb_true_iff in B as [C T]. apply Zeq_bool_eq in C. apply Zle_bool_imp_le in T.
  assert (D : Zpos (digits2_pos m') + e' = Zpos (digits2_pos m) + e).
  { destruct H as [[L E]|[L E]]; [rewrite (digits_shift m (e - e') m')|rewrite (digits_shift m' (e' - e) m)]; lia. }
  assert (Aux : forall n f, f <= e -> Zpos n = Zpos m * 2 ^ (e - f) -> binary_round_aux prec emax s (Zpos n) f loc_Exact = S754_finite s m e).
  { intros n f L E. assert (Dn : Zpos (digits2_pos n) + f = Zpos (digits2_pos m) + e) by (rewrite (digits_shift m (e - f) n); lia).
    unfold binary_round_aux, shr_fexp. cbn [Zdigits2]. rewrite Dn, C. cbn [shr_record_of_loc].
    destruct (shr_place (inject_Z (Zpos n)) {| shr_m := Z.pos n; shr_r := false; shr_s := false |} f (e - f)) as (r & E1 & E2 & E3);
      [cbn; lia|lia|unfold at_place; reflexivity|]. rewrite E1. replace (f + (e - f)) with e by lia.
    assert (M : shr_m r = Zpos m) by (rewrite E2; cbn [shr_m]; rewrite E; apply Z.div_mul; apply Z.pow_nonzero; lia).
    assert (LE : loc_of_shr_record r = loc_Exact).
    { apply (place_exact (Zpos m)); [|exact M]. eapply place_eq; [|exact E3]. rewrite E, inject_Z_mult, <- (p2_Z (e - f)) by lia.
      rewrite <- Qmult_assoc, <- p2_plus. replace (e - f + - (e - f)) with 0 by lia. change (p2 0) with 1%Q. ring. }
    rewrite M, LE. cbn [round_nearest_even Zdigits2]. rewrite C, Z.sub_diag. cbn [shr shr_record_of_loc shr_m].
    rewrite (Zle_imp_le_bool _ _ T). reflexivity. }
  unfold binary_round. rewrite D, C. unfold shl_align. destruct (e - e') as [|d|d] eqn:K.
  - apply Aux; [lia|]. replace (e - e') with 0 by lia. destruct H as [[_ E]|[_ E]]; [replace (e - e') with 0 in E by lia|replace (e' - e) with 0 in E by lia]; lia.
  - apply Aux; [lia|]. destruct H as [[_ E]|[L _]]; [rewrite K; exact E|lia].
  - apply Aux; [lia|]. rewrite Z.sub_diag, shift_pos_mul. destruct H as [[L _]|[_ E]]; [lia|]. rewrite E. replace (e' - e) with (Zpos d) by lia. lia.
Qed.
(** A binary32 number is a binary64 number ... *)
Lemma widen s m e : bounded 24 128 m e = true ->
  exists m' e', convert RLreal (S754_finite s m e) = S754_finite s m' e' /\ e' <= e /\ Zpos m' = Zpos m * 2 ^ (e - e') /\ bounded 53 1024 m' e' = true.
Proof.
  intros B. assert (B' := B). apply andb_true_iff in B as [C T]. apply Zeq_bool_eq in C. apply Zle_bool_imp_le in T. unfold fexp, emin in C.
  set (d := Zpos (digits2_pos m)) in *. set (k := 53 - d). assert (d <= 24) by lia. assert (0 < d) by (unfold d; lia).
  assert (P : 0 < Zpos m * 2 ^ k) by (apply Z.mul_pos_pos; [lia|apply Z.pow_pos_nonneg; lia]).
  destruct (Zpos m * 2 ^ k) as [|n|n] eqn:E; [lia| |lia].
  assert (Dn : Zpos (digits2_pos n) = d + k) by (apply digits_shift; lia).
  assert (Bn : bounded 53 1024 n (e - k) = true).
  { apply andb_true_iff. unfold canonical_mantissa. rewrite Dn. unfold fexp, emin. split; [apply Zeq_is_eq_bool; lia|apply Zle_imp_le_bool; lia]. }
  exists n, (e - k). split; [|split; [lia|split; [replace (e - (e - k)) with k by lia; lia|exact Bn]]].
  cbn [convert rprec remax]. apply round_fits; [exact Bn|]. right. split; [lia|]. replace (e - (e - k)) with k by lia. lia.
Qed.
Lemma widen_exact f : valid_binary 24 128 f = true -> (sfq (convert RLreal f) == sfq f)%Q /\ (finite f -> finite (convert RLreal f)).
Proof.
  destruct f as [s|s| |s m e]; try (split; [reflexivity|exact (fun x => x)]). intros B. destruct (widen s m e B) as (m' & e' & -> & L & E & _).
  split; [|exact (fun x => x)]. rewrite !sfq_finite, E. assert (K : 0 <= e - e') by lia. pose proof (dyadic_shift (Zpos m) e (e - e') K) as D. replace (e - (e - e')) with e' in D by lia.
  destruct s; rewrite D; reflexivity.
Qed.
(** ... and comes back unchanged. *)
Lemma narrow_widen f : valid_binary 24 128 f = true -> convert RReal (convert RLreal f) = f.
Proof.
  destruct f as [s|s| |s m e]; try reflexivity. intros B. destruct (widen s m e B) as (m' & e' & -> & L & E & _).
  cbn [convert rprec remax]. apply round_fits; [exact B|]. left. split; assumption.
Qed.

(** ** Bit patterns *)
Lemma div_part a b : 0 < b -> forall x, 0 <= x < b -> (a * b + x) / b = a /\ (a * b + x) mod b = x.
Proof.
  intros B x X. split.
  - rewrite Z.add_comm, Z.div_add by lia. rewrite Z.div_small; lia.
  - rewrite Z.add_comm, Z.mod_add by lia. apply Z.mod_small. lia.
Qed.
Lemma pattern_parts t neg E F : 0 <= E <= rtop t -> 0 <= F < 2 ^ rfrac t ->
  let x := pattern t neg E F in
  x mod 2 ^ frac_bits t = F /\ x / 2 ^ frac_bits t mod 2 ^ exp_bits t = E /\ Z.testbit x (frac_bits t + exp_bits t) = neg
  /\ 0 <= x < 256 ^ Z.of_nat (rwidth t).
Proof.
  intros HE HF. cbv zeta. change (rfrac t) with (frac_bits t) in *.
  assert (P : 0 < 2 ^ frac_bits t) by (destruct t; reflexivity). assert (Te : rtop t + 1 = 2 ^ exp_bits t) by (destruct t; reflexivity).
  set (b := 2 ^ frac_bits t) in *. set (q := (if neg then rtop t + 1 else 0) + E).
  assert (X : pattern t neg E F = q * b + F).
  { unfold pattern, q. change (rfrac t) with (frac_bits t). fold b. destruct neg; lia. }
  rewrite X. destruct (div_part q b P F HF) as [D M]. rewrite D, M. split; [reflexivity|].
  assert (Dq : q mod 2 ^ exp_bits t = E /\ q / 2 ^ exp_bits t = if neg then 1 else 0).
  { rewrite <- Te. destruct (div_part (if neg then 1 else 0) (rtop t + 1) ltac:(destruct t; reflexivity) E ltac:(lia)) as [U V].
    replace q with ((if neg then 1 else 0) * (rtop t + 1) + E) by (unfold q; destruct neg; lia). split; assumption. }
  destruct Dq as [D1 D2]. split; [exact D1|]. split.
  - rewrite Z.testbit_odd, Z.shiftr_div_pow2 by (destruct t; cbn; lia). rewrite Z.pow_add_r by (destruct t; cbn; lia). fold b.
    rewrite <- Z.div_div by (try apply Z.pow_pos_nonneg; destruct t; cbn; lia). rewrite D, D2. destruct neg; reflexivity.
  - assert (W : 256 ^ Z.of_nat (rwidth t) = 2 * (rtop t + 1) * b) by (destruct t; reflexivity). rewrite W.
    assert (0 <= q <= 2 * (rtop t + 1) - 1) by (unfold q; destruct neg; lia). nia.
Qed.
Lemma get_real h t x rest : 0 <= x < 256 ^ Z.of_nat (rwidth t) -> encode_real h t (le (rwidth t) x ++ rest) = Ok (float_of_bits t x).
Proof.
  intros R. unfold encode_real. destruct t; cbn [rwidth] in *.
  - unfold get_f32. rewrite buf_of_at, get_u32_le. cbn [omap bind fst]. rewrite u32_small by exact R. reflexivity.
  - unfold get_f64. rewrite buf_of_at, get_u64_le. cbn [omap bind fst]. rewrite u64_small by exact R. reflexivity.
Qed.
Lemma put_real t f : decode_real t f = le (rwidth t) (bits_of_float t f).
Proof. unfold decode_real, put_f32, put_f64. destruct t; cbn [rwidth]; [rewrite put_u32_le|rewrite put_u64_le]; reflexivity. Qed.

Lemma digits_eq m k : 2 ^ (k - 1) <= Zpos m < 2 ^ k -> 0 < k -> Zpos (digits2_pos m) = k.
Proof. intros [A B] K. pose proof (digits_le m k B ltac:(lia)). pose proof (digits_ge m (k - 1) A). lia. Qed.
(** The float of a pattern and back. *)
Lemma pattern_float t neg E F : 0 <= E <= rtop t -> 0 <= F < 2 ^ rfrac t ->
  let f := float_of_bits t (pattern t neg E F) in
  if E =? rtop t then f = if F =? 0 then S754_infinity neg else S754_nan
  else finite f /\ valid_binary (rprec t) (remax t) f = true /\ bits_of_float t f = pattern t neg E F /\ (sfq f == ieee_number t neg E F)%Q.
Proof.
  intros HE HF. cbv zeta. destruct (pattern_parts t neg E F HE HF) as (P1 & P2 & P3 & _). cbv zeta in *.
  unfold float_of_bits. rewrite P1, P2, P3. assert (Te : 2 ^ exp_bits t - 1 = rtop t) by (destruct t; reflexivity). rewrite Te.
  destruct (Z.eqb_spec E 0) as [->|E0].
  - destruct (Z.eqb_spec 0 (rtop t)) as [K|_]; [destruct t; discriminate|].
    assert (Em : emin (rprec t) (remax t) = 1 - rbias t - rfrac t) by (destruct t; reflexivity).
    destruct F as [|p|p]; [| |lia].
    + split; [exact I|]. split; [reflexivity|]. split.
      * unfold bits_of_float, pattern. destruct t, neg; reflexivity.
      * unfold ieee_number. cbn [sfq]. change (0 =? 0) with true. cbn iota. unfold Qdiv. change (inject_Z 0) with 0%Q. rewrite Qmult_0_l, Qplus_0_r, Qmult_0_r, Qmult_0_l. reflexivity.
    + split; [exact I|]. split; [|split].
      * cbn [valid_binary]. apply andb_true_iff. unfold canonical_mantissa, fexp.
        assert (Zpos (digits2_pos p) <= rfrac t) by (apply digits_le; [lia|destruct t; cbn; lia]).
        split; [apply Zeq_is_eq_bool; destruct t; cbn [rfrac rprec remax] in *; unfold emin; lia|apply Zle_imp_le_bool; destruct t; cbn; unfold emin; lia].
      * unfold bits_of_float, pattern. change (rfrac t) with (frac_bits t) in *. destruct (Z.ltb_spec (Zpos p) (2 ^ frac_bits t)); [|lia].
        destruct t, neg; cbn [rtop frac_bits exp_bits]; lia.
      * rewrite Em. unfold ieee_number. change (0 =? 0) with true. cbn iota. change (Z.max 0 1) with 1. rewrite sfq_finite.
        unfold dyadic. fold (p2 (1 - rbias t - rfrac t)) (p2 (1 - rbias t)). 
        assert (K : (p2 (1 - rbias t - rfrac t) == p2 (1 - rbias t) / inject_Z (2 ^ rfrac t))%Q).
        { replace (1 - rbias t - rfrac t) with (1 - rbias t + - rfrac t) by lia. rewrite p2_plus.
          assert (Q1 : (p2 (- rfrac t) == / inject_Z (2 ^ rfrac t))%Q) by (destruct t; reflexivity). rewrite Q1. reflexivity. }
        assert (NZ : ~ (inject_Z (2 ^ rfrac t) == 0)%Q) by (destruct t; discriminate).
        change (inject_Z 0) with 0%Q. destruct neg; rewrite K; field; exact NZ.
  - destruct (Z.eqb_spec E (rtop t)) as [->|E1]; [reflexivity|].
    change (rfrac t) with (frac_bits t) in *. set (b := 2 ^ frac_bits t) in *.
    assert (0 < b) by (destruct t; reflexivity). destruct (F + b) as [|p|p] eqn:Ep; [lia| |lia].
    assert (D : Zpos (digits2_pos p) = rprec t).
    { apply digits_eq; [|destruct t; reflexivity]. replace (rprec t - 1) with (frac_bits t) by (destruct t; reflexivity). fold b.
      replace (2 ^ rprec t) with (2 * b) by (destruct t; reflexivity). lia. }
    split; [exact I|]. split; [|split].
    + cbn [valid_binary]. apply andb_true_iff. unfold canonical_mantissa, fexp. rewrite D.
      split; [apply Zeq_is_eq_bool|apply Zle_imp_le_bool]; destruct t; cbn [rprec remax rtop] in *; unfold emin; lia.
    + unfold bits_of_float, pattern. change (rfrac t) with (frac_bits t). fold b. destruct (Z.ltb_spec (Zpos p) b); [lia|].
      assert (2 ^ (frac_bits t + exp_bits t) = (rtop t + 1) * b) by (destruct t; reflexivity).
      destruct neg; lia.
    + unfold ieee_number. change (rfrac t) with (frac_bits t). fold b. destruct (Z.eqb_spec E 0); [contradiction|]. rewrite Z.max_l by lia. rewrite sfq_finite.
      unfold dyadic. fold (p2 (E - 1 + emin (rprec t) (remax t))) (p2 (E - rbias t)).
      assert (K : (p2 (E - 1 + emin (rprec t) (remax t)) == p2 (E - rbias t) / inject_Z b)%Q).
      { replace (E - 1 + emin (rprec t) (remax t)) with (E - rbias t + - frac_bits t) by (destruct t; cbn; unfold emin; lia). rewrite p2_plus.
        assert (Q1 : (p2 (- frac_bits t) == / inject_Z b)%Q) by (unfold b; destruct t; reflexivity). rewrite Q1. reflexivity. }
      rewrite <- Ep. assert (NZ : ~ (inject_Z b == 0)%Q) by (unfold b; destruct t; discriminate).
      change (inject_Z 1) with 1%Q. destruct neg; rewrite K, inject_Z_plus; field; exact NZ.
Qed.

Lemma short_real t d : (List.length d < rwidth t)%nat -> encode_real strict t d = Undef UbOobRead.
Proof.
  intros L. unfold encode_real. destruct t; cbn [rwidth] in L; do 8 (destruct d as [|? d]; [first [reflexivity|cbn [List.length] in L; lia]|]); cbn [List.length] in L; lia.
Qed.

(** ** The theorems *)
Theorem real_read h t neg E F rest : 0 <= E <= rtop t -> 0 <= F < 2 ^ rfrac t ->
  exists f, encode_real h t (le (rwidth t) (pattern t neg E F) ++ rest) = Ok f
    /\ if E =? rtop t then f = if F =? 0 then S754_infinity neg else S754_nan
       else finite f /\ (sfq f == ieee_number t neg E F)%Q.
Proof.
  intros HE HF. destruct (pattern_parts t neg E F HE HF) as (_ & _ & _ & R). cbv zeta in R. eexists. split; [apply get_real; exact R|].
  pose proof (pattern_float t neg E F HE HF) as K. cbv zeta in K. destruct (E =? rtop t); [exact K|]. destruct K as (K1 & _ & _ & K2). split; assumption.
Qed.
Theorem real_eng h t p neg E F rest : 0 <= E < rtop t -> 0 <= F < 2 ^ rfrac t ->
  exists f, get_eng_real h t p (le (rwidth t) (pattern t neg E F) ++ rest) = Ok (actual_to_eng double p f)
    /\ finite f /\ (sfq f == ieee_number t neg E F)%Q.
Proof.
  intros HE HF. destruct (pattern_parts t neg E F ltac:(lia) HF) as (_ & _ & _ & R). cbv zeta in R.
  pose proof (pattern_float t neg E F ltac:(lia) HF) as K. cbv zeta in K. destruct (Z.eqb_spec E (rtop t)); [lia|]. destruct K as (K1 & K2 & _ & K3).
  unfold get_eng_real. rewrite get_real by exact R. cbn [bind]. eexists. split; [reflexivity|]. destruct t; [|split; assumption].
  destruct (widen_exact _ K2) as [W1 W2]. split; [exact (W2 K1)|]. rewrite W1. exact K3.
Qed.
Theorem real_kept t p neg E F f : pa_scalable p = false -> 0 <= E <= rtop t -> 0 <= F < 2 ^ rfrac t -> (E = rtop t -> F = 0) ->
  get_eng_real strict t p (le (rwidth t) (pattern t neg E F)) = Ok f -> set_eng_real t p f = Ok (le (rwidth t) (pattern t neg E F)).
Proof.
  intros S0 HE HF N G. destruct (pattern_parts t neg E F HE HF) as (_ & _ & _ & R). cbv zeta in R.
  pose proof (pattern_float t neg E F HE HF) as K. cbv zeta in K. unfold get_eng_real in G. pose proof (get_real strict t _ [] R) as G'. rewrite app_nil_r in G'. rewrite G' in G.
  cbn [bind] in G. inv G. rewrite (proj1 (identity_any double p _ S0)).
  unfold set_eng_real. rewrite (proj2 (identity_any double p _ S0)). cbn [bind]. rewrite put_real. f_equal. f_equal.
  set (x := pattern t neg E F) in *. set (f := float_of_bits t x) in *.
  assert (V : valid_binary (rprec t) (remax t) f = true /\ bits_of_float t f = x).
  { destruct (Z.eqb_spec E (rtop t)) as [->|_].
    - rewrite N in K by reflexivity. cbn in K. subst f. rewrite K. split; [reflexivity|]. unfold x, pattern. rewrite N by reflexivity. destruct t, neg; reflexivity.
    - destruct K as (_ & K1 & K2 & _). split; assumption. }
  destruct V as [V1 V2]. destruct t; [|exact V2]. change (convert RReal (convert RLreal f)) with (convert RReal (convert RLreal f)). rewrite narrow_widen by exact V1. exact V2.
Qed.

Theorem nan_kept t p neg F f : pa_scalable p = false -> 0 < F < 2 ^ rfrac t ->
  get_eng_real strict t p (le (rwidth t) (pattern t neg (rtop t) F)) = Ok f ->
  exists neg' F', 0 < F' < 2 ^ rfrac t /\ set_eng_real t p f = Ok (le (rwidth t) (pattern t neg' (rtop t) F')).
Proof.
  intros S0 HF G. assert (HE : 0 <= rtop t <= rtop t) by (destruct t; cbn; lia).
  destruct (pattern_parts t neg (rtop t) F HE ltac:(lia)) as (_ & _ & _ & R). cbv zeta in R.
  pose proof (pattern_float t neg (rtop t) F HE ltac:(lia)) as K. cbv zeta in K. rewrite Z.eqb_refl in K.
  destruct (Z.eqb_spec F 0); [lia|].
  unfold get_eng_real in G. pose proof (get_real strict t _ [] R) as G'. rewrite app_nil_r in G'. rewrite G', K in G.
  cbn [bind] in G. inv G. rewrite (proj1 (identity_any double p _ S0)).
  exists false, (2 ^ (rfrac t - 1)). split; [destruct t; cbn; lia|].
  unfold set_eng_real. rewrite (proj2 (identity_any double p _ S0)). cbn [bind]. rewrite put_real. destruct t; reflexivity.
Qed.
