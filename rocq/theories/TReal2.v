(** Properties of REAL and LREAL parameters with scaling: C74, C75. *)
From Coq Require Import QArith Qabs SpecFloat.
From Verif Require Import Base MBuffer SBuffer MParam SFloat PScale PScale2 PScale3 PScale4 MReal SReal PReal PScale6 TParam.
Local Open Scope Z_scope.

(** The getters of a scalable parameter: the double they return is finite and
    within 2^-50 of the value the formula gives, however large that is. LREAL
    numbers outside 2^-300 .. 2^300 are left out. *)
Theorem C74_real_scaled : forall h t p neg E F f rest,
  pa_scalable p = true -> attributes_ok p -> 0 < pa_mult p * pa_base p < 2 ^ 31 ->
  0 <= E < rtop t -> 0 <= F < 2 ^ rfrac t ->
  let v := ieee_number t neg E F in
  (t = RLreal -> v == 0 \/ (Qpower 2 (-300) <= Qabs v /\ Qabs v < Qpower 2 300))%Q ->
  get_eng_real h t p (le (rwidth t) (pattern t neg E F) ++ rest) = Ok f ->
  finite f /\ (Qabs (actual_to_eng exact p v - sfq f) <= Qabs (actual_to_eng exact p v) * (1 # 2 ^ 50))%Q.
Proof. intros h t p neg E F f rest S A M. exact (real_close h t p neg E F f rest (conj S (conj A M))). Qed.
Print Assumptions C74_real_scaled.

(** What a setter stores when it is given what the getter returned: a finite
    number, away from the one read by at most 2^-43 (REAL) or 2^-48 (LREAL) of
    that number and the offset together. *)
Theorem C75_real_scaled : forall h t p neg E F f rest,
  pa_scalable p = true -> attributes_ok p -> 0 < pa_mult p * pa_base p < 2 ^ 31 ->
  0 <= E < rtop t -> 0 <= F < 2 ^ rfrac t ->
  let v := ieee_number t neg E F in
  (t = RLreal -> v == 0 \/ (Qpower 2 (-300) <= Qabs v /\ Qabs v < Qpower 2 300))%Q ->
  get_eng_real h t p (le (rwidth t) (pattern t neg E F) ++ rest) = Ok f ->
  exists neg' E' F', 0 <= E' < rtop t /\ 0 <= F' < 2 ^ rfrac t
    /\ set_eng_real t p f = Ok (le (rwidth t) (pattern t neg' E' F'))
    /\ (Qabs (v - ieee_number t neg' E' F')
        <= (Qabs v + inject_Z (Z.abs (pa_offset p))) * match t with RReal => 1 # 2 ^ 43 | RLreal => 1 # 2 ^ 48 end)%Q.
Proof. intros h t p neg E F f rest S A M. exact (real_scaled h t p neg E F f rest (conj S (conj A M))). Qed.
Print Assumptions C75_real_scaled.

(** A REAL number other than zero comes back bit by bit, unless the offset is a
    million times larger. *)
Theorem C75_real_exact : forall h p neg E F f rest,
  pa_scalable p = true -> attributes_ok p -> 0 < pa_mult p * pa_base p < 2 ^ 31 ->
  0 <= E < rtop RReal -> 0 <= F < 2 ^ rfrac RReal ->
  let v := ieee_number RReal neg E F in
  (~ v == 0)%Q -> (inject_Z (Z.abs (pa_offset p)) <= Qabs v * inject_Z (2 ^ 20))%Q ->
  get_eng_real h RReal p (le 4 (pattern RReal neg E F) ++ rest) = Ok f ->
  set_eng_real RReal p f = Ok (le 4 (pattern RReal neg E F)).
Proof. intros h p neg E F f rest S A M. exact (real_exact h p neg E F f rest (conj S (conj A M))). Qed.
Print Assumptions C75_real_exact.

(** -0.15625 in a parameter of divisor 49, whose inverse is not exact, and
    12345.5 in one of offset -14 and precision 1. *)
Example C75_real_scaled_example : attributes_ok (scaled 1 49 1 0 0) /\ attributes_ok (scaled 1 2 3 (-14) 1)
  /\ (~ ieee_number RReal true 124 2097152 == 0)%Q
  /\ (inject_Z (Z.abs (pa_offset (scaled 1 2 3 (-14) 1))) <= Qabs (ieee_number RReal false 140 4253184) * inject_Z (2 ^ 20))%Q
  /\ bind (get_eng_real strict RReal (scaled 1 49 1 0 0) [0; 0; 32; 190]) (set_eng_real RReal (scaled 1 49 1 0 0)) = Ok [0; 0; 32; 190]
  /\ (ieee_number RReal false 140 4253184 == 24691 # 2)%Q
  /\ bind (get_eng_real strict RReal (scaled 1 2 3 (-14) 1) (le 4 (pattern RReal false 140 4253184))) (set_eng_real RReal (scaled 1 2 3 (-14) 1))
     = Ok (le 4 (pattern RReal false 140 4253184)).
Proof.
  repeat match goal with |- _ /\ _ => split end; try (vm_compute; reflexivity); try (vm_compute; discriminate);
    unfold attributes_ok, is_u16, is_s16; cbn; lia.
Qed.
(** (-0.15625) / 49, rounded: the quotient lies between -0.00318877552 and
    -0.00318877551. *)
Example C74_real_scaled_example :
  match get_eng_real strict RReal (scaled 1 49 1 0 0) [0; 0; 32; 190] with
  | Ok f => (- (318877552 # 100000000000) < sfq f /\ sfq f < - (318877551 # 100000000000) /\ ~ sfq f == - (5 # 1568))%Q
  | _ => False
  end.
Proof. vm_compute. repeat split; discriminate. Qed.

(** Zero is not stored as zero when there is an offset, however small the
    error: 0 with offset 1 and divisor 49 becomes -2^-53. Without an offset -0 becomes
    0. An LREAL number whose engineering value is out of range is stored as
    infinite. *)
Theorem C75_real_refuted : exists p t neg E F f neg' E' F',
  pa_scalable p = true /\ attributes_ok p /\ 0 < pa_mult p * pa_base p < 2 ^ 31
  /\ get_eng_real strict t p (le (rwidth t) (pattern t neg E F)) = Ok f /\ finite f
  /\ set_eng_real t p f = Ok (le (rwidth t) (pattern t neg' E' F'))
  /\ (ieee_number t neg E F == 0)%Q /\ (ieee_number t neg' E' F' == - (1 # 2 ^ 53))%Q.
Proof.
  exists (scaled 1 49 1 1 0), RReal, false, 0, 0. eexists. exists true, 74, 0.
  split; [reflexivity|]. split; [unfold attributes_ok, is_u16, is_s16; cbn; lia|]. split; [cbn; lia|].
  split; [vm_compute; reflexivity|]. repeat split; vm_compute; reflexivity.
Qed.
Print Assumptions C75_real_refuted.
Theorem C75_lreal_refuted : exists p neg E F f,
  pa_scalable p = true /\ attributes_ok p /\ 0 < pa_mult p * pa_base p < 2 ^ 31 /\ 0 <= E < rtop RLreal /\ 0 <= F < 2 ^ rfrac RLreal
  /\ get_eng_real strict RLreal p (le 8 (pattern RLreal neg E F)) = Ok f
  /\ set_eng_real RLreal p f = Ok (le 8 (pattern RLreal neg (rtop RLreal) 0)).
Proof.
  exists (scaled 10 1 1 0 0), false, 2046, 0, (S754_infinity false).
  split; [reflexivity|]. split; [unfold attributes_ok, is_u16, is_s16; cbn; lia|]. split; [cbn; lia|]. split; [easy|]. split; [easy|].
  split; vm_compute; reflexivity.
Qed.
Print Assumptions C75_lreal_refuted.
Example C75_real_zero : bind (get_eng_real strict RReal (scaled 1 49 1 0 0) (le 4 (pattern RReal true 0 0))) (set_eng_real RReal (scaled 1 49 1 0 0))
  = Ok (le 4 (pattern RReal false 0 0)).
Proof. vm_compute. reflexivity. Qed.

(** Not-a-number values: the getter returns one, and what a setter stores for one
    is one (which is not modelled). *)
Theorem C75_real_nan : forall h t p neg F rest, 0 < F < 2 ^ rfrac t -> 0 <= pa_mult p * pa_base p < 2 ^ 31 ->
  get_eng_real h t p (le (rwidth t) (pattern t neg (rtop t) F) ++ rest) = Ok S754_nan
  /\ exists neg' F', 0 < F' < 2 ^ rfrac t /\ set_eng_real t p S754_nan = Ok (le (rwidth t) (pattern t neg' (rtop t) F')).
Proof.
  intros h t p neg F rest HF M.
  assert (T : 0 <= rtop t <= rtop t) by (destruct t; cbn; lia). assert (HF' : 0 <= F < 2 ^ rfrac t) by lia.
  pose proof (pattern_float t neg (rtop t) F T HF') as P. pose proof (pattern_parts t neg (rtop t) F T HF') as Q. cbv zeta in P, Q.
  rewrite Z.eqb_refl in P. destruct (Z.eqb_spec F 0); [lia|]. destruct Q as (_ & _ & _ & Q). split.
  - unfold get_eng_real. rewrite get_real by exact Q. rewrite P. cbn [bind]. unfold actual_to_eng. destruct t, (pa_scalable p); reflexivity.
  - exists false, (2 ^ (rfrac t - 1)). split; [destruct t; cbn; lia|]. unfold set_eng_real, eng_to_actual.
    destruct (pa_scalable p).
    + destruct (Z.ltb_spec (pa_mult p * pa_base p) 2147483648); [|lia].
      destruct t; cbn [bind]; rewrite put_real; reflexivity.
    + destruct t; cbn [bind]; rewrite put_real; reflexivity.
Qed.
Print Assumptions C75_real_nan.
Example C75_real_nan_example : 0 < 4194304 < 2 ^ rfrac RReal /\ 0 <= pa_mult (scaled 1 49 1 0 0) * pa_base (scaled 1 49 1 0 0) < 2 ^ 31
  /\ get_eng_real strict RReal (scaled 1 49 1 0 0) [0; 0; 192; 255] = Ok S754_nan
  /\ set_eng_real RReal (scaled 1 49 1 0 0) S754_nan = Ok [0; 0; 192; 127].
Proof. repeat split; reflexivity || discriminate. Qed.
