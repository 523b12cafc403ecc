(** Scaling of REAL and LREAL parameters in binary64. *)
From Coq Require Import ZArith QArith Qabs Qpower SpecFloat Lia Lqa.
From Verif Require Import Base MBuffer SBuffer MParam SParam PParam3 SFloat PFloat PScale PScale2 PScale3 MReal SReal PReal PRound.
Local Open Scope Q_scope.

(** [f] is [x] with a relative error of at most [e] *)
Definition near (f : spec_float) (x e : Q) : Prop := rep f /\ Qabs (x - sfq f) <= Qabs x * e.
Definition next (e : Q) : Q := e + (1 + e) * u53.
Definition small (e : Q) : Prop := 0 <= e /\ e <= 1 # 4.

Lemma near_bounds f x e : small e -> near f x e ->
  (3 # 4) * Qabs x <= Qabs (sfq f) /\ Qabs (sfq f) <= Qabs x * (1 + e) /\ Qabs (sfq f) <= 2 * Qabs x.
Proof.
  intros [E0 E1] [_ A].
  pose proof (Qabs_triangle (sfq f) (x - sfq f)) as T1. rewrite (Qabs_wd (sfq f + (x - sfq f)) x) in T1 by ring.
  pose proof (Qabs_triangle x (- (x - sfq f))) as T2. rewrite (Qabs_wd (x + - (x - sfq f)) (sfq f)), Qabs_opp in T2 by ring.
  pose proof (Qabs_nonneg x) as X. assert (Qabs x * e <= Qabs x * (1 # 4)) by nra. repeat split; lra.
Qed.
Lemma near_next f x e c h : small e -> 0 < c -> near f x e -> rounds h (sfq f * c) -> near h (x * c) (next e).
Proof.
  intros L C A [[F [B _]] R]. destruct (near_bounds f x e L A) as (_ & U & _). destruct A as [_ A]. destruct L as [E0 _].
  split; [split; assumption|]. unfold next.
  pose proof (Qabs_triangle ((x - sfq f) * c) (sfq f * c - sfq h)) as T. rewrite (Qabs_wd ((x - sfq f) * c + (sfq f * c - sfq h)) (x * c - sfq h)) in T by ring.
  rewrite (abs_scale (x - sfq f) c) in T by lra. rewrite (abs_scale (sfq f) c) in R by lra. rewrite (abs_scale x c) by lra.
  assert (H1 : Qabs (x - sfq f) * c <= Qabs x * e * c) by (apply le_mul_r; lra).
  assert (H2 : Qabs (sfq f) * c * u53 <= Qabs x * (1 + e) * c * u53).
  { apply le_mul_r; [discriminate|]. apply le_mul_r; lra. }
  fold u53 in R. assert (H3 : Qabs x * c * (e + (1 + e) * u53) == Qabs x * e * c + Qabs x * (1 + e) * c * u53) by ring. lra.
Qed.
Lemma near_zero f x e : near f x e -> x == 0 -> sfq f == 0.
Proof.
  intros [_ A] E. rewrite (Qabs_wd x 0 E) in A. change (Qabs 0) with 0 in A. assert (A' : Qabs (x - sfq f) <= 0) by lra.
  apply Qabs_Qle_condition in A' as [U V]. lra.
Qed.
Lemma near_ordinary f x e a c : small e -> (0 <= a <= 900)%Z -> 0 < c -> near f x e -> sized a (x * c) -> ordinary (sfq f * c).
Proof.
  intros L Aa C A [E|[Lo Up]].
  - left. assert (x == 0) as X0. { destruct (Qeq_dec x 0) as [X|X]; [exact X|]. exfalso. assert (x * c / c == 0) by (rewrite E; field; lra). apply X. rewrite <- H. field. lra. }
    rewrite (near_zero f x e A X0). ring.
  - right. destruct (near_bounds f x e L A) as (B1 & _ & B2). rewrite abs_scale in * by lra.
    assert (T1 : (3 # 4) * Qabs x * c <= Qabs (sfq f) * c) by (apply le_mul_r; lra). assert (T2 : Qabs (sfq f) * c <= 2 * Qabs x * c) by (apply le_mul_r; lra).
    assert (P1 : p2 (-960) <= (1 # 2) * p2 (- a)).
    { assert (H : p2 (- 1) == 1 # 2) by reflexivity. rewrite <- H, <- p2_plus. apply p2_le. lia. }
    assert (P2 : 2 * p2 a <= p2 960).
    { assert (H : p2 1 == 2) by reflexivity. rewrite <- H, <- p2_plus. apply p2_le. lia. }
    pose proof (p2_pos (- a)). split; nra.
Qed.
Lemma near_mul f x e a g c : small e -> (0 <= a <= 800)%Z -> near f x e -> sized a x -> finite g -> sfq g == c -> 1 <= c -> c < p2 60 ->
  near (SFmul 53 1024 f g) (x * c) (next e) /\ sized (a + 60) (x * c).
Proof.
  intros L Aa A S0 G E C1 C2. assert (S1 : sized (a + 60) (x * c)) by (apply sized_mul; [lia|assumption..]). split; [|exact S1].
  apply (near_next f x e c); [assumption|lra|assumption|].
  apply (rounds_eq _ (sfq f * sfq g)); [rewrite E; reflexivity|]. apply mul_rounds; [apply A|exact G|].
  apply (ordinary_eq (sfq f * c)); [rewrite E; reflexivity|]. apply (near_ordinary f x e (a + 60)); [assumption|lia|lra|assumption|assumption].
Qed.
Lemma near_div f x e a g d : small e -> (0 <= a <= 800)%Z -> near f x e -> sized a x -> finite g -> sfq g == d -> 1 <= d -> d < p2 60 ->
  near (SFdiv 53 1024 f g) (x * / d) (next e) /\ sized (a + 60) (x * / d).
Proof.
  intros L Aa A S0 G E C1 C2. assert (S1 : sized (a + 60) (x * / d)) by (apply sized_div; [lia|assumption..]). split; [|exact S1].
  assert (D : 0 < / d) by (apply Qinv_lt_0_compat; lra).
  apply (near_next f x e (/ d)); [assumption|assumption|assumption|].
  apply (rounds_eq _ (sfq f / sfq g)); [rewrite E; reflexivity|]. apply div_rounds; [apply A|exact G|rewrite E; lra|].
  apply (ordinary_eq (sfq f * / d)); [rewrite E; reflexivity|]. apply (near_ordinary f x e (a + 60)); [assumption|lia|assumption|assumption|assumption].
Qed.

(** adding the offset *)
Lemma sized_weaker a b x : (a <= b)%Z -> sized a x -> sized b x.
Proof.
  intros L [E|[A B]]; [now left|right]. split; [apply Qle_trans with (p2 (- a)); [apply p2_le; lia|assumption]|].
  apply Qlt_le_trans with (p2 a); [assumption|apply p2_le; lia].
Qed.
Lemma sized_eq a x y : x == y -> sized a x -> sized a y.
Proof. intros E [A|[A B]]; [left; rewrite <- E; exact A|right]. rewrite <- (Qabs_wd _ _ E). split; assumption. Qed.
Lemma sum_sized f k : rep f -> sized 300 (sfq f) -> (Z.abs k < 2 ^ 53)%Z -> sized 301 (sfq f + inject_Z k).
Proof.
  intros [F (m & e & M & E)] Sz K. destruct Sz as [Z0|[L U]].
  { apply (sized_eq _ (inject_Z k)); [rewrite Z0; ring|]. destruct (Z.eq_dec k 0) as [->|Kn]; [left; reflexivity|right].
    assert (K1 : Qabs (inject_Z k) == inject_Z (Z.abs k)) by reflexivity. rewrite K1. split.
    - apply Qle_trans with 1; [discriminate|]. change 1 with (inject_Z 1). apply inj_le. lia.
    - apply Qlt_le_trans with (p2 53); [|apply p2_le; lia]. rewrite p2_Z by lia. apply inj_lt. lia. }
  destruct (Z.eq_dec k 0) as [->|Kn].
  { apply (sized_eq _ (sfq f)); [change (inject_Z 0) with 0; ring|]. apply (sized_weaker 300); [lia|]. right. split; assumption. }
  assert (K1 : Qabs (inject_Z k) == inject_Z (Z.abs k)) by reflexivity.
  assert (K2 : inject_Z (Z.abs k) < p2 53) by (rewrite p2_Z by lia; apply inj_lt; lia).
  assert (K3 : 1 <= inject_Z (Z.abs k)) by (change 1 with (inject_Z 1); apply inj_le; lia).
  assert (Up : Qabs (sfq f + inject_Z k) < p2 301).
  { pose proof (Qabs_triangle (sfq f) (inject_Z k)) as T. rewrite K1 in T.
    assert (p2 53 <= p2 300) by (apply p2_le; lia). assert (H1 : p2 301 == 2 * p2 300) by (change 301%Z with (1 + 300)%Z; rewrite p2_plus, p2_1; reflexivity). lra. }
  destruct (Qlt_le_dec (Qabs (sfq f)) (1 # 2)) as [Sm|Bg].
  - right. split; [|assumption]. pose proof (Qabs_triangle (- sfq f) (sfq f + inject_Z k)) as T.
    rewrite (Qabs_wd (- sfq f + (sfq f + inject_Z k)) (inject_Z k)), Qabs_opp, K1 in T by ring.
    assert (p2 (- (301)) <= p2 (-1)) by (apply p2_le; lia). assert (p2 (-1) == 1 # 2) by reflexivity. lra.
  - assert (He : (-54 <= e)%Z).
    { destruct (Z_lt_le_dec e (-54)) as [B|B]; [|exact B]. exfalso.
      assert (A1 : Qabs (sfq f) == inject_Z (Z.abs m) * p2 e).
      { rewrite (Qabs_wd _ _ E). unfold dyadic. fold (p2 e). rewrite Qabs_Qmult, (Qabs_pos (p2 e)) by (pose proof (p2_pos e); lra). reflexivity. }
      assert (A2 : inject_Z (Z.abs m) < p2 53) by (rewrite p2_Z by lia; apply inj_lt; lia).
      assert (A3 : p2 e <= p2 (-55)) by (apply p2_le; lia). pose proof (p2_pos e).
      assert (A5 : 0 <= inject_Z (Z.abs m)) by (change 0 with (inject_Z 0); apply inj_le; lia).
      assert (inject_Z (Z.abs m) * p2 e <= p2 53 * p2 (-55)) by (apply Qle_trans with (p2 53 * p2 e); [apply le_mul_r; lra|]; rewrite !(Qmult_comm (p2 53)); apply le_mul_r; [discriminate|assumption]).
      assert (p2 53 * p2 (-55) == 1 # 4) by reflexivity. lra. }
    set (z := (m * 2 ^ (e - -54) + k * 2 ^ 54)%Z).
    assert (Ez : sfq f + inject_Z k == inject_Z z * p2 (-54)).
    { unfold z. rewrite E, (dyadic_multiple m e (-54) He). rewrite inject_Z_plus, (inject_Z_mult k).
      assert (H : inject_Z (2 ^ 54) * p2 (-54) == 1) by reflexivity. rewrite Qmult_plus_distr_l, <- (Qmult_assoc (inject_Z k)), H. ring. }
    destruct (Z.eq_dec z 0) as [Z0|Zn]; [left; rewrite Ez, Z0; reflexivity|]. right. split; [|assumption].
    rewrite (Qabs_wd _ _ Ez), abs_scale by discriminate. assert (1 <= Qabs (inject_Z z)).
    { assert (Qabs (inject_Z z) == inject_Z (Z.abs z)) by reflexivity. rewrite H. change 1 with (inject_Z 1). apply inj_le. lia. }
    assert (p2 (- (301)) <= p2 (-54)) by (apply p2_le; lia). assert (0 < p2 (-54)) by reflexivity. nra.
Qed.
Lemma sum_near f k : rep f -> sized 300 (sfq f) -> (Z.abs k < 2 ^ 53)%Z ->
  near (nadd double f (of_int double k)) (sfq f + inject_Z k) u53.
Proof.
  intros R Sz K. destruct (holds_int k K) as [G1 G2].
  assert (Q0 : rounds (SFadd 53 1024 f (of_int double k)) (sfq f + sfq (of_int double k))).
  { apply add_rounds; [apply R|exact G1|apply R|exists k, 0%Z; split; [exact K|rewrite G2; symmetry; apply dyadic_int]|].
    apply (ordinary_eq (sfq f + inject_Z k)); [rewrite G2; reflexivity|].
    destruct (sum_sized f k R Sz K) as [Z0|[L U]]; [now left|right]. split; [apply Qle_trans with (p2 (- (301))); [apply p2_le; lia|assumption]|].
    apply Qlt_le_trans with (p2 301); [assumption|apply p2_le; lia]. }
  apply (rounds_eq _ _ (sfq f + inject_Z k)) in Q0; [|rewrite G2; reflexivity]. destruct Q0 as [[F [B _]] Q0]. split; [split; assumption|exact Q0].
Qed.

(** the exact engineering value *)
Definition eng (p : param) (q : Q) : Q := (q + inject_Z (pa_offset p)) * inject_Z (pa_mult p) * inject_Z (pa_base p) * / inject_Z (denominator p).
Lemma eng_exact p q : pa_scalable p = true -> actual_to_eng exact p q == eng p q.
Proof.
  intros S0. unfold actual_to_eng. rewrite S0. cbn [exact ndiv nmul nadd of_int npow10]. unfold eng, denominator, Qdiv. rewrite inject_Z_mult. reflexivity.
Qed.
Lemma real_forward p f : scale_back_ok p -> rep f -> sized 300 (sfq f) ->
  near (actual_to_eng double p f) (eng p (sfq f)) (1 # 2 ^ 50) /\ sized 500 (sfq (actual_to_eng double p f)).
Proof.
  intros (S0 & A & M) R Sz. pose proof (attributes_fit p 0 A ltac:(lia)) as Fi. destruct (denominator_fits p 0 Fi) as [D0 [D1 D2]].
  destruct A as (A1 & A2 & A3 & A4 & A5 & A6). unfold is_u16, is_s16 in *.
  assert (B53 : (2 ^ 53 = 9007199254740992)%Z) by reflexivity.
  assert (Big : forall z, (0 < z < 9007199254740992)%Z -> 1 <= inject_Z z /\ inject_Z z < p2 60).
  { intros z Hz. split; [change 1 with (inject_Z 1); apply inj_le; lia|]. apply Qlt_le_trans with (p2 53); [|apply p2_le; lia]. rewrite p2_Z by lia. apply inj_lt. lia. }
  destruct (holds_int (pa_mult p)) as [G1 G2]; [lia|]. destruct (holds_int (pa_base p)) as [G3 G4]; [lia|].
  destruct (Big (pa_mult p)) as [b1 b2]; [nia|]. destruct (Big (pa_base p)) as [b3 b4]; [nia|]. destruct (Big (denominator p)) as [b5 b6]; [lia|].
  pose proof (sum_near f (pa_offset p) R Sz ltac:(lia)) as X1. pose proof (sum_sized f (pa_offset p) R Sz ltac:(lia)) as Z1.
  assert (s1 : small u53) by (split; discriminate). assert (s2 : small (next u53)) by (split; discriminate).
  assert (s3 : small (next (next u53))) by (split; discriminate).
  destruct (near_mul _ _ u53 301 _ _ s1 ltac:(lia) X1 Z1 G1 G2 b1 b2) as [X2 Z2].
  destruct (near_mul _ _ _ 361 _ _ s2 ltac:(lia) X2 Z2 G3 G4 b3 b4) as [X3 Z3].
  destruct (near_div _ _ _ 421 _ _ s3 ltac:(lia) X3 Z3 D1 D2 b5 b6) as [X4 Z4]. change (421 + 60)%Z with 481%Z in Z4.
  fold (eng p (sfq f)) in X4, Z4. unfold actual_to_eng. rewrite S0. cbn [nmul ndiv nadd double] in *.
  set (w := SFdiv 53 1024 _ _) in *. set (y := eng p (sfq f)) in *.
  assert (X5 : near w y (1 # 2 ^ 50)).
  { destruct X4 as [Rw C]. split; [exact Rw|]. apply Qle_trans with (Qabs y * next (next (next u53))); [exact C|].
    rewrite !(Qmult_comm (Qabs y)). apply le_mul_r; [apply Qabs_nonneg|discriminate]. }
  split; [exact X5|]. destruct Z4 as [Z4|[L U]]; [left; exact (near_zero _ _ _ X5 Z4)|right].
  destruct (near_bounds w y (1 # 2 ^ 50) ltac:(split; discriminate) X5) as (B1 & _ & B2).
  pose proof (p2_pos (- (481))). assert (H1 : p2 (- (500)) <= p2 (-1) * p2 (- (481))) by (rewrite <- p2_plus; apply p2_le; lia).
  assert (H2 : p2 1 * p2 481 <= p2 500) by (rewrite <- p2_plus; apply p2_le; lia).
  rewrite p2_1 in H2. assert (Hm : p2 (-1) == 1 # 2) by reflexivity. rewrite Hm in H1. split; lra.
Qed.
Lemma back_of_eng p q : scale_back_ok p -> back p (eng p q) == q + inject_Z (pa_offset p).
Proof.
  intros (S0 & (A1 & A2 & A3 & A4 & A5 & A6) & M). unfold is_u16, is_s16 in *. unfold back, eng, denominator.
  assert (T : (0 < 10 ^ pa_precision p)%Z) by (apply Z.pow_pos_nonneg; lia).
  rewrite !inject_Z_mult.
  assert (P : forall z, (0 < z)%Z -> ~ inject_Z z == 0) by (intros z Hz; change 0 with (inject_Z 0); rewrite inject_Z_injective; lia).
  assert (N1 : ~ inject_Z (pa_mult p) == 0) by (apply P; nia). assert (N2 : ~ inject_Z (pa_base p) == 0) by (apply P; nia).
  assert (N3 : ~ inject_Z (pa_div p) == 0) by (apply P; lia). assert (N4 : ~ inject_Z (10 ^ pa_precision p) == 0) by (apply P; lia).
  field. repeat split; assumption.
Qed.
Lemma real_there_and_back p f : scale_back_ok p -> rep f -> sized 300 (sfq f) ->
  exists r, eng_to_actual double p (actual_to_eng double p f) = Ok r /\ rep r
    /\ Qabs (sfq f - sfq r) <= (Qabs (sfq f) + Qabs (inject_Z (pa_offset p))) * (1 # 2 ^ 48).
Proof.
  intros K Rf Sz. destruct (real_forward p f K Rf Sz) as [[R C] Z1].
  destruct (eng_back_close p _ K R Z1) as (r & E & F & B).
  exists r. split; [exact E|]. split; [exact F|]. destruct (back_factor p K) as (c & Pc & Bc). pose proof (back_of_eng p (sfq f) K) as X.
  set (g := sfq (actual_to_eng double p f)) in *. set (x := eng p (sfq f)) in *.
  set (k := inject_Z (pa_offset p)) in *. set (w := sfq f) in *. set (y := back p g) in *.
  change (1 # 2 ^ 50) with (1 # 1125899906842624) in C. change (1 # 2 ^ 48) with (1 # 281474976710656).
  assert (D : Qabs (w + k - y) <= Qabs (w + k) * (1 # 1125899906842624)).
  { rewrite <- (Qabs_wd _ _ X). unfold y. rewrite (Qabs_wd (w + k - back p g) ((x - g) * c)).
    - rewrite (Qabs_wd (back p x) (x * c)) by apply Bc. rewrite !abs_scale by lra.
      pose proof (le_mul_r _ _ c ltac:(lra) C). lra.
    - rewrite <- X, !Bc. ring. }
  pose proof (Qabs_triangle (w + k - y) (y - k - sfq r)) as T1. rewrite (Qabs_wd (w + k - y + (y - k - sfq r)) (w - sfq r)) in T1 by ring.
  pose proof (Qabs_triangle (w + k) (- (w + k - y))) as T2. rewrite (Qabs_wd (w + k + - (w + k - y)) y), Qabs_opp in T2 by ring.
  pose proof (Qabs_triangle w k) as T3. pose proof (Qabs_nonneg w). pose proof (Qabs_nonneg k). lra.
Qed.
