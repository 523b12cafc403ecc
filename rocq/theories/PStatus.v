(** Proofs: the log message about a refused request. *)
From Verif Require Import Base MBuffer SBuffer PBase MEip SEip SText MStatus PText.
Ltac Zify.zify_post_hook ::= Z.div_mod_to_equations.

Lemma digit_value d : 0 <= d < 16 -> hex_value (hex_digit d) = Some d.
Proof.
  intros H. assert (E : exists n, (n < 16)%nat /\ d = Z.of_nat n) by (exists (Z.to_nat d); lia). destruct E as (n & L & ->).
  do 16 (destruct n as [|n]; [reflexivity|]). lia.
Qed.
Lemma digit_zero d : 0 <= d < 16 -> hex_digit d = "0"%char -> d = 0.
Proof. intros H E. pose proof (digit_value d H) as V. rewrite E in V. cbv in V. now inv V. Qed.
Lemma reads_hex_app a : forall acc b, reads_hex acc (a ++ b) = match reads_hex acc a with Some v => reads_hex v b | None => None end.
Proof. induction a as [|c a IH]; intros acc b; cbn [append reads_hex]; [reflexivity|]. destruct (hex_value c); [apply IH|reflexivity]. Qed.

Lemma hex_text_S f v rest : hex_text (S f) v rest
  = if v <? 16 then String (hex_digit (v mod 16)) rest else hex_text f (v / 16) (String (hex_digit (v mod 16)) rest).
Proof. reflexivity. Qed.
Lemma hex_text_ok fuel : forall v rest, 0 <= v < 16 ^ Z.of_nat (S fuel) ->
  exists s, hex_text (S fuel) v rest = (s ++ rest)%string /\ s <> EmptyString /\ reads_hex 0 s = Some v
    /\ (forall r, s = String "0" r -> r = EmptyString).
Proof.
  induction fuel as [|f IH]; intros v rest H.
  - cbn [hex_text]. change (16 ^ Z.of_nat 1) with 16 in H. exists (String (hex_digit (v mod 16)) EmptyString).
    assert (E : (v <? 16) = true) by lia. rewrite E. split; [reflexivity|]. split; [discriminate|]. split; [|intros r X; now inv X].
    cbn [reads_hex]. rewrite digit_value by lia. f_equal. lia.
  - rewrite hex_text_S. destruct (v <? 16) eqn:E.
    + exists (String (hex_digit (v mod 16)) EmptyString). split; [reflexivity|]. split; [discriminate|]. split; [|intros r X; now inv X].
      cbn [reads_hex]. rewrite digit_value by lia. f_equal. lia.
    + destruct (IH (v / 16) (String (hex_digit (v mod 16)) rest)) as (s & -> & N & R & Z0).
      { rewrite (Nat2Z.inj_succ (S f)), Z.pow_succ_r in H by lia. set (X := 16 ^ Z.of_nat (S f)) in *. clearbody X. lia. }
      exists (s ++ String (hex_digit (v mod 16)) EmptyString)%string. split; [now rewrite app_assoc_str|].
      split; [destruct s; discriminate|]. split.
      * rewrite reads_hex_app, R. cbn [reads_hex]. rewrite digit_value by lia. f_equal. lia.
      * intros r X. destruct s as [|c s]; [contradiction|]. cbn [append] in X. inv X. rewrite (Z0 s eq_refl) in R.
        change (reads_hex 0 "0") with (Some 0) in R. injection R as R. exfalso. lia.
Qed.
Lemma to_hex_numeral v : 0 <= v < 16 ^ 16 -> hex_numeral (to_hex v) v.
Proof.
  intros H. destruct (hex_text_ok 15 v EmptyString H) as (s & E & N & R & Z0).
  assert (A : to_hex v = s).
  { unfold to_hex. rewrite E. clear. induction s; cbn [append]; congruence. }
  rewrite A. repeat split; assumption.
Qed.
Definition status_good (r : response) : Prop := is_u8 (r_status r) /\ Forall is_u16 (r_addl r).
Lemma additional_ok l : Forall is_u16 l -> exists ds, additional_text l = bracketed ds /\ Forall2 hex_numeral ds l.
Proof.
  induction 1 as [|a l H _ (ds & E & F)]; [exists []; split; [reflexivity|constructor]|].
  exists (to_hex a :: ds). cbn [additional_text bracketed]. rewrite E. split; [reflexivity|]. constructor; [|assumption].
  apply to_hex_numeral. unfold is_u16 in H. lia.
Qed.
Lemma status_shape r : status_good r -> exists ds, Forall2 hex_numeral ds (r_addl r)
  /\ status_text r = ("Message Router error=0x" ++ String (ascii_of_nat (Z.to_nat (r_status r))) (" additional statuses " ++ bracketed ds))%string.
Proof. intros [_ A]. destruct (additional_ok _ A) as (ds & E & F). exists ds. split; [assumption|]. unfold status_text. now rewrite E. Qed.

(** ** What can be read back *)
Lemma hex_split a : forall b r s x y u v, reads_hex x a = Some u -> reads_hex y b = Some v -> (a ++ String "]" r)%string = (b ++ String "]" s)%string -> a = b /\ r = s.
Proof.
  induction a as [|c a IH]; intros [|d b] r s x y u v A B E; cbn [append] in E.
  - now inv E.
  - inv E. cbn [reads_hex] in B. cbv in B. discriminate.
  - inv E. cbn [reads_hex] in A. cbv in A. discriminate.
  - inv E. cbn [reads_hex] in A, B. destruct (hex_value d) as [e|]; [|discriminate].
    destruct (IH b r s _ _ _ _ A B H1) as [-> ->]. auto.
Qed.
Lemma bracketed_inj l : forall l' ds es, Forall2 hex_numeral ds l -> Forall2 hex_numeral es l' -> bracketed ds = bracketed es -> l = l'.
Proof.
  induction l as [|a l IH]; intros [|b l'] ds es D E H; inversion D as [|d ? ds' ? Hd Dd]; subst; inversion E as [|e ? es' ? He Ee]; subst.
  - reflexivity.
  - discriminate.
  - discriminate.
  - cbn [bracketed] in H. apply append_inj in H. cbn [append] in H.
    destruct Hd as (_ & R & _), He as (_ & R' & _). destruct (hex_split _ _ _ _ _ _ _ _ R R' H) as [-> H'].
    rewrite R in R'. inv R'. f_equal. eapply IH; eauto.
Qed.
Lemma char_inj a b : is_u8 a -> is_u8 b -> ascii_of_nat (Z.to_nat a) = ascii_of_nat (Z.to_nat b) -> a = b.
Proof.
  unfold is_u8. intros A B E. apply (f_equal nat_of_ascii) in E. rewrite !nat_ascii_embedding in E by lia. lia.
Qed.
Lemma status_determines r r' : status_good r -> status_good r' ->
  (status_text r = status_text r' <-> r_status r = r_status r' /\ r_addl r = r_addl r').
Proof.
  intros G G'. split; [|intros [A B]; unfold status_text; now rewrite A, B].
  destruct (status_shape r G) as (ds & F & ->). destruct (status_shape r' G') as (es & F' & ->). intros E. apply append_inj in E.
  injection E as E1 E2. split; [apply char_inj; [apply G|apply G'|assumption]|]. eapply bracketed_inj; eauto.
Qed.
Lemma status_not_hex r s t : status_good r -> hex_numeral s (r_status r) ->
  status_text r <> ("Message Router error=0x" ++ s ++ " additional statuses " ++ t)%string.
Proof.
  intros G (N & R & _) E. unfold status_text in E. apply append_inj in E. destruct s as [|c s]; [contradiction|]. cbn [append] in E. injection E as E1 E2.
  destruct s as [|c' s].
  - subst c. cbn [reads_hex] in R. unfold hex_value in R. destruct G as [G _]. unfold is_u8 in G. rewrite nat_ascii_embedding in R by lia.
    rewrite Z2Nat.id in R by lia.
    destruct (_ && _) eqn:X in R; [inv R; lia|]. destruct (_ && _) eqn:Y in R; [inv R; lia|discriminate].
  - cbn [append] in E2. injection E2 as E2 _. subst c'. cbn [reads_hex] in R. destruct (hex_value c); [|discriminate]. cbv in R. discriminate.
Qed.
Lemma status_refuted : exists r, is_u8 (r_status r) /\ r_status r <> 0 /\ Forall is_u16 (r_addl r)
  /\ forall s t, hex_numeral s (r_status r) -> status_text r <> ("Message Router error=0x" ++ s ++ " additional statuses " ++ t)%string.
Proof.
  exists (mkResp 0x8E 8 [] [] []). cbn [r_status r_addl]. assert (A : is_u8 8) by (unfold is_u8; lia).
  split; [assumption|]. split; [discriminate|]. split; [constructor|]. intros s t H. apply status_not_hex; [split; [assumption|constructor]|assumption].
Qed.
