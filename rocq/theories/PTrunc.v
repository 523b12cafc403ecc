(** Truncated data: a decoder that uses the whole of its input reads outside
    every proper prefix of it, and no decoder ever throws. *)
From Verif Require Import Base MBuffer SBuffer PBase PBuffer PReader.
Local Open Scope outcome_scope.

(** More data behind what was read changes nothing. *)
Definition prefix_ok {A} (m : reader A) : Prop :=
  forall d e p a b', m strict (mkBuf d p) = Ok (a, b') ->
  m strict (mkBuf (d ++ e) p) = Ok (a, mkBuf (d ++ e) (bpos b')) /\ bdata b' = d.

Lemma prefix_fetch : prefix_ok fetch.
Proof.
  intros d e p a b'. unfold fetch; cbn [bdata bpos]. destruct (nth_error d p) eqn:E; [|discriminate].
  intros H; inv H. rewrite nth_error_app1 by (apply nth_error_Some; congruence). rewrite E. split; reflexivity.
Qed.
Lemma prefix_ret {A} (a : A) : prefix_ok (fun _ b => Ok (a, b)).
Proof. intros d e p x b' H; inv H. split; reflexivity. Qed.
Lemma prefix_bind {A B} (m : reader A) (k : A -> reader B) :
  prefix_ok m -> (forall a, prefix_ok (k a)) ->
  prefix_ok (fun h b => bind (m h b) (fun '(a, b1) => k a h b1)).
Proof.
  intros Hm Hk d e p a b' E. apply bind_Ok in E as ((x & b1) & E1 & E2).
  destruct (Hm d e _ _ _ E1) as [F D]. destruct b1 as [d1 p1]; cbn [bdata bpos] in *; subst d1.
  destruct (Hk x _ e _ _ _ E2) as [F2 D2]. rewrite F. cbn [bind]. split; assumption.
Qed.

Ltac prefix :=
  repeat first
    [ apply prefix_fetch
    | assumption
    | match goal with |- prefix_ok (fun h b => bind (?m h b) (fun '(a, b1) => @?k h a b1)) =>
        apply (prefix_bind m (fun a h b1 => k h a b1)); [|intros ?] end
    | match goal with |- prefix_ok (fun _ b => Ok (?a, b)) => apply (prefix_ret a) end ].

Lemma prefix_u8 : prefix_ok get_u8.
Proof. exact prefix_fetch. Qed.
Lemma prefix_u16 : prefix_ok get_u16.
Proof. unfold get_u16. prefix. Qed.
Lemma prefix_s16 : prefix_ok get_s16.
Proof. pose proof prefix_u16. unfold get_s16. prefix. Qed.
Lemma prefix_u32 : prefix_ok get_u32.
Proof. unfold get_u32. prefix. Qed.
Lemma prefix_u64 : prefix_ok get_u64.
Proof. unfold get_u64. prefix. Qed.
Lemma prefix_bytes n : prefix_ok (fun h => get_bytes h n).
Proof.
  induction n as [|n IH]; cbn [get_bytes].
  - apply (prefix_ret []).
  - apply (prefix_bind fetch); [apply prefix_fetch|intros x].
    apply (prefix_bind (fun h => get_bytes h n)); [exact IH|intros xs].
    apply (prefix_ret (x :: xs)).
Qed.
Lemma prefix_short : prefix_ok get_short_string.
Proof.
  unfold get_short_string.
  apply (prefix_bind get_u8); [apply prefix_u8|intros len].
  apply (prefix_bind (fun h => get_bytes h (Z.to_nat len))); [apply prefix_bytes|intros d].
  apply (prefix_ret (short_string d)).
Qed.
Lemma prefix_string : prefix_ok get_cip_string.
Proof.
  unfold get_cip_string.
  apply (prefix_bind get_u16); [apply prefix_u16|intros len].
  apply (prefix_bind (fun h => get_bytes h (Z.to_nat len))); [apply prefix_bytes|intros d].
  apply (prefix_ret (cip_string d)).
Qed.
Lemma prefix_rev : prefix_ok get_rev.
Proof. pose proof prefix_u8. unfold get_rev. prefix. Qed.
Lemma prefix_endpoint : prefix_ok get_endpoint.
Proof.
  unfold get_endpoint.
  apply (prefix_bind get_s16); [apply prefix_s16|intros f].
  apply (prefix_bind get_u16); [apply prefix_u16|intros p].
  apply (prefix_bind get_u32); [apply prefix_u32|intros a].
  apply (prefix_bind (fun h => get_bytes h 8)); [apply prefix_bytes|intros z].
  apply (prefix_ret (ep_of_addr (mkAddr (htons (u16 f)) p a))).
Qed.

Lemma cut_short {A} (m : reader A) d a b' k :
  reader_ok m -> prefix_ok m -> m strict (buf_of d) = Ok (a, b') -> (k < bpos b')%nat ->
  m strict (buf_of (firstn k d)) = Undef UbOobRead.
Proof.
  intros R P E K. destruct (ro_result m R strict (buf_of (firstn k d))) as [(x & b1 & E1)|E1]; [|exact E1].
  exfalso. pose proof (ro_strict m R _ _ _ E1) as S0. cbn [buf_of bdata bpos] in S0.
  destruct (P _ (skipn k d) _ _ _ E1) as [F _]. rewrite firstn_skipn in F.
  change (mkBuf d 0) with (buf_of d) in F. rewrite E in F. inv F. cbn [bpos] in K.
  rewrite firstn_length in S0. specialize (S0 (Nat.le_0_l _)). lia.
Qed.

Lemma never_throws {A} (m : reader A) h b e : reader_ok m -> m h b <> Throw e.
Proof. intros R E. destruct (ro_result m R h b) as [(a & b' & F)|F]; congruence. Qed.
