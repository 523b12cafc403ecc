(** Strings without a text and long ones: C04. *)
From Verif Require Import Base MBuffer SBuffer PBase PBufferT MStr.

(** Texts longer than 65535 bytes do not survive as a STRING either. *)
Theorem C04_string_refuted : exists text, is_bytes text /\
  exists s b', get_cip_string strict (buf_of (bdata (put_cip_string buf_new (cip_string text)))) = Ok (s, b') /\ str_std s = [] /\ text <> [].
Proof.
  assert (B : is_bytes (repeat 65 (Z.to_nat 65536))).
  { apply Forall_forall. intros x H. apply repeat_spec in H. subst. unfold is_u8. lia. }
  assert (L : zlen (repeat 65 (Z.to_nat 65536)) = 65536) by (unfold zlen; rewrite repeat_length; apply Z2Nat.id; lia).
  exists (repeat 65 (Z.to_nat 65536)). split; [exact B|].
  destruct (cip_string_any strict _ B) as (_ & E). cbv zeta in E. rewrite L in E at 1.
  replace (Z.to_nat (65536 mod 65536)) with 0%nat in E by reflexivity. rewrite firstn_O in E.
  eexists _, _. split; [exact E|]. split; [reflexivity|]. intros X. rewrite X in L. discriminate.
Qed.
Print Assumptions C04_string_refuted.

(** A string constructed without a text is encoded as the length found in memory
    and nothing else; so it is the empty string only if that happens to be zero. *)
Theorem C04_default : forall left b, is_u8 left ->
  bdata (put_short_string b (default_string left)) = bdata b ++ [left]
  /\ (bdata (put_short_string b (default_string left)) = bdata (put_short_string b (short_string [])) <-> left = 0).
Proof.
  intros left b H. unfold put_short_string, put_bytes, put_u8, push, default_string, short_string. cbn [bdata str_length str_data]. rewrite !app_nil_r.
  split; [reflexivity|]. split; intros E; [|now subst]. apply app_inv_head in E. now inv E.
Qed.
Print Assumptions C04_default.
(** What follows it is then read as its text. *)
Theorem C04_default_refuted : exists left rest s b, is_u8 left
  /\ get_short_string strict (buf_of (bdata (put_bytes (put_short_string buf_new (default_string left)) rest))) = Ok (s, b)
  /\ str_std (default_string left) = [] /\ str_std s = rest /\ rest <> [].
Proof. exists 2, [72; 105], (short_string [72; 105]), (mkBuf [2; 72; 105] 3). vm_compute. repeat split; discriminate. Qed.
Print Assumptions C04_default_refuted.
Example C04_default_example : is_u8 200 /\ bdata (put_short_string buf_new (default_string 200)) = [200].
Proof. split; [unfold is_u8; lia|reflexivity]. Qed.
