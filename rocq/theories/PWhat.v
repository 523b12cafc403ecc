(** Proofs for C101. *)
From Verif Require Import Base MBuffer SBuffer PBase PBuffer MEip SEip PRouter MYaskawa SText PPath PPathT PText MSocket SSocket PSocket
  SObj PObj MFile SFile MIdent MParam SParam SFault SWatch PWatch MWhat SWhat.
Local Open Scope Z_scope.

Lemma int_nonneg x : 0 <= x -> to_string_int x = to_string x.
Proof. intros P. unfold to_string_int. destruct (Z.ltb_spec x 0); [lia|reflexivity]. Qed.
Lemma int_ends before x : 0 <= x -> ends_in before x (before ++ to_string_int x).
Proof. intros P. exists (to_string x). rewrite int_nonneg by assumption. split; [now apply to_string_numeral|reflexivity]. Qed.
Lemma string_app_assoc (a b c : string) : ((a ++ b) ++ c = a ++ b ++ c)%string.
Proof. induction a as [|x a IH]; cbn; [reflexivity|now rewrite IH]. Qed.
Lemma int_signed before x : ends_in_signed before x (before ++ to_string_int x).
Proof.
  destruct (Z_lt_le_dec x 0) as [N|P]; [right|left; split; [assumption|now apply int_ends]].
  split; [assumption|]. exists (to_string (- x)). split; [apply to_string_numeral; lia|].
  unfold to_string_int. destruct (Z.ltb_spec x 0); [|lia]. now rewrite string_app_assoc.
Qed.

(** ** Paths *)
Lemma loop_same h n : forall b p, fst (epath_loop_text h n b p) = snd (epath_loop h n b p).
Proof.
  induction n as [|n IH]; intros b p; cbn [epath_loop_text epath_loop]; [reflexivity|].
  destruct (buf_empty b); [reflexivity|]. destruct (epath_segment h b p) as [[b' p']|e|u|]; [apply IH|reflexivity..].
Qed.
Lemma path_same h data : fst (epath_expand_text h data) = snd (epath_expand h data).
Proof.
  unfold epath_expand_text, epath_expand. pose proof (loop_same h (List.length data) (buf_of data) epath0) as E.
  destruct (epath_loop_text _ _ _ _) as [o t], (epath_loop _ _ _ _) as [p o']. cbn [fst snd] in E. subst o'.
  destruct o as [b|e|u|]; [destruct (negb _)|..]; reflexivity.
Qed.
Lemma yloop_same h n : forall b p, fst (ypath_loop_text h n b p) = snd (ypath_loop h n b p).
Proof.
  induction n as [|n IH]; intros b p; cbn [ypath_loop_text ypath_loop]; [reflexivity|].
  destruct (buf_empty b); [reflexivity|]. destruct (ypath_segment h b p) as [[b' p']|e|u|]; [apply IH|reflexivity..].
Qed.
Lemma ypath_same h data : fst (ypath_expand_text h data) = snd (ypath_expand h data).
Proof.
  unfold ypath_expand_text, ypath_expand. pose proof (yloop_same h (List.length data) (buf_of data) ypath0) as E.
  destruct (ypath_loop_text _ _ _ _) as [o t], (ypath_loop _ _ _ _) as [p o']. cbn [fst snd] in E. subst o'.
  destruct o as [b|e|u|]; [destruct (negb _)|..]; reflexivity.
Qed.

Lemma loop_text_segs h segs : Forall seg_wf segs -> forall n pre rest p, (List.length segs <= n)%nat ->
  epath_loop_text h n (at_ pre (path_bytes segs ++ rest)) p
  = epath_loop_text h (n - List.length segs) (at_ (pre ++ path_bytes segs) rest) (fold_left put_seg segs p).
Proof.
  unfold path_bytes.
  induction 1 as [|s segs W Ws IH]; intros n pre rest p L; cbn [map concat app List.length fold_left] in *.
  - now rewrite app_nil_r, Nat.sub_0_r.
  - destruct n as [|n]; [lia|]. cbn [epath_loop_text].
    rewrite <- app_assoc, seg_not_empty, segment_at by assumption.
    rewrite IH by lia. now rewrite <- app_assoc.
Qed.
Lemma yloop_text_segs h segs : Forall seg_wf segs -> forall n pre rest p, (List.length segs <= n)%nat ->
  ypath_loop_text h n (at_ pre (path_bytes segs ++ rest)) p
  = ypath_loop_text h (n - List.length segs) (at_ (pre ++ path_bytes segs) rest) (fold_left y_put_seg segs p).
Proof.
  unfold path_bytes.
  induction 1 as [|s segs W Ws IH]; intros n pre rest p L; cbn [map concat app List.length fold_left] in *.
  - now rewrite app_nil_r, Nat.sub_0_r.
  - destruct n as [|n]; [lia|]. cbn [ypath_loop_text].
    rewrite <- app_assoc, seg_not_empty, ysegment_at by assumption.
    rewrite IH by lia. now rewrite <- app_assoc.
Qed.
Lemma unknown_segment h pre x r p : ~ is_code x ->
  epath_segment h (at_ pre (x :: r)) p = Throw (RuntimeError RtEPathUnknownSegment).
Proof.
  intros NC. unfold epath_segment. rewrite get_u8_at. cbn [bind].
  unfold SEG_CLASS8, SEG_CLASS16, SEG_INST8, SEG_INST16, SEG_ATTR8, SEG_ATTR16.
  destruct (Z.eqb_spec x 32); [exfalso; apply NC; exists KClass; auto|].
  destruct (Z.eqb_spec x 33); [exfalso; apply NC; exists KClass; auto|].
  destruct (Z.eqb_spec x 36); [exfalso; apply NC; exists KInst; auto|].
  destruct (Z.eqb_spec x 37); [exfalso; apply NC; exists KInst; auto|].
  destruct (Z.eqb_spec x 48); [exfalso; apply NC; exists KAttr; auto|].
  destruct (Z.eqb_spec x 49); [exfalso; apply NC; exists KAttr; auto|].
  reflexivity.
Qed.
Lemma yunknown_segment h pre x r p : ~ is_code x ->
  ypath_segment h (at_ pre (x :: r)) p = Throw (RuntimeError RtEPathUnknownSegment).
Proof.
  intros NC. unfold ypath_segment. rewrite get_u8_at. cbn [bind].
  unfold SEG_CLASS8, SEG_CLASS16, SEG_INST8, SEG_INST16, SEG_ATTR8, SEG_ATTR16.
  destruct (Z.eqb_spec x 32); [exfalso; apply NC; exists KClass; auto|].
  destruct (Z.eqb_spec x 33); [exfalso; apply NC; exists KClass; auto|].
  destruct (Z.eqb_spec x 36); [exfalso; apply NC; exists KInst; auto|].
  destruct (Z.eqb_spec x 37); [exfalso; apply NC; exists KInst; auto|].
  destruct (Z.eqb_spec x 48); [exfalso; apply NC; exists KAttr; auto|].
  destruct (Z.eqb_spec x 49); [exfalso; apply NC; exists KAttr; auto|].
  reflexivity.
Qed.
Lemma path_told h segs x r : Forall seg_wf segs -> is_u8 x -> ~ is_code x ->
  ends_in "Unknown EPATH segment =" x (snd (epath_expand_text h (path_bytes segs ++ x :: r))).
Proof.
  intros W X NC. unfold epath_expand_text. rewrite buf_of_at, loop_text_segs
    by (try assumption; rewrite app_length; pose proof (path_bytes_length segs); lia).
  destruct (fuel_left segs (x :: r)) as [n ->]; [discriminate|]. cbn [epath_loop_text].
  rewrite at_not_empty, unknown_segment by assumption. unfold type_text. rewrite get_u8_at. cbn [snd].
  apply int_ends. unfold is_u8 in X. lia.
Qed.
Lemma ypath_told h segs x r : Forall seg_wf segs -> is_u8 x -> ~ is_code x ->
  ends_in "Unknown EPATH segment =" x (snd (ypath_expand_text h (path_bytes segs ++ x :: r))).
Proof.
  intros W X NC. unfold ypath_expand_text. rewrite buf_of_at, yloop_text_segs
    by (try assumption; rewrite app_length; pose proof (path_bytes_length segs); lia).
  destruct (fuel_left segs (x :: r)) as [n ->]; [discriminate|]. cbn [ypath_loop_text].
  rewrite at_not_empty, yunknown_segment by assumption. unfold type_text. rewrite get_u8_at. cbn [snd].
  apply int_ends. unfold is_u8 in X. lia.
Qed.

(** ** Packets *)
Lemma encaps_told h p0 command length handle status context options data :
  is_u16 command -> is_u16 length -> is_u32 handle -> is_u32 status -> is_u32 options ->
  List.length context = 8%nat -> List.length (e_context p0) = 8%nat -> zlen data <> length ->
  lengths_told length (zlen data) (encaps_text h p0 (encaps_bytes command length handle status context options data)).
Proof.
  intros C L H St O Cx Cx0 N. unfold encaps_text. rewrite encaps_head by assumption.
  destruct (Z.eqb_spec (zlen data) length) as [E|_]; [contradiction|]. cbn [e_length].
  assert (Z : zlen (encaps_bytes command length handle status context options data) - Z.of_nat HEADER_SIZE = zlen data).
  { unfold encaps_bytes, zlen, HEADER_SIZE. rewrite !app_length, !le_length. lia. }
  rewrite Z. exists (to_string length), (to_string (zlen data)).
  split; [apply to_string_numeral; unfold is_u16 in L; lia|].
  split; [apply to_string_numeral; unfold zlen; lia|reflexivity].
Qed.

(** ** Sessions *)
Lemma silent_run {W A} (m : st W A) w t : silent m (w, t) = (fst (m w), (snd (m w), t)).
Proof. unfold silent. now destruct (m w). Qed.
Definition forgets {W A} (m : st (W * string) A) (n : st W A) : Prop :=
  forall w t, fst (m (w, t)) = fst (n w) /\ fst (snd (m (w, t))) = snd (n w).
Lemma forgets_silent {W A} (m : st W A) : forgets (silent m) m.
Proof. intros w t. rewrite silent_run. split; reflexivity. Qed.
Lemma forgets_lift {W A} (o : outcome A) : forgets (W := W) (st_lift o) (st_lift o).
Proof. intros w t. split; reflexivity. Qed.
Lemma forgets_ret {W A} (a : A) : forgets (W := W) (st_ret a) (st_ret a).
Proof. intros w t. split; reflexivity. Qed.
Lemma forgets_bind {W A B} (m : st (W * string) A) n (k : A -> st (W * string) B) l :
  forgets m n -> (forall a, forgets (k a) (l a)) -> forgets (st_bind m k) (st_bind n l).
Proof.
  intros M K w t. destruct (M w t) as [M1 M2]. unfold st_bind.
  destruct (m (w, t)) as [o [w' t']], (n w) as [o' w'']. cbn [fst snd] in *. subst o' w''.
  destruct o as [a|e|u|]; [apply K|split; reflexivity..].
Qed.
Lemma sar_same h p handle packet : forgets (send_and_receive_text h p handle packet) (send_and_receive h p handle packet).
Proof.
  unfold send_and_receive_text, send_and_receive.
  apply forgets_bind; [apply forgets_silent|]. intros _.
  apply forgets_bind; [apply forgets_silent|]. intros header.
  apply forgets_bind; [apply forgets_lift|]. intros len.
  apply forgets_bind; [apply forgets_silent|]. intros data w t. unfold st_bind.
  destruct (encaps_expand h encaps0 (header ++ data)) as [r [[]|e|u|]]; cbn [finished bind fst snd]; try (split; reflexivity).
  unfold check_reply_text, check_reply. destruct (negb _); [split; reflexivity|]. destruct (_ && _); split; reflexivity.
Qed.
Lemma register_same h p to : forgets (session_register_text h p to) (session_register h p).
Proof.
  unfold session_register_text, session_register. apply forgets_bind; [apply sar_same|]. intros r w t.
  destruct (negb _); split; reflexivity.
Qed.

Definition unformatted {A} (o : outcome A) : Prop := o <> Throw (RuntimeError RtEPathFormat).
Lemma unformatted_bind {A B} (m : outcome A) (k : A -> outcome B) : unformatted m -> (forall a, unformatted (k a)) -> unformatted (bind m k).
Proof. intros M K. unfold unformatted in *. destruct m; cbn [bind]; auto; congruence. Qed.
Lemma unformatted_fetch h b : unformatted (fetch h b).
Proof. unfold unformatted, fetch. destruct (nth_error _ _); [discriminate|]. destruct (h _); discriminate. Qed.
Ltac unformatted := repeat match goal with
  | |- unformatted (Ok _) => discriminate
  | |- unformatted (Throw _) => discriminate
  | |- unformatted (get_u8 _ _) => unfold get_u8
  | |- unformatted (get_u16 _ _) => unfold get_u16
  | |- unformatted (fetch _ _) => apply unformatted_fetch
  | |- unformatted (bind _ _) => apply unformatted_bind
  | |- forall x : _ * _, _ => intros [? ?]
  | |- unformatted (if ?c then _ else _) => destruct c
  end.
Lemma segment_never h b p : epath_segment h b p <> Throw (RuntimeError RtEPathFormat).
Proof. change (unformatted (epath_segment h b p)). unfold epath_segment. unformatted. Qed.
Lemma ysegment_never h b p : ypath_segment h b p <> Throw (RuntimeError RtEPathFormat).
Proof. change (unformatted (ypath_segment h b p)). unfold ypath_segment. unformatted. Qed.
Lemma sar_judged h p handle q r w t : sends_all w (encaps_pack q) -> well_formed r ->
  forall rest, stream (incoming p w (encaps_pack q)) = encaps_pack r ++ rest ->
  exists w', send_and_receive_text h p handle q (w, t) = check_reply_text handle r (w', t).
Proof.
  intros S [W El] rest E. destruct (header_bytes r W) as (hd & Ep & Lh & Bh & Vl).
  rewrite Ep, <- app_assoc in E.
  unfold send_and_receive_text, st_bind at 1. rewrite silent_run, net_send_all by assumption. cbn [fst snd].
  unfold st_bind at 1. rewrite silent_run.
  destruct (receive_enough HEADER_SIZE (incoming p w (encaps_pack q))) as (s1 & E1 & S1 & N1 & _).
  { rewrite E, app_length, Lh. unfold HEADER_SIZE. lia. }
  assert (R1 : forall a b, net_receive HEADER_SIZE (mkNet a (incoming p w (encaps_pack q)) b) = (Ok hd, mkNet a s1 b)).
  { intros a b. unfold net_receive. cbn [n_in n_sent n_results]. rewrite E1, E. unfold HEADER_SIZE. rewrite <- Lh.
    now rewrite firstn_app_exact. }
  rewrite R1. cbn [fst snd]. rewrite E in S1. unfold HEADER_SIZE in S1. rewrite <- Lh in S1.
  rewrite skipn_app_exact in S1.
  unfold st_bind at 1, st_lift. rewrite length_from_header_ok by (assumption || lia). rewrite Vl.
  unfold st_bind at 1. rewrite silent_run.
  assert (LZ : Z.to_nat (e_length r) = List.length (e_data r)) by (rewrite El; unfold zlen; apply Nat2Z.id).
  destruct (receive_enough (Z.to_nat (e_length r)) s1) as (s2 & E2 & S2 & N2 & _).
  { rewrite S1, app_length. lia. }
  assert (R2 : forall a b, net_receive (Z.to_nat (e_length r)) (mkNet a s1 b) = (Ok (e_data r), mkNet a s2 b)).
  { intros a b. unfold net_receive. cbn [n_in n_sent n_results]. rewrite E2, S1, LZ. now rewrite firstn_app_exact. }
  rewrite R2. cbn [fst snd].
  rewrite <- Ep. destruct (encaps_roundtrip h encaps0 r W El eq_refl) as (_ & _ & X).
  unfold st_bind. rewrite X. eexists. reflexivity.
Qed.
Lemma status_told h p handle q r w t : sends_all w (encaps_pack q) -> well_formed r -> e_status r <> 0 ->
  forall rest, stream (incoming p w (encaps_pack q)) = encaps_pack r ++ rest ->
  let '(o, (_, t')) := send_and_receive_text h p handle q (w, t) in
  o = Throw (RuntimeError RtSessionStatus)
  /\ t' = ("Bad encaps packet code =" ++ to_string_int (s32 (e_status r)))%string.
Proof.
  intros S W N rest E. destruct (sar_judged h p handle q r w t S W rest E) as [w' ->].
  unfold check_reply_text, ENCAPS_SUCCESS. destruct (Z.eqb_spec (e_status r) 0); [contradiction|].
  cbn [negb throws]. split; reflexivity.
Qed.
Lemma handle_told h p handle q r w t : sends_all w (encaps_pack q) -> well_formed r -> e_status r = 0 -> handle <> 0 -> e_handle r <> handle ->
  forall rest, stream (incoming p w (encaps_pack q)) = encaps_pack r ++ rest ->
  let '(o, (_, t')) := send_and_receive_text h p handle q (w, t) in
  o = Throw (RuntimeError RtSessionHandle) /\ t' = "Wrong session handle received"%string.
Proof.
  intros S W N H0 H1 rest E. destruct (sar_judged h p handle q r w t S W rest E) as [w' ->].
  unfold check_reply_text, ENCAPS_SUCCESS. destruct (Z.eqb_spec (e_status r) 0); [|contradiction].
  destruct (Z.eqb_spec handle 0); [contradiction|]. destruct (Z.eqb_spec (e_handle r) handle); [contradiction|].
  cbn [negb andb throws]. split; reflexivity.
Qed.
Lemma accepted_told h p handle q r w t : sends_all w (encaps_pack q) -> well_formed r -> acceptable handle r = true ->
  forall rest, stream (incoming p w (encaps_pack q)) = encaps_pack r ++ rest ->
  let '(o, (_, t')) := send_and_receive_text h p handle q (w, t) in o = Ok r /\ t' = t.
Proof.
  intros S W A rest E. destruct (sar_judged h p handle q r w t S W rest E) as [w' ->].
  unfold acceptable in A. unfold check_reply_text, ENCAPS_SUCCESS.
  destruct (e_status r =? 0), (handle =? 0), (e_handle r =? handle); cbn in A |- *; try discriminate A; split; reflexivity.
Qed.
Lemma format_told h data : fst (epath_expand_text h data) = Throw (RuntimeError RtEPathFormat) ->
  snd (epath_expand_text h data) = "Wrong EPATH format"%string.
Proof.
  unfold epath_expand_text.
  assert (G : forall n b p, fst (epath_loop_text h n b p) <> Throw (RuntimeError RtEPathFormat)).
  { induction n as [|n IH]; intros b p; cbn [epath_loop_text]; [discriminate|]. destruct (buf_empty b); [discriminate|].
    destruct (epath_segment h b p) as [[b' p']|e|u|] eqn:E; [apply IH| |discriminate..]. cbn [fst]. intros X.
    injection X as ->. revert E. apply segment_never. }
  specialize (G (List.length data) (buf_of data) epath0).
  destruct (epath_loop_text _ _ _ _) as [[b|e|u|] t]; cbn [fst snd] in *; try discriminate; try (intros X; exfalso; apply G; congruence).
  destruct (negb _); [reflexivity|discriminate].
Qed.
Lemma yformat_told h data : fst (ypath_expand_text h data) = Throw (RuntimeError RtEPathFormat) ->
  snd (ypath_expand_text h data) = "Wrong EPATH format"%string.
Proof.
  unfold ypath_expand_text.
  assert (G : forall n b p, fst (ypath_loop_text h n b p) <> Throw (RuntimeError RtEPathFormat)).
  { induction n as [|n IH]; intros b p; cbn [ypath_loop_text]; [discriminate|]. destruct (buf_empty b); [discriminate|].
    destruct (ypath_segment h b p) as [[b' p']|e|u|] eqn:E; [apply IH| |discriminate..]. cbn [fst]. intros X.
    injection X as ->. revert E. apply ysegment_never. }
  specialize (G (List.length data) (buf_of data) ypath0).
  destruct (ypath_loop_text _ _ _ _) as [[b|e|u|] t]; cbn [fst snd] in *; try discriminate; try (intros X; exfalso; apply G; congruence).
  destruct (negb _); [reflexivity|discriminate].
Qed.
Lemma s32_small x : is_u32 x -> x < 2147483648 -> s32 x = x.
Proof. intros X L. unfold is_u32 in X. unfold s32. rewrite Z.mod_small by lia. lia. Qed.
Lemma s32_large x : is_u32 x -> 2147483648 <= x -> s32 x = x - 4294967296.
Proof.
  intros X L. unfold is_u32 in X. unfold s32. replace (x + 2147483648) with (x - 2147483648 + 1 * 4294967296) by lia.
  rewrite Z.mod_add by lia. rewrite Z.mod_small by lia. lia.
Qed.
Lemma sar_status_told h p handle q r w t : sends_all w (encaps_pack q) -> well_formed r -> e_status r <> 0 ->
  forall rest, stream (incoming p w (encaps_pack q)) = encaps_pack r ++ rest ->
  let '(o, (_, t')) := send_and_receive_text h p handle q (w, t) in
  o = Throw (RuntimeError RtSessionStatus)
  /\ ends_in_signed "Bad encaps packet code =" (if e_status r <? 2147483648 then e_status r else e_status r - 4294967296) t'.
Proof.
  intros S W N rest E. pose proof (status_told h p handle q r w t S W N rest E) as T.
  destruct (send_and_receive_text _ _ _ _ _) as [o [w' t']]. destruct T as [T ->]. split; [exact T|].
  replace (if e_status r <? 2147483648 then e_status r else e_status r - 4294967296) with (s32 (e_status r)); [apply int_signed|].
  destruct W as [(_ & _ & _ & U & _) _]. destruct (Z.ltb_spec (e_status r) 2147483648); [now apply s32_small|now apply s32_large].
Qed.
Lemma register_told h p to r w t : sends_all w (encaps_pack register_packet) -> well_formed r -> e_status r <> 0 ->
  forall rest, stream (incoming p w (encaps_pack register_packet)) = encaps_pack r ++ rest ->
  let '(o, (_, t')) := session_register_text h p to (w, t) in
  o = Throw (RuntimeError RtSessionStatus)
  /\ ends_in_signed "Bad encaps packet code =" (if e_status r <? 2147483648 then e_status r else e_status r - 4294967296) t'.
Proof.
  intros S W N rest E. pose proof (sar_status_told h p 0 register_packet r w t S W N rest E) as T.
  unfold session_register_text, st_bind. destruct (send_and_receive_text _ _ _ _ _) as [o [w' t']]. destruct T as [-> T].
  split; [reflexivity|exact T].
Qed.

(** ** Objects *)
Lemma ask_same {W} h use8 (si : session_if W) text service path : forgets (ask_text h use8 si text service path) (ask h use8 si service path).
Proof.
  intros w t. unfold ask_text, ask, st_bind. rewrite silent_run. destruct (send_request _ _ _ _ _ _ _ _) as [[r|e|u|] w']; cbn [fst snd bind]; try (split; reflexivity).
  destruct (r_status r =? GSC_SUCCESS); split; reflexivity.
Qed.
Lemma scaling_same {W} h use8 (si : session_if W) id n : forall first,
  forgets (ask_scaling_text h use8 si id first n) (ask_scaling h use8 si id first n).
Proof.
  induction n as [|n IH]; intros first; cbn [ask_scaling_text ask_scaling]; [apply forgets_ret|].
  apply forgets_bind; [apply ask_same|]. intros d. apply forgets_bind; [apply IH|]. intros r. apply forgets_ret.
Qed.
Lemma param_same {W} h use8 (si : session_if W) id full : forgets (param_read_text h use8 si id full) (param_read h use8 si id full).
Proof.
  unfold param_read_text, param_read. apply forgets_bind; [apply ask_same|]. intros d.
  apply forgets_bind; [apply forgets_lift|]. intros size. apply forgets_bind; [apply ask_same|]. intros d2.
  apply forgets_bind; [apply forgets_lift|]. intros p. destruct (full && pa_scalable p); [|apply forgets_ret].
  apply forgets_bind; [apply scaling_same|]. intros d3. apply forgets_lift.
Qed.
Lemma file_same {W} h use8 (si : session_if W) id : forgets (file_open_text h use8 si id) (file_open h use8 si id).
Proof.
  intros w t. unfold file_open_text, file_open, st_bind. rewrite silent_run.
  destruct (send_request _ _ _ _ _ _ _ _) as [[r|e|u|] w']; cbn [fst snd bind]; try (split; reflexivity).
  unfold synced. destruct (r_status r =? GSC_SUCCESS); [|split; reflexivity]. unfold st_lift, omap.
  destruct (get_u8 h (buf_of (r_data r))) as [[code b]|e|u|]; cbn [bind fst snd]; try (split; reflexivity).
  destruct (code =? 0); [split; reflexivity|]. destruct (code =? 1); [split; reflexivity|].
  destruct (code =? 2); [split; reflexivity|]. destruct (_ || _); split; reflexivity.
Qed.

Section Refusals.
Context {D : Type}.
Variables (h : heap) (use8 : bool) (handle : Z) (dev : device D).
Hypothesis Hh : is_u32 handle.
Hypothesis Hd : device_wf dev.
Let si := served handle dev.

Definition worded {A} (told : request -> string -> Prop) (m : st (D * trace * string) A) : Prop :=
  forall x t, exists new, snd (fst (snd (m (x, t)))) = snd x ++ new
  /\ refusal_told told new (fst (m (x, t))) t (snd (snd (m (x, t)))).
Lemma worded_ret {A} told (a : A) : worded told (st_ret a).
Proof. intros x t. exists []. rewrite app_nil_r. split; [reflexivity|]. left. split; [constructor|split; [discriminate|reflexivity]]. Qed.
Lemma worded_lift {A} told (m : outcome A) : calm m -> worded told (st_lift m).
Proof. intros C x t. exists []. rewrite app_nil_r. split; [reflexivity|]. left. split; [constructor|split; [exact C|reflexivity]]. Qed.
Lemma worded_bind {A B} told (m : st _ A) (k : A -> st _ B) : worded told m -> (forall a, worded told (k a)) -> worded told (st_bind m k).
Proof.
  intros M K x t. destruct (M x t) as (new & T & R). unfold st_bind.
  destruct (m (x, t)) as [o [x' t']] eqn:E; cbn [fst snd] in *.
  destruct o as [a|e|u|].
  - destruct (K a x' t') as (new2 & T2 & R2). exists (new ++ new2). rewrite T2, T, app_assoc. split; [reflexivity|].
    destruct R as [(R1 & _ & ->)|(? & ? & ? & _ & _ & _ & R & _)]; [|discriminate R].
    destruct R2 as [(R2 & R3 & R4)|(pre & q & b & R2 & R3 & R4 & R5 & R6)].
    + left. split; [now apply Forall_app|]. split; assumption.
    + right. exists (new ++ pre), q, b. rewrite R2, app_assoc. repeat split; try assumption. now apply Forall_app.
  - exists new. split; [exact T|]. destruct R as [(R1 & R2 & R3)|(pre & q & a & R1 & R2 & R3 & R4 & R5)].
    + left. repeat split; try assumption. intros X. apply R2. now inv X.
    + right. exists pre, q, a. repeat split; try assumption. now inv R4.
  - exists new. split; [exact T|]. destruct R as [(R1 & R2 & R3)|(? & ? & ? & _ & _ & _ & R & _)]; [|discriminate R].
    left. repeat split; try assumption. discriminate.
  - exists new. split; [exact T|]. destruct R as [(R1 & R2 & R3)|(? & ? & ? & _ & _ & _ & R & _)]; [|discriminate R].
    left. repeat split; try assumption. discriminate.
Qed.
Lemma ask_worded (told : request -> string -> Prop) text service i : i <> Ids0 -> 0 <= service < 128 -> ids_sendable use8 i ->
  told (mkReq service (ids_list i) []) text -> worded told (ask_text h use8 si text service (build i)).
Proof.
  intros N V I K [d tr] t. pose proof (Hd d (mkReq service (ids_list i) [])) as W.
  destruct (dev d (mkReq service (ids_list i) [])) as [a d'] eqn:E. cbn [fst] in W.
  unfold ask_text, st_bind. rewrite silent_run. unfold si.
  rewrite (served_request h use8 handle dev service i [] d tr a d') by (try assumption; try constructor; cbn; lia).
  cbn [fst snd r_status]. exists [(mkReq service (ids_list i) [], a)]. unfold GSC_SUCCESS.
  destruct (Z.eqb_spec (a_status a) 0) as [Z|Z]; (split; [reflexivity|]).
  - left. split; [repeat constructor; exact Z|]. split; [discriminate|reflexivity].
  - right. exists [], (mkReq service (ids_list i) []), a. split; [reflexivity|]. split; [constructor|]. split; [exact Z|].
    split; [reflexivity|exact K].
Qed.
Lemma attr_worded (told : request -> string -> Prop) text id a : 0 <= a < 256 -> sendable use8 id ->
  told (attribute_request id a) text -> worded told (ask_text h use8 si text GET_ATTRIBUTE_SINGLE (epath3 PARAMETER_CLASS_ID id a)).
Proof. intros A I K. apply (ask_worded told text 14 (Ids3 15 id a)); [discriminate|lia|apply sendable3; (lia || assumption)|exact K]. Qed.
Lemma param_worded id full : sendable use8 id -> worded (parameter_told id) (param_read_text h use8 si id full).
Proof.
  intros I. unfold param_read_text.
  apply worded_bind; [apply attr_worded; [unfold ATTR_DATA_SIZE; lia|assumption|left; split; reflexivity]|]. intros d.
  apply worded_bind; [apply worded_lift; calm|]. intros size.
  apply worded_bind; [apply (ask_worded _ _ 1 (Ids2 15 id)); [discriminate|lia|apply sendable2; [lia|assumption]|right; left; split; reflexivity]|]. intros d2.
  apply worded_bind; [apply worded_lift, calm_attributes|]. intros p. destruct (full && pa_scalable p); [|apply worded_ret].
  apply worded_bind; [|intros d3; apply worded_lift, calm_scaling].
  assert (G : forall n first, 13 <= first -> first + Z.of_nat n <= 17 ->
    worded (parameter_told id) (ask_scaling_text h use8 si id first n)).
  { induction n as [|n IH]; intros first F L; cbn [ask_scaling_text]; [apply worded_ret|].
    apply worded_bind; [apply attr_worded; [lia|assumption|right; right; exists first; split; [lia|split; [reflexivity|apply int_ends; lia]]]|]. intros d3.
    apply worded_bind; [apply IH; lia|]. intros r. apply worded_ret. }
  apply G; unfold ATTR_SCALING_MULTIPLIER, ATTR_SCALING_OFFSET; lia.
Qed.
(** A file object: a refused request names the object; an unknown state does
    not. *)
Lemma file_told id d tr t a d' : sendable use8 id -> dev d (state_request id) = (a, d') ->
  let '(o, (w, t')) := file_open_text h use8 si id (d, tr, t) in
  w = (d', tr ++ [(state_request id, a)])
  /\ (a_status a <> 0 -> o = Throw (RuntimeError RtRequestFailed) /\ ends_in "Failed load the state of File Object ID=" id t')
  /\ (forall c r, a_status a = 0 -> a_data a = c :: r -> ~ In c [0; 1; 2; 3; 5] ->
        o = Throw (RuntimeError RtFileState) /\ t' = "Read unknown or unsupported state"%string)
  /\ ((exists f, o = Ok f) -> t' = t).
Proof.
  intros I E. pose proof (Hd d (state_request id)) as W. rewrite E in W. cbn [fst] in W.
  unfold file_open_text, st_bind. rewrite silent_run. unfold si.
  change (epath3 FILE_OBJECT_CLASS_ID id FILE_ATTR_STATE) with (build (Ids3 55 id 1)).
  rewrite (served_request h use8 handle dev GET_ATTRIBUTE_SINGLE (Ids3 55 id 1) [] d tr a d')
    by first [assumption | exact E | discriminate | constructor; fail | (apply sendable3; (assumption || lia)) | unfold GET_ATTRIBUTE_SINGLE; lia | (cbn; lia) | constructor].
  cbn [fst snd r_status r_data]. unfold GSC_SUCCESS. destruct (Z.eqb_spec (a_status a) 0) as [Z|Z].
  - assert (G : forall c r, a_data a = c :: r -> exists b, get_u8 h (buf_of (a_data a)) = Ok (c, b)).
    { intros c r ->. eexists. exact (get_u8_at h [] c r). }
    unfold st_lift, omap.
    destruct (get_u8 h (buf_of (a_data a))) as [[code b]|e|u|]; cbn [bind fst snd].
    + destruct (Z.eqb_spec code 0) as [E0|E0]; [|destruct (Z.eqb_spec code 1) as [E1|E1]; [|destruct (Z.eqb_spec code 2) as [E2|E2];
        [|destruct (Z.eqb_spec code 3) as [E3|E3]; [|destruct (Z.eqb_spec code 5) as [E5|E5]]]]]; cbn [orb st_ret throws];
        (split; [reflexivity|]); (split; [contradiction|]);
        (split; [intros c r _ X NI; destruct (G c r X) as [b' Y]; injection Y as Y _; subst c;
                 try (exfalso; apply NI; cbn [In]; intuition congruence); split; reflexivity|]);
        intros [f X]; try discriminate X; reflexivity.
    + split; [reflexivity|]. split; [contradiction|]. split; [|intros [f X]; discriminate X].
      intros c r _ X _. destruct (G c r X) as [b Y]. discriminate Y.
    + split; [reflexivity|]. split; [contradiction|]. split; [|intros [f X]; discriminate X].
      intros c r _ X _. destruct (G c r X) as [b Y]. discriminate Y.
    + split; [reflexivity|]. split; [contradiction|]. split; [|intros [f X]; discriminate X].
      intros c r _ X _. destruct (G c r X) as [b Y]. discriminate Y.
  - cbn [throws]. split; [reflexivity|]. split; [|split; [intros c r X; contradiction|intros [f X]; discriminate X]].
    intros _. split; [reflexivity|]. exists (to_string id). split; [|reflexivity].
    apply to_string_numeral. destruct I as [I _]. unfold is_u16 in I. lia.
Qed.
End Refusals.
