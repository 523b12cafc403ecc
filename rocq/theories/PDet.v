(** Proofs: what does not depend on the memory behind received data. *)
From Verif Require Import Base MBuffer MEip MFile MSync MYaskawa MIdent MParam MReal MFault MSocket MConnReq MConn SConn MReent MDisc SDet.

(** [same x y]: [x] in some memory and [y] in the strict one. *)
Definition same {A} (x y : outcome A) : Prop := y = Undef UbOobRead \/ x = y.
Definition same_l {A X} (x y : outcome A * X) : Prop := fst y = Undef UbOobRead \/ x = y.
Definition same_r {A X} (x y : X * outcome A) : Prop := snd y = Undef UbOobRead \/ x = y.

Lemma same_refl {A} (x : outcome A) : same x x.
Proof. now right. Qed.
Lemma same_l_refl {A X} (x : outcome A * X) : same_l x x.
Proof. now right. Qed.
Lemma same_bind {A B} (x y : outcome A) (k k' : A -> outcome B) :
  same x y -> (forall a, same (k a) (k' a)) -> same (bind x k) (bind y k').
Proof. intros [->| ->] H; [now left|]. destruct y; cbn [bind]; try (now right). apply H. Qed.
Lemma same_omap {A B} (x y : outcome A) (f : A -> B) : same x y -> same (omap f x) (omap f y).
Proof. intros [->| ->]; [now left|now right]. Qed.
Lemma same_st_bind {S A B} (m m' : st S A) (k k' : A -> st S B) s :
  same_l (m s) (m' s) -> (forall a s, same_l (k a s) (k' a s)) -> same_l (st_bind m k s) (st_bind m' k' s).
Proof.
  intros [Q|Q] H; unfold st_bind.
  - destruct (m' s) as [o s']. cbn [fst] in Q. subst o. now left.
  - rewrite Q. destruct (m' s) as [[a| | |] s']; try (now right). apply H.
Qed.
Lemma same_lift {S A} (x y : outcome A) (s : S) : same x y -> same_l (st_lift x s) (st_lift y s).
Proof. intros [->| ->]; [now left|now right]. Qed.
Lemma same_finished {A} (x y : A * outcome unit) : same_r x y -> same (finished x) (finished y).
Proof. intros [Q| ->]; [|now right]. destruct y as [a o]. cbn [snd] in Q. subst o. now left. Qed.

Lemma same_fetch h b : same (fetch h b) (fetch strict b).
Proof. unfold fetch. destruct (nth_error _ _); [now right|now left]. Qed.

(** structural steps *)
Ltac det1 :=
  match goal with
  | |- same ?x ?x => apply same_refl
  | |- same (bind _ _) (bind _ _) => apply same_bind; [|intros]
  | |- same (omap _ _) (omap _ _) => apply same_omap
  | |- same (match ?x with _ => _ end) (match ?x with _ => _ end) => destruct x
  | |- same_l ?x ?x => apply same_l_refl
  | |- same_l (st_bind _ _ _) (st_bind _ _ _) => apply same_st_bind; [|intros]
  | |- same_l (st_lift _ _) (st_lift _ _) => apply same_lift
  | |- same_l (match ?x with _ => _ end) (match ?x with _ => _ end) => destruct x
  | |- same_l (match ?x with _ => _ end ?s) (match ?x with _ => _ end ?s) => destruct x
  | |- same_r (match ?x with _ => _ end) (match ?x with _ => _ end) => destruct x
  | |- same_r ?x ?x => now right
  | |- _ => solve [eauto with det]
  end.
Ltac det := cbv zeta; repeat (det1; cbv beta zeta).
#[export] Hint Resolve same_fetch : det.

Lemma same_u8 h b : same (get_u8 h b) (get_u8 strict b).
Proof. apply same_fetch. Qed.
#[export] Hint Resolve same_u8 : det.
Lemma same_s8 h b : same (get_s8 h b) (get_s8 strict b).
Proof. unfold get_s8. det. Qed.
Lemma same_u16 h b : same (get_u16 h b) (get_u16 strict b).
Proof. unfold get_u16. det. Qed.
#[export] Hint Resolve same_s8 same_u16 : det.
Lemma same_s16 h b : same (get_s16 h b) (get_s16 strict b).
Proof. unfold get_s16. det. Qed.
Lemma same_u32 h b : same (get_u32 h b) (get_u32 strict b).
Proof. unfold get_u32. det. Qed.
#[export] Hint Resolve same_s16 same_u32 : det.
Lemma same_s32 h b : same (get_s32 h b) (get_s32 strict b).
Proof. unfold get_s32. det. Qed.
Lemma same_u64 h b : same (get_u64 h b) (get_u64 strict b).
Proof. unfold get_u64. det. Qed.
#[export] Hint Resolve same_s32 same_u64 : det.
Lemma same_s64 h b : same (get_s64 h b) (get_s64 strict b).
Proof. unfold get_s64. det. Qed.
Lemma same_f32 h b : same (get_f32 h b) (get_f32 strict b).
Proof. apply same_u32. Qed.
Lemma same_f64 h b : same (get_f64 h b) (get_f64 strict b).
Proof. apply same_u64. Qed.
#[export] Hint Resolve same_s64 same_f32 same_f64 : det.
Lemma same_bytes h n : forall b, same (get_bytes h n b) (get_bytes strict n b).
Proof. induction n as [|n IH]; intros b; cbn [get_bytes]; det. Qed.
Lemma same_words h n : forall b, same (get_words h n b) (get_words strict n b).
Proof. induction n as [|n IH]; intros b; cbn [get_words]; det. Qed.
#[export] Hint Resolve same_bytes same_words : det.
Lemma same_short h b : same (get_short_string h b) (get_short_string strict b).
Proof. unfold get_short_string. det. Qed.
Lemma same_rev h b : same (get_rev h b) (get_rev strict b).
Proof. unfold get_rev. det. Qed.
Lemma same_endpoint h b : same (get_endpoint h b) (get_endpoint strict b).
Proof. unfold get_endpoint. det. Qed.
#[export] Hint Resolve same_short same_rev same_endpoint : det.

(** a step whose outcome is looked at: either it reads outside, and so does the
    whole, or it is the same *)
Ltac use L := let Q := fresh "Q" in
  destruct L as [Q|Q];
  [first [rewrite Q; now left | match type of Q with fst ?y = _ => destruct y as [? s']; cbn [fst] in Q; subst; first [now left | destruct s'; now left | destruct s' as [[? ?] ?]; now left]
                              | snd ?y = _ => destruct y; cbn [snd] in Q; subst; now left end]
  |rewrite Q; clear Q].

(** ** Typed access *)
Lemma same_int h t b : same (get_int h t b) (get_int strict t b).
Proof. unfold get_int. det. Qed.
Lemma same_encode h t d : same (encode_value h t d) (encode_value strict t d).
Proof. apply same_omap, same_int. Qed.
Lemma same_eng A h t p d : same (get_eng A h t p d) (get_eng A strict t p d).
Proof. apply same_bind; [apply same_encode|intros; apply same_refl]. Qed.
Lemma same_real h t d : same (encode_real h t d) (encode_real strict t d).
Proof. apply same_omap. destruct t; [apply same_f32|apply same_f64]. Qed.
Lemma same_eng_real h t p d : same (get_eng_real h t p d) (get_eng_real strict t p d).
Proof. apply same_bind; [apply same_real|intros; apply same_refl]. Qed.

(** ** Wire formats *)
Lemma same_segment h b p : same (epath_segment h b p) (epath_segment strict b p).
Proof. unfold epath_segment. det. Qed.
Lemma same_epath_loop h n : forall b p, same_r (epath_loop h n b p) (epath_loop strict n b p).
Proof.
  induction n as [|n IH]; intros b p; cbn [epath_loop]; [now right|]. destruct (buf_empty b); [now right|].
  use (same_segment h b p). destruct (epath_segment strict b p) as [[b' p']| | |]; try (now right). apply IH.
Qed.
Lemma same_epath h d : same_r (epath_expand h d) (epath_expand strict d).
Proof. unfold epath_expand. use (same_epath_loop h (List.length d) (buf_of d) epath0). now right. Qed.
Lemma same_ysegment h b p : same (ypath_segment h b p) (ypath_segment strict b p).
Proof. unfold ypath_segment. det. Qed.
Lemma same_ypath_loop h n : forall b p, same_r (ypath_loop h n b p) (ypath_loop strict n b p).
Proof.
  induction n as [|n IH]; intros b p; cbn [ypath_loop]; [now right|]. destruct (buf_empty b); [now right|].
  use (same_ysegment h b p). destruct (ypath_segment strict b p) as [[b' p']| | |]; try (now right). apply IH.
Qed.
Lemma same_ypath h d : same_r (ypath_expand h d) (ypath_expand strict d).
Proof. unfold ypath_expand. use (same_ypath_loop h (List.length d) (buf_of d) ypath0). now right. Qed.

Lemma same_cp_loop h n : forall b acc, same_r (cp_loop h n b acc) (cp_loop strict n b acc).
Proof.
  induction n as [|n IH]; intros b acc; cbn [cp_loop]; [now right|]. destruct (buf_empty b); [now right|].
  match goal with |- same_r (match ?x with _ => _ end) (match ?y with _ => _ end) => assert (Q : same x y) by det end.
  use Q. match goal with |- same_r (match ?x with _ => _ end) _ => destruct x as [[i b']| | |] end; try (now right). apply IH.
Qed.
Lemma same_cp h d : same_r (cp_expand h d) (cp_expand strict d).
Proof.
  unfold cp_expand. use (same_u16 h (buf_of d)). destruct (get_u16 strict (buf_of d)) as [[n b]| | |]; try (now right). apply same_cp_loop.
Qed.
Lemma same_response h r d : same_r (response_expand h r d) (response_expand strict r d).
Proof.
  unfold response_expand. destruct (Nat.ltb _ _); [now right|].
  match goal with |- same_r (match ?x with _ => _ end) (match ?y with _ => _ end) => assert (Q : same x y) by det end.
  use Q. match goal with |- same_r (match ?x with _ => _ end) _ => destruct x as [[[[svc st] n] b]| | |] end; try (now right).
  cbv zeta. destruct (_ >? _); [now right|].
  match goal with |- same_r (match ?x with _ => _ end) (match ?y with _ => _ end) => assert (Q : same x y) by det end.
  use Q. now right.
Qed.
Lemma same_encaps h p d : same_r (encaps_expand h p d) (encaps_expand strict p d).
Proof.
  unfold encaps_expand. destruct (Nat.ltb _ _); [now right|].
  match goal with |- same_r (match ?x with _ => _ end) (match ?y with _ => _ end) => assert (Q : same x y) by det end.
  use Q. match goal with |- same_r (match ?x with _ => _ end) _ => destruct x as [[p1 b]| | |] end; try (now right).
  cbv zeta. destruct (negb _); [now right|]. use (same_bytes h (Z.to_nat (e_length p1)) b). now right.
Qed.
Lemma same_length h d : same (length_from_header h d) (length_from_header strict d).
Proof. unfold length_from_header. det. Qed.
Lemma same_fo h d : same (fo_expand h d) (fo_expand strict d).
Proof. unfold fo_expand. det. Qed.
#[export] Hint Resolve same_epath same_ypath same_cp same_response same_encaps same_length same_fo same_finished : det.
Lemma same_reply h e : same (reply_response h e) (reply_response strict e).
Proof. unfold reply_response. det. Qed.
#[export] Hint Resolve same_reply : det.

(** ** Sessions *)
Lemma same_exchange h p handle q w : same_l (send_and_receive h p handle q w) (send_and_receive strict p handle q w).
Proof.
  unfold send_and_receive. det.
  - match goal with |- same_l (?x, ?w) (?y, ?w) => assert (Q : same x y) by det end. use Q. now right.
  - match goal with |- same_l (?x, ?w) (?y, ?w) => assert (Q : same x y) by det end. use Q. now right.
Qed.
Lemma same_exchanges h p handle l : forall w, Forall (fun o => ~ outside o) (fst (exchanges strict p handle l w)) ->
  exchanges h p handle l w = exchanges strict p handle l w.
Proof.
  induction l as [|q r IH]; intros w F; [reflexivity|]. cbn [exchanges] in *.
  destruct (same_exchange h p handle q w) as [Q|Q].
  - destruct (send_and_receive strict p handle q w) as [o w']. cbn [fst] in Q. subst o.
    destruct (exchanges strict p handle r w'). cbn [fst] in F. inversion F as [|? ? N]. now destruct N.
  - rewrite Q. destruct (send_and_receive strict p handle q w) as [o w']. specialize (IH w').
    destruct (exchanges strict p handle r w') as [os w2]. cbn [fst] in *. inversion F; subst. now rewrite IH.
Qed.
Lemma same_register h p w : same_l (session_register h p w) (session_register strict p w).
Proof. unfold session_register. apply same_st_bind; [apply same_exchange|]. intros. now right. Qed.

Section Client.
Context {W : Type}.
Variables (h : heap) (use8 : bool) (si : heap -> session_if W).
Hypothesis HS : si_handle (si h) = si_handle (si strict).
Hypothesis XS : forall p w, same_l (si_exchange (si h) p w) (si_exchange (si strict) p w).

Lemma same_request service path data extra w :
  same_l (send_request h (si h) use8 service path data extra w) (send_request strict (si strict) use8 service path data extra w).
Proof.
  unfold send_request. rewrite HS. use (XS (request_packet (si_handle (si strict)) use8 service path data extra) w).
  destruct (si_exchange _ _ _) as [[e| | |] w']; try (now right). use (same_reply h e). now right.
Qed.
Lemma same_yrequest service path data extra w :
  same_l (ysend_request h (si h) service path data extra w) (ysend_request strict (si strict) service path data extra w).
Proof.
  unfold ysend_request. rewrite HS. use (XS (yrequest_packet (si_handle (si strict)) service path data extra) w).
  destruct (si_exchange _ _ _) as [[e| | |] w']; try (now right). use (same_reply h e). now right.
Qed.

Ltac req := match goal with |- context [send_request h (si h) use8 ?s ?p ?d ?x ?w] => use (same_request s p d x w) end;
  destruct (send_request strict (si strict) _ _ _ _ _ _) as [o w'].
Ltac inner := let H := fresh in match goal with
  | |- same_l (?x, ?w) (?y, ?w) => assert (H : same x y) by det
  | |- same_l (match ?x with _ => _ end) (match ?y with _ => _ end) => assert (H : same x y) by det end; use H.

Lemma same_identity n w : same_l (identity_read h use8 (si h) n w) (identity_read strict use8 (si strict) n w).
Proof. unfold identity_read, get_identity. req. inner. now right. Qed.
Lemma same_ask s p w : same_l (ask h use8 (si h) s p w) (ask strict use8 (si strict) s p w).
Proof. unfold ask. req. now right. Qed.
Lemma same_ask_scaling id n : forall a w, same_l (ask_scaling h use8 (si h) id a n w) (ask_scaling strict use8 (si strict) id a n w).
Proof. induction n as [|n IH]; intros a w; cbn [ask_scaling]; [now right|]. apply same_st_bind; [apply same_ask|intros]. apply same_st_bind; [apply IH|intros]. apply same_l_refl. Qed.
Lemma same_attributes id full size d : same (param_attributes h id full size d) (param_attributes strict id full size d).
Proof. unfold param_attributes. det. Qed.
Lemma same_scaling p d : same (param_scaling h p d) (param_scaling strict p d).
Proof. unfold param_scaling. det. Qed.
Lemma same_param id full w : same_l (param_read h use8 (si h) id full w) (param_read strict use8 (si strict) id full w).
Proof.
  unfold param_read. apply same_st_bind; [apply same_ask|intros d w1].
  apply same_st_bind; [apply same_lift, same_omap, same_u8|intros size w2].
  apply same_st_bind; [apply same_ask|intros d2 w3].
  apply same_st_bind; [apply same_lift, same_attributes|intros p w4].
  destruct (full && pa_scalable p); [|now right].
  apply same_st_bind; [apply same_ask_scaling|intros d5 w5]. apply same_lift, same_scaling.
Qed.
Lemma same_update s : same_l (update_value h use8 (si h) s) (update_value strict use8 (si strict) s).
Proof.
  destruct s as [p w]. unfold update_value. destruct (pa_router p); [|now right].
  match goal with |- context [ask h use8 (si h) ?s ?q ?w] => use (same_ask s q w) end.
  destruct (ask strict _ _ _ _ _) as [o w']. inner. now right.
Qed.
Lemma same_detail n w : same_l (fault_detail h use8 (si h) n w) (fault_detail strict use8 (si strict) n w).
Proof. unfold fault_detail. apply same_st_bind; [apply same_ask|intros]. apply same_lift, same_omap, same_u16. Qed.
Lemma same_fault n want w : same_l (fault_read h use8 (si h) n want w) (fault_read strict use8 (si strict) n want w).
Proof.
  unfold fault_read. destruct (fault_params n) as [[[[a b] c] d]|]; [|now right].
  apply same_st_bind; [apply same_detail|intros]. destruct (_ && want); [|now right].
  repeat (apply same_st_bind; [apply same_detail|intros]). now right.
Qed.
Lemma same_liftw {A} (m m' : st W A) s : (forall w, same_l (m w) (m' w)) -> same_l (lift m s) (lift m' s).
Proof. destruct s as [c w]. intros H. unfold lift. use (H w). now right. Qed.
Lemma same_fault_loop want n : forall k s, same_l (fault_loop h use8 (si h) want k n s) (fault_loop strict use8 (si strict) want k n s).
Proof.
  induction n as [|n IH]; intros k s; cbn [fault_loop]; [now right|].
  apply same_st_bind; [apply same_liftw; intros; apply same_fault|intros]. destruct (_ =? 0); [now right|].
  apply same_st_bind; [now right|intros]. apply same_st_bind; [now right|intros]. apply same_st_bind; [apply IH|intros]. now right.
Qed.
Lemma same_command c w : same_l (write_command h use8 (si h) c w) (write_command strict use8 (si strict) c w).
Proof. unfold write_command. req. now right. Qed.
Lemma same_faults clear want s : same_l (handle_faults h use8 (si h) clear want s) (handle_faults strict use8 (si strict) clear want s).
Proof.
  unfold handle_faults. apply same_st_bind; [apply same_fault_loop|intros]. destruct (_ && _); [|now right].
  apply same_liftw. intros. apply same_command.
Qed.
Lemma same_fault_object id w : same_l (fault_object_read h use8 (si h) id w) (fault_object_read strict use8 (si strict) id w).
Proof. unfold fault_object_read. apply same_st_bind; [apply same_ask|intros]. apply same_lift. unfold decode_fault. det. Qed.

(** ** Files *)
Lemma same_synced r : same (synced h r) (synced strict r).
Proof. unfold synced. det. Qed.
Lemma same_open id w : same_l (file_open h use8 (si h) id w) (file_open strict use8 (si strict) id w).
Proof.
  unfold file_open. req.
  match goal with |- same_l (?x, ?w) (?y, ?w) => assert (QQ : same x y) by (apply same_bind; [apply same_refl|intros; apply same_bind; [apply same_synced|intros; apply same_refl]]) end.
  use QQ. now right.
Qed.
Lemma same_fsync s : same_l (file_sync h use8 (si h) s) (file_sync strict use8 (si strict) s).
Proof.
  destruct s as [f w]. unfold file_sync. req.
  match goal with |- same_l (match ?x with _ => _ end) (match ?y with _ => _ end) => assert (QQ : same x y) by (apply same_bind; [apply same_refl|intros; apply same_synced]) end.
  use QQ. now right.
Qed.
Lemma same_initiated hid f r : same (initiated h hid f r) (initiated strict hid f r).
Proof. unfold initiated. det. Qed.
Lemma same_transferred f a b c d e r : same (transferred h f a b c d e r) (transferred strict f a b c d e r).
Proof. unfold transferred. det. Qed.
Lemma same_begin hid s : same_l (begin_upload h use8 (si h) hid s) (begin_upload strict use8 (si strict) hid s).
Proof.
  destruct s as [f w]. unfold begin_upload. destruct (fo_state f); try (now right). req.
  match goal with |- same_l (match ?x with _ => _ end) (match ?y with _ => _ end) => assert (QQ : same x y) by (apply same_bind; [apply same_refl|intros; apply same_initiated]) end.
  use QQ. now right.
Qed.
Lemma same_transfer s : same_l (handle_transfers h use8 (si h) s) (handle_transfers strict use8 (si strict) s).
Proof.
  destruct s as [f w]. unfold handle_transfers. destruct (fo_state f); try (now right). req.
  match goal with |- same_l (match ?x with _ => _ end) (match ?y with _ => _ end) => assert (QQ : same x y) by (apply same_bind; [apply same_refl|intros; apply same_transferred]) end.
  use QQ. now right.
Qed.
Lemma same_fop x s : same_l (fop_run h use8 (si h) x s) (fop_run strict use8 (si strict) x s).
Proof.
  destruct x; cbn [fop_run]; [apply same_st_bind; [apply same_begin|intros; now right]|apply same_transfer|apply same_st_bind; [apply same_fsync|intros; now right]].
Qed.
Lemma same_fops l : forall s, Forall (fun o => o <> Undef UbOobRead) (fst (fops_run strict use8 (si strict) l s)) ->
  fops_run h use8 (si h) l s = fops_run strict use8 (si strict) l s.
Proof.
  induction l as [|x l IH]; intros s F; [reflexivity|]. cbn [fops_run] in *.
  destruct (same_fop x s) as [Q|Q].
  - destruct (fop_run strict use8 (si strict) x s) as [o s']. cbn [fst] in Q. subst o. cbn [fst] in F. inversion F. congruence.
  - rewrite Q. destruct (fop_run strict use8 (si strict) x s) as [[b|e|u|] s']; try reflexivity.
    + specialize (IH s'). destruct (fops_run strict use8 (si strict) l s') as [os s2]. cbn [fst] in *. inversion F; subst. now rewrite IH.
    + specialize (IH s'). destruct (fops_run strict use8 (si strict) l s') as [os s2]. cbn [fst] in *. inversion F; subst. now rewrite IH.
Qed.

(** ** Connections *)
Lemma same_dest aton host items : same (fo_dest h aton host items) (fo_dest strict aton host items).
Proof. unfold fo_dest. det. Qed.
Lemma same_answer env host large c r gm : same_l (fo_answer h env host large c r gm) (fo_answer strict env host large c r gm).
Proof.
  destruct gm as [g m]. unfold fo_answer. destruct (negb _); [now right|].
  match goal with |- same_l (match ?x with _ => _ end) (match ?y with _ => _ end) => assert (QQ : same x y) end.
  { apply same_bind; [apply same_fo|intros]. apply same_bind; [apply same_refl|intros]. apply same_bind; [apply same_dest|intros]. apply same_refl. }
  use QQ. now right.
Qed.
Lemma same_fopen host env large c s :
  same_l (forward_open h use8 (si h) host env large c s) (forward_open strict use8 (si strict) host env large c s).
Proof.
  destruct s as [[g m] w]. unfold forward_open. destruct (fo_prepare _ _ _ _) as [[c' g']| | |]; [|now right..].
  destruct (fo_request _ _) as [d| | |]; [|now right..]. req. destruct o as [r| | |]; [|now right..].
  use (same_answer env host large c r (g', m)). now right.
Qed.
Lemma same_fclose ptr s : same_l (forward_close h use8 (si h) ptr s) (forward_close strict use8 (si strict) ptr s).
Proof. destruct s as [m w]. unfold forward_close. destruct ptr; [|now right]. req. now right. Qed.
End Client.

Lemma same_io h c d : same (io_receive h c d) (io_receive strict c d).
Proof. unfold io_receive. det. Qed.
Lemma same_readable h d m : same_l (on_readable h d m) (on_readable strict d m).
Proof.
  unfold on_readable. destruct (fst (udp_receive _ _)) as [data| | |]; try (now right).
  match goal with |- same_l (match ?x with _ => _ end) (match ?y with _ => _ end) => assert (QQ : same x y) end.
  { apply same_bind; [apply same_finished, same_cp|intros items]. destruct (nth_error items 0); [|now right].
    apply same_bind; [apply same_u32|intros [id b]]. cbv zeta. destruct (map_find _ _); [|now right]. destruct (nth_error items 1); [|now right].
    apply same_bind; [apply same_io|intros]. apply same_refl. }
  use QQ. now right.
Qed.
Lemma same_dispatch {W A} (k k' : nat -> A -> st W unit) : (forall i a s, same_l (k i a s) (k' i a s)) ->
  forall n i ready s, same_l (dispatch k i n ready s) (dispatch k' i n ready s).
Proof.
  intros H. induction n as [|n IH]; intros i ready s; [destruct ready; now right|].
  destruct ready as [|[a|] r]; cbn [dispatch]; [now right| |apply IH]. apply same_st_bind; [apply H|intros; apply IH].
Qed.
Lemma same_rounds {W A} (k k' : nat -> A -> st W unit) n ending : (forall i a s, same_l (k i a s) (k' i a s)) ->
  forall rounds s, same_l (select_rounds k n rounds ending s) (select_rounds k' n rounds ending s).
Proof.
  intros H. induction rounds as [|r rs IH]; intros s; cbn [select_rounds]; [now right|].
  apply same_st_bind; [now apply same_dispatch|intros; apply IH].
Qed.
Lemma same_handle h rounds ending env m : same_l (handle_connections h rounds ending env m) (handle_connections strict rounds ending env m).
Proof.
  unfold handle_connections. apply same_st_bind; [|intros; now right]. unfold bs_select. destruct (List.length _); [now right|].
  apply same_rounds. intros. apply same_readable.
Qed.
Lemma same_call {S} h (op : call S) s : same_l (call_mgr h op s) (call_mgr strict op s).
Proof.
  destruct s as [[g m] w]. unfold call_mgr. destruct op as [use8 si host env large c|use8 si oid|rounds ending env|oid d]; [| | |now right].
  - apply (same_fopen h use8 (fun _ => si)); [reflexivity|intros; now right].
  - use (same_fclose h use8 (fun _ => si) eq_refl (fun p w => same_l_refl _) (lock oid m) (m, w)). now right.
  - use (same_handle h rounds ending env m). now right.
Qed.
Lemma same_world {S} h i (op : call S) w : same_l (call_world h i op w) (call_world strict i op w).
Proof.
  unfold call_world. use (same_call h op (w_g w, w_m w i, w_s w)). now right.
Qed.
Lemma same_calls {S} h (ops : list (nat * call S)) : forall w, inside_run ops w -> run_calls h ops w = run_calls strict ops w.
Proof.
  induction ops as [|[i op] r IH]; intros w I; [reflexivity|]. cbn [inside_run run_calls] in *. destruct I as [N I].
  destruct (same_world h i op w) as [Q|Q]; [now destruct N|]. rewrite Q. now apply IH.
Qed.


(** With listeners that act: *)
Lemma same_do {S} h (c : lcall S) s : same_l (do_call h c s) (do_call strict c s).
Proof. destruct c; cbn [do_call]; try apply same_call. now right. Qed.
Lemma same_react {S} h (l : list (lcall S)) : forall s, same_l (react h l s) (react strict l s).
Proof. induction l as [|c r IH]; intros s; cbn [react]; [now right|]. apply same_st_bind; [apply same_do|intros; apply IH]. Qed.
Lemma same_hear {S} h (L : listeners S) d s : same_l (hear h L d s) (hear strict L d s).
Proof.
  destruct s as [[g m] w]. unfold hear. destruct (same_readable h d m) as [Q|Q].
  - destruct (on_readable strict d m) as [o m']. cbn [fst] in Q. subst o. now left.
  - rewrite Q. destruct (on_readable strict d m) as [o m']. destruct o; try (now right).
    destruct (skipn _ _) as [|[] [|]]; try (now right). apply same_react.
Qed.
Lemma same_entry {S} h (L : listeners S) env k c s : same_l (tick_entry h L env k c s) (tick_entry strict L env k c s).
Proof.
  destruct s as [[g m] w]. unfold tick_entry. destruct (tick_begin _ c) as [[] c1]; [..|now right].
  - apply same_st_bind; [apply same_react|intros; apply same_l_refl].
  - apply same_st_bind; [apply same_react|intros; apply same_l_refl].
Qed.
Lemma same_ticks {S} h (L : listeners S) env n : forall k s, same_l (tick_loop h L env n k s) (tick_loop strict L env n k s).
Proof.
  induction n as [|n IH]; intros k s; cbn [tick_loop]; [now right|]. destruct (find _ _) as [[k' c]|]; [|now right].
  apply same_st_bind; [apply same_entry|intros]. apply same_st_bind; [apply IH|intros; apply same_l_refl].
Qed.
Lemma same_listen {S} h (L : listeners S) rounds ending env s :
  same_l (listen_connections h L rounds ending env s) (listen_connections strict L rounds ending env s).
Proof.
  unfold listen_connections. apply same_st_bind.
  - unfold bs_select. destruct (List.length _); [apply same_l_refl|]. apply same_rounds. intros. apply same_hear.
  - intros a s'. unfold listen_ticks. apply same_st_bind; [apply same_ticks|intros; apply same_l_refl].
Qed.

(** ** Discovery *)
Lemma same_disc_items h items : forall i acc, same (disc_items h i items acc) (disc_items strict i items acc).
Proof. induction items as [|it r IH]; intros i acc; cbn [disc_items]; [now right|]. unfold disc_item, get_identity. det. Qed.
Lemma same_disc h ds : forall acc, same (disc_loop h acc ds) (disc_loop strict acc ds).
Proof.
  induction ds as [|d r IH]; intros acc; cbn [disc_loop]; [now right|].
  match goal with |- same (match ?x with _ => _ end) (match ?y with _ => _ end) => assert (QQ : same x y) end.
  { apply same_bind; [apply same_refl|intros]. unfold disc_reply. apply same_bind; [apply same_finished, same_cp|intros; apply same_disc_items]. }
  use QQ. match goal with |- same (match ?x with _ => _ end) _ => destruct x end; [apply IH|now right..].
Qed.
Lemma same_discover h k b ds : same_l (discover h k b ds) (discover strict k b ds).
Proof.
  unfold discover. destruct (dk_socket k); [now right|]. destruct (dk_broadcast k); [now right|]. cbv zeta.
  match goal with |- same_l (?x, ?w) (?y, ?w) => assert (QQ : same x y) by (apply same_bind; [apply same_refl|intros; apply same_disc]) end.
  use QQ. now right.
Qed.

(** ** The statements *)
Lemma to_indep {S A} (m : heap -> st S A) : (forall h s, same_l (m h s) (m strict s)) -> indep m.
Proof. intros H s N h. destruct (H h s) as [Q|Q]; [now destruct N|exact Q]. Qed.
Lemma of_indep {S A} (m : heap -> st S A) : indep m -> forall h s, same_l (m h s) (m strict s).
Proof.
  intros I h s. unfold same_l. destruct (fst (m strict s)) as [a|e|u|] eqn:E; try (right; apply I; unfold outside; rewrite E; discriminate).
  destruct u; try (right; apply I; unfold outside; rewrite E; discriminate). now left.
Qed.
Lemma to_object {X A} (f : heap -> X * outcome A) : (forall h, same_r (f h) (f strict)) -> indep_object f.
Proof. intros H N h. destruct (H h) as [Q|Q]; [now destruct N|exact Q]. Qed.
Lemma to_outcome {A} (f : heap -> outcome A) : (forall h, same (f h) (f strict)) -> indep_outcome f.
Proof. intros H N h. destruct (H h) as [Q|Q]; [now destruct N|exact Q]. Qed.
Lemma indep_parts {S} (si : heap -> session_if S) : indep_session si ->
  forall h, si_handle (si h) = si_handle (si strict) /\ (forall p w, same_l (si_exchange (si h) p w) (si_exchange (si strict) p w)).
Proof. intros [H X] h. split; [apply H|]. intros p w. apply (of_indep _ (X p)). Qed.

Lemma det_live p handle : indep_session (fun h => live_session h p handle).
Proof. split; [reflexivity|]. intros q. apply to_indep. intros. apply same_exchange. Qed.
Lemma det_const {S} (si : session_if S) : indep_session (fun _ => si).
Proof. split; [reflexivity|]. intros q s N h. reflexivity. Qed.

Lemma det_wire :
  (forall d, indep_outcome (fun h => length_from_header h d)) /\
  (forall p d, indep_object (fun h => encaps_expand h p d)) /\
  (forall d, indep_object (fun h => cp_expand h d)) /\
  (forall r d, indep_object (fun h => response_expand h r d)) /\
  (forall d, indep_object (fun h => epath_expand h d)) /\
  (forall d, indep_object (fun h => ypath_expand h d)) /\
  (forall d, indep_outcome (fun h => fo_expand h d)).
Proof.
  repeat match goal with |- _ /\ _ => split end; intros; first [apply to_outcome | apply to_object]; intros;
    first [apply same_length | apply same_encaps | apply same_cp | apply same_response | apply same_epath | apply same_ypath | apply same_fo].
Qed.
Lemma det_typed :
  (forall t d, indep_outcome (fun h => encode_value h t d)) /\
  (forall A t p d, indep_outcome (fun h => get_eng A h t p d)) /\
  (forall t d, indep_outcome (fun h => encode_real h t d)) /\
  (forall t p d, indep_outcome (fun h => get_eng_real h t p d)).
Proof.
  repeat match goal with |- _ /\ _ => split end; intros; apply to_outcome; intros;
    first [apply same_encode | apply same_eng | apply same_real | apply same_eng_real].
Qed.
Lemma det_session :
  (forall p handle q, indep (fun h => send_and_receive h p handle q)) /\
  (forall p, indep (fun h => session_register h p)) /\
  (forall p handle l w h, Forall (fun o => ~ outside o) (fst (exchanges strict p handle l w)) ->
     exchanges h p handle l w = exchanges strict p handle l w).
Proof.
  split; [|split]; intros; [apply to_indep; intros; apply same_exchange|apply to_indep; intros; apply same_register|now apply same_exchanges].
Qed.
Lemma det_request {S} (si : heap -> session_if S) use8 : indep_session si ->
  (forall service path data extra, indep (fun h => send_request h (si h) use8 service path data extra)) /\
  (forall service path data extra, indep (fun h => ysend_request h (si h) service path data extra)).
Proof.
  intros I. split; intros; apply to_indep; intros h s; destruct (indep_parts si I h) as [H X];
    [now apply same_request|now apply same_yrequest].
Qed.
Lemma det_objects {S} (si : heap -> session_if S) use8 : indep_session si ->
  (forall n, indep (fun h => identity_read h use8 (si h) n)) /\
  (forall id full, indep (fun h => param_read h use8 (si h) id full)) /\
  indep (fun h => update_value h use8 (si h)) /\
  (forall n want, indep (fun h => fault_read h use8 (si h) n want)) /\
  (forall clear want, indep (fun h => handle_faults h use8 (si h) clear want)) /\
  (forall id, indep (fun h => fault_object_read h use8 (si h) id)).
Proof.
  intros I. repeat match goal with |- _ /\ _ => split end; intros; apply to_indep; intros h s; destruct (indep_parts si I h) as [H X];
    first [now apply same_identity | now apply same_param | now apply same_update | now apply same_fault | now apply same_faults | now apply same_fault_object].
Qed.
Lemma det_files {S} (si : heap -> session_if S) use8 : indep_session si ->
  (forall id, indep (fun h => file_open h use8 (si h) id)) /\
  (forall hid, indep (fun h => begin_upload h use8 (si h) hid)) /\
  indep (fun h => handle_transfers h use8 (si h)) /\
  indep (fun h => file_sync h use8 (si h)) /\
  (forall l s h, Forall (fun o => ~ outside o) (fst (fops_run strict use8 (si strict) l s)) ->
     fops_run h use8 (si h) l s = fops_run strict use8 (si strict) l s).
Proof.
  intros I. split; [|split; [|split; [|split]]]; intros.
  1-4: apply to_indep; intros h s; destruct (indep_parts si I h) as [H X];
    first [now apply same_open | now apply same_begin | now apply same_transfer | now apply same_fsync].
  destruct (indep_parts si I h) as [HH X]. now apply same_fops.
Qed.
Lemma det_conns {S} (si : heap -> session_if S) use8 : indep_session si ->
  (forall host env large c, indep (fun h => forward_open h use8 (si h) host env large c)) /\
  (forall ptr, indep (fun h => forward_close h use8 (si h) ptr)) /\
  (forall rounds ending env, indep (fun h => handle_connections h rounds ending env)) /\
  (forall (L : listeners S) rounds ending env, indep (fun h => listen_connections h L rounds ending env)) /\
  (forall (ops : list (nat * call S)) w h, inside_run ops w -> run_calls h ops w = run_calls strict ops w).
Proof.
  intros I. split; [|split; [|split; [|split]]]; intros.
  1-4: apply to_indep; intros h s.
  1-2: destruct (indep_parts si I h) as [H X]; first [now apply same_fopen | now apply same_fclose].
  - apply same_handle.
  - apply same_listen.
  - now apply same_calls.
Qed.
Lemma det_discover k b ds : ~ outside (fst (discover strict k b ds)) -> forall h, discover h k b ds = discover strict k b ds.
Proof. intros N h. destruct (same_discover h k b ds) as [Q|Q]; [now destruct N|exact Q]. Qed.
