(** Further proofs about MObjLog: the messages of parameter objects and of the
    fault manager. *)
From Verif Require Import Base PBase MBuffer SBuffer PBuffer MEip SEip SObj PObj MStatus PStatus MLog SText PText MMsg SMsg SErrno PErrno MFile MIdent MParam MFault MYaskawa MExample PExample MFileLog SFileLog PFileLog PFileLog2 MObjLog SObjLog PObjLog.
Local Open Scope Z_scope.
Ltac Zify.zify_post_hook ::= Z.div_mod_to_equations.

(** ** Only messages of some kind *)
Section Only.
Context {S : Type}.
Variables (lgs : S -> list message) (p : message -> bool).
Definition none {A} (m : st S A) : Prop :=
  forall s o s', m s = (o, s') -> exists lg, lgs s' = lgs s ++ lg /\ filter p lg = [].
Lemma none_pure {A} (o : outcome A) : none (fun s => (o, s)).
Proof. intros s o' s' E. inv E. exists []. now rewrite app_nil_r. Qed.
Lemma none_bind {A B} (m : st S A) (k : A -> st S B) : none m -> (forall a, none (k a)) -> none (st_bind m k).
Proof.
  intros M K s o s' E. unfold st_bind in E. destruct (m s) as [o1 s1] eqn:E1. destruct (M _ _ _ E1) as (l1 & L1 & P1).
  destruct o1 as [a|e|u|]; [|inv E; exists l1; now split..].
  destruct (K a _ _ _ E) as (l2 & L2 & P2). exists (l1 ++ l2). rewrite L2, L1, app_assoc, filter_app, P1, P2. now split.
Qed.
End Only.

Section Any.
Context {W : Type}.
Variables (h : heap) (use8 : bool) (si : session_if W).
Notation none0 := (none (fun s : W * list message => snd s)).
Lemma none_ask p service path data : (forall s q, p (request_message s q) = false) -> (forall r, p (ERROR, status_text r) = false) ->
  none0 p (ask_logged h use8 si service path data).
Proof.
  intros Pr Pe [w l] o [w' l'] E. unfold ask_logged in E. destruct (send_request _ _ _ _ _ _ _ w) as [o1 w1]. inv E.
  eexists. split; [reflexivity|]. cbn [filter]. rewrite Pr. destruct o1 as [r| | |]; try reflexivity.
  destruct (_ =? _); [reflexivity|]. cbn [filter]. now rewrite Pe.
Qed.
Lemma none_scaling p id n : (forall s q, p (request_message s q) = false) -> (forall r, p (ERROR, status_text r) = false) ->
  forall first, none0 p (scaling_logged h use8 si id first n).
Proof.
  intros Pr Pe. induction n as [|n IH]; intros first; cbn [scaling_logged]; [apply none_pure|].
  apply none_bind; [now apply none_ask|intros d]. apply none_bind; [apply IH|intros r; apply none_pure].
Qed.

(** ** Parameter objects *)
Definition is_debug (m : message) : bool := level_eqb (fst m) DEBUG.
Lemma debugs lg : at_level DEBUG lg = map snd (filter is_debug lg).
Proof. reflexivity. Qed.

Lemma bit_of v k : 0 <= k -> negb (Z.land v (2 ^ k) =? 0) = Z.testbit v k.
Proof.
  intros K. destruct (Z.testbit v k) eqn:T.
  - apply negb_true_iff, Z.eqb_neq. intros E. pose proof (f_equal (fun x => Z.testbit x k) E) as F. cbv beta in F.
    rewrite Z.land_spec, T, Z.pow2_bits_true, Z.bits_0 in F by assumption. discriminate.
  - apply negb_false_iff, Z.eqb_eq. apply Z.bits_inj'. intros n N. rewrite Z.land_spec, Z.bits_0.
    rewrite Z.pow2_bits_eqb by assumption. destruct (Z.eqb_spec k n) as [<-|]; [now rewrite T|apply andb_false_r].
Qed.
Lemma digit_bit b : digit b = bit_digit b.
Proof. reflexivity. Qed.

Lemma descriptor_range size d v : param_descriptor h size d = Ok v -> is_u16 v.
Proof.
  unfold param_descriptor.
  destruct (get_bytes h size _) as [[v0 b]| | |]; cbn [bind]; try discriminate.
  destruct (get_u8 h b) as [[n b1]| | |]; cbn [bind]; try discriminate.
  destruct (get_bytes h _ b1) as [[x b2]| | |]; cbn [bind]; try discriminate.
  unfold get_u16. destruct (fetch h b2) as [[x0 b3]| | |]; cbn [bind]; try discriminate.
  destruct (fetch h b3) as [[x1 b4]| | |]; cbn [bind]; try discriminate.
  destruct (get_u8 h b4) as [[t b5]| | |]; cbn [bind]; try discriminate. intros E. inv E. apply u16_range.
Qed.
Lemma scaling_flags p d q : param_scaling h p d = Ok q ->
  pa_scalable q = pa_scalable p /\ pa_readonly q = pa_readonly p.
Proof.
  unfold param_scaling. destruct (get_u16 h _) as [[a b]| | |]; cbn [bind]; try discriminate.
  destruct (get_u16 h b) as [[a1 b1]| | |]; cbn [bind]; try discriminate.
  destruct (get_u16 h b1) as [[a2 b2]| | |]; cbn [bind]; try discriminate.
  destruct (get_s16 h b2) as [[a3 b3]| | |]; cbn [bind]; try discriminate. intros E. inv E. split; reflexivity.
Qed.
Lemma attributes_id id full size d p : param_attributes h id full size d = Ok p -> pa_id p = id.
Proof.
  unfold param_attributes. intros E.
  repeat match type of E with
  | context [bind ?m _] => match m with bind _ _ => fail 1 | _ => destruct m as [[]| | |]; cbn [bind] in E; try discriminate E end
  | (if ?c then _ else _) = _ => destruct c
  end; inv E; reflexivity.
Qed.

Lemma param_debugs id full w l o w' l' : is_u16 id -> param_logged h use8 si id full (w, l) = (o, (w', l')) ->
  exists lg, l' = l ++ lg /\ debug_told id o (at_level DEBUG lg).
Proof.
  intros I E. unfold is_u16 in I. unfold param_logged in E.
  assert (TB : tells_begin id (snd (begin_message id))) by (exists (to_string id); split; [apply to_string_numeral; lia|reflexivity]).
  assert (Pr : forall s q, is_debug (request_message s q) = false) by reflexivity.
  assert (Pe : forall r, is_debug (ERROR, status_text r) = false) by reflexivity.
  unfold st_bind at 1, put at 1 in E.
  unfold st_bind at 1 in E. destruct (ask_logged _ _ _ _ _ _ _) as [o1 [w1 l1]] eqn:E1.
  destruct (none_ask is_debug _ _ _ Pr Pe _ _ _ E1) as (g1 & G1 & F1). cbn [snd] in G1.
  assert (B1 : forall x, at_level DEBUG ([begin_message id] ++ g1 ++ x) = snd (begin_message id) :: at_level DEBUG x).
  { intros x. rewrite !at_level_app, (debugs g1), F1. reflexivity. }
  assert (X1 : forall (x : outcome param) w2, (forall q, x <> Ok q) -> (x, (w2, l1)) = (o, (w', l')) ->
               exists lg, l' = l ++ lg /\ debug_told id o (at_level DEBUG lg)).
  { intros x w2 N X. inv X. exists ([begin_message id] ++ g1 ++ []). split; [now rewrite app_nil_r, <- app_assoc|].
    rewrite B1. destruct o as [q|e|u|]; [now destruct (N q)|..]; exists (snd (begin_message id)), []; (split; [reflexivity|]; split; [exact TB|now left]). }
  destruct o1 as [d1|e|u|]; [|eapply X1; [|exact E]; discriminate..].
  unfold st_bind at 1, st_lift at 1 in E.
  destruct (omap fst (get_u8 h (buf_of d1))) as [size|e|u|]; [|eapply X1; [|exact E]; discriminate..].
  unfold st_bind at 1 in E. destruct (ask_logged h use8 si GET_ATTRIBUTE_ALL _ _ _) as [o2 [w2 l2]] eqn:E2.
  destruct (none_ask is_debug _ _ _ Pr Pe _ _ _ E2) as (g2 & G2 & F2). cbn [snd] in G2.
  assert (B2 : forall x, at_level DEBUG ([begin_message id] ++ g1 ++ g2 ++ x) = snd (begin_message id) :: at_level DEBUG x).
  { intros x. rewrite B1, at_level_app, (debugs g2), F2. reflexivity. }
  assert (X2 : forall (x : outcome param) w3, (forall q, x <> Ok q) -> (x, (w3, l2)) = (o, (w', l')) ->
               exists lg, l' = l ++ lg /\ debug_told id o (at_level DEBUG lg)).
  { intros x w3 N X. inv X. exists ([begin_message id] ++ g1 ++ g2 ++ []). split; [now rewrite app_nil_r, <- !app_assoc|].
    rewrite B2. destruct o as [q|e|u|]; [now destruct (N q)|..]; exists (snd (begin_message id)), []; (split; [reflexivity|]; split; [exact TB|now left]). }
  destruct o2 as [d2|e|u|]; [|eapply X2; [|exact E]; discriminate..].
  unfold st_bind at 1, st_lift at 1 in E. pose proof (descriptor_first h id full (Z.to_nat size) d2) as DF.
  destruct (param_descriptor h (Z.to_nat size) d2) as [v|e|u|] eqn:DV; [|eapply X2; [|exact E]; discriminate..].
  apply descriptor_range in DV. unfold is_u16 in DV.
  unfold st_bind at 1, put at 1 in E. set (dm := descriptor_message id v) in *.
  assert (TD : tells_descriptor id (negb (Z.land v SUPPORTS_SCALING =? 0)) (negb (Z.land v READ_ONLY =? 0)) (snd dm)).
  { exists (to_string id), (to_hex v), v. split; [apply to_string_numeral; lia|]. split; [apply to_hex_numeral; lia|].
    split; [symmetry; exact (bit_of v 2 ltac:(lia))|]. split; [symmetry; exact (bit_of v 4 ltac:(lia))|reflexivity]. }
  assert (B3 : forall x, at_level DEBUG ([begin_message id] ++ g1 ++ g2 ++ [dm] ++ x) = [snd (begin_message id); snd dm] ++ at_level DEBUG x).
  { intros x. rewrite B2, at_level_app. reflexivity. }
  assert (X3 : forall (x : outcome param) w3 g3, (forall q, x <> Ok q) -> filter is_debug g3 = [] -> (x, (w3, l2 ++ [dm] ++ g3)) = (o, (w', l')) ->
               exists lg, l' = l ++ lg /\ debug_told id o (at_level DEBUG lg)).
  { intros x w3 g3 N F X. inv X. exists ([begin_message id] ++ g1 ++ g2 ++ [dm] ++ g3). split; [now rewrite <- !app_assoc|].
    rewrite B3, (debugs g3), F. destruct o as [q|e|u|]; [now destruct (N q)|..]; exists (snd (begin_message id)), [snd dm];
      (split; [reflexivity|]; split; [exact TB|]; right; eexists _, _, _; split; [reflexivity|exact TD]). }
  unfold st_bind at 1, st_lift at 1 in E.
  destruct (param_attributes h id full (Z.to_nat size) d2) as [q|e|u|] eqn:PA;
    [|eapply (X3 _ w2 []); [|reflexivity|rewrite app_nil_r; exact E]; discriminate..].
  destruct DF as [DS DR].
  match type of E with st_bind ?m _ _ = _ => assert (N : exists o3 w3 g3, m (w2, l2 ++ [dm]) = (o3, (w3, l2 ++ [dm] ++ g3))
     /\ filter is_debug g3 = [] /\ forall q', o3 = Ok q' -> pa_scalable q' = pa_scalable q /\ pa_readonly q' = pa_readonly q) end.
  { destruct (full && pa_scalable q).
    - unfold st_bind. destruct (scaling_logged _ _ _ _ _ _ _) as [o3 [w3 l3]] eqn:E3.
      destruct (none_scaling is_debug id _ Pr Pe _ _ _ _ E3) as (g3 & G3 & F3). cbn [snd] in G3. rewrite <- app_assoc in G3. subst l3.
      destruct o3 as [d3|e|u|]; cbn [st_lift]; eexists _, _, g3; (split; [reflexivity|]; split; [exact F3|]); [|discriminate..].
      intros q' Q. now apply scaling_flags in Q.
    - exists (Ok q), w2, []. rewrite app_nil_r. split; [reflexivity|]. split; [reflexivity|]. intros q' Q. inv Q. split; reflexivity. }
  destruct N as (o3 & w3 & g3 & E3 & F3 & K). unfold st_bind at 1 in E. rewrite E3 in E.
  destruct o3 as [q'|e|u|]; [|eapply X3; [|exact F3|exact E]; discriminate..].
  destruct (K q' eq_refl) as [K1 K2]. unfold st_bind, put, st_ret in E. inv E.
  exists ([begin_message id] ++ g1 ++ g2 ++ [dm] ++ g3 ++ [end_message id q']). split; [now rewrite <- !app_assoc|].
  rewrite B3, at_level_app, (debugs g3), F3. exists (snd (begin_message id)), (snd dm), (snd (end_message id q')).
  split; [reflexivity|]. split; [exact TB|]. split; [now rewrite K1, K2, DS, DR|].
  intros T. unfold is_u8 in T. exists (to_string id), (to_string (zlen (pa_value q'))), (to_hex (pa_type q')).
  split; [apply to_string_numeral; lia|]. split; [apply to_string_numeral, zlen_nonneg|]. split; [apply to_hex_numeral; lia|]. reflexivity.
Qed.

(** ** The number of faults *)
Lemma fault_silent n want : none (fun s : W * list message => snd s) is_count (fault_logged h use8 si n want).
Proof.
  assert (A : forall n, none (fun s : W * list message => snd s) is_count (detail_logged h use8 si n)).
  { intros k. apply none_bind; [now apply none_ask|intros d; apply none_pure]. }
  unfold fault_logged. destruct (fault_params n) as [[[[a b] c] e]|]; [|apply none_pure].
  apply none_bind; [apply A|intros code]. destruct (_ && _); [|apply none_pure].
  apply none_bind; [apply A|intros v]. apply none_bind; [apply A|intros v2]. apply none_bind; [apply A|intros v3]. apply none_pure.
Qed.
Lemma loop_counts want n : forall number c w l o c' w' l', loop_logged h use8 si want number n (c, (w, l)) = (o, (c', (w', l'))) ->
  exists new lg, c' = c ++ new /\ l' = l ++ lg /\ filter is_count lg = [] /\ forall k, o = Ok k -> k = List.length new.
Proof.
  induction n as [|n IH]; intros number c w l o c' w' l' E; cbn [loop_logged] in E.
  { inv E. exists [], []. rewrite !app_nil_r. repeat split. intros k K. now inv K. }
  unfold st_bind at 1 in E. unfold lift in E. destruct (fault_logged h use8 si number want (w, l)) as [o1 [w1 l1]] eqn:E1.
  destruct (fault_silent _ _ _ _ _ E1) as (g1 & G1 & F1). cbn [snd] in G1. subst l1.
  destruct o1 as [f|e|u|]; [|inv E; exists [], g1; rewrite app_nil_r; repeat (split; [assumption || reflexivity|]); discriminate..].
  destruct (_ =? 0); [inv E; exists [], g1; rewrite app_nil_r; repeat (split; [assumption || reflexivity|]); intros k K; now inv K|].
  unfold st_bind at 1, st_lift at 1 in E.
  destruct (fault_description _) as [ds|e|u|]; [|inv E; exists [], g1; rewrite app_nil_r; repeat (split; [assumption || reflexivity|]); discriminate..].
  unfold st_bind at 1, notify at 1 in E. unfold st_bind at 1 in E.
  destruct (loop_logged h use8 si want (number + 1) n _) as [o2 [c2 [w2 l2]]] eqn:E2.
  destruct (IH _ _ _ _ _ _ _ _ E2) as (new & g2 & C2 & G2 & F2 & K2). subst c2 l2.
  assert (R : filter is_count (g1 ++ g2) = []) by now rewrite filter_app, F1, F2.
  destruct o2 as [k|e|u|]; inv E; eexists (_ :: new), (g1 ++ g2); rewrite <- app_assoc; cbn [app];
    (split; [reflexivity|]; split; [now rewrite <- app_assoc|]; split; [exact R|]); [|discriminate..].
  intros k' K. inv K. cbn [List.length]. f_equal. now apply K2.
Qed.
Lemma handle_counts clear want c w l o c' w' l' : handle_logged h use8 si clear want (c, (w, l)) = (o, (c', (w', l'))) ->
  exists new lg, c' = c ++ new /\ l' = l ++ lg /\ count_told new o (filter is_count lg).
Proof.
  intros E. unfold handle_logged in E. unfold st_bind at 1 in E. destruct (loop_logged _ _ _ _ _ _ _) as [o1 [c1 [w1 l1]]] eqn:E1.
  destruct (loop_counts _ _ _ _ _ _ _ _ _ _ E1) as (new & g1 & C1 & G1 & F1 & K1). subst c1 l1.
  destruct o1 as [k|e|u|]; [|inv E; exists new, g1; rewrite F1; repeat (split; [reflexivity|]); discriminate..].
  specialize (K1 k eq_refl). subst k. set (k := List.length new) in *. destruct (Nat.ltb 0 k) eqn:L.
  - apply Nat.ltb_lt in L. assert (NE : new <> []) by (intros ->; cbn in k; lia).
    assert (T : tells_count k (count_message k)).
    { exists (to_string (Z.of_nat k)). split; [apply to_string_numeral; lia|reflexivity]. }
    unfold st_bind at 1, lift at 1, put at 1 in E. destruct clear; cbn [andb] in E.
    + unfold lift in E. destruct (command_logged h use8 si CLEAR_FAULT_QUEUE _) as [o2 [w2 l2]] eqn:E2. inv E.
      assert (N : none (fun s : W * list message => snd s) is_count (command_logged h use8 si CLEAR_FAULT_QUEUE)).
      { apply none_bind; [now apply none_ask|intros d; apply none_pure]. }
      destruct (N _ _ _ E2) as (g2 & G2 & F2). cbn [snd] in G2. subst l'.
      exists new, (g1 ++ [count_message k] ++ g2). split; [reflexivity|]. split; [now rewrite <- !app_assoc|].
      rewrite !filter_app, F1, F2, app_nil_r. cbn [app]. split; assumption.
    + inv E. exists new, (g1 ++ [count_message k]). split; [reflexivity|]. split; [now rewrite <- !app_assoc|].
      rewrite filter_app, F1. cbn [app]. split; assumption.
  - rewrite andb_false_r in E. cbn in E. inv E. exists new, g1. split; [reflexivity|]. split; [reflexivity|]. rewrite F1. intros _.
    apply Nat.ltb_ge in L. destruct new; [reflexivity|cbn in k; lia].
Qed.
End Any.

(** ** The Yaskawa router *)
Lemma yaskawa_told {D} h handle (dev : device D) service c n a data d tr l o d' tr' l' :
  is_u32 handle -> device_wf dev -> 0 <= service < 128 -> is_u8 c -> is_u8 n -> is_u8 a -> is_bytes data -> zlen data <= 60000 ->
  ysend_logged h (served handle dev) service (ypath3 c n a) data [] ((d, tr), l) = (o, ((d', tr'), l')) ->
  exists m x, l' = l ++ [m] /\ tr' = tr ++ [(mkReq service [(KClass, c); (KInst, n); (KAttr, a)] data, x)]
  /\ tells_request m (mkReq service [(KClass, c); (KInst, n); (KAttr, a)] data)
  /\ ysend_request h (served handle dev) service (ypath3 c n a) data [] (d, tr) = (o, (d', tr')).
Proof.
  intros H W S C N A B L E. unfold ysend_logged in E. set (q := mkReq service [(KClass, c); (KInst, n); (KAttr, a)] data).
  destruct (dev d q) as [x d1] eqn:X. pose proof (W d q) as Wx. rewrite X in Wx. cbn [fst] in Wx.
  rewrite (yserved h handle dev service c n a data d tr x d1) in E by assumption.
  inversion E; subst. eexists _, x. split; [reflexivity|]. split; [reflexivity|]. split.
  - unfold is_u8 in *. exists (to_hex service), (ypath_to_string (ypath3 c n a)). split; [apply to_hex_numeral; cbn [q q_service]; lia|].
    split; [|reflexivity]. cbn [q q_path path_text]. exists (to_string c), (to_string n), (to_string a).
    repeat (split; [apply to_string_numeral; lia|]). unfold ypath_to_string, ypath3. cbn [y_class y_object y_attr y_size Z.gtb Z.compare Pos.compare Pos.compare_cont].
    now rewrite !app_assoc_str.
  - now apply yserved.
Qed.

(** ** 8-bit segments *)
Lemma segments_wrong : ~ tells_request (INFO, "Send request: service=0xe epath=[classId=151 objectId=258 attributeId=0]"%string)
  (mkReq 14 [(KClass, 151); (KInst, 2); (KAttr, 0)] []).
Proof.
  intros (s & t & S & (a & b & e & A & B & _ & ->) & E). apply (f_equal snd) in E. cbn [snd] in E. apply (append_inj "Send request: service=0x") in E.
  assert (K : exists x, ("e" ++ " epath=" ++ x = s ++ " epath=" ++ "[classId=" ++ a ++ " objectId=" ++ b ++ " attributeId=" ++ e ++ "]")%string
    /\ x = ("[classId=151 objectId=258 attributeId=0]")%string).
  { eexists. split; [exact E|reflexivity]. }
  clear E. destruct K as (x & E & X). destruct S as (_ & S & _). destruct A as (_ & A & _), B as (_ & B & _).
  destruct s as [|c s]; [discriminate E|]. cbn [append] in E. injection E as <- E.
  destruct s as [|c s]; [|cbn [append] in E; injection E as <- E; discriminate S].
  cbn [append] in E. injection E as E. rewrite X in E. apply (append_inj "[classId=") in E.
  destruct a as [|c a]; [discriminate E|]. injection E as <- E.
  destruct a as [|c a]; [discriminate E|]. injection E as <- E.
  destruct a as [|c a]; [discriminate E|]. injection E as <- E.
  destruct a as [|c a]; [|injection E as <- E; discriminate A].
  apply (append_inj " objectId=") in E.
  destruct b as [|c b]; [discriminate E|]. injection E as <- E.
  destruct b as [|c b]; [discriminate E|]. injection E as <- E.
  destruct b as [|c b]; [discriminate E|]. injection E as <- E.
  destruct b as [|c b]; [discriminate B|]. injection E as <- E. discriminate B.
Qed.
