(** Proofs about the exceptions that are thrown. *)
From Verif Require Import Base MBuffer SBuffer PBase PReader PTrunc MEip SEip PEip PRouter MSocket SSocket PSocket MFile MIdent PParam MParam PParam3 MYaskawa MFd MRes SExn.
Local Open Scope Z_scope.
Local Open Scope outcome_scope.

Definition tame {A} (o : outcome A) : Prop := match o with Throw e => documented e | _ => True end.
Lemma tame_bind {A B} (o : outcome A) (k : A -> outcome B) : tame o -> (forall a, tame (k a)) -> tame (bind o k).
Proof. intros O K. destruct o; cbn [bind]; auto. Qed.
Lemma tame_reader {A} (m : reader A) h b : reader_ok m -> tame (m h b).
Proof. intros R. destruct (m h b) eqn:E; cbn [tame]; try exact I. now apply never_throws in E. Qed.
Lemma tame_omap {A B} (f : A -> B) (o : outcome A) : tame o -> tame (omap f o).
Proof. intros O. unfold omap. apply tame_bind; [assumption|]. intros a. exact I. Qed.

(** ** The reply of a request *)
Lemma reply_blame h r : is_bytes (e_data r) ->
  match reply_response h r with Throw e => documented e \/ misshaped r e | _ => True end.
Proof.
  intros B. destruct (reply_response h r) as [x|e|u|] eqn:E; try exact I.
  destruct (Nat.lt_ge_cases (List.length (e_data r)) 6) as [L|L].
  { rewrite reply_short in E by assumption. injection E as <-. right. exact L. }
  destruct (reply_prefix (e_data r) B L) as (ih & to & d & Ed & Bd & _ & _).
  rewrite (reply_split h r ih to d Ed) in E. unfold reply_items in E.
  destruct (Nat.lt_ge_cases (List.length d) 2) as [L2|L2].
  { destruct (cp_expand_tiny h d L2) as [X|X]; rewrite X in E; [|discriminate].
    cbn [finished bind nth_error] in E. injection E as <-. right. left. rewrite Ed, !app_length, !le_length. lia. }
  destruct (cp_cases d Bd L2) as (count & items & tail & Wc & W & -> & C).
  assert (Bt : is_bytes tail).
  { apply is_bytes_app in Bd as [_ Bd]. apply is_bytes_app in Bd as [_ Bd]. assumption. }
  assert (G : cp_expand h (le 2 count ++ items_bytes items ++ tail) = (items, Ok tt)
                /\ (zlen items = count \/ zlen items < count /\ tail = [])
              \/ cp_expand h (le 2 count ++ items_bytes items ++ tail) = (items, Undef UbOobRead)
              \/ cp_expand h (le 2 count ++ items_bytes items ++ tail) = (items, Throw (RuntimeError RtCommonPacketFormat))).
  { destruct C as [C|[C [->|T]]].
    - left. split; [apply cp_expand_good; auto|now left].
    - left. split; [|now right]. apply cp_expand_good; [assumption..|]. right; split; [lia|reflexivity].
    - right. apply cp_expand_cut; assumption. }
  destruct G as [[G T]|[G|G]]; rewrite G in E; cbn [finished bind] in E; try discriminate.
  - destruct (nth_error items 1) as [it|] eqn:En.
    + left. assert (Bi : is_bytes (it_data it)).
      { apply nth_error_In in En. rewrite Forall_forall in W. apply item_data_bytes, W. assumption. }
      destruct (response_cases (it_data it) Bi) as [Ls|[(s & v & st & n & rest & Ei & Ls)|(s & v & st & aa & dd & Ei & Ws & Ls)]].
      * rewrite response_short in E by assumption. injection E as <-. exact I.
      * rewrite Ei, response_bad_size in E by assumption. injection E as <-. exact I.
      * rewrite Ei, response_good in E by assumption. discriminate.
    + injection E as <-. right. right. apply nth_error_None in En. exists ih, to, count, items, tail.
      split; [exact Ed|]. split; [assumption|]. split; [assumption|]. split; [lia|assumption].
  - injection E as <-. left. exact I.
Qed.

(** ** Calls *)
Section Calls.
Context {W : Type}.
Variables (h : heap) (use8 : bool) (I : W -> Prop) (si : session_if W).
Hypothesis Decent : decent I si.

Lemma exchange_announced q (f : encaps -> outcome response) :
  (forall r, is_bytes (e_data r) -> match f r with Throw e => documented e \/ misshaped r e | _ => True end) ->
  announced I (fun s => match si_exchange (recording si) q s with
    | (Ok received, s') => (f received, s')
    | (Throw e, s') => (Throw e, s')
    | (Undef u, s') => (Undef u, s')
    | (Abort, s') => (Abort, s') end).
Proof.
  intros F w l o w' l' Iw E. cbn [recording si_exchange] in E. destruct (si_exchange si q w) as [o1 w1] eqn:X.
  apply (Decent _ _ _ _ Iw) in X as [Iw' X]. split; [destruct o1; injection E as <- <- <-; exact Iw'|]. destruct o1 as [r|e|u|]; injection E as <- <- <-.
  - exists [r]. split; [reflexivity|]. specialize (F r X). unfold blamed. destruct (f r); try exact Logic.I. destruct F as [F|F]; [now left|].
    right. exists [], r. now split.
  - exists []. rewrite app_nil_r. split; [reflexivity|]. now left.
  - exists []. rewrite app_nil_r. split; [reflexivity|exact Logic.I].
  - exists []. rewrite app_nil_r. split; [reflexivity|exact Logic.I].
Qed.
Lemma request_announced service path data extra : announced I (send_request h (recording si) use8 service path data extra).
Proof. apply exchange_announced. intros r B. now apply reply_blame. Qed.
Lemma yaskawa_announced service path data extra : announced I (ysend_request h (recording si) service path data extra).
Proof. apply exchange_announced. intros r B. now apply reply_blame. Qed.

Lemma announced_ret {A} (o : outcome A) : tame o -> announced I (fun s => (o, s)).
Proof.
  intros T w l o' w' l' Iw E. injection E as <- <- <-. split; [exact Iw|]. exists []. rewrite app_nil_r. split; [reflexivity|].
  destruct o; try exact Logic.I. now left.
Qed.
Lemma announced_bind {A B} (m : st (W * list encaps) A) (k : A -> st (W * list encaps) B) :
  announced I m -> (forall a, announced I (k a)) -> announced I (st_bind m k).
Proof.
  intros M K w l o w' l' Iw E. unfold st_bind in E. destruct (m (w, l)) as [o1 [w1 l1]] eqn:X. apply (M _ _ _ _ _ Iw) in X as (Iw1 & n1 & -> & T).
  destruct o1 as [a|e|u|].
  - apply (K _ _ _ _ _ _ Iw1) in E as (Iw2 & n2 & -> & T2). split; [exact Iw2|]. exists (n1 ++ n2). split; [now rewrite app_assoc|].
    destruct o; try exact Logic.I. destruct T2 as [T2|(b & r & -> & T2)]; [now left|]. right. exists (n1 ++ b), r. split; [now rewrite app_assoc|assumption].
  - injection E as <- <- <-. split; [exact Iw1|]. exists n1. split; [reflexivity|exact T].
  - injection E as <- <- <-. split; [exact Iw1|]. exists n1. split; [reflexivity|exact Logic.I].
  - injection E as <- <- <-. split; [exact Iw1|]. exists n1. split; [reflexivity|exact Logic.I].
Qed.
Lemma announced_after {A B} (m : st (W * list encaps) A) (k : A -> outcome B) :
  announced I m -> (forall a, tame (k a)) -> announced I (fun s => let '(o, s') := m s in (bind o k, s')).
Proof.
  intros M K w l o w' l' Iw E. destruct (m (w, l)) as [o1 [w1 l1]] eqn:X. apply (M _ _ _ _ _ Iw) in X as (Iw1 & n1 & -> & T). injection E as <- <- <-. split; [exact Iw1|].
  exists n1. split; [reflexivity|]. destruct o1 as [a|e|u|]; cbn [bind]; try exact T; try exact Logic.I.
  specialize (K a). unfold blamed. destruct (k a); try exact Logic.I. now left.
Qed.
Lemma ask_announced service path : announced I (ask h use8 (recording si) service path).
Proof.
  apply (announced_after (send_request h (recording si) use8 service path [] [])
    (fun r => if r_status r =? GSC_SUCCESS then Ok (r_data r) else Throw (RuntimeError RtRequestFailed))).
  - apply request_announced.
  - intros r. destruct (_ =? _); exact Logic.I.
Qed.
Lemma lift_announced {A} (o : outcome A) : tame o -> announced I (st_lift o).
Proof. exact (announced_ret o). Qed.
Lemma scaling_announced id : forall n first, announced I (ask_scaling h use8 (recording si) id first n).
Proof.
  induction n as [|n IH]; intros first; cbn [ask_scaling].
  - apply (announced_ret (Ok [])). exact Logic.I.
  - apply announced_bind; [apply ask_announced|]. intros d. apply announced_bind; [apply IH|]. intros r. apply (announced_ret (Ok _)). exact Logic.I.
Qed.
Lemma identity_announced n : announced I (identity_read h use8 (recording si) n).
Proof.
  apply (announced_after (send_request h (recording si) use8 GET_ATTRIBUTE_ALL (epath2 IDENTITY_CLASS_ID 1) [] [])).
  - apply request_announced.
  - intros r. destruct (_ =? _); [|exact Logic.I]. apply tame_bind; [apply (tame_reader (fun h => get_identity h n)), reader_identity|]. intros [i b]. exact Logic.I.
Qed.
Lemma param_announced id full : announced I (param_read h use8 (recording si) id full).
Proof.
  unfold param_read. apply announced_bind; [apply ask_announced|]. intros d.
  apply announced_bind; [apply lift_announced, tame_omap, (tame_reader get_u8), reader_u8|]. intros size.
  apply announced_bind; [apply ask_announced|]. intros d2. apply announced_bind.
  - apply lift_announced. rewrite param_attributes_reader. apply tame_omap, tame_reader, reader_param.
  - intros p. destruct (full && pa_scalable p).
    + apply announced_bind; [apply scaling_announced|]. intros x. apply lift_announced.
      destruct (param_scaling h p x) eqn:E; try exact Logic.I. now apply scaling_no_throw in E.
    + apply (announced_ret (Ok p)). exact Logic.I.
Qed.
Lemma file_announced id : announced I (file_open h use8 (recording si) id).
Proof.
  apply (announced_after (send_request h (recording si) use8 GET_ATTRIBUTE_SINGLE (epath3 FILE_OBJECT_CLASS_ID id FILE_ATTR_STATE) [] [])).
  - apply request_announced.
  - intros r. apply tame_bind; [|intros s; exact Logic.I]. unfold synced. destruct (_ =? _); [|exact Logic.I].
    apply tame_bind; [apply (tame_reader get_u8), reader_u8|]. intros [code b].
    repeat (destruct (_ =? _); [exact Logic.I|]). exact Logic.I.
Qed.
Lemma update_announced p w l o p' w' l' : I w -> update_value h use8 (recording si) (p, (w, l)) = (o, (p', (w', l'))) ->
  I w' /\ exists new, l' = l ++ new /\ blamed o new.
Proof.
  intros Iw E. unfold update_value in E. destruct (pa_router p).
  - destruct (ask h use8 (recording si) _ _ (w, l)) as [o1 [w1 l1]] eqn:X. apply (ask_announced _ _ _ _ _ _ _ Iw) in X as (Iw' & new & -> & T).
    destruct o1 as [d|e|u|]; cbn [bind] in E.
    + destruct (get_bytes h _ (buf_of d)) as [[v b]|e|u|] eqn:G; injection E as <- _ <- <-; (split; [exact Iw'|]); exists new; (split; [reflexivity|]); try exact Logic.I.
      now apply (never_throws (fun h => get_bytes h _)) in G; [|apply reader_bytes].
    + injection E as <- _ <- <-. split; [exact Iw'|]. exists new. now split.
    + injection E as <- _ <- <-. split; [exact Iw'|]. exists new. now split.
    + injection E as <- _ <- <-. split; [exact Iw'|]. exists new. now split.
  - injection E as <- _ <- <-. split; [exact Iw|]. exists []. rewrite app_nil_r. now split.
Qed.
End Calls.

(** ** Sessions *)
Lemma recv_tame : forall segs n acc, tame (fst (recv_loop n acc segs)).
Proof.
  induction segs as [|x segs IH]; intros n acc; (destruct n as [|n]; [exact I|]); cbn [recv_loop]; [exact I|].
  destruct x as [l|e|]; [|destruct (_ =? _); [apply IH|exact I]|exact I]. destruct (Nat.leb _ _); [apply IH|exact I].
Qed.
Lemma expand_tame h d : tame (finished (encaps_expand h encaps0 d)).
Proof.
  unfold encaps_expand. destruct (Nat.ltb _ _); [exact I|].
  destruct (get_u16 h (buf_of d)) as [[a b]|e|u|] eqn:E; [|now apply (never_throws get_u16) in E; [|apply reader_u16]|exact I..]. cbn [bind].
  destruct (get_u16 h b) as [[a1 b1]|e|u|] eqn:E1; [|now apply (never_throws get_u16) in E1; [|apply reader_u16]|exact I..]. cbn [bind].
  destruct (get_u32 h b1) as [[a2 b2]|e|u|] eqn:E2; [|now apply (never_throws get_u32) in E2; [|apply reader_u32]|exact I..]. cbn [bind].
  destruct (get_u32 h b2) as [[a3 b3]|e|u|] eqn:E3; [|now apply (never_throws get_u32) in E3; [|apply reader_u32]|exact I..]. cbn [bind].
  destruct (get_bytes h _ b3) as [[a4 b4]|e|u|] eqn:E4; [|now apply (never_throws (fun h => get_bytes h _)) in E4; [|apply reader_bytes]|exact I..]. cbn [bind].
  destruct (get_u32 h b4) as [[a5 b5]|e|u|] eqn:E5; [|now apply (never_throws get_u32) in E5; [|apply reader_u32]|exact I..]. cbn [bind].
  cbv zeta. destruct (negb _); [exact I|].
  destruct (get_bytes h _ b5) as [[a6 b6]|e|u|] eqn:E6; [exact I| |exact I..].
  now apply (never_throws (fun h => get_bytes h _)) in E6; [|apply reader_bytes].
Qed.
Lemma header_tame h d : tame (length_from_header h d).
Proof.
  unfold length_from_header. apply tame_bind; [apply (tame_reader (fun h => get_bytes h 2)), reader_bytes|]. intros [l b].
  apply tame_bind; [apply (tame_reader get_u16), reader_u16|]. intros [len b']. exact I.
Qed.
Lemma receive_bytes : forall segs n acc, Forall byte_seg segs -> Forall byte_seg (snd (recv_loop n acc segs)).
Proof.
  induction segs as [|x segs IH]; intros n acc F; (destruct n as [|n]; [exact F|]); cbn [recv_loop]; [exact F|]. inv F.
  destruct x as [l|e|]; [|destruct (_ =? _); [now apply IH|assumption]|now constructor].
  destruct (Nat.leb _ _); [now apply IH|]. constructor; [|assumption]. cbn [byte_seg snd] in *.
  unfold is_bytes in *. rewrite <- (firstn_skipn (S n) l) in H1. apply Forall_app in H1. tauto.
Qed.
Lemma bytes_stream segs : Forall byte_seg segs -> is_bytes (stream segs).
Proof.
  induction 1 as [|x segs B F IH]; [constructor|]. destruct x as [l|e|]; cbn [stream byte_seg] in *.
  - apply is_bytes_app. now split.
  - destruct (Z.eq_dec e 4) as [->|N]; [exact IH|]. destruct e as [|[[[]|[]|]|[[]|[]|]|]|]; try constructor; try assumption; congruence.
  - constructor.
Qed.
Lemma receive_tame h handle w : tame (fst (receive_reply h handle w)).
Proof.
  unfold receive_reply, st_bind, net_receive, tcp_receive.
  pose proof (recv_tame (n_in w) HEADER_SIZE []) as T. destruct (recv_loop HEADER_SIZE [] (n_in w)) as [[hd|e|u|] s1]; try exact T. clear T.
  pose proof (header_tame h hd) as T. destruct (length_from_header h hd) as [len|e|u|]; try exact T. clear T. cbn [n_in].
  pose proof (recv_tame s1 (Z.to_nat len) []) as T. destruct (recv_loop (Z.to_nat len) [] s1) as [[d|e|u|] s2]; try exact T. clear T.
  cbn [fst]. apply tame_bind; [apply expand_tame|]. intros r. unfold check_reply. destruct (negb _); [exact I|]. destruct (_ && _); exact I.
Qed.
Lemma receive_keeps h handle w : byte_net w -> byte_net (snd (receive_reply h handle w)).
Proof.
  unfold receive_reply, st_bind, net_receive, tcp_receive, byte_net. intros B.
  pose proof (receive_bytes (n_in w) HEADER_SIZE [] B) as T. destruct (recv_loop HEADER_SIZE [] (n_in w)) as [[hd|e|u|] s1]; cbn [snd] in T; try exact T.
  destruct (length_from_header h hd) as [len|e|u|]; try exact T. cbn [n_in].
  pose proof (receive_bytes s1 (Z.to_nat len) [] T) as T2. destruct (recv_loop (Z.to_nat len) [] s1) as [[d|e|u|] s2]; exact T2.
Qed.
Lemma live_decent h p handle : byte_peer p -> decent byte_net (live_session h p handle).
Proof.
  intros P q w o w' B E. cbn [live_session si_exchange] in E.
  assert (X : send_and_receive h p handle q w = st_bind (net_send p (encaps_pack q)) (fun _ => receive_reply h handle) w) by reflexivity.
  rewrite X in E. clear X. unfold st_bind in E.
  assert (B1 : byte_net (snd (net_send p (encaps_pack q) w))) by (apply Forall_app; split; [exact B|apply P]).
  destruct (net_send_cases p (encaps_pack q) w) as [(w1 & S)|(e & w1 & S)]; rewrite S in *; cbn [snd] in B1.
  - pose proof (receive_tame h handle w1) as T. pose proof (receive_keeps h handle w1 B1) as K. rewrite E in T, K. split; [exact K|].
    destruct o as [r|e|u|]; try exact T. apply receive_reply_sound in E; [|now apply bytes_stream]. destruct E as ((W & _) & _). apply W.
  - injection E as <- <-. split; [exact B1|exact I].
Qed.
Lemma connect_tame k : tame (fst (tcp_connect k)).
Proof.
  assert (S : forall f, tame (sys f)) by (intros []; exact I).
  assert (T : tame (_ <- tcp_connect_wait k ;; _ <- sys (k_getfl2 k) ;; sys (k_setfl2 k))).
  { apply tame_bind; [|intros; apply tame_bind; intros; apply S]. unfold tcp_connect_wait, sys.
    repeat match goal with |- context [match ?x with _ => _ end] => destruct x end; exact I. }
  unfold tcp_connect, tcp_connect_try. destruct (k_socket k); [exact I|]. destruct (k_getfl1 k); [exact I|]. destruct (k_setfl1 k); [exact I|].
  destruct (_ <- _ ;; _); exact T.
Qed.
Lemma open_tame h fd k p w : byte_peer p -> byte_net w -> tame (fst (fst (session_open_fd h fd k p w))).
Proof.
  intros P B. unfold session_open_fd. assert (C : tame (fst (tcp_connect_fd fd k))).
  { unfold tcp_connect_fd. pose proof (connect_tame k). repeat match goal with |- context [match ?x with _ => _ end] => destruct x end; try assumption; exact I. }
  destruct (tcp_connect_fd fd k) as [[[]|e|u|] d]; cbn [fst] in C |- *; try assumption.
  destruct (session_register h p w) as [o w'] eqn:E. cbn [fst]. unfold session_register, st_bind in E.
  destruct (send_and_receive h p 0 register_packet w) as [o1 w1] eqn:S.
  apply (live_decent h p 0 P _ _ _ _ B) in S as [_ S]. destruct o1; injection E as <- _; try exact S. destruct (negb _); exact I.
Qed.

(** The converse for a reply. *)
Lemma misshaped_thrown h r e : is_bytes (e_data r) -> misshaped r e ->
  reply_response h r = Throw e \/ e = OutOfRange /\ reply_response h r = Undef UbOobRead.
Proof.
  intros B M. destruct e; try contradiction; cbn [misshaped] in M.
  - destruct M as [[L1 L2]|(ih & to & count & items & rest & Ed & Wc & W & L & T)].
    + destruct (reply_prefix (e_data r) B L1) as (ih & to & d & Ed & Bd & _ & _).
      rewrite (reply_split h r ih to d Ed). unfold reply_items.
      destruct (cp_expand_tiny h d) as [X|X].
      { rewrite Ed, !app_length, !le_length in L2. lia. }
      * rewrite X. left. reflexivity.
      * rewrite X. right. split; reflexivity.
    + left. eapply reply_few_items; eauto.
  - left. now apply reply_short.
Qed.
Lemma bytes_seg l : is_bytes l -> Forall byte_seg [Data l].
Proof. intros B. repeat constructor. exact B. Qed.
