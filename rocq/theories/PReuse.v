(** Proofs about objects that are used again. *)
From Verif Require Import Base MBuffer SBuffer PBase PBuffer MEip MYaskawa MConnReq SEip PPath PPathT PEip PRouter MReuse SReuse.
Local Open Scope outcome_scope.

Lemma epath_again h p data : epath_expand_on h p data = epath_expand h data.
Proof. reflexivity. Qed.
Lemma ypath_again h p data : ypath_expand_on h p data = ypath_expand h data.
Proof. reflexivity. Qed.

Lemma get_bytes_len h n : forall b v b', get_bytes h n b = Ok (v, b') -> List.length v = n.
Proof.
  induction n as [|n IH]; intros b v b' E; cbn [get_bytes] in E; [injection E as <- _; reflexivity|].
  destruct (fetch h b) as [[x b1]| | |]; cbn [bind] in E; try discriminate.
  destruct (get_bytes h n b1) as [[l b2]| | |] eqn:G; cbn [bind] in E; try discriminate.
  injection E as <- _. cbn [List.length]. f_equal. exact (IH _ _ _ G).
Qed.

Lemma encaps_context h p d : List.length (e_context (fst (encaps_expand h p d))) = List.length (e_context p).
Proof.
  unfold encaps_expand. destruct (Nat.ltb (List.length d) HEADER_SIZE); [reflexivity|].
  destruct (get_u16 h (buf_of d)) as [[c b1]| | |]; cbn [bind]; try reflexivity.
  destruct (get_u16 h b1) as [[l b2]| | |]; cbn [bind]; try reflexivity.
  destruct (get_u32 h b2) as [[hd b3]| | |]; cbn [bind]; try reflexivity.
  destruct (get_u32 h b3) as [[s b4]| | |]; cbn [bind]; try reflexivity.
  destruct (get_bytes h (List.length (e_context p)) b4) as [[x b5]| | |] eqn:G; cbn [bind]; try reflexivity.
  destruct (get_u32 h b5) as [[o b6]| | |]; cbn [bind]; try reflexivity.
  apply get_bytes_len in G.
  match goal with |- context [if ?c then _ else _] => destruct c end; [exact G|].
  match goal with |- context [get_bytes ?a ?b ?c] => destruct (get_bytes a b c) as [[y b7]| | |] end; exact G.
Qed.
Lemma history_context h ops : forall p, List.length (e_context p) = 8%nat ->
  List.length (e_context (fold_left (packet_step h) ops p)) = 8%nat.
Proof.
  induction ops as [|o r IH]; intros p L; [exact L|]. cbn [fold_left]. apply IH.
  destruct o; try exact L. cbn [packet_step]. rewrite encaps_context. exact L.
Qed.

Lemma packet_again h ops data : is_bytes data ->
  let p := fold_left (packet_step h) ops encaps0 in
  snd (encaps_expand h p data) = snd (encaps_expand h encaps0 data)
  /\ (snd (encaps_expand h p data) = Ok tt -> encaps_expand h p data = encaps_expand h encaps0 data).
Proof.
  intros B p. assert (L : List.length (e_context p) = 8%nat) by (apply history_context; reflexivity).
  assert (E : snd (encaps_expand h p data) = snd (encaps_expand h encaps0 data)).
  { rewrite !encaps_total; [reflexivity|exact B|reflexivity|exact B|exact L]. }
  split; [exact E|]. intros G. rewrite G in E.
  destruct (encaps_expand h p data) as [p1 o1] eqn:E1, (encaps_expand h encaps0 data) as [p2 o2] eqn:E2.
  cbn [snd] in *. subst o1. subst o2.
  assert (V1 := encaps_value h p data p1 B L E1). assert (V2 := encaps_value h encaps0 data p2 B eq_refl E2).
  destruct V1 as (W1 & L1 & P1), V2 as (W2 & L2 & P2).
  assert (R1 := encaps_roundtrip h encaps0 p1 W1 L1 eq_refl). assert (R2 := encaps_roundtrip h encaps0 p2 W2 L2 eq_refl).
  destruct R1 as (_ & _ & R1), R2 as (_ & _ & R2). rewrite P1 in R1. rewrite P2 in R2. congruence.
Qed.

Lemma response_again h r data : is_bytes data ->
  snd (response_expand h r data) = snd (response_expand h response0 data)
  /\ forall r', response_expand h response0 data = (r', Ok tt) ->
     response_expand h r data = (mkResp (r_service r') (r_status r') (r_addl r') (r_data r') (r_items r), Ok tt).
Proof.
  intros B. destruct (response_cases data B) as [L|[(s & v & st & n & rest & -> & L)|(s & v & st & a & d & -> & W & L)]].
  - rewrite !response_short by exact L. split; [reflexivity|discriminate].
  - rewrite !response_bad_size by exact L. split; [reflexivity|discriminate].
  - rewrite !response_good by assumption. split; [reflexivity|]. intros r' E. injection E as <-. reflexivity.
Qed.

Lemma items_added l : forall items h, fold_left (items_step h) (map CpAdd l) items = items ++ l.
Proof.
  induction l as [|i l IH]; intros items h; [symmetry; apply app_nil_r|]. cbn [map fold_left items_step]. rewrite IH.
  rewrite <- app_assoc. reflexivity.
Qed.
Lemma items_again h before items more : Forall item_wf items -> zlen items < 65536 ->
  fold_left (items_step h) (before ++ CpExpand (cp_pack items) :: map CpAdd more) [] = items ++ more.
Proof.
  intros W L. rewrite fold_left_app. cbn [fold_left items_step].
  destruct (cp_roundtrip h items W L) as [_ ->]. cbn [fst]. apply items_added.
Qed.

Lemma latest_app {A B} (f : A -> option B) l x :
  latest f (l ++ [x]) = match f x with Some v => Some v | None => latest f l end.
Proof.
  induction l as [|y l IH]; cbn [latest app]; [destruct (f x); reflexivity|]. rewrite IH. destruct (f x); [reflexivity|].
  reflexivity.
Qed.
Lemma setters_last h ops p : Forall no_parse ops ->
  fold_left (packet_step h) ops p
  = mkEncaps (or_else (latest command_given ops) (e_command p))
      (match latest data_given ops with Some d => zlen d mod 65536 | None => e_length p end)
      (or_else (latest handle_given ops) (e_handle p)) (or_else (latest status_given ops) (e_status p))
      (e_context p) (e_options p) (or_else (latest data_given ops) (e_data p)).
Proof.
  induction ops as [|o ops IH] using rev_ind; intros F; [destruct p; reflexivity|].
  apply Forall_app in F as [F G]. inversion_clear G as [|? ? N _].
  rewrite fold_left_app. cbn [fold_left]. rewrite IH by exact F. rewrite !latest_app.
  destruct o; cbn [no_parse] in N; try contradiction;
    cbn [command_given handle_given status_given data_given packet_step or_else]; reflexivity.
Qed.
Lemma rsetters_last h ops r : Forall no_rparse ops ->
  fold_left (response_step h) ops r
  = mkResp (r_service r) (or_else (latest rstatus_given ops) (r_status r)) (r_addl r)
      (or_else (latest rdata_given ops) (r_data r)) (or_else (latest ritems_given ops) (r_items r)).
Proof.
  induction ops as [|o ops IH] using rev_ind; intros F; [destruct r; reflexivity|].
  apply Forall_app in F as [F G]. inversion_clear G as [|? ? N _].
  rewrite fold_left_app. cbn [fold_left]. rewrite IH by exact F. rewrite !latest_app.
  destruct o; cbn [no_rparse] in N; try contradiction;
    cbn [rstatus_given rdata_given ritems_given response_step or_else]; reflexivity.
Qed.

(** what is left after an unknown segment *)
Lemma left_unknown h segs tail : Forall seg_wf segs -> unknown tail ->
  epath_expand h (path_bytes segs ++ tail) = (mkPath (last_id KClass segs) (last_id KInst segs) (last_id KAttr segs) 0, Throw (RuntimeError RtEPathUnknownSegment)).
Proof.
  intros W (x & r & -> & NC). unfold epath_expand. rewrite (expand_start h segs (x :: r) _ W eq_refl).
  destruct (fuel_left segs (x :: r)) as [n ->]; [discriminate|]. cbn [epath_loop]. rewrite at_not_empty. unfold epath_segment. rewrite get_u8_at. cbn [bind].
  unfold SEG_CLASS8, SEG_CLASS16, SEG_INST8, SEG_INST16, SEG_ATTR8, SEG_ATTR16.
  destruct (Z.eqb_spec x 32); [exfalso; apply NC; exists KClass; auto|]. destruct (Z.eqb_spec x 33); [exfalso; apply NC; exists KClass; auto|].
  destruct (Z.eqb_spec x 36); [exfalso; apply NC; exists KInst; auto|]. destruct (Z.eqb_spec x 37); [exfalso; apply NC; exists KInst; auto|].
  destruct (Z.eqb_spec x 48); [exfalso; apply NC; exists KAttr; auto|]. destruct (Z.eqb_spec x 49); [exfalso; apply NC; exists KAttr; auto|].
  now rewrite fold_segs.
Qed.
Lemma yleft_unknown h segs tail : Forall seg_wf segs -> unknown tail ->
  ypath_expand h (path_bytes segs ++ tail)
  = (mkYPath (last_id KClass segs mod 256) (last_id KInst segs mod 256) (last_id KAttr segs mod 256) 0, Throw (RuntimeError RtEPathUnknownSegment)).
Proof.
  intros W (x & r & -> & NC). unfold ypath_expand. rewrite (yexpand_start h segs (x :: r) _ W eq_refl).
  destruct (fuel_left segs (x :: r)) as [n ->]; [discriminate|]. cbn [ypath_loop]. rewrite at_not_empty. unfold ypath_segment. rewrite get_u8_at. cbn [bind].
  unfold SEG_CLASS8, SEG_CLASS16, SEG_INST8, SEG_INST16, SEG_ATTR8, SEG_ATTR16.
  destruct (Z.eqb_spec x 32); [exfalso; apply NC; exists KClass; auto|]. destruct (Z.eqb_spec x 33); [exfalso; apply NC; exists KClass; auto|].
  destruct (Z.eqb_spec x 36); [exfalso; apply NC; exists KInst; auto|]. destruct (Z.eqb_spec x 37); [exfalso; apply NC; exists KInst; auto|].
  destruct (Z.eqb_spec x 48); [exfalso; apply NC; exists KAttr; auto|]. destruct (Z.eqb_spec x 49); [exfalso; apply NC; exists KAttr; auto|].
  now rewrite y_fold_segs.
Qed.
