(** Proofs about EPath, Yaskawa_EPath and request encoding. *)
From Verif Require Import Base MBuffer SBuffer PBase PBuffer PReader MEip MYaskawa SEip.
Ltac Zify.zify_post_hook ::= Z.div_mod_to_equations.
Local Open Scope outcome_scope.

(** ** Segments *)
Definition put_seg (p : epath) (s : segment) : epath :=
  match seg_kind s with
  | KClass => set_class p (seg_id s)
  | KInst => set_object p (seg_id s)
  | KAttr => set_attr p (seg_id s)
  end.
Definition y_put_seg (p : ypath) (s : segment) : ypath :=
  match seg_kind s with
  | KClass => y_set_class p (seg_id s)
  | KInst => y_set_object p (seg_id s)
  | KAttr => y_set_attr p (seg_id s)
  end.

Lemma segment_at h s p pre rest : seg_wf s ->
  epath_segment h (at_ pre (seg_bytes s ++ rest)) p
  = Ok (at_ (pre ++ seg_bytes s) rest, put_seg p s).
Proof.
  intros W. destruct s as [k v|k pad v]; cbn [seg_wf seg_bytes] in *; unfold epath_segment.
  - cbn [app]. rewrite get_u8_at. cbn [bind].
    destruct k; cbn [code8]; cbn -[get_u8 get_u16 at_]; rewrite get_u8_at; cbn [bind];
      rewrite <- app_assoc; reflexivity.
  - destruct W as [Wp Wv]. rewrite <- app_assoc. cbn [app]. rewrite get_u8_at. cbn [bind].
    destruct k; cbn [code16]; cbn -[get_u8 get_u16 at_ le]; rewrite get_u8_at; cbn [bind];
      rewrite get_u16_le; cbn [bind]; rewrite u16_small by assumption;
      rewrite <- !app_assoc; reflexivity.
Qed.

Lemma ysegment_at h s p pre rest : seg_wf s ->
  ypath_segment h (at_ pre (seg_bytes s ++ rest)) p
  = Ok (at_ (pre ++ seg_bytes s) rest, y_put_seg p s).
Proof.
  intros W. destruct s as [k v|k pad v]; cbn [seg_wf seg_bytes] in *; unfold ypath_segment.
  - cbn [app]. rewrite get_u8_at. cbn [bind].
    destruct k; cbn [code8]; cbn -[get_u8 get_u16 at_ u8 y_set_class y_set_object y_set_attr];
      rewrite get_u8_at; cbn [bind]; rewrite <- app_assoc; reflexivity.
  - destruct W as [Wp Wv]. rewrite <- app_assoc. cbn [app]. rewrite get_u8_at. cbn [bind].
    destruct k; cbn [code16]; cbn -[get_u8 get_u16 at_ le u8]; rewrite get_u8_at; cbn [bind];
      rewrite get_u16_le; cbn [bind]; rewrite u16_small by assumption;
      rewrite <- !app_assoc; reflexivity.
Qed.

Lemma at_not_empty pre x rest : buf_empty (at_ pre (x :: rest)) = false.
Proof.
  unfold buf_empty, buf_size, at_; cbn [bdata bpos]. apply Nat.leb_gt.
  rewrite app_length; cbn [List.length]; lia.
Qed.
Lemma at_empty pre : buf_empty (at_ pre []) = true.
Proof.
  unfold buf_empty, buf_size, at_; cbn [bdata bpos]. apply Nat.leb_le.
  rewrite app_length; cbn [List.length]; lia.
Qed.
Lemma at_valid pre rest : buf_valid (at_ pre rest) = true.
Proof.
  unfold buf_valid, buf_size, at_; cbn [bdata bpos]. apply Nat.leb_le.
  rewrite app_length; lia.
Qed.

Lemma seg_not_empty s rest pre : buf_empty (at_ pre (seg_bytes s ++ rest)) = false.
Proof. destruct s; cbn [seg_bytes app]; apply at_not_empty. Qed.

Lemma loop_segs h segs : Forall seg_wf segs -> forall n pre rest p,
  (List.length segs <= n)%nat ->
  epath_loop h n (at_ pre (path_bytes segs ++ rest)) p
  = epath_loop h (n - List.length segs) (at_ (pre ++ path_bytes segs) rest)
               (fold_left put_seg segs p).
Proof.
  unfold path_bytes.
  induction 1 as [|s segs W Ws IH]; intros n pre rest p L; cbn [map concat app List.length fold_left] in *.
  - now rewrite app_nil_r, Nat.sub_0_r.
  - destruct n as [|n]; [lia|]. cbn [epath_loop].
    rewrite <- app_assoc, seg_not_empty, segment_at by assumption.
    rewrite IH by lia. now rewrite <- app_assoc.
Qed.
Lemma yloop_segs h segs : Forall seg_wf segs -> forall n pre rest p,
  (List.length segs <= n)%nat ->
  ypath_loop h n (at_ pre (path_bytes segs ++ rest)) p
  = ypath_loop h (n - List.length segs) (at_ (pre ++ path_bytes segs) rest)
               (fold_left y_put_seg segs p).
Proof.
  unfold path_bytes.
  induction 1 as [|s segs W Ws IH]; intros n pre rest p L; cbn [map concat app List.length fold_left] in *.
  - now rewrite app_nil_r, Nat.sub_0_r.
  - destruct n as [|n]; [lia|]. cbn [ypath_loop].
    rewrite <- app_assoc, seg_not_empty, ysegment_at by assumption.
    rewrite IH by lia. now rewrite <- app_assoc.
Qed.

Lemma path_bytes_length segs : (2 * List.length segs <= List.length (path_bytes segs))%nat.
Proof.
  unfold path_bytes. induction segs as [|s segs IH]; cbn [map concat List.length]; [lia|].
  rewrite app_length. destruct s; cbn [seg_bytes List.length app]; rewrite ?app_length; lia.
Qed.

(** ** Fields after a run of segments *)
Lemma find_app {A} (f : A -> bool) a b :
  find f (a ++ b) = match find f a with Some x => Some x | None => find f b end.
Proof. induction a as [|x a IH]; cbn [find app]; [reflexivity|]. destruct (f x); auto. Qed.

Lemma last_id_snoc k l s : last_id k (l ++ [s]) = if kind_eqb (seg_kind s) k then seg_id s else last_id k l.
Proof.
  unfold last_id. rewrite rev_app_distr. cbn [rev app find].
  destruct (kind_eqb (seg_kind s) k); reflexivity.
Qed.

Lemma fold_segs segs : fold_left put_seg segs epath0
  = mkPath (last_id KClass segs) (last_id KInst segs) (last_id KAttr segs) 0.
Proof.
  induction segs as [|s segs IH] using rev_ind; [reflexivity|].
  rewrite fold_left_app, IH. cbn [fold_left]. rewrite !last_id_snoc.
  unfold put_seg. destruct (seg_kind s); reflexivity.
Qed.
Lemma y_fold_segs segs : fold_left y_put_seg segs ypath0
  = mkYPath (last_id KClass segs mod 256) (last_id KInst segs mod 256) (last_id KAttr segs mod 256) 0.
Proof.
  induction segs as [|s segs IH] using rev_ind; [reflexivity|].
  rewrite fold_left_app, IH. cbn [fold_left]. rewrite !last_id_snoc.
  unfold y_put_seg. destruct (seg_kind s); reflexivity.
Qed.

(** ** Every byte string is well-formed, has an unknown segment, or is cut short *)

Lemma is_code_dec x : {k | x = code8 k} + {k | x = code16 k} + {~ is_code x}.
Proof.
  destruct (Z.eq_dec x 32); [left; left; now exists KClass|].
  destruct (Z.eq_dec x 36); [left; left; now exists KInst|].
  destruct (Z.eq_dec x 48); [left; left; now exists KAttr|].
  destruct (Z.eq_dec x 33); [left; right; now exists KClass|].
  destruct (Z.eq_dec x 37); [left; right; now exists KInst|].
  destruct (Z.eq_dec x 49); [left; right; now exists KAttr|].
  right. intros ([| |] & [E|E]); cbn [code8 code16] in E; lia.
Qed.

Lemma u8_zero : is_u8 0. Proof. unfold is_u8; lia. Qed.
Lemma u16_zero : is_u16 0. Proof. unfold is_u16; lia. Qed.

Lemma path_cases n : forall data, (List.length data <= n)%nat -> is_bytes data ->
  exists segs tail, Forall seg_wf segs /\ data = path_bytes segs ++ tail
    /\ (tail = [] \/ unknown tail \/ truncated tail).
Proof.
  induction n as [|n IH]; intros data L B.
  { destruct data; [|cbn [List.length] in L; lia]. exists [], []. auto. }
  destruct data as [|x data]; [exists [], []; auto|].
  apply is_bytes_cons in B as [Bx B]. cbn [List.length] in L.
  destruct (is_code_dec x) as [[[k E]|[k E]]|NC].
  - destruct data as [|v data].
    + exists [], [x]. split; [constructor|split; [reflexivity|]]. right; right. exists (Seg8 k 0), [0].
      split; [apply u8_zero|split; [discriminate|split; [discriminate|]]]. subst x. reflexivity.
    + apply is_bytes_cons in B as [Bv B]. cbn [List.length] in L.
      destruct (IH data) as (segs & tail & W & E' & T); [lia|assumption|].
      exists (Seg8 k v :: segs), tail. split; [constructor; assumption|].
      split; [|assumption]. unfold path_bytes in *. cbn [map concat seg_bytes app].
      congruence.
  - destruct data as [|pad [|a [|b data]]].
    + exists [], [x]. split; [constructor|split; [reflexivity|]]. right; right.
      exists (Seg16 k 0 0), [0; 0; 0].
      split; [exact (conj u8_zero u16_zero)|split; [discriminate|split; [discriminate|]]].
      subst x; reflexivity.
    + apply is_bytes_cons in B as [Bp B].
      exists [], [x; pad]. split; [constructor|split; [reflexivity|]]. right; right.
      exists (Seg16 k pad 0), [0; 0].
      split; [exact (conj Bp u16_zero)|split; [discriminate|split; [discriminate|]]].
      subst x; reflexivity.
    + apply is_bytes_cons in B as [Bp B]. apply is_bytes_cons in B as [Ba B].
      exists [], [x; pad; a]. split; [constructor|split; [reflexivity|]]. right; right.
      exists (Seg16 k pad a), [0].
      split; [|split; [discriminate|split; [discriminate|]]].
      { split; [exact Bp|]. unfold is_u8, is_u16 in *. lia. }
      subst x. unfold is_u8 in *. cbn [seg_bytes le app]. repeat f_equal; lia.
    + apply is_bytes_cons in B as [Bp B]. apply is_bytes_cons in B as [Ba B].
      apply is_bytes_cons in B as [Bb B]. cbn [List.length] in L.
      destruct (IH data) as (segs & tail & W & E' & T); [lia|assumption|].
      exists (Seg16 k pad (le_val [a; b]) :: segs), tail.
      assert (Bab : is_bytes [a; b]) by (apply is_bytes_cons; split; [assumption|apply is_bytes_cons; split; [assumption|constructor]]).
      split.
      { constructor; [|assumption]. cbn [seg_wf]. split; [assumption|].
        pose proof (le_val_bound [a; b] Bab) as Hb. exact Hb. }
      split; [|assumption]. unfold path_bytes in *. cbn [map concat seg_bytes].
      change 2%nat with (List.length [a; b]). rewrite (le_le_val [a; b] Bab).
      cbn [app]. congruence.
  - exists [], (x :: data). repeat split; auto. right; left. exists x, data. auto.
Qed.

(** ** Behaviour on each shape *)
Lemma expand_start h segs tail n : Forall seg_wf segs ->
  (List.length (path_bytes segs ++ tail) = n)%nat ->
  epath_loop h n (buf_of (path_bytes segs ++ tail)) epath0
  = epath_loop h (n - List.length segs) (at_ (path_bytes segs) tail) (fold_left put_seg segs epath0).
Proof.
  intros W L. rewrite buf_of_at, loop_segs by
    (try assumption; rewrite app_length in L; pose proof (path_bytes_length segs); lia).
  reflexivity.
Qed.
Lemma yexpand_start h segs tail n : Forall seg_wf segs ->
  (List.length (path_bytes segs ++ tail) = n)%nat ->
  ypath_loop h n (buf_of (path_bytes segs ++ tail)) ypath0
  = ypath_loop h (n - List.length segs) (at_ (path_bytes segs) tail) (fold_left y_put_seg segs ypath0).
Proof.
  intros W L. rewrite buf_of_at, yloop_segs by
    (try assumption; rewrite app_length in L; pose proof (path_bytes_length segs); lia).
  reflexivity.
Qed.

Lemma fuel_left segs tail : tail <> [] ->
  exists n, (List.length (path_bytes segs ++ tail) - List.length segs = S n)%nat.
Proof.
  intros T. destruct tail as [|x tail]; [congruence|].
  pose proof (path_bytes_length segs). rewrite app_length. cbn [List.length].
  exists (List.length (path_bytes segs) + List.length tail - List.length segs)%nat. lia.
Qed.

Lemma loop_empty h n pre p : epath_loop h n (at_ pre []) p = (p, Ok (at_ pre [])).
Proof. destruct n; cbn [epath_loop]; [reflexivity|]. now rewrite at_empty. Qed.
Lemma yloop_empty h n pre p : ypath_loop h n (at_ pre []) p = (p, Ok (at_ pre [])).
Proof. destruct n; cbn [ypath_loop]; [reflexivity|]. now rewrite at_empty. Qed.


Lemma seg_id_range segs k : Forall seg_wf segs -> is_u16 (last_id k segs).
Proof.
  intros W. unfold last_id. destruct (find _ (rev segs)) as [s|] eqn:E; [|apply u16_zero].
  apply find_some in E as [I _]. apply in_rev in I.
  rewrite Forall_forall in W. specialize (W s I).
  destruct s; cbn [seg_wf seg_id] in *; [unfold is_u8, is_u16 in *; lia|tauto].
Qed.

Lemma derive_size c o a : 0 <= c -> 0 <= o -> 0 <= a ->
  epath_derive_size (mkPath c o a 0) = mkPath c o a (size_of c o a).
Proof.
  intros Hc Ho Ha. unfold epath_derive_size, size_of, set_psize; cbn [p_class p_object p_attr p_size].
  destruct (c >? 0) eqn:E1; destruct (c =? 0) eqn:E1'; try lia; [|reflexivity].
  destruct (o >? 0) eqn:E2; destruct (o =? 0) eqn:E2'; try lia; [|reflexivity].
  destruct (a >? 0) eqn:E3; destruct (a =? 0) eqn:E3'; try lia; reflexivity.
Qed.
Lemma y_derive_size c o a : 0 <= c -> 0 <= o -> 0 <= a ->
  ypath_derive_size (mkYPath c o a 0) = mkYPath c o a (size_of c o a).
Proof.
  intros Hc Ho Ha. unfold ypath_derive_size, size_of, y_set_size; cbn [y_class y_object y_attr y_size].
  destruct (c >? 0) eqn:E1; destruct (c =? 0) eqn:E1'; try lia; [|reflexivity].
  destruct (o >? 0) eqn:E2; destruct (o =? 0) eqn:E2'; try lia; [|reflexivity].
  destruct (a >? 0) eqn:E3; destruct (a =? 0) eqn:E3'; try lia; reflexivity.
Qed.

Lemma expand_good h segs : Forall seg_wf segs ->
  epath_expand h (path_bytes segs)
  = (mkPath (last_id KClass segs) (last_id KInst segs) (last_id KAttr segs)
            (size_of (last_id KClass segs) (last_id KInst segs) (last_id KAttr segs)), Ok tt).
Proof.
  intros W. unfold epath_expand. rewrite <- (app_nil_r (path_bytes segs)).
  rewrite (expand_start h segs [] _ W eq_refl), loop_empty, at_valid. cbn [negb].
  rewrite fold_segs, derive_size; [reflexivity| | |];
    [pose proof (seg_id_range segs KClass W)|pose proof (seg_id_range segs KInst W)
    |pose proof (seg_id_range segs KAttr W)]; unfold is_u16 in *; lia.
Qed.
Lemma yexpand_good h segs : Forall seg_wf segs ->
  ypath_expand h (path_bytes segs)
  = (let c := last_id KClass segs mod 256 in let o := last_id KInst segs mod 256 in
     let a := last_id KAttr segs mod 256 in
     mkYPath c o a (size_of c o a), Ok tt).
Proof.
  intros W. unfold ypath_expand. rewrite <- (app_nil_r (path_bytes segs)).
  rewrite (yexpand_start h segs [] _ W eq_refl), yloop_empty, at_valid. cbn [negb].
  rewrite y_fold_segs, y_derive_size; [reflexivity| | |]; apply Z.mod_pos_bound; lia.
Qed.

Lemma expand_unknown h segs tail : Forall seg_wf segs -> unknown tail ->
  snd (epath_expand h (path_bytes segs ++ tail)) = Throw (RuntimeError RtEPathUnknownSegment).
Proof.
  intros W (x & r & -> & NC). unfold epath_expand.
  rewrite (expand_start h segs (x :: r) _ W eq_refl).
  destruct (fuel_left segs (x :: r)) as [n ->]; [discriminate|]. cbn [epath_loop].
  rewrite at_not_empty. unfold epath_segment. rewrite get_u8_at. cbn [bind].
  unfold SEG_CLASS8, SEG_CLASS16, SEG_INST8, SEG_INST16, SEG_ATTR8, SEG_ATTR16.
  destruct (Z.eqb_spec x 32); [exfalso; apply NC; exists KClass; auto|].
  destruct (Z.eqb_spec x 33); [exfalso; apply NC; exists KClass; auto|].
  destruct (Z.eqb_spec x 36); [exfalso; apply NC; exists KInst; auto|].
  destruct (Z.eqb_spec x 37); [exfalso; apply NC; exists KInst; auto|].
  destruct (Z.eqb_spec x 48); [exfalso; apply NC; exists KAttr; auto|].
  destruct (Z.eqb_spec x 49); [exfalso; apply NC; exists KAttr; auto|].
  reflexivity.
Qed.
Lemma yexpand_unknown h segs tail : Forall seg_wf segs -> unknown tail ->
  snd (ypath_expand h (path_bytes segs ++ tail)) = Throw (RuntimeError RtEPathUnknownSegment).
Proof.
  intros W (x & r & -> & NC). unfold ypath_expand.
  rewrite (yexpand_start h segs (x :: r) _ W eq_refl).
  destruct (fuel_left segs (x :: r)) as [n ->]; [discriminate|]. cbn [ypath_loop].
  rewrite at_not_empty. unfold ypath_segment. rewrite get_u8_at. cbn [bind].
  unfold SEG_CLASS8, SEG_CLASS16, SEG_INST8, SEG_INST16, SEG_ATTR8, SEG_ATTR16.
  destruct (Z.eqb_spec x 32); [exfalso; apply NC; exists KClass; auto|].
  destruct (Z.eqb_spec x 33); [exfalso; apply NC; exists KClass; auto|].
  destruct (Z.eqb_spec x 36); [exfalso; apply NC; exists KInst; auto|].
  destruct (Z.eqb_spec x 37); [exfalso; apply NC; exists KInst; auto|].
  destruct (Z.eqb_spec x 48); [exfalso; apply NC; exists KAttr; auto|].
  destruct (Z.eqb_spec x 49); [exfalso; apply NC; exists KAttr; auto|].
  reflexivity.
Qed.

(** Reading a segment that is cut short: undefined, or beyond the end. *)
Lemma get16_cases h b (k : Z -> epath) :
  (exists v b', ('(_, b) <- get_u8 h b ;; '(v, b) <- get_u16 h b ;; Ok (b, k v)) = Ok (b', k v)
     /\ bdata b' = bdata b /\ bpos b' = (bpos b + 3)%nat)
  \/ ('(_, b) <- get_u8 h b ;; '(v, b) <- get_u16 h b ;; Ok (b, k v)) = Undef UbOobRead.
Proof.
  destruct (ro_result _ reader_u8 h b) as [(x & b1 & E1)|E1]; rewrite E1; cbn [bind]; [|auto].
  destruct (ro_data _ reader_u8 _ _ _ _ E1) as [D1 _]. apply moves_fetch in E1.
  destruct (ro_result _ reader_u16 h b1) as [(v & b2 & E2)|E2]; rewrite E2; cbn [bind]; [|auto].
  destruct (ro_data _ reader_u16 _ _ _ _ E2) as [D2 _]. apply moves_u16 in E2.
  left. exists v, b2. repeat split; [congruence|lia].
Qed.
Lemma get8_cases h b (k : Z -> epath) :
  (exists v b', ('(v, b) <- get_u8 h b ;; Ok (b, k v)) = Ok (b', k v)
     /\ bdata b' = bdata b /\ bpos b' = (bpos b + 1)%nat)
  \/ ('(v, b) <- get_u8 h b ;; Ok (b, k v)) = Undef UbOobRead.
Proof.
  destruct (ro_result _ reader_u8 h b) as [(x & b1 & E1)|E1]; rewrite E1; cbn [bind]; [|auto].
  destruct (ro_data _ reader_u8 _ _ _ _ E1) as [D1 _]. apply moves_fetch in E1.
  left. exists x, b1. repeat split; assumption.
Qed.
Lemma yget16_cases h b (k : Z -> ypath) :
  (exists v b', ('(_, b) <- get_u8 h b ;; '(v, b) <- get_u16 h b ;; Ok (b, k v)) = Ok (b', k v)
     /\ bdata b' = bdata b /\ bpos b' = (bpos b + 3)%nat)
  \/ ('(_, b) <- get_u8 h b ;; '(v, b) <- get_u16 h b ;; Ok (b, k v)) = Undef UbOobRead.
Proof.
  destruct (ro_result _ reader_u8 h b) as [(x & b1 & E1)|E1]; rewrite E1; cbn [bind]; [|auto].
  destruct (ro_data _ reader_u8 _ _ _ _ E1) as [D1 _]. apply moves_fetch in E1.
  destruct (ro_result _ reader_u16 h b1) as [(v & b2 & E2)|E2]; rewrite E2; cbn [bind]; [|auto].
  destruct (ro_data _ reader_u16 _ _ _ _ E2) as [D2 _]. apply moves_u16 in E2.
  left. exists v, b2. repeat split; [congruence|lia].
Qed.
Lemma yget8_cases h b (k : Z -> ypath) :
  (exists v b', ('(v, b) <- get_u8 h b ;; Ok (b, k v)) = Ok (b', k v)
     /\ bdata b' = bdata b /\ bpos b' = (bpos b + 1)%nat)
  \/ ('(v, b) <- get_u8 h b ;; Ok (b, k v)) = Undef UbOobRead.
Proof.
  destruct (ro_result _ reader_u8 h b) as [(x & b1 & E1)|E1]; rewrite E1; cbn [bind]; [|auto].
  destruct (ro_data _ reader_u8 _ _ _ _ E1) as [D1 _]. apply moves_fetch in E1.
  left. exists x, b1. repeat split; assumption.
Qed.

Lemma truncated_head tail : truncated tail ->
  exists x r, tail = x :: r /\
    ((exists k, x = code8 k /\ r = []) \/ (exists k, x = code16 k /\ (List.length r < 3)%nat)).
Proof.
  intros (s & r & W & T & R & E). destruct tail as [|x t]; [congruence|].
  exists x, t. split; [reflexivity|]. destruct s as [k v|k pad v]; cbn [seg_bytes app] in E.
  - left. exists k. injection E as E1 E2. split; [assumption|].
    destruct t as [|y t]; [reflexivity|]. destruct t; destruct r; cbn [app] in E2; congruence.
  - right. exists k. injection E as E1 E2. split; [assumption|].
    apply (f_equal (@List.length Z)) in E2. rewrite app_length in E2. cbn [List.length app] in E2.
    destruct r; [congruence|]. cbn [List.length] in E2. lia.
Qed.

Lemma segment_truncated h pre tail p : truncated tail ->
  epath_segment h (at_ pre tail) p = Undef UbOobRead
  \/ exists b' p', epath_segment h (at_ pre tail) p = Ok (b', p') /\ buf_valid b' = false.
Proof.
  intros T. destruct (truncated_head tail T) as (x & r & -> & [(k & -> & ->)|(k & -> & L)]).
  - unfold epath_segment. rewrite get_u8_at. cbn [bind].
    destruct k; cbn [code8]; cbn -[get_u8 get_u16 at_ bind];
    match goal with |- context [bind (get_u8 h ?b) _] => set (b0 := b) end;
    [destruct (get8_cases h b0 (set_class p)) as [(v & b' & E & D & P)|E]
    |destruct (get8_cases h b0 (set_object p)) as [(v & b' & E & D & P)|E]
    |destruct (get8_cases h b0 (set_attr p)) as [(v & b' & E & D & P)|E]]; rewrite E; auto;
    right; eexists _, _; (split; [reflexivity|]); apply buf_valid_false; rewrite D, P;
    subst b0; unfold at_; cbn [bdata bpos]; rewrite !app_length; cbn [List.length]; lia.
  - unfold epath_segment. rewrite get_u8_at. cbn [bind].
    destruct k; cbn [code16]; cbn -[get_u8 get_u16 at_ bind];
    match goal with |- context [bind (get_u8 h ?b) _] => set (b0 := b) end;
    [destruct (get16_cases h b0 (set_class p)) as [(v & b' & E & D & P)|E]
    |destruct (get16_cases h b0 (set_object p)) as [(v & b' & E & D & P)|E]
    |destruct (get16_cases h b0 (set_attr p)) as [(v & b' & E & D & P)|E]]; rewrite E; auto;
    right; eexists _, _; (split; [reflexivity|]); apply buf_valid_false; rewrite D, P;
    subst b0; unfold at_; cbn [bdata bpos]; rewrite !app_length; cbn [List.length]; lia.
Qed.
Lemma ysegment_truncated h pre tail p : truncated tail ->
  ypath_segment h (at_ pre tail) p = Undef UbOobRead
  \/ exists b' p', ypath_segment h (at_ pre tail) p = Ok (b', p') /\ buf_valid b' = false.
Proof.
  intros T. destruct (truncated_head tail T) as (x & r & -> & [(k & -> & ->)|(k & -> & L)]).
  - unfold ypath_segment. rewrite get_u8_at. cbn [bind].
    destruct k; cbn [code8]; cbn -[get_u8 get_u16 at_ bind y_set_class y_set_object y_set_attr];
    match goal with |- context [bind (get_u8 h ?b) _] => set (b0 := b) end;
    [destruct (yget8_cases h b0 (y_set_class p)) as [(v & b' & E & D & P)|E]
    |destruct (yget8_cases h b0 (y_set_object p)) as [(v & b' & E & D & P)|E]
    |destruct (yget8_cases h b0 (y_set_attr p)) as [(v & b' & E & D & P)|E]]; rewrite E; auto;
    right; eexists _, _; (split; [reflexivity|]); apply buf_valid_false; rewrite D, P;
    subst b0; unfold at_; cbn [bdata bpos]; rewrite !app_length; cbn [List.length]; lia.
  - unfold ypath_segment. rewrite get_u8_at. cbn [bind].
    destruct k; cbn [code16]; cbn -[get_u8 get_u16 at_ bind y_set_class y_set_object y_set_attr];
    match goal with |- context [bind (get_u8 h ?b) _] => set (b0 := b) end;
    [destruct (yget16_cases h b0 (y_set_class p)) as [(v & b' & E & D & P)|E]
    |destruct (yget16_cases h b0 (y_set_object p)) as [(v & b' & E & D & P)|E]
    |destruct (yget16_cases h b0 (y_set_attr p)) as [(v & b' & E & D & P)|E]]; rewrite E; auto;
    right; eexists _, _; (split; [reflexivity|]); apply buf_valid_false; rewrite D, P;
    subst b0; unfold at_; cbn [bdata bpos]; rewrite !app_length; cbn [List.length]; lia.
Qed.

Lemma invalid_empty b : buf_valid b = false -> buf_empty b = true.
Proof. intros V. apply buf_valid_false in V. apply buf_empty_spec. lia. Qed.

Lemma expand_truncated h segs tail : Forall seg_wf segs -> truncated tail ->
  snd (epath_expand h (path_bytes segs ++ tail)) = Undef UbOobRead
  \/ snd (epath_expand h (path_bytes segs ++ tail)) = Throw (RuntimeError RtEPathFormat).
Proof.
  intros W T. unfold epath_expand. rewrite (expand_start h segs tail _ W eq_refl).
  assert (NT : tail <> []) by (destruct T as (s & r & _ & ? & _); assumption).
  destruct (fuel_left segs tail NT) as [n ->]. cbn [epath_loop].
  destruct tail as [|x t]; [congruence|]. rewrite at_not_empty.
  destruct (segment_truncated h (path_bytes segs) (x :: t) (fold_left put_seg segs epath0) T)
    as [E|(b' & p' & E & V)]; rewrite E; [auto|].
  destruct n as [|n]; cbn [epath_loop]; rewrite ?(invalid_empty b' V), V; cbn [negb snd]; auto.
Qed.
Lemma yexpand_truncated h segs tail : Forall seg_wf segs -> truncated tail ->
  snd (ypath_expand h (path_bytes segs ++ tail)) = Undef UbOobRead
  \/ snd (ypath_expand h (path_bytes segs ++ tail)) = Throw (RuntimeError RtEPathFormat).
Proof.
  intros W T. unfold ypath_expand. rewrite (yexpand_start h segs tail _ W eq_refl).
  assert (NT : tail <> []) by (destruct T as (s & r & _ & ? & _); assumption).
  destruct (fuel_left segs tail NT) as [n ->]. cbn [ypath_loop].
  destruct tail as [|x t]; [congruence|]. rewrite at_not_empty.
  destruct (ysegment_truncated h (path_bytes segs) (x :: t) (fold_left y_put_seg segs ypath0) T)
    as [E|(b' & p' & E & V)]; rewrite E; [auto|].
  destruct n as [|n]; cbn [ypath_loop]; rewrite ?(invalid_empty b' V), V; cbn [negb snd]; auto.
Qed.
Lemma expand_truncated_strict segs tail : Forall seg_wf segs -> truncated tail ->
  snd (epath_expand strict (path_bytes segs ++ tail)) = Undef UbOobRead.
Proof.
  intros W T. unfold epath_expand. rewrite (expand_start strict segs tail _ W eq_refl).
  assert (NT : tail <> []) by (destruct T as (s & r & _ & ? & _); assumption).
  destruct (fuel_left segs tail NT) as [n ->]. cbn [epath_loop].
  destruct tail as [|x t]; [congruence|]. rewrite at_not_empty.
  enough (E : forall p, epath_segment strict (at_ (path_bytes segs) (x :: t)) p = Undef UbOobRead)
    by (rewrite E; reflexivity).
  intros p. destruct (truncated_head (x :: t) T) as (x' & r & E & C). injection E as <- <-.
  unfold epath_segment. rewrite get_u8_at. cbn [bind].
  set (b0 := at_ (path_bytes segs ++ [x]) t).
  assert (V0 : (bpos b0 <= List.length (bdata b0))%nat) by (apply buf_valid_spec, at_valid).
  destruct C as [(k & -> & Er)|(k & -> & L)].
  - assert (S0 : get_u8 strict b0 = Undef UbOobRead).
    { apply (strict_short get_u8 1); [apply reader_u8|apply moves_fetch|assumption|].
      subst b0 t; unfold at_; cbn [bdata bpos]; rewrite !app_length; cbn [List.length]; lia. }
    rewrite S0. destruct k; reflexivity.
  - assert (S0 : forall k : Z -> epath,
      ('(_, b) <- get_u8 strict b0 ;; '(v, b) <- get_u16 strict b ;; Ok (b, k v)) = Undef UbOobRead).
    { intros kk. destruct (ro_result _ reader_u8 strict b0) as [(v & b1 & E1)|E1]; rewrite E1; cbn [bind];
        [|reflexivity].
      rewrite (strict_short get_u16 2 b1); [reflexivity|apply reader_u16|apply moves_u16| |].
      - destruct (ro_data _ reader_u8 _ _ _ _ E1) as [D1 _]. rewrite D1.
        apply (ro_strict _ reader_u8 _ _ _ E1 V0).
      - destruct (ro_data _ reader_u8 _ _ _ _ E1) as [D1 _]. rewrite D1. apply moves_fetch in E1.
        rewrite E1. subst b0; unfold at_; cbn [bdata bpos]; rewrite !app_length; cbn [List.length].
        lia. }
    destruct k; cbn [code16]; cbn -[get_u8 get_u16 bind]; [apply (S0 (set_class p))|apply (S0 (set_object p))|apply (S0 (set_attr p))].
Qed.
