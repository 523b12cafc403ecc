(** Statements about the buffer as used by the property file TBuffer.v. *)
From Verif Require Import Base MBuffer SBuffer PBase PBuffer PReader.
Ltac Zify.zify_post_hook ::= Z.div_mod_to_equations.
Local Open Scope outcome_scope.

Lemma buffer_roundtrip (h : heap) vs : Forall wf_value vs ->
  exists b', reads h (map type_of vs) (buf_of (bdata (writes buf_new vs))) = Ok (map shows vs, b')
             /\ bdata b' = bdata (writes buf_new vs)
             /\ bpos b' = List.length (bdata (writes buf_new vs))
             /\ buf_valid b' = true /\ buf_empty b' = true.
Proof.
  intros W. rewrite writes_layout by assumption. cbn [bdata buf_new app].
  exists (at_ (concat (map layout vs)) []).
  rewrite buf_of_at. pose proof (reads_at h vs W [] []) as E.
  rewrite app_nil_r in E. rewrite E. cbn [app].
  unfold at_; cbn [bdata bpos]. rewrite app_nil_r.
  repeat split.
  - apply buf_valid_spec; cbn [bdata bpos]; lia.
  - apply buf_empty_spec; cbn [bdata bpos]; lia.
Qed.

Lemma buffer_queue (h : heap) ops out q' :
  Forall op_wf ops -> queue_run ops [] out q' ->
  exists b', run_ops h ops buf_new = Ok (out, b')
             /\ skipn (bpos b') (bdata b') = concat (map layout q')
             /\ buf_valid b' = true.
Proof.
  intros W Q. destruct (run_ops_queue h ops [] out q' Q W (Forall_nil _) []) as (pre' & E).
  exists (at_ pre' (concat (map layout q'))). split; [exact E|]. split.
  - unfold at_; cbn [bdata bpos]. apply skipn_app_exact.
  - apply buf_valid_spec. unfold at_; cbn [bdata bpos]. rewrite app_length. lia.
Qed.

Lemma wire_layout b vs : Forall wf_value vs ->
  bdata (writes b vs) = bdata b ++ concat (map layout vs) /\ bpos (writes b vs) = bpos b.
Proof. intros W. rewrite writes_layout by assumption. split; reflexivity. Qed.

Lemma layout_length v w : wf_value v -> fixed_width (type_of v) = Some w ->
  List.length (layout v) = w.
Proof.
  destruct v; cbn [type_of fixed_width layout]; intros W E; inv E; try apply le_length; try reflexivity.
  clear W. induction l as [|x l IH]; cbn [map concat List.length]; [reflexivity|].
  rewrite app_length, le_length, IH. lia.
Qed.

(** ** Every in-bounds byte string is the layout of a value *)
Lemma le_s8 x : le 1 (s8 x) = le 1 x.
Proof. cbn [le]. f_equal. unfold s8. lia. Qed.
Lemma le_s16 x : le 2 (s16 x) = le 2 x.
Proof. rewrite <- (le2_u16 (s16 x)), u16_s16, le2_u16. reflexivity. Qed.
Lemma le_s32 x : le 4 (s32 x) = le 4 x.
Proof. rewrite <- (le4_u32 (s32 x)), u32_s32, le4_u32. reflexivity. Qed.
Lemma u64_s64 x : u64 (s64 x) = u64 x.
Proof. unfold u64, s64. rewrite Zminus_mod_idemp_l. f_equal. lia. Qed.
Lemma le_s64 x : le 8 (s64 x) = le 8 x.
Proof. rewrite <- (le8_u64 (s64 x)), u64_s64, le8_u64. reflexivity. Qed.

Lemma words_of_bytes n : forall l, is_bytes l -> List.length l = (2 * n)%nat ->
  exists ws, is_words ws /\ List.length ws = n /\ concat (map (le 2) ws) = l.
Proof.
  induction n as [|n IH]; intros l B L.
  - exists []. destruct l; [|cbn in L; lia]. repeat constructor.
  - destruct l as [|x [|y l]]; try (cbn in L; lia).
    apply is_bytes_cons in B as [Bx B]. apply is_bytes_cons in B as [By B].
    destruct (IH l B) as (ws & W & Lw & E); [cbn in L; lia|].
    exists (x + 256 * y :: ws). unfold is_u8 in *. repeat split.
    + constructor; [unfold is_u16; lia|exact W].
    + cbn [List.length]. lia.
    + cbn [map concat]. rewrite E. cbn [le app].
      replace ((x + 256 * y) mod 256) with x by lia.
      replace ((x + 256 * y) / 256 mod 256) with y by lia. reflexivity.
Qed.

Lemma value_of_bytes t w l : fixed_width t = Some w -> t <> TAddr -> is_bytes l ->
  List.length l = w -> exists v, type_of v = t /\ wf_value v /\ layout v = l.
Proof.
  intros F NA B L. pose proof (le_val_bound l B) as R. pose proof (le_le_val l B) as E.
  unfold zlen in R.
  destruct t; cbn [fixed_width] in F; try discriminate; injection F as F;
    rewrite <- F in L; clear F; rewrite L in R, E;
    try (change (256 ^ Z.of_nat 1) with 256 in R);
    try (change (256 ^ Z.of_nat 2) with 65536 in R);
    try (change (256 ^ Z.of_nat 4) with 4294967296 in R);
    try (change (256 ^ Z.of_nat 8) with 18446744073709551616 in R).
  - exists (VU8 (le_val l)). split; [reflexivity|]. split; [exact R|exact E].
  - exists (VS8 (s8 (le_val l))). split; [reflexivity|]. cbn [wf_value layout].
    split; [unfold is_s8, s8; lia|]. rewrite le_s8. exact E.
  - exists (VU16 (le_val l)). split; [reflexivity|]. split; [exact R|exact E].
  - exists (VS16 (s16 (le_val l))). split; [reflexivity|]. cbn [wf_value layout].
    split; [unfold is_s16, s16; lia|]. rewrite le_s16. exact E.
  - exists (VU32 (le_val l)). split; [reflexivity|]. split; [exact R|exact E].
  - exists (VS32 (s32 (le_val l))). split; [reflexivity|]. cbn [wf_value layout].
    split; [unfold is_s32, s32; lia|]. rewrite le_s32. exact E.
  - exists (VU64 (le_val l)). split; [reflexivity|]. split; [exact R|exact E].
  - exists (VS64 (s64 (le_val l))). split; [reflexivity|]. cbn [wf_value layout].
    split; [unfold is_s64, s64; lia|]. rewrite le_s64. exact E.
  - exists (VF32 (le_val l)). split; [reflexivity|]. split; [exact R|exact E].
  - exists (VF64 (le_val l)). split; [reflexivity|]. split; [exact R|exact E].
  - exists (VBytes l). cbn [type_of wf_value layout]. rewrite L. auto.
  - destruct (words_of_bytes n l B) as (ws & W & Lw & Ew); [lia|].
    exists (VWords ws). cbn [type_of wf_value layout]. now rewrite Lw.
  - destruct (destruct2 l L) as (x & y & ->). exists (VRev x y).
    apply is_bytes_cons in B as [Bx B]. apply is_bytes_cons in B as [By B].
    cbn [type_of wf_value layout]. auto.
  - congruence.
Qed.

Lemma split_at data pos w : (pos + w <= List.length data)%nat ->
  mkBuf data pos = at_ (firstn pos data) (firstn w (skipn pos data) ++ skipn (pos + w) data).
Proof.
  intros L. unfold at_.
  assert (E : firstn w (skipn pos data) ++ skipn (pos + w) data = skipn pos data).
  { rewrite <- (firstn_skipn w (skipn pos data)) at 2. f_equal.
    revert pos L. induction data as [|x data IH]; intros pos L.
    - now rewrite !skipn_nil.
    - destruct pos as [|pos]; cbn [skipn Nat.add]; [reflexivity|].
      apply IH. cbn [List.length] in L. lia. }
  rewrite E, firstn_skipn, firstn_length_le by lia. reflexivity.
Qed.

Lemma at_end data pos w : (pos + w <= List.length data)%nat ->
  at_ (firstn pos data ++ firstn w (skipn pos data)) (skipn (pos + w) data) = mkBuf data (pos + w).
Proof.
  intros L. assert (E : firstn pos data ++ firstn w (skipn pos data) = firstn (pos + w) data).
  { rewrite <- (firstn_skipn pos data) at 3. rewrite firstn_app.
    rewrite firstn_length_le by lia. rewrite firstn_firstn, Nat.min_r by lia.
    replace (pos + w - pos)%nat with w by lia. reflexivity. }
  rewrite E. unfold at_. rewrite firstn_skipn, firstn_length_le by lia. reflexivity.
Qed.

Lemma read_in_bounds h t w data pos :
  fixed_width t = Some w -> t <> TAddr -> is_bytes data -> (pos + w <= List.length data)%nat ->
  exists v, type_of v = t /\ wf_value v /\ layout v = firstn w (skipn pos data)
            /\ read h t (mkBuf data pos) = Ok (shows v, mkBuf data (pos + w)).
Proof.
  intros F NA B L.
  destruct (value_of_bytes t w (firstn w (skipn pos data)) F NA) as (v & T & W & Lay).
  - now apply is_bytes_firstn, is_bytes_skipn.
  - rewrite firstn_length_le; [reflexivity|]. rewrite skipn_length. lia.
  - exists v. repeat split; try assumption.
    rewrite (split_at data pos w L), <- T, <- Lay, read_write_at by assumption.
    rewrite Lay, at_end by assumption. reflexivity.
Qed.

(** The address decoder: the eight trailing bytes are skipped, not checked. *)
Lemma get_endpoint_ignores_pad h pre f a b c d p pad rest :
  is_u16 f -> is_u8 a -> is_u8 b -> is_u8 c -> is_u8 d -> is_u16 p -> List.length pad = 8%nat ->
  get_endpoint h (at_ pre (be16 f ++ be16 p ++ [a; b; c; d] ++ pad ++ rest))
  = Ok (the_endpoint f a b c d p, at_ (pre ++ be16 f ++ be16 p ++ [a; b; c; d] ++ pad) rest).
Proof.
  intros Hf Ha Hb Hc Hd Hp Lp.
  pose proof (read_write_at h (VAddr f a b c d p) pre rest
                (conj Hf (conj Ha (conj Hb (conj Hc (conj Hd Hp)))))) as E.
  cbn [type_of read layout shows] in E. unfold omap in E.
  apply bind_Ok in E as ((e & b1) & E1 & E2). cbn [fst snd] in E2. injection E2 as E2 E3. subst e b1.
  unfold get_endpoint in *.
  rewrite <- !app_assoc in E1.
  rewrite <- (le2_swap f), <- (le2_swap p) in * by assumption.
  unfold get_s16 in *.
  rewrite get_u16_le in *. cbn [bind] in *. rewrite get_u16_le in *. cbn [bind] in *.
  rewrite get_u32_pre in E1; [|repeat (constructor; [assumption|]); constructor|reflexivity].
  rewrite get_u32_pre; [|repeat (constructor; [assumption|]); constructor|reflexivity].
  cbn [bind] in *.
  change (get_bytes h 8) with (get_bytes h (List.length [0;0;0;0;0;0;0;0])) in E1.
  rewrite get_bytes_at in E1. cbn [bind] in E1.
  rewrite <- Lp. rewrite get_bytes_at. cbn [bind].
  match type of E1 with Ok (?x, _) = Ok (?y, _) => assert (E' : x = y) by congruence end.
  rewrite E'. rewrite <- !app_assoc. reflexivity.
Qed.

(** ** Strings of any length *)
Lemma short_string_any h text : is_bytes text ->
  let n := Z.to_nat (zlen text mod 256) in
  bdata (put_short_string buf_new (short_string text)) = zlen text mod 256 :: text
  /\ get_short_string h (buf_of (bdata (put_short_string buf_new (short_string text))))
     = Ok (short_string (firstn n text), mkBuf (zlen text mod 256 :: text) (1 + n)).
Proof.
  intros B n. unfold put_short_string, put_bytes, put_u8, push, buf_new.
  cbn [bdata bpos short_string str_length str_data app]. split; [reflexivity|].
  unfold get_short_string. rewrite buf_of_at. unfold u8. rewrite get_u8_at. cbn [bind].
  fold n. assert (Ln : (n <= List.length text)%nat).
  { unfold n, zlen. pose proof (Z.mod_le (Z.of_nat (List.length text)) 256). lia. }
  assert (E : get_bytes h n (at_ ([] ++ [zlen text mod 256]) text)
              = Ok (firstn n text, mkBuf (zlen text mod 256 :: text) (1 + n))).
  { rewrite get_bytes_n by assumption.
    unfold at_. rewrite <- !app_assoc, !app_length. cbn [app List.length].
    rewrite firstn_length_le by assumption.
    rewrite firstn_skipn. reflexivity. }
  rewrite E. reflexivity.
Qed.

Lemma cip_string_any h text : is_bytes text ->
  let n := Z.to_nat (zlen text mod 65536) in
  bdata (put_cip_string buf_new (cip_string text)) = le 2 (zlen text) ++ text
  /\ get_cip_string h (buf_of (bdata (put_cip_string buf_new (cip_string text))))
     = Ok (cip_string (firstn n text), mkBuf (le 2 (zlen text) ++ text) (2 + n)).
Proof.
  intros B n. unfold put_cip_string, put_bytes. rewrite put_u16_le.
  cbn [bdata bpos buf_new cip_string str_length str_data].
  rewrite le2_u16. rewrite app_nil_l. split; [reflexivity|].
  unfold get_cip_string. rewrite buf_of_at. rewrite get_u16_le. cbn [bind].
  unfold u16. fold n. assert (Ln : (n <= List.length text)%nat).
  { unfold n, zlen. pose proof (Z.mod_le (Z.of_nat (List.length text)) 65536). lia. }
  assert (E : get_bytes h n (at_ ([] ++ le 2 (zlen text)) text)
              = Ok (firstn n text, mkBuf (le 2 (zlen text) ++ text) (2 + n))).
  { rewrite get_bytes_n by assumption.
    unfold at_. rewrite <- !app_assoc, !app_length. rewrite le_length. cbn [app List.length].
    rewrite firstn_length_le by assumption.
    rewrite firstn_skipn. reflexivity. }
  rewrite E. reflexivity.
Qed.

(** ** End points built from text *)
Lemma octets a : is_u32 a ->
  a = a mod 256 + 256 * (a / 256 mod 256) + 65536 * (a / 256 / 256 mod 256)
      + 16777216 * (a / 256 / 256 / 256 mod 256).
Proof. unfold is_u32; intros; lia. Qed.

Lemma endpoint_from_host h aton host port :
  let a := match aton host with Some a => a | None => 0 end in
  is_u32 a -> is_u16 port ->
  let e := the_endpoint 2 (a mod 256) (a / 256 mod 256) (a / 256 / 256 mod 256)
                        (a / 256 / 256 / 256 mod 256) port in
  exists b', get_endpoint h (buf_of (bdata (put_endpoint buf_new (ep_of_host aton host port))))
             = Ok (e, b') /\ buf_empty b' = true /\ buf_valid b' = true
  /\ sa_addr (ep_addr e) = a
  /\ ep_eqb e (ep_of_host aton host port) = String.eqb (ep_host e) host.
Proof.
  intros a Ha Hp e.
  assert (M : forall x, is_u8 (x mod 256)) by (intros; apply u8_range).
  assert (Ea : sa_addr (ep_addr e) = a).
  { unfold e; cbn [the_endpoint ep_addr sa_addr]. now rewrite <- octets. }
  assert (EA : ep_addr (ep_of_host aton host port) = ep_addr e).
  { unfold ep_of_host, e, the_endpoint; cbn [ep_addr].
    rewrite u16_small, htons_swap by assumption. fold a. f_equal. now apply octets. }
  assert (P : put_endpoint buf_new (ep_of_host aton host port) = put_endpoint buf_new e).
  { unfold put_endpoint. now rewrite EA. }
  assert (W : wf_value (VAddr 2 (a mod 256) (a / 256 mod 256) (a / 256 / 256 mod 256)
                        (a / 256 / 256 / 256 mod 256) port)).
  { repeat split; try apply M; try (unfold is_u16; lia); apply Hp. }
  pose proof (read_write_at h _ [] [] W) as E. rewrite app_nil_r in E.
  pose proof (write_layout buf_new _ W) as Wl. cbn [write] in Wl. fold e in Wl.
  rewrite P, Wl. cbn [bdata buf_new app bpos].
  cbn [type_of read shows] in E. unfold omap in E.
  apply bind_Ok in E as ((e1 & b1) & E1 & E2). cbn [fst snd] in E2.
  injection E2 as E2 E3. fold e in E2.
  exists b1. rewrite buf_of_at, E1, E2. subst b1. cbn [app].
  split; [reflexivity|]. split; [|split; [|split]].
  - apply buf_empty_spec; unfold at_; cbn [bdata bpos]; rewrite app_length; cbn [List.length]; lia.
  - apply buf_valid_spec; unfold at_; cbn [bdata bpos]; rewrite app_length; cbn [List.length]; lia.
  - exact Ea.
  - unfold ep_eqb. rewrite EA, !Z.eqb_refl, !andb_true_r.
    reflexivity.
Qed.

Lemma string_roundtrip (h : heap) (text : bytes) : is_bytes text ->
  (zlen text <= 255 ->
   exists b', get_short_string h (buf_of (bdata (put_short_string buf_new (short_string text))))
              = Ok (mkStr (zlen text) text, b') /\ buf_empty b' = true /\ buf_valid b' = true)
  /\ (zlen text <= 65535 ->
   exists b', get_cip_string h (buf_of (bdata (put_cip_string buf_new (cip_string text))))
              = Ok (mkStr (zlen text) text, b') /\ buf_empty b' = true /\ buf_valid b' = true).
Proof.
  intros B. pose proof (zlen_nonneg text) as Hn. split; intros L.
  - destruct (short_string_any h text B) as [_ E]. rewrite E.
    rewrite Z.mod_small by lia.
    replace (Z.to_nat (zlen text)) with (List.length text) by (unfold zlen; lia).
    rewrite firstn_all. unfold short_string. rewrite u8_small by (unfold is_u8; lia).
    eexists; split; [reflexivity|]. split.
    + apply buf_empty_spec; cbn [bdata bpos List.length]; lia.
    + apply buf_valid_spec; cbn [bdata bpos List.length]; lia.
  - destruct (cip_string_any h text B) as [_ E]. rewrite E.
    rewrite Z.mod_small by lia.
    replace (Z.to_nat (zlen text)) with (List.length text) by (unfold zlen; lia).
    rewrite firstn_all. unfold cip_string. rewrite u16_small by (unfold is_u16; lia).
    eexists; split; [reflexivity|]. split.
    + apply buf_empty_spec; cbn [bdata bpos]; rewrite app_length, le_length; lia.
    + apply buf_valid_spec; cbn [bdata bpos]; rewrite app_length, le_length; lia.
Qed.

Lemma string_refuted : exists text, is_bytes text /\
  exists s b', get_short_string strict (buf_of (bdata (put_short_string buf_new (short_string text)))) = Ok (s, b')
               /\ str_std s <> text.
Proof.
  exists (repeat 65 256). split.
  - apply Forall_forall. intros x Hx. apply repeat_spec in Hx. subst; unfold is_u8; lia.
  - eexists _, _. split; [vm_compute; reflexivity|]. discriminate.
Qed.

Lemma address_roundtrip (h : heap) f a b c d p :
  is_u16 f -> is_u8 a -> is_u8 b -> is_u8 c -> is_u8 d -> is_u16 p ->
  bdata (put_endpoint buf_new (the_endpoint f a b c d p))
    = be16 f ++ be16 p ++ [a; b; c; d] ++ [0;0;0;0;0;0;0;0]
  /\ exists b', get_endpoint h (buf_of (bdata (put_endpoint buf_new (the_endpoint f a b c d p))))
                = Ok (the_endpoint f a b c d p, b') /\ buf_empty b' = true /\ buf_valid b' = true.
Proof.
  intros Hf Ha Hb Hc Hd Hp.
  pose proof (write_layout buf_new (VAddr f a b c d p)
                (conj Hf (conj Ha (conj Hb (conj Hc (conj Hd Hp)))))) as W.
  cbn [write layout bdata bpos buf_new app] in W. rewrite W. cbn [bdata].
  split; [reflexivity|].
  pose proof (get_endpoint_ignores_pad h [] f a b c d p [0;0;0;0;0;0;0;0] []
                Hf Ha Hb Hc Hd Hp eq_refl) as E.
  rewrite app_nil_r in E. rewrite buf_of_at.
  eexists; split; [exact E|]. split.
  - apply buf_empty_spec. reflexivity.
  - apply buf_valid_spec. reflexivity.
Qed.
