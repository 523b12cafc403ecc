(** Proofs about responses, common packets and encapsulation packets. *)
From Verif Require Import Base MBuffer SBuffer PBase PBuffer PReader MEip MYaskawa SEip PPath PPathT.
Ltac Zify.zify_post_hook ::= Z.div_mod_to_equations.
Local Open Scope outcome_scope.

(** ** Splitting input *)
Lemma split_n (n : nat) (l : bytes) : (n <= List.length l)%nat ->
  exists a b, l = a ++ b /\ List.length a = n.
Proof.
  intros L. exists (firstn n l), (skipn n l). split; [now rewrite firstn_skipn|].
  apply firstn_length_le. assumption.
Qed.

Lemma le_of_bytes n l : is_bytes l -> List.length l = n -> exists v, l = le n v /\ 0 <= v < 256 ^ Z.of_nat n.
Proof.
  intros B L. exists (le_val l). rewrite <- L, le_le_val by assumption. split; [reflexivity|].
  apply (le_val_bound l B).
Qed.

Lemma words_of_bytes n : forall l, is_bytes l -> List.length l = (2 * n)%nat ->
  exists ws, l = concat (map (le 2) ws) /\ is_words ws /\ List.length ws = n.
Proof.
  induction n as [|n IH]; intros l B L.
  - destruct l; [|discriminate]. exists []. repeat constructor.
  - destruct l as [|a [|b l]]; try (cbn [List.length] in L; lia).
    apply is_bytes_cons in B as [Ba B]. apply is_bytes_cons in B as [Bb B].
    destruct (IH l B) as (ws & -> & W & Lw); [cbn [List.length] in L; lia|].
    exists (a + 256 * b :: ws). unfold is_u8, is_words in *. split; [|split].
    + cbn [map concat le app]. f_equal; [lia|]. f_equal. lia.
    + constructor; [unfold is_u16; lia|assumption].
    + cbn [List.length]. lia.
Qed.

(** ** Responses *)
Lemma words_length (ws : list Z) : List.length (concat (map (le 2) ws)) = (2 * List.length ws)%nat.
Proof. induction ws as [|w ws IH]; cbn [map concat List.length]; [reflexivity|]. rewrite app_length, le_length, IH. lia. Qed.

Lemma response_good h r service rsv status addl data :
  is_words addl -> zlen addl < 256 ->
  response_expand h r (response_bytes service rsv status addl data)
  = (mkResp service status addl data (r_items r), Ok tt).
Proof.
  intros Wa La. unfold response_expand, response_bytes.
  cbn [app List.length]. cbn [Nat.ltb Nat.leb]. rewrite buf_of_at.
  rewrite !get_u8_at; cbn [bind]. rewrite get_u8_at; cbn [bind].
  rewrite get_u8_at; cbn [bind]. rewrite get_u8_at; cbn [bind].
  assert (E : (zlen addl * 2 >? zlen (service :: rsv :: status :: zlen addl :: concat (map (le 2) addl) ++ data) - 4) = false).
  { rewrite !zlen_cons, zlen_app. unfold zlen at 2. rewrite words_length.
    pose proof (zlen_nonneg data). unfold zlen in *. lia. }
  rewrite E.
  unfold zlen at 1. rewrite Nat2Z.id, get_words_at by assumption. cbn [bind].
  match goal with |- context [at_ ?p data] => set (pre := p) end.
  replace (buf_size (at_ pre data) - bpos (at_ pre data))%nat with (List.length data)
    by (unfold buf_size, at_; cbn [bdata bpos]; rewrite app_length; lia).
  rewrite <- (app_nil_r data) at 2. rewrite get_bytes_at. reflexivity.
Qed.

Lemma response_short h r data : (List.length data < 4)%nat ->
  response_expand h r data = (r, Throw (RuntimeError RtMrrShort)).
Proof. intros L. unfold response_expand. apply Nat.ltb_lt in L. now rewrite L. Qed.

Lemma response_bad_size h r service rsv status n rest :
  zlen rest < 2 * n ->
  response_expand h r ([service; rsv; status; n] ++ rest)
  = (mkResp service status (r_addl r) (r_data r) (r_items r), Throw (RuntimeError RtMrrStatusSize)).
Proof.
  intros L. unfold response_expand. cbn [app List.length Nat.ltb Nat.leb]. rewrite buf_of_at.
  rewrite !get_u8_at; cbn [bind]. rewrite get_u8_at; cbn [bind].
  rewrite get_u8_at; cbn [bind]. rewrite get_u8_at; cbn [bind].
  rewrite !zlen_cons.
  destruct (n * 2 >? _) eqn:E; [reflexivity|]. lia.
Qed.

Lemma response_cases data : is_bytes data ->
  (List.length data < 4)%nat
  \/ (exists service rsv status n rest, data = [service; rsv; status; n] ++ rest /\ zlen rest < 2 * n)
  \/ (exists service rsv status addl d, data = response_bytes service rsv status addl d
        /\ is_words addl /\ zlen addl < 256).
Proof.
  intros B. destruct data as [|service [|rsv [|status [|n rest]]]]; try (left; cbn; lia).
  right. repeat (apply is_bytes_cons in B as [? B]).
  destruct (Z_lt_le_dec (zlen rest) (2 * n)) as [L|L].
  - left. exists service, rsv, status, n, rest. auto.
  - right. unfold is_u8 in *.
    destruct (split_n (2 * Z.to_nat n) rest) as (a & d & -> & La).
    { unfold zlen in L. lia. }
    apply is_bytes_app in B as [Ba Bd].
    destruct (words_of_bytes (Z.to_nat n) a Ba La) as (ws & -> & Ww & Lw).
    exists service, rsv, status, ws, d. split; [|split; [assumption|]].
    + unfold response_bytes. cbn [app]. unfold zlen. rewrite Lw, Z2Nat.id by lia. reflexivity.
    + unfold zlen. lia.
Qed.

Lemma response_safe r data u : is_bytes data -> snd (response_expand strict r data) <> Undef u.
Proof.
  intros B. destruct (response_cases data B) as [L|[(s & v & st & n & rest & -> & L)|(s & v & st & a & d & -> & W & L)]].
  - rewrite response_short by assumption. discriminate.
  - rewrite response_bad_size by assumption. discriminate.
  - rewrite response_good by assumption. discriminate.
Qed.

Lemma response_accept h r data r' : is_bytes data ->
  (response_expand h r data = (r', Ok tt) <->
   exists service rsv status addl d, data = response_bytes service rsv status addl d
     /\ is_words addl /\ zlen addl < 256 /\ r' = mkResp service status addl d (r_items r)).
Proof.
  intros B. split.
  - intros E. destruct (response_cases data B) as [L|[(s & v & st & n & rest & -> & L)|(s & v & st & a & d & -> & W & L)]].
    + rewrite response_short in E by assumption. discriminate.
    + rewrite response_bad_size in E by assumption. discriminate.
    + rewrite response_good in E by assumption. assert (r' = mkResp s st a d (r_items r)) by congruence.
      exists s, v, st, a, d. auto.
  - intros (s & v & st & a & d & -> & W & L & ->). apply response_good; assumption.
Qed.

(** ** Common packet items *)
Lemma item_bytes_length i : List.length (item_bytes i) = (4 + List.length (it_data i))%nat.
Proof. unfold item_bytes. rewrite !app_length, !le_length. lia. Qed.

Lemma item_pack_any ty d : is_u16 ty ->
  item_pack (item_of ty d)
  = le 2 ty ++ le 2 (zlen d) ++ (if zlen d mod 65536 =? 0 then [] else d).
Proof.
  intros T. unfold item_pack, item_of; cbn [it_type it_length it_data].
  rewrite !put_u16_le; cbn [bdata buf_new app]. rewrite le2_u16, le2_u16.
  assert (H : 0 <= u16 (zlen d)) by (unfold u16; apply Z.mod_pos_bound; lia).
  change (zlen d mod 65536) with (u16 (zlen d)).
  destruct (Z.eqb_spec (u16 (zlen d)) 0) as [E|E].
  - replace (u16 (zlen d) >? 0) with false by lia. cbn [bdata]. now rewrite app_nil_r.
  - replace (u16 (zlen d) >? 0) with true by lia. unfold put_bytes; cbn [bdata]. now rewrite <- app_assoc.
Qed.

Lemma item_wf_eta i : item_wf i -> i = item_of (it_type i) (it_data i).
Proof.
  destruct i as [t l d]; unfold item_wf, item_of; cbn [it_type it_length it_data].
  intros (T & -> & L & B). f_equal. symmetry. apply u16_small. unfold is_u16.
  pose proof (zlen_nonneg d). lia.
Qed.

Lemma item_pack_bytes i : item_wf i -> item_pack i = item_bytes i.
Proof.
  intros W. rewrite (item_wf_eta i W). destruct W as (T & _ & L & B).
  rewrite item_pack_any by assumption. unfold item_bytes, item_of; cbn [it_type it_data].
  pose proof (zlen_nonneg (it_data i)). rewrite Z.mod_small by lia.
  destruct (Z.eqb_spec (zlen (it_data i)) 0) as [E|E]; [|reflexivity].
  destruct (it_data i); [reflexivity|]. rewrite zlen_cons in E. pose proof (zlen_nonneg l). lia.
Qed.

Lemma cp_pack_any items : cp_pack items = le 2 (zlen items) ++ concat (map item_pack items).
Proof.
  unfold cp_pack. rewrite put_u16_le, le2_u16. cbn [bdata buf_new app].
  assert (G : forall l b, bdata (fold_left (fun b i => put_bytes b (item_pack i)) l b)
                          = bdata b ++ concat (map item_pack l)).
  { induction l as [|i l IH]; intros b; cbn [fold_left map concat].
    - now rewrite app_nil_r.
    - rewrite IH. unfold put_bytes; cbn [bdata]. now rewrite <- app_assoc. }
  rewrite G. reflexivity.
Qed.

Lemma cp_pack_bytes items : Forall item_wf items -> cp_pack items = cpf_bytes items.
Proof.
  intros W. rewrite cp_pack_any. unfold cpf_bytes, items_bytes. f_equal.
  induction W as [|i items Wi Ws IH]; cbn [map concat]; [reflexivity|].
  now rewrite IH, item_pack_bytes.
Qed.

Definition item_step (h : heap) (b : buffer) : outcome (cpitem * buffer) :=
  '(ty, b) <- get_u16 h b ;;
  '(len, b) <- get_u16 h b ;;
  '(d, b) <- get_bytes h (Z.to_nat len) b ;;
  if negb (buf_valid b) then Throw (RuntimeError RtCommonPacketFormat)
  else Ok (item_of ty d, b).

Lemma cp_loop_S h n b acc : cp_loop h (S n) b acc =
  if buf_empty b then (acc, Ok tt)
  else match item_step h b with
       | Ok (i, b') => cp_loop h n b' (acc ++ [i])
       | Throw e => (acc, Throw e)
       | Undef u => (acc, Undef u)
       | Abort => (acc, Abort)
       end.
Proof. reflexivity. Qed.

Lemma item_step_at h i pre rest : item_wf i ->
  item_step h (at_ pre (item_bytes i ++ rest)) = Ok (i, at_ (pre ++ item_bytes i) rest).
Proof.
  intros W. pose proof (item_wf_eta i W) as Ei. destruct W as (T & _ & L & B).
  pose proof (zlen_nonneg (it_data i)).
  unfold item_step, item_bytes. rewrite <- !app_assoc.
  rewrite get_u16_le. cbn [bind]. rewrite get_u16_le. cbn [bind].
  rewrite (u16_small (it_type i)) by assumption. rewrite (u16_small (zlen (it_data i))) by (unfold is_u16; lia).
  unfold zlen at 1. rewrite Nat2Z.id, get_bytes_at. cbn [bind].
  rewrite at_valid. cbn [negb]. rewrite <- Ei. rewrite <- !app_assoc. reflexivity.
Qed.

Lemma item_not_empty i pre rest : buf_empty (at_ pre (item_bytes i ++ rest)) = false.
Proof. unfold item_bytes. cbn [le app]. apply at_not_empty. Qed.

Lemma cp_loop_items h items : Forall item_wf items -> forall n pre rest acc,
  (List.length items <= n)%nat ->
  cp_loop h n (at_ pre (items_bytes items ++ rest)) acc
  = cp_loop h (n - List.length items) (at_ (pre ++ items_bytes items) rest) (acc ++ items).
Proof.
  unfold items_bytes.
  induction 1 as [|i items W Ws IH]; intros n pre rest acc L; cbn [map concat List.length app] in *.
  - now rewrite !app_nil_r, Nat.sub_0_r.
  - destruct n as [|n]; [lia|]. rewrite cp_loop_S, <- app_assoc, item_not_empty, item_step_at by assumption.
    rewrite IH by lia. rewrite <- !app_assoc. reflexivity.
Qed.

Lemma cp_loop_end h n pre acc : cp_loop h n (at_ pre []) acc = (acc, Ok tt).
Proof. destruct n; [reflexivity|]. now rewrite cp_loop_S, at_empty. Qed.

Lemma item_step_cut h pre tail : is_bytes tail -> cut tail ->
  item_step h (at_ pre tail) = Undef UbOobRead
  \/ item_step h (at_ pre tail) = Throw (RuntimeError RtCommonPacketFormat).
Proof.
  intros B [NE NS]. unfold item_step.
  destruct (ro_result _ reader_u16 h (at_ pre tail)) as [(ty & b1 & E1)|E1]; rewrite E1; cbn [bind]; [|auto].
  destruct (ro_result _ reader_u16 h b1) as [(len & b2 & E2)|E2]; rewrite E2; cbn [bind]; [|auto].
  destruct (ro_result _ (reader_bytes (Z.to_nat len)) h b2) as [(d & b3 & E3)|E3]; rewrite E3; cbn [bind]; [|auto].
  destruct (buf_valid b3) eqn:V; cbn [negb]; [|auto]. exfalso. apply NS.
  apply buf_valid_spec in V.
  destruct (ro_data _ reader_u16 _ _ _ _ E1) as [D1 _].
  destruct (ro_data _ reader_u16 _ _ _ _ E2) as [D2 _].
  destruct (ro_data _ (reader_bytes _) _ _ _ _ E3) as [D3 _].
  pose proof (moves_u16 _ _ _ _ E1) as P1. pose proof (moves_u16 _ _ _ _ E2) as P2.
  pose proof (moves_bytes _ _ _ _ _ E3) as P3.
  rewrite D3, D2, D1 in V. unfold at_ in V, P1; cbn [bdata bpos] in V, P1. rewrite app_length in V.
  destruct (split_n 2 tail) as (t & r1 & -> & Lt); [lia|].
  destruct (split_n 2 r1) as (l & r2 & -> & Ll); [rewrite app_length in V; lia|].
  apply is_bytes_app in B as [Bt B]. apply is_bytes_app in B as [Bl B].
  rewrite get_u16_pre in E1 by assumption. injection E1 as <- <-.
  rewrite get_u16_pre in E2 by assumption. injection E2 as <- <-.
  rewrite !app_length in V.
  destruct (split_n (Z.to_nat (le_val l)) r2) as (dd & r3 & -> & Ld); [lia|].
  apply is_bytes_app in B as [Bd B].
  pose proof (le_val_bound t Bt) as Vt. pose proof (le_val_bound l Bl) as Vl.
  unfold zlen in Vt, Vl. rewrite Lt in Vt. rewrite Ll in Vl.
  change (256 ^ Z.of_nat 2) with 65536 in *.
  assert (Zd : zlen dd = le_val l) by (unfold zlen; lia).
  exists (mkItem (le_val t) (le_val l) dd), r3. split.
  - unfold item_wf; cbn [it_type it_length it_data]. rewrite Zd. unfold is_u16. split; [exact Vt|split; [reflexivity|split; [lia|assumption]]].
  - unfold item_bytes; cbn [it_type it_data]. rewrite Zd.
    rewrite <- Lt, le_le_val by assumption.
    replace (List.length t) with (List.length l) by congruence. rewrite le_le_val by assumption.
    now rewrite <- !app_assoc.
Qed.

Lemma starts_dec l : is_bytes l -> starts_with_item l \/ ~ starts_with_item l.
Proof.
  intros B. destruct (Nat.le_gt_cases 4 (List.length l)) as [L|L].
  2:{ right. intros (i & rest & W & ->). rewrite app_length, item_bytes_length in L. lia. }
  destruct (split_n 2 l) as (t & r1 & -> & Lt); [lia|].
  destruct (split_n 2 r1) as (len & r2 & -> & Ll); [rewrite app_length in L; lia|].
  apply is_bytes_app in B as [Bt B]. apply is_bytes_app in B as [Bl B].
  pose proof (le_val_bound t Bt) as Vt. pose proof (le_val_bound len Bl) as Vl.
  unfold zlen in Vt, Vl. rewrite Lt in Vt. rewrite Ll in Vl.
  change (256 ^ Z.of_nat 2) with 65536 in *.
  destruct (Nat.le_gt_cases (Z.to_nat (le_val len)) (List.length r2)) as [Lr|Lr].
  - left. destruct (split_n (Z.to_nat (le_val len)) r2 Lr) as (dd & r3 & -> & Ld).
    apply is_bytes_app in B as [Bd B].
    assert (Zd : zlen dd = le_val len) by (unfold zlen; lia).
    exists (mkItem (le_val t) (le_val len) dd), r3. split.
    + unfold item_wf; cbn [it_type it_length it_data]. rewrite Zd. unfold is_u16. split; [exact Vt|split; [reflexivity|split; [lia|assumption]]].
    + unfold item_bytes; cbn [it_type it_data]. rewrite Zd.
      rewrite <- Lt, le_le_val by assumption.
      replace (List.length t) with (List.length len) by congruence. rewrite le_le_val by assumption.
      now rewrite <- !app_assoc.
  - right. intros (i & rest & (Ti & Li & Bi & Bd) & E). unfold item_bytes in E.
    rewrite <- !app_assoc in E.
    apply app_inj_length in E as [E1 E]; [|now rewrite le_length].
    apply app_inj_length in E as [E2 E]; [|now rewrite le_length].
    subst len. rewrite le_val_le in Lr. change (256 ^ Z.of_nat 2) with 65536 in Lr.
    pose proof (zlen_nonneg (it_data i)). rewrite Z.mod_small in Lr by lia.
    subst r2. rewrite app_length in Lr. unfold zlen in Lr. lia.
Qed.

(** The first [n] items of any input. *)
Lemma items_cases n : forall l, is_bytes l ->
  exists items tail, Forall item_wf items /\ l = items_bytes items ++ tail
    /\ ((List.length items = n) \/ ((List.length items < n)%nat /\ (tail = [] \/ cut tail))).
Proof.
  induction n as [|n IH]; intros l B.
  - exists [], l. repeat split; auto.
  - destruct (starts_dec l B) as [(i & rest & W & E)|NS].
    + subst l. apply is_bytes_app in B as [_ B].
      destruct (IH rest B) as (items & tail & Ws & -> & C).
      exists (i :: items), tail. split; [constructor; assumption|].
      split; [unfold items_bytes; cbn [map concat]; now rewrite <- app_assoc|].
      cbn [List.length]. destruct C as [C|[C1 C2]]; [left; lia|right; split; [lia|assumption]].
    + exists [], l. split; [constructor|]. split; [reflexivity|].
      destruct l as [|y l]; [right; cbn [List.length]; split; [lia|auto]|].
      right; cbn [List.length]; split; [lia|]. right. split; [discriminate|assumption].
Qed.

Lemma cp_expand_items h count items tail : is_u16 count -> Forall item_wf items ->
  (List.length items <= Z.to_nat count)%nat ->
  cp_expand h (le 2 count ++ items_bytes items ++ tail)
  = cp_loop h (Z.to_nat count - List.length items) (at_ (le 2 count ++ items_bytes items) tail) items.
Proof.
  intros C W L. unfold cp_expand. rewrite buf_of_at, get_u16_le, u16_small by assumption.
  rewrite cp_loop_items by assumption. reflexivity.
Qed.

Lemma cp_expand_good h count items tail : is_u16 count -> Forall item_wf items ->
  (zlen items = count \/ zlen items <= count /\ tail = []) ->
  cp_expand h (le 2 count ++ items_bytes items ++ tail) = (items, Ok tt).
Proof.
  intros C W L. unfold zlen, is_u16 in *.
  rewrite cp_expand_items by (try assumption; unfold is_u16; lia).
  destruct L as [L|[L ->]].
  - replace (Z.to_nat count - List.length items)%nat with 0%nat by lia. reflexivity.
  - apply cp_loop_end.
Qed.

Lemma cp_expand_cut h count items tail : is_u16 count -> Forall item_wf items -> is_bytes tail ->
  zlen items < count -> cut tail ->
  cp_expand h (le 2 count ++ items_bytes items ++ tail) = (items, Undef UbOobRead)
  \/ cp_expand h (le 2 count ++ items_bytes items ++ tail) = (items, Throw (RuntimeError RtCommonPacketFormat)).
Proof.
  intros C W B L T. unfold zlen, is_u16 in *.
  rewrite cp_expand_items by (try assumption; unfold is_u16; lia).
  destruct (Z.to_nat count - List.length items)%nat as [|n] eqn:E; [lia|]. rewrite cp_loop_S.
  destruct tail as [|x tail]; [destruct T; congruence|]. rewrite at_not_empty.
  destruct (item_step_cut h (le 2 count ++ items_bytes items) (x :: tail) B T) as [S|S]; rewrite S; auto.
Qed.

Lemma cp_expand_cut_strict count items tail : is_u16 count -> Forall item_wf items -> is_bytes tail ->
  zlen items < count -> cut tail ->
  cp_expand strict (le 2 count ++ items_bytes items ++ tail) = (items, Undef UbOobRead).
Proof.
  intros C W B L T. unfold zlen, is_u16 in *.
  rewrite cp_expand_items by (try assumption; unfold is_u16; lia).
  destruct (Z.to_nat count - List.length items)%nat as [|n] eqn:E; [lia|]. rewrite cp_loop_S.
  destruct tail as [|x tail]; [destruct T; congruence|]. rewrite at_not_empty.
  set (b := at_ (le 2 count ++ items_bytes items) (x :: tail)).
  assert (V : (bpos b <= List.length (bdata b))%nat) by (apply buf_valid_spec, at_valid).
  destruct (item_step_cut strict (le 2 count ++ items_bytes items) (x :: tail) B T) as [S|S]; fold b in S;
    rewrite S; [reflexivity|]. exfalso.
  unfold item_step in S.
  destruct (ro_result _ reader_u16 strict b) as [(ty & b1 & E1)|E1]; rewrite E1 in S; cbn [bind] in S; [|discriminate].
  destruct (ro_result _ reader_u16 strict b1) as [(len & b2 & E2)|E2]; rewrite E2 in S; cbn [bind] in S; [|discriminate].
  destruct (ro_result _ (reader_bytes (Z.to_nat len)) strict b2) as [(d & b3 & E3)|E3]; rewrite E3 in S; cbn [bind] in S; [|discriminate].
  destruct (ro_data _ reader_u16 _ _ _ _ E1) as [D1 _].
  destruct (ro_data _ reader_u16 _ _ _ _ E2) as [D2 _].
  destruct (ro_data _ (reader_bytes _) _ _ _ _ E3) as [D3 _].
  pose proof (ro_strict _ reader_u16 _ _ _ E1 V) as V1. rewrite <- D1 in V1.
  pose proof (ro_strict _ reader_u16 _ _ _ E2 V1) as V2. rewrite <- D2 in V2.
  pose proof (ro_strict _ (reader_bytes _) _ _ _ E3 V2) as V3. rewrite <- D3 in V3.
  apply buf_valid_spec in V3. rewrite V3 in S. discriminate.
Qed.

Lemma cp_expand_tiny h data : (List.length data < 2)%nat ->
  cp_expand h data = ([], Ok tt) \/ cp_expand h data = ([], Undef UbOobRead).
Proof.
  intros L. unfold cp_expand. destruct (ro_result _ reader_u16 h (buf_of data)) as [(c & b & E)|E]; rewrite E; [|auto].
  left. destruct (ro_data _ reader_u16 _ _ _ _ E) as [D _]. apply moves_u16 in E.
  destruct (Z.to_nat c); [reflexivity|]. rewrite cp_loop_S.
  replace (buf_empty b) with true; [reflexivity|]. symmetry. apply buf_empty_spec. rewrite D.
  cbn [bdata buf_of] in *. cbn [bpos] in E. lia.
Qed.
Lemma cp_expand_tiny_strict data : (List.length data < 2)%nat ->
  cp_expand strict data = ([], Undef UbOobRead).
Proof.
  intros L. unfold cp_expand. rewrite (strict_short get_u16 2); [reflexivity|apply reader_u16|apply moves_u16| |];
    cbn [bdata bpos buf_of]; lia.
Qed.

Lemma cp_cases data : is_bytes data -> (2 <= List.length data)%nat ->
  exists count items tail, is_u16 count /\ Forall item_wf items
    /\ data = le 2 count ++ items_bytes items ++ tail
    /\ (zlen items = count \/ zlen items < count /\ (tail = [] \/ cut tail)).
Proof.
  intros B L. destruct (split_n 2 data L) as (c & r & -> & Lc). apply is_bytes_app in B as [Bc Br].
  destruct (le_of_bytes 2 c Bc Lc) as (count & -> & V). change (256 ^ Z.of_nat 2) with 65536 in V.
  destruct (items_cases (Z.to_nat count) r Br) as (items & tail & W & -> & C).
  exists count, items, tail. split; [assumption|]. split; [assumption|]. split; [reflexivity|].
  unfold zlen. destruct C as [C|[C D]]; [left; lia|right; split; [lia|assumption]].
Qed.

Lemma cp_accept h data items : is_bytes data -> (2 <= List.length data)%nat ->
  (cp_expand h data = (items, Ok tt) <->
   exists count rest, is_u16 count /\ Forall item_wf items
     /\ data = le 2 count ++ items_bytes items ++ rest
     /\ (zlen items = count \/ zlen items < count /\ rest = [])).
Proof.
  intros B L. split.
  - intros E. destruct (cp_cases data B L) as (count & it & tail & C & W & -> & H).
    assert (Bt : is_bytes tail).
    { apply is_bytes_app in B as [_ B]. apply is_bytes_app in B as [_ B]. assumption. }
    destruct H as [H|[H [->|T]]].
    + rewrite cp_expand_good in E by auto. assert (items = it) as -> by congruence.
      exists count, tail. auto.
    + rewrite (cp_expand_good h count it [] C W) in E by (right; split; [lia|reflexivity]).
      assert (items = it) as -> by congruence. exists count, []. auto 6.
    + destruct (cp_expand_cut h count it tail C W Bt H T) as [X|X]; rewrite X in E; discriminate.
  - intros (count & rest & C & W & -> & H). apply cp_expand_good; [assumption..|].
    destruct H as [H|[H ->]]; [auto|right; split; [lia|reflexivity]].
Qed.

Lemma cp_roundtrip h items : Forall item_wf items -> zlen items < 65536 ->
  cp_pack items = cpf_bytes items /\ cp_expand h (cp_pack items) = (items, Ok tt).
Proof.
  intros W L. rewrite cp_pack_bytes by assumption. split; [reflexivity|].
  unfold cpf_bytes. rewrite <- (app_nil_r (items_bytes items)). pose proof (zlen_nonneg items).
  apply cp_expand_good; [unfold is_u16; lia|assumption|auto].
Qed.

Lemma items_bytes_app a b : items_bytes (a ++ b) = items_bytes a ++ items_bytes b.
Proof. unfold items_bytes. now rewrite map_app, concat_app. Qed.

Lemma cp_roundtrip_any h items : Forall item_wf items ->
  cp_expand h (cp_pack items) = (firstn (Z.to_nat (zlen items mod 65536)) items, Ok tt).
Proof.
  intros W. rewrite cp_pack_bytes by assumption. unfold cpf_bytes.
  set (n := Z.to_nat (zlen items mod 65536)).
  assert (Hn : (n <= List.length items)%nat).
  { subst n. pose proof (zlen_nonneg items). unfold zlen in *.
    pose proof (Z.mod_le (Z.of_nat (List.length items)) 65536). lia. }
  rewrite <- (firstn_skipn n items) at 2. rewrite items_bytes_app.
  rewrite <- (le2_u16 (zlen items)).
  apply cp_expand_good.
  - apply u16_range.
  - rewrite <- (firstn_skipn n items) in W. apply Forall_app in W. tauto.
  - left. unfold zlen at 1. rewrite firstn_length_le by assumption. subst n. unfold u16.
    rewrite Z2Nat.id; [reflexivity|]. apply Z.mod_pos_bound. lia.
Qed.

Lemma bytes_eqb_iff a : forall b, bytes_eqb a b = true <-> a = b.
Proof.
  induction a as [|x a IH]; intros [|y b]; cbn [bytes_eqb].
  - split; reflexivity.
  - split; discriminate.
  - split; discriminate.
  - rewrite andb_true_iff, Z.eqb_eq, IH. split; [intros [-> ->]; reflexivity|intros E; injection E as -> ->; auto].
Qed.
Lemma item_eqb_iff a b : item_eqb a b = true <-> a = b.
Proof.
  unfold item_eqb. destruct a as [t1 l1 d1], b as [t2 l2 d2]; cbn [it_type it_length it_data].
  rewrite !andb_true_iff, !Z.eqb_eq, bytes_eqb_iff. split.
  - intros [[-> ->] ->]; reflexivity.
  - intros E; injection E as -> -> ->; auto.
Qed.

Lemma cp_roundtrip_refuted : exists items, Forall (fun i => exists ty d, is_u16 ty /\ is_bytes d /\ i = item_of ty d) items
  /\ zlen items < 65536
  /\ exists items', cp_expand strict (cp_pack items) = (items', Ok tt) /\ items' <> items.
Proof.
  exists [item_of 178 (repeat 7 (Z.to_nat 65536))]. split; [|split].
  - constructor; [|constructor]. exists 178, (repeat 7 (Z.to_nat 65536)). split; [unfold is_u16; lia|].
    split; [|reflexivity]. apply Forall_forall. intros x Hx. apply repeat_spec in Hx. subst x. unfold is_u8; lia.
  - vm_compute. reflexivity.
  - exists [item_of 178 []]. split; [vm_compute; reflexivity|]. intros E.
    apply (f_equal (map (fun i => List.length (it_data i)))) in E.
    cbn [map item_of it_data List.length] in E. rewrite repeat_length in E. 
    injection E as E. symmetry in E. revert E. apply Nat.neq_sym. lia.
Qed.
