(** Proofs about encapsulation packets and explicit messaging. *)
From Verif Require Import Base MBuffer SBuffer PBase PBuffer PReader MEip MYaskawa SEip PPath PPathT PEip.
Ltac Zify.zify_post_hook ::= Z.div_mod_to_equations.
Local Open Scope outcome_scope.

Lemma get_bytes_all h d pre : get_bytes h (List.length d) (at_ pre d) = Ok (d, at_ (pre ++ d) []).
Proof. rewrite <- (app_nil_r d) at 2. apply get_bytes_at. Qed.

(** ** Encapsulation *)
Lemma encaps_pack_bytes p :
  encaps_pack p = encaps_bytes (e_command p) (e_length p) (e_handle p) (e_status p)
                               (e_context p) (e_options p) (e_data p).
Proof.
  unfold encaps_pack, encaps_bytes. cbv zeta.
  rewrite !put_u16_le. cbn [bdata bpos]. rewrite !put_u32_le. cbn [bdata bpos buf_new app].
  unfold put_bytes; cbn [bdata bpos].
  rewrite le2_u16, le4_u32, <- !app_assoc. reflexivity.
Qed.

Lemma encaps_built c hd st d :
  e_set_data (e_set_status (e_set_handle (e_set_command encaps0 c) hd) st) d = packet c hd st d.
Proof. reflexivity. Qed.

Lemma encaps_head h p0 command length handle status context options data :
  is_u16 command -> is_u16 length -> is_u32 handle -> is_u32 status -> is_u32 options ->
  List.length context = 8%nat -> List.length (e_context p0) = 8%nat ->
  encaps_expand h p0 (encaps_bytes command length handle status context options data)
  = if zlen data =? length
    then (mkEncaps command length handle status context options data, Ok tt)
    else (mkEncaps command length handle status context options (e_data p0), Throw (RuntimeError RtEncapsLength)).
Proof.
  intros Wc Wl Wh Ws Wo Lc L0. unfold encaps_expand, encaps_bytes.
  assert (LL : List.length (le 2 command ++ le 2 length ++ le 4 handle ++ le 4 status ++ context ++ le 4 options ++ data)
          = (24 + List.length data)%nat).
  { rewrite !app_length, !le_length, Lc. lia. }
  rewrite LL. replace (Nat.ltb _ _) with false by (symmetry; apply Nat.ltb_ge; unfold HEADER_SIZE; lia).
  rewrite buf_of_at, get_u16_le; cbn [bind]. rewrite get_u16_le; cbn [bind].
  rewrite get_u32_le; cbn [bind]. rewrite get_u32_le; cbn [bind].
  replace (List.length (e_context p0)) with (List.length context) by congruence.
  rewrite get_bytes_at; cbn [bind]. rewrite get_u32_le; cbn [bind].
  rewrite !u16_small, !u32_small by assumption.
  cbv beta iota zeta delta [e_length e_command e_handle e_status e_context e_options].
  replace (24 + List.length data - HEADER_SIZE)%nat with (List.length data) by (unfold HEADER_SIZE; lia).
  change (Z.of_nat (List.length data)) with (zlen data).
  destruct (Z.eqb_spec (zlen data) length) as [E|E]; cbn [negb]; [|reflexivity].
  rewrite <- E. unfold zlen at 1. rewrite Nat2Z.id.
  rewrite get_bytes_all. reflexivity.
Qed.

Lemma encaps_short h p data : (List.length data < 24)%nat ->
  encaps_expand h p data = (p, Throw (RuntimeError RtEncapsShort)).
Proof.
  intros L. unfold encaps_expand, HEADER_SIZE.
  replace (Nat.ltb _ _) with true by (symmetry; apply Nat.ltb_lt; lia). reflexivity.
Qed.

Lemma encaps_cases data : is_bytes data ->
  (List.length data < 24)%nat
  \/ exists command length handle status context options d,
       data = encaps_bytes command length handle status context options d
       /\ is_u16 command /\ is_u16 length /\ is_u32 handle /\ is_u32 status /\ is_u32 options
       /\ List.length context = 8%nat /\ is_bytes context /\ is_bytes d.
Proof.
  intros B. destruct (Nat.lt_ge_cases (List.length data) 24) as [L|L]; [auto|right].
  destruct (split_n 2 data) as (c & r & -> & Lc); [lia|]. apply is_bytes_app in B as [Bc B].
  rewrite app_length in L.
  destruct (split_n 2 r) as (l & r1 & -> & Ll); [lia|]. apply is_bytes_app in B as [Bl B].
  rewrite app_length in L.
  destruct (split_n 4 r1) as (hd & r2 & -> & Lh); [lia|]. apply is_bytes_app in B as [Bh B].
  rewrite app_length in L.
  destruct (split_n 4 r2) as (st & r3 & -> & Ls); [lia|]. apply is_bytes_app in B as [Bs B].
  rewrite app_length in L.
  destruct (split_n 8 r3) as (cx & r4 & -> & Lx); [lia|]. apply is_bytes_app in B as [Bx B].
  rewrite app_length in L.
  destruct (split_n 4 r4) as (op & d & -> & Lo); [lia|]. apply is_bytes_app in B as [Bo B].
  destruct (le_of_bytes 2 c Bc Lc) as (vc & -> & Vc).
  destruct (le_of_bytes 2 l Bl Ll) as (vl & -> & Vl).
  destruct (le_of_bytes 4 hd Bh Lh) as (vh & -> & Vh).
  destruct (le_of_bytes 4 st Bs Ls) as (vs & -> & Vs).
  destruct (le_of_bytes 4 op Bo Lo) as (vo & -> & Vo).
  exists vc, vl, vh, vs, cx, vo, d. split; [reflexivity|].
  split; [exact Vc|]. split; [exact Vl|]. split; [exact Vh|]. split; [exact Vs|]. split; [exact Vo|]. auto.
Qed.

Lemma encaps_roundtrip h p0 p : encaps_wf p -> e_length p = zlen (e_data p) ->
  List.length (e_context p0) = 8%nat ->
  encaps_pack p = encaps_bytes (e_command p) (zlen (e_data p)) (e_handle p) (e_status p)
                               (e_context p) (e_options p) (e_data p)
  /\ List.length (encaps_pack p) = (24 + List.length (e_data p))%nat
  /\ encaps_expand h p0 (encaps_pack p) = (p, Ok tt).
Proof.
  intros (Wc & Wl & Wh & Ws & Lx & Bx & Wo & Bd) El L0.
  rewrite encaps_pack_bytes. rewrite El at 1. split; [reflexivity|]. split.
  - unfold encaps_bytes. rewrite !app_length, !le_length, Lx. lia.
  - rewrite encaps_head by assumption. rewrite El, Z.eqb_refl, <- El. destruct p; reflexivity.
Qed.

Lemma packet_wf c hd st d : is_u16 c -> is_u32 hd -> is_u32 st -> is_bytes d -> encaps_wf (packet c hd st d).
Proof.
  intros Wc Wh Ws Bd. unfold encaps_wf, packet; cbn [e_command e_length e_handle e_status e_context e_options e_data].
  split; [assumption|]. split; [unfold is_u16; apply Z.mod_pos_bound; lia|].
  split; [assumption|]. split; [assumption|]. split; [reflexivity|].
  split; [exact (zeros_bytes 8)|]. split; [unfold is_u32; lia|assumption].
Qed.

(** A packet with at most 65535 bytes of data survives; a larger one is
    refused by the receiver. *)
Lemma packet_roundtrip h c hd st d : is_u16 c -> is_u32 hd -> is_u32 st -> is_bytes d ->
  let p := packet c hd st d in
  if zlen d <? 65536
  then encaps_expand h encaps0 (encaps_pack p) = (p, Ok tt)
  else snd (encaps_expand h encaps0 (encaps_pack p)) = Throw (RuntimeError RtEncapsLength).
Proof.
  intros Wc Wh Ws Bd. cbv zeta. pose proof (zlen_nonneg d) as Hz.
  pose proof (packet_wf c hd st d Wc Wh Ws Bd) as W.
  destruct (Z.ltb_spec (zlen d) 65536) as [L|L].
  - apply encaps_roundtrip; [assumption| |reflexivity].
    unfold packet; cbn [e_length e_data]. apply Z.mod_small. lia.
  - rewrite encaps_pack_bytes. destruct W as (? & ? & ? & ? & ? & ? & ? & ?).
    rewrite encaps_head by (try assumption; reflexivity).
    unfold packet; cbn [e_length e_data].
    destruct (Z.eqb_spec (zlen d) (zlen d mod 65536)); [lia|reflexivity].
Qed.

Lemma header_length data : is_bytes data -> (24 <= List.length data)%nat ->
  forall command length handle status context options d,
  data = encaps_bytes command length handle status context options d -> is_u16 length ->
  le_val (firstn 2 (skipn 2 data)) = length.
Proof.
  intros _ _ command length handle status context options d -> Wl. unfold encaps_bytes.
  change (firstn 2 (skipn 2 (le 2 command ++ le 2 length ++ le 4 handle ++ le 4 status ++ context ++ le 4 options ++ d)))
    with (le 2 length). rewrite le_val_le. apply Z.mod_small. assumption.
Qed.

Lemma encaps_accept h p data : is_bytes data -> List.length (e_context p) = 8%nat ->
  (snd (encaps_expand h p data) = Ok tt <->
   (24 <= List.length data)%nat /\ le_val (firstn 2 (skipn 2 data)) = zlen data - 24).
Proof.
  intros B L0. destruct (encaps_cases data B) as [L|(c & l & hd & st & cx & op & d & E & Wc & Wl & Wh & Ws & Wo & Lx & Bx & Bd)].
  - rewrite encaps_short by assumption. cbn [snd]. split; [discriminate|]. intros [? _]. lia.
  - assert (LL : List.length data = (24 + List.length d)%nat).
    { rewrite E. unfold encaps_bytes. rewrite !app_length, !le_length, Lx. lia. }
    rewrite (header_length data B ltac:(lia) c l hd st cx op d E Wl).
    rewrite E at 1. rewrite encaps_head by assumption.
    assert (Zl : zlen data - 24 = zlen d) by (unfold zlen; rewrite LL; lia). rewrite Zl.
    destruct (Z.eqb_spec (zlen d) l) as [El|El]; cbn [snd]; split; try discriminate; try tauto.
    + intros _. split; [lia|congruence].
    + intros [_ E']. congruence.
Qed.

Lemma encaps_reject h p data : is_bytes data -> List.length (e_context p) = 8%nat ->
  snd (encaps_expand h p data) = Ok tt
  \/ snd (encaps_expand h p data) = Throw (RuntimeError RtEncapsShort)
  \/ snd (encaps_expand h p data) = Throw (RuntimeError RtEncapsLength).
Proof.
  intros B L0. destruct (encaps_cases data B) as [L|(c & l & hd & st & cx & op & d & E & Wc & Wl & Wh & Ws & Wo & Lx & Bx & Bd)].
  - rewrite encaps_short by assumption. auto.
  - rewrite E, encaps_head by assumption. destruct (zlen d =? l); auto.
Qed.

Lemma encaps_value h p data p' : is_bytes data -> List.length (e_context p) = 8%nat ->
  encaps_expand h p data = (p', Ok tt) ->
  encaps_wf p' /\ e_length p' = zlen (e_data p') /\ encaps_pack p' = data.
Proof.
  intros B L0 H. destruct (encaps_cases data B) as [L|(c & l & hd & st & cx & op & d & E & Wc & Wl & Wh & Ws & Wo & Lx & Bx & Bd)].
  - rewrite encaps_short in H by assumption. discriminate.
  - rewrite E, encaps_head in H by assumption. destruct (Z.eqb_spec (zlen d) l) as [El|El]; [|discriminate].
    assert (p' = mkEncaps c l hd st cx op d) by congruence. subst p'.
    rewrite encaps_pack_bytes. unfold encaps_wf. cbn [e_command e_length e_handle e_status e_context e_options e_data].
    subst data. auto 12.
Qed.

(** The context keeps its size whatever happens. *)
Lemma encaps_context h p data : is_bytes data -> List.length (e_context p) = 8%nat ->
  List.length (e_context (fst (encaps_expand h p data))) = 8%nat.
Proof.
  intros B L0. destruct (encaps_cases data B) as [L|(c & l & hd & st & cx & op & d & E & Wc & Wl & Wh & Ws & Wo & Lx & Bx & Bd)].
  - rewrite encaps_short by assumption. assumption.
  - rewrite E, encaps_head by assumption. destruct (zlen d =? l); assumption.
Qed.

Lemma length_from_header_ok h data : is_bytes data -> (4 <= List.length data)%nat ->
  length_from_header h data = Ok (le_val (firstn 2 (skipn 2 data))).
Proof.
  intros B L. destruct (split_n 2 data) as (a & r & -> & La); [lia|]. apply is_bytes_app in B as [Ba B].
  rewrite app_length in L. destruct (split_n 2 r) as (l & r' & -> & Ll); [lia|]. apply is_bytes_app in B as [Bl B].
  unfold length_from_header. rewrite <- La. change (mkBuf (a ++ l ++ r') (List.length a)) with (at_ a (l ++ r')).
  rewrite skipn_app_exact. rewrite La. rewrite <- Ll. rewrite get_bytes_at, firstn_app_exact. cbn [bind].
  rewrite buf_of_at, <- (app_nil_r l) at 1. rewrite get_u16_pre by assumption. reflexivity.
Qed.
Lemma length_from_header_short data : (List.length data < 4)%nat ->
  length_from_header strict data = Undef UbOobRead.
Proof.
  intros L. unfold length_from_header.
  destruct (Nat.le_gt_cases 2 (List.length data)) as [G|G].
  - rewrite (strict_short (fun h => get_bytes h 2) 2); [reflexivity|apply reader_bytes|apply (moves_bytes 2)| |];
      cbn [bdata bpos]; lia.
  - cbn [get_bytes]. unfold fetch; cbn [bdata bpos].
    replace (nth_error data 2) with (@None Z); [reflexivity|].
    symmetry. apply nth_error_None. lia.
Qed.

Lemma encaps_eqb_iff a b : encaps_eqb a b = true <-> a = b.
Proof.
  unfold encaps_eqb. destruct a as [c1 l1 h1 s1 x1 o1 d1], b as [c2 l2 h2 s2 x2 o2 d2];
    cbn [e_command e_length e_handle e_status e_context e_options e_data].
  rewrite !andb_true_iff, !Z.eqb_eq, !bytes_eqb_iff. split.
  - intros [[[[[[-> ->] ->] ->] ->] ->] ->]; reflexivity.
  - intros E; injection E as -> -> -> -> -> -> ->; auto 10.
Qed.

(** ** Factories *)
Lemma factory_register :
  encaps_pack register_packet = encaps_bytes 101 4 0 0 (zeros 8) 0 (le 2 1 ++ le 2 0).
Proof. reflexivity. Qed.
Lemma factory_unregister handle :
  encaps_pack (unregister_packet handle) = encaps_bytes 102 0 handle 0 (zeros 8) 0 [].
Proof. rewrite encaps_pack_bytes. reflexivity. Qed.
Lemma rr_data handle timeout data :
  rr_data_packet handle timeout data = packet 111 handle 0 (le 4 0 ++ le 2 timeout ++ data).
Proof.
  unfold rr_data_packet, put_bytes. rewrite put_u16_le, put_u32_le. cbn [bdata buf_new app].
  cbn [le]. unfold e_set_data, e_set_handle, e_set_command, encaps0, packet;
  cbn [e_command e_length e_handle e_status e_context e_options e_data]. 
  unfold u16. reflexivity.
Qed.
Lemma factory_rr handle timeout data :
  encaps_pack (rr_data_packet handle timeout data)
  = encaps_bytes 111 (6 + zlen data) handle 0 (zeros 8) 0 (le 4 0 ++ le 2 timeout ++ data).
Proof.
  rewrite rr_data, encaps_pack_bytes. unfold packet; cbn [e_command e_length e_handle e_status e_context e_options e_data].
  unfold encaps_bytes. change (zlen (le 4 0 ++ le 2 timeout ++ data) mod 65536)
    with (u16 (zlen (le 4 0 ++ le 2 timeout ++ data))).
  rewrite le2_u16. rewrite !zlen_app. unfold zlen at 1 2. rewrite !le_length.
  replace (Z.of_nat 4 + (Z.of_nat 2 + zlen data)) with (6 + zlen data) by lia. reflexivity.
Qed.
Lemma factory_list_identity :
  encaps_pack list_identity_packet = encaps_bytes 99 0 0 0 (zeros 8) 0 [].
Proof. reflexivity. Qed.

(** ** The adapter's view of a request *)
Lemma take_le n v r : take_int n (le n v ++ r) = Some (v mod 256 ^ Z.of_nat n, r).
Proof. unfold take_int. rewrite take_app by apply le_length. now rewrite le_val_le. Qed.

Lemma parse_items_ok items : Forall item_wf items -> forall rest,
  parse_items (List.length items) (items_bytes items ++ rest) = Some (wire_items items, rest).
Proof.
  unfold items_bytes, wire_items.
  induction 1 as [|i items W Ws IH]; intros rest; cbn [List.length parse_items map concat app]; [reflexivity|].
  unfold item_bytes at 1. rewrite <- !app_assoc.
  rewrite take_le. change (256 ^ Z.of_nat 2) with 65536.
  rewrite take_le. change (256 ^ Z.of_nat 2) with 65536.
  destruct W as (T & _ & L & B). pose proof (zlen_nonneg (it_data i)). unfold is_u16 in T.
  rewrite (Z.mod_small (zlen (it_data i))) by lia. rewrite (Z.mod_small (it_type i)) by lia.
  unfold zlen at 1. rewrite Nat2Z.id, take_app by reflexivity.
  rewrite IH. reflexivity.
Qed.

Lemma parse_rr_ok handle timeout items :
  is_u32 handle -> is_u16 timeout -> Forall item_wf items -> zlen items < 65536 ->
  zlen (cpf_bytes items) + 6 < 65536 ->
  parse_rr (encaps_pack (rr_data_packet handle timeout (cpf_bytes items)))
  = Some (mkRR handle timeout (wire_items items)).
Proof.
  intros Wh Wt W L LT. rewrite factory_rr. unfold parse_rr, encaps_bytes.
  pose proof (zlen_nonneg (cpf_bytes items)) as Hz. pose proof (zlen_nonneg items) as Hi.
  set (body := le 4 0 ++ le 2 timeout ++ cpf_bytes items).
  assert (Zb : zlen body = 6 + zlen (cpf_bytes items)).
  { subst body. rewrite !zlen_app. unfold zlen at 1 2. rewrite !le_length. lia. }
  set (len := 6 + zlen (cpf_bytes items)) in *.
  set (hd := le 2 111 ++ le 2 len ++ le 4 handle ++ le 4 0 ++ zeros 8 ++ le 4 0).
  replace (le 2 111 ++ le 2 len ++ le 4 handle ++ le 4 0 ++ zeros 8 ++ le 4 0 ++ body) with (hd ++ body)
    by (subst hd; rewrite <- !app_assoc; reflexivity).
  rewrite take_app by (subst hd; rewrite !app_length, !le_length, zeros_length; reflexivity).
  cbv zeta.
  replace (le_val (firstn 2 hd)) with 111 by reflexivity.
  replace (le_val (firstn 2 (skipn 2 hd))) with len
    by (change (firstn 2 (skipn 2 hd)) with (le 2 len); rewrite le_val_le;
        change (256 ^ Z.of_nat 2) with 65536; rewrite Z.mod_small; lia).
  replace (le_val (firstn 4 (skipn 4 hd))) with handle
    by (change (firstn 4 (skipn 4 hd)) with (le 4 handle); rewrite le_val_le; symmetry; apply Z.mod_small; exact Wh).
  replace (le_val (firstn 4 (skipn 8 hd))) with 0 by reflexivity.
  replace (le_val (firstn 4 (skipn 20 hd))) with 0 by reflexivity.
  rewrite Zb. rewrite !Z.eqb_refl. cbn [andb negb].
  subst body. rewrite take_le. change (0 mod 256 ^ Z.of_nat 4) with 0. cbn [negb Z.eqb].
  rewrite take_le. change (256 ^ Z.of_nat 2) with 65536. unfold is_u16 in Wt. rewrite (Z.mod_small timeout) by lia.
  unfold cpf_bytes at 1. rewrite take_le. change (256 ^ Z.of_nat 2) with 65536.
  rewrite (Z.mod_small (zlen items)) by lia. unfold zlen at 1. rewrite Nat2Z.id.
  rewrite <- (app_nil_r (items_bytes items)), parse_items_ok by assumption. reflexivity.
Qed.

Lemma segments_bytes use8 i : ids_wf i -> is_bytes (path_bytes (segments use8 i)).
Proof.
  unfold ids_wf, segments, path_bytes. induction 1 as [|[k v] l Hv Hl IH]; cbn [map concat]; [constructor|].
  apply is_bytes_app. split; [|assumption]. cbn [fst snd] in *. destruct use8; cbn [seg_bytes].
  - apply is_bytes_cons. split; [destruct k; unfold is_u8, code8; lia|].
    apply is_bytes_cons. split; [unfold is_u8; apply Z.mod_pos_bound; lia|constructor].
  - cbn [app]. apply is_bytes_cons. split; [destruct k; unfold is_u8, code16; lia|].
    apply is_bytes_cons. split; [apply u8_zero|]. apply le_bytes.
Qed.

Lemma request_is_bytes use8 service i data : is_u8 service -> ids_wf i -> is_bytes data ->
  is_bytes (request_pack use8 service (build i) data).
Proof.
  intros Ws Wi Bd. rewrite request_bytes_any. cbn [app].
  apply is_bytes_cons. split; [assumption|]. apply is_bytes_cons. split.
  - unfold is_u8, zlen. rewrite segments_length. destruct use8, i; cbn; lia.
  - apply is_bytes_app. split; [|assumption]. apply segments_bytes. destruct i; try assumption.
    constructor; [apply u16_zero|constructor].
Qed.

Definition request_items (use8 : bool) (service : Z) (i : ids) (data : bytes) (extra : list cpitem) :=
  [item_null; item_unconnected (request_pack use8 service (build i) data)] ++ extra.

Lemma item_null_wf : item_wf item_null.
Proof. unfold item_wf; cbn. split; [apply u16_zero|]. split; [reflexivity|]. split; [lia|constructor]. Qed.
Lemma item_of_wf ty d : is_u16 ty -> is_bytes d -> zlen d < 65536 -> item_wf (item_of ty d).
Proof.
  intros T B L. unfold item_wf, item_of; cbn [it_type it_length it_data].
  split; [assumption|]. split; [|auto]. apply u16_small. unfold is_u16. pose proof (zlen_nonneg d). lia.
Qed.

Lemma cpf_length items : zlen (cpf_bytes items) = 2 + fold_right (fun i n => 4 + zlen (it_data i) + n) 0 items.
Proof.
  unfold cpf_bytes. rewrite zlen_app. unfold zlen at 1. rewrite le_length. change (Z.of_nat 2) with 2. f_equal.
  unfold items_bytes. induction items as [|i items IH]; cbn [map concat fold_right]; [reflexivity|].
  rewrite zlen_app, IH. unfold zlen at 1. rewrite item_bytes_length. unfold zlen. lia.
Qed.

Lemma fold_nonneg items : 0 <= fold_right (fun i n => 4 + zlen (it_data i) + n) 0 items.
Proof. induction items as [|i items IH]; cbn [fold_right]; [lia|]. pose proof (zlen_nonneg (it_data i)). lia. Qed.
Lemma fold_count items : 4 * zlen items <= fold_right (fun i n => 4 + zlen (it_data i) + n) 0 items.
Proof.
  induction items as [|i items IH]; cbn [fold_right]; [reflexivity|].
  rewrite zlen_cons. pose proof (zlen_nonneg (it_data i)). lia.
Qed.

Lemma request_on_wire use8 service i data extra handle :
  i <> Ids0 -> is_u32 handle -> is_u8 service -> ids_wf i -> is_bytes data -> Forall item_wf extra ->
  zlen (cpf_bytes (request_items use8 service i data extra)) + 6 < 65536 ->
  parse_rr (encaps_pack (request_packet handle use8 service (build i) data extra))
  = Some (mkRR handle 0 ([(0, []); (178, request_pack use8 service (build i) data)] ++ wire_items extra))
  /\ parse_request (request_pack use8 service (build i) data)
     = Some (service, path_bytes (segments use8 i), data).
Proof.
  intros Hi Wh Ws Wi Bd We LT. split; [|apply request_recover; assumption].
  unfold request_packet. change ([item_null; item_unconnected (request_pack use8 service (build i) data)] ++ extra)
    with (request_items use8 service i data extra).
  pose proof (request_is_bytes use8 service i data Ws Wi Bd) as Br.
  assert (LR : zlen (request_pack use8 service (build i) data) < 65536 /\ zlen (request_items use8 service i data extra) < 65536).
  { rewrite cpf_length in LT. unfold request_items in *. cbn [app fold_right item_null item_unconnected item_of it_data] in LT.
    pose proof (fold_nonneg extra). pose proof (fold_count extra).
    pose proof (zlen_nonneg (request_pack use8 service (build i) data)).
    cbn [app]. rewrite !zlen_cons. unfold zlen at 1 in LT; cbn [List.length Z.of_nat] in LT. lia. }
  assert (W : Forall item_wf (request_items use8 service i data extra)).
  { unfold request_items. cbn [app]. constructor; [apply item_null_wf|]. constructor; [|assumption].
    apply item_of_wf; [unfold is_u16, UNCONNECTED_MESSAGE; lia|assumption|tauto]. }
  rewrite cp_pack_bytes by assumption.
  rewrite parse_rr_ok; [reflexivity|assumption|apply u16_zero|assumption|tauto|assumption].
Qed.

Lemma yrequest_on_wire service i data extra handle :
  i <> Ids0 -> is_u32 handle -> is_u8 service -> ids_small i -> is_bytes data -> Forall item_wf extra ->
  zlen (cpf_bytes (request_items true service i data extra)) + 6 < 65536 ->
  parse_rr (encaps_pack (yrequest_packet handle service (ybuild i) data extra))
  = Some (mkRR handle 0 ([(0, []); (178, yrequest_pack service (ybuild i) data)] ++ wire_items extra))
  /\ parse_request (yrequest_pack service (ybuild i) data)
     = Some (service, path_bytes (segments true i), data).
Proof.
  intros Hi Wh Ws Wi Bd We LT.
  assert (E : yrequest_pack service (ybuild i) data = request_pack true service (build i) data).
  { rewrite (proj1 (yrequest_recover service i data Hi Wi)).
    rewrite (proj1 (request_recover true service i data Hi)). reflexivity. }
  unfold yrequest_packet. rewrite E.
  apply (request_on_wire true service i data extra handle); try assumption. apply small_wf. assumption.
Qed.

(** ** Replies *)
(** [reply_response] after the six-byte prefix. *)
Definition reply_items (h : heap) (d : bytes) : outcome response :=
  items <- finished (cp_expand h d) ;;
  match nth_error items 1 with
  | None => Throw OutOfRange
  | Some it =>
    r <- finished (response_expand h response0 (it_data it)) ;;
    Ok (if Nat.ltb 2 (List.length items)
        then mkResp (r_service r) (r_status r) (r_addl r) (r_data r) (skipn 2 items)
        else r)
  end.

Lemma reply_split h rcv ih to d : e_data rcv = le 4 ih ++ le 2 to ++ d ->
  reply_response h rcv = reply_items h d.
Proof.
  intros E. unfold reply_response. rewrite E. cbv zeta.
  replace (Nat.ltb _ 6) with false
    by (symmetry; apply Nat.ltb_ge; rewrite !app_length, !le_length; lia).
  rewrite buf_of_at, get_u32_le. cbn [bind]. rewrite get_u16_le. cbn [bind].
  replace (List.length (le 4 ih ++ le 2 to ++ d) - 6)%nat with (List.length d)
    by (rewrite !app_length, !le_length; lia).
  rewrite get_bytes_all. reflexivity.
Qed.

Lemma reply_short h rcv : (List.length (e_data rcv) < 6)%nat -> reply_response h rcv = Throw LengthError.
Proof. intros L. unfold reply_response. cbv zeta. apply Nat.ltb_lt in L. now rewrite L. Qed.

Lemma reply_prefix data : is_bytes data -> (6 <= List.length data)%nat ->
  exists ih to d, data = le 4 ih ++ le 2 to ++ d /\ is_bytes d /\ is_u32 ih /\ is_u16 to.
Proof.
  intros B L. destruct (split_n 4 data) as (a & r & -> & La); [lia|].
  apply is_bytes_app in B as [Ba B]. rewrite app_length in L.
  destruct (split_n 2 r) as (t & rest & -> & Lt); [lia|]. apply is_bytes_app in B as [Bt B].
  destruct (le_of_bytes 4 a Ba La) as (ih & -> & V1). destruct (le_of_bytes 2 t Bt Lt) as (to & -> & V2).
  exists ih, to, rest. split; [reflexivity|]. split; [assumption|]. split; assumption.
Qed.

Lemma item_data_bytes i : item_wf i -> is_bytes (it_data i).
Proof. intros (_ & _ & _ & B). exact B. Qed.

Lemma cp_expand_good' h count items tail : is_u16 count -> Forall item_wf items ->
  (zlen items = count \/ zlen items < count /\ tail = []) ->
  cp_expand h (le 2 count ++ items_bytes items ++ tail) = (items, Ok tt).
Proof.
  intros C W [L|[L E]]; apply cp_expand_good; try assumption; [now left|]. right. split; [lia|assumption].
Qed.

Lemma reply_good h rcv ih to count a it extra rest service rsv status addl d :
  e_data rcv = le 4 ih ++ le 2 to ++ le 2 count ++ items_bytes (a :: it :: extra) ++ rest ->
  is_u16 count -> Forall item_wf (a :: it :: extra) ->
  (zlen (a :: it :: extra) = count \/ zlen (a :: it :: extra) < count /\ rest = []) ->
  it_data it = response_bytes service rsv status addl d -> is_words addl -> zlen addl < 256 ->
  reply_response h rcv = Ok (mkResp service status addl d extra).
Proof.
  intros E Wc W C Ed Wa La. rewrite (reply_split h rcv ih to _ E). unfold reply_items.
  rewrite cp_expand_good' by assumption.
  cbn [finished bind nth_error]. rewrite Ed, response_good by assumption.
  cbn [finished bind r_service r_status r_addl r_data r_items response0].
  destruct extra as [|x extra]; cbn [List.length Nat.ltb Nat.leb skipn]; reflexivity.
Qed.

Lemma reply_sound h rcv r : is_bytes (e_data rcv) -> reply_response h rcv = Ok r ->
  exists ih to count a it extra rest service rsv status addl d,
    e_data rcv = le 4 ih ++ le 2 to ++ le 2 count ++ items_bytes (a :: it :: extra) ++ rest
    /\ is_u16 count /\ Forall item_wf (a :: it :: extra)
    /\ (zlen (a :: it :: extra) = count \/ zlen (a :: it :: extra) < count /\ rest = [])
    /\ it_data it = response_bytes service rsv status addl d /\ is_words addl /\ zlen addl < 256
    /\ r = mkResp service status addl d extra.
Proof.
  intros B E. destruct (Nat.lt_ge_cases (List.length (e_data rcv)) 6) as [L|L].
  { rewrite reply_short in E by assumption. discriminate. }
  destruct (reply_prefix (e_data rcv) B L) as (ih & to & d & Ed & Bd & _ & _).
  rewrite (reply_split h rcv ih to d Ed) in E. unfold reply_items in E.
  apply bind_Ok in E as (items & E1 & E). 
  destruct (cp_expand h d) as [items' o] eqn:Ec. destruct o as [[]| | |]; try discriminate E1.
  cbn [finished] in E1. assert (items' = items) by congruence. subst items'. clear E1.
  destruct (Nat.lt_ge_cases (List.length d) 2) as [L2|L2].
  { destruct (cp_expand_tiny h d L2) as [X|X]; rewrite X in Ec; [|discriminate].
    assert (items = []) by congruence. subst items. discriminate E. }
  apply (cp_accept h d items Bd L2) in Ec as (count & rest & Wc & W & -> & C).
  destruct items as [|a [|it extra]]; try discriminate E. cbn [nth_error] in E.
  apply bind_Ok in E as (r1 & E1 & E).
  destruct (response_expand h response0 (it_data it)) as [r2 o] eqn:Er. destruct o as [[]| | |]; try discriminate E1.
  cbn [finished] in E1. assert (r2 = r1) by congruence. subst r2. clear E1.
  assert (Bi : is_bytes (it_data it)) by (inversion W; subst; inversion H2; subst; apply item_data_bytes; assumption).
  apply (response_accept h response0 (it_data it) r1 Bi) in Er as (s & v & st & addl & dd & Ei & Wa & La & ->).
  exists ih, to, count, a, it, extra, rest, s, v, st, addl, dd.
  split; [rewrite Ed; reflexivity|]. split; [assumption|]. split; [assumption|]. split; [assumption|].
  split; [assumption|]. split; [assumption|]. split; [assumption|].
  cbn [r_service r_status r_addl r_data r_items response0] in E.
  destruct extra as [|x extra]; cbn [List.length Nat.ltb Nat.leb skipn] in E; congruence.
Qed.

Lemma reply_no_abort h rcv : is_bytes (e_data rcv) -> reply_response h rcv <> Abort.
Proof.
  intros B E. destruct (Nat.lt_ge_cases (List.length (e_data rcv)) 6) as [L|L].
  { rewrite reply_short in E by assumption. discriminate. }
  destruct (reply_prefix (e_data rcv) B L) as (ih & to & d & Ed & Bd & _ & _).
  rewrite (reply_split h rcv ih to d Ed) in E. unfold reply_items in E.
  destruct (Nat.lt_ge_cases (List.length d) 2) as [L2|L2].
  { destruct (cp_expand_tiny h d L2) as [X|X]; rewrite X in E; discriminate. }
  destruct (cp_cases d Bd L2) as (count & items & tail & Wc & W & -> & C).
  assert (Bt : is_bytes tail).
  { apply is_bytes_app in Bd as [_ Bd]. apply is_bytes_app in Bd as [_ Bd]. assumption. }
  assert (G : cp_expand h (le 2 count ++ items_bytes items ++ tail) = (items, Ok tt)
              \/ cp_expand h (le 2 count ++ items_bytes items ++ tail) = (items, Undef UbOobRead)
              \/ cp_expand h (le 2 count ++ items_bytes items ++ tail) = (items, Throw (RuntimeError RtCommonPacketFormat))).
  { destruct C as [C|[C [->|T]]].
    - left. apply cp_expand_good; auto.
    - left. apply cp_expand_good; [assumption..|]. right; split; [lia|reflexivity].
    - right. apply cp_expand_cut; assumption. }
  destruct G as [G|[G|G]]; rewrite G in E; cbn [finished bind] in E; try discriminate.
  destruct (nth_error items 1) as [it|] eqn:En; [|discriminate].
  assert (Bi : is_bytes (it_data it)).
  { apply nth_error_In in En. rewrite Forall_forall in W. apply item_data_bytes, W. assumption. }
  destruct (response_cases (it_data it) Bi) as [Ls|[(s & v & st & n & rest & Ei & Ls)|(s & v & st & aa & dd & Ei & Ws & Ls)]].
  - rewrite response_short in E by assumption. discriminate.
  - rewrite Ei, response_bad_size in E by assumption. discriminate.
  - rewrite Ei, response_good in E by assumption. cbn [finished bind] in E. discriminate.
Qed.

Lemma reply_few_items h rcv ih to count items rest :
  e_data rcv = le 4 ih ++ le 2 to ++ le 2 count ++ items_bytes items ++ rest ->
  is_u16 count -> Forall item_wf items -> (List.length items < 2)%nat ->
  (zlen items = count \/ zlen items < count /\ rest = []) ->
  reply_response h rcv = Throw OutOfRange.
Proof.
  intros E Wc W L C. rewrite (reply_split h rcv ih to _ E). unfold reply_items.
  rewrite cp_expand_good' by assumption.
  cbn [finished bind]. destruct items as [|a [|b items]]; cbn [List.length] in L; try lia; reflexivity.
Qed.

Lemma reply_unsafe : exists rcv, is_bytes (e_data rcv) /\ encaps_wf rcv
  /\ e_length rcv = zlen (e_data rcv) /\ reply_response strict rcv = Undef UbOobRead.
Proof.
  exists (packet 111 7 0 [0;0;0;0;0;0]).
  assert (B : is_bytes [0;0;0;0;0;0]) by exact (zeros_bytes 6).
  split; [exact B|]. split; [|split; reflexivity].
  apply packet_wf; [unfold is_u16; lia|unfold is_u32; lia|unfold is_u32; lia|exact B].
Qed.

(** ** The router over a session *)
Lemma send_request_result {S} h (si : session_if S) use8 service path data extra s rcv s' :
  si_exchange si (request_packet (si_handle si) use8 service path data extra) s = (Ok rcv, s') ->
  send_request h si use8 service path data extra s = (reply_response h rcv, s').
Proof. unfold send_request. intros ->. reflexivity. Qed.

Lemma send_recorded h handle answer use8 service path data extra log :
  let p := request_packet handle use8 service path data extra in
  send_request h (recording handle answer) use8 service path data extra log
  = (rcv <- answer log p ;; reply_response h rcv, log ++ [p]).
Proof.
  cbv zeta. unfold send_request, recording; cbn [si_exchange si_handle].
  destruct (answer log _); reflexivity.
Qed.
Lemma ysend_recorded h handle answer service path data extra log :
  let p := yrequest_packet handle service path data extra in
  ysend_request h (recording handle answer) service path data extra log
  = (rcv <- answer log p ;; reply_response h rcv, log ++ [p]).
Proof.
  cbv zeta. unfold ysend_request, recording; cbn [si_exchange si_handle].
  destruct (answer log _); reflexivity.
Qed.

(** Over the 16-bit limit the receiver of the packet refuses it. *)
Lemma encaps_too_long h handle timeout d : is_u32 handle -> is_bytes d -> 65536 <= zlen d + 6 ->
  snd (encaps_expand h encaps0 (encaps_pack (rr_data_packet handle timeout d)))
  = Throw (RuntimeError RtEncapsLength).
Proof.
  intros Wh Bd L. rewrite rr_data.
  pose proof (packet_roundtrip h 111 handle 0 (le 4 0 ++ le 2 timeout ++ d)) as P. cbv zeta in P.
  assert (Z6 : zlen (le 4 0 ++ le 2 timeout ++ d) = zlen d + 6).
  { rewrite !zlen_app. unfold zlen at 1 2. rewrite !le_length. lia. }
  rewrite Z6 in P. replace (zlen d + 6 <? 65536) with false in P by (symmetry; apply Z.ltb_ge; lia).
  apply P; [unfold is_u16; lia|assumption|unfold is_u32; lia|].
  apply is_bytes_app. split; [apply le_bytes|]. apply is_bytes_app. split; [apply le_bytes|assumption].
Qed.

Lemma encaps_total h p data : is_bytes data -> List.length (e_context p) = 8%nat ->
  snd (encaps_expand h p data)
  = (if Nat.ltb (List.length data) 24 then Throw (RuntimeError RtEncapsShort)
     else if le_val (firstn 2 (skipn 2 data)) =? zlen data - 24 then Ok tt
     else Throw (RuntimeError RtEncapsLength)).
Proof.
  intros B L0. destruct (Nat.ltb_spec (List.length data) 24) as [L|L].
  - now rewrite encaps_short.
  - pose proof (encaps_accept h p data B L0) as A.
    destruct (Z.eqb_spec (le_val (firstn 2 (skipn 2 data))) (zlen data - 24)) as [E|E].
    + now apply A.
    + destruct (encaps_cases data B) as [L'|(c & l & hd & st & cx & op & d & Ed & Wc & Wl & Wh & Ws & Wo & Lx & Bx & Bd)]; [lia|].
      rewrite Ed in A |- *. rewrite encaps_head in A |- * by assumption.
      destruct (zlen d =? l); [|reflexivity]. cbn [snd] in A.
      exfalso. apply E. rewrite Ed. now apply A.
Qed.
