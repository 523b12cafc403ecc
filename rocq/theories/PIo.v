(** Proofs about single I/O connections. *)
From Verif Require Import Base MBuffer SBuffer PBase PBuffer PReader MEip SEip PPathT PEip PRouter
  MSocket SSocket PSocket MConnReq SConnReq PConnReq MConn SConn PConnOpen.
Ltac Zify.zify_post_hook ::= Z.div_mod_to_equations.
Local Open Scope outcome_scope.

(** The fields nothing changes after the connection is opened. *)
Definition io_static (c : iocon) :=
  (io_oid c, io_o2tId c, io_t2oId c, io_o2tAPI c, io_t2oAPI c, io_o2tSize c, io_t2oSize c,
   (io_o2tFixed c, io_t2oFixed c, io_mult c, io_serial c, io_trigger c, io_o2tRTF c, io_t2oRTF c),
   (io_path c, io_vendor c, io_orig c, io_dest c)).

Lemma receive_static h c data c' ev : io_receive h c data = Ok (c', ev) -> io_static c' = io_static c.
Proof.
  unfold io_receive. intros E. cbv zeta in E. apply bind_Ok in E as ([hd b1] & _ & E).
  apply bind_Ok in E as ([sq b2] & _ & E). destruct (negb (buf_valid b2)); [discriminate|].
  destruct (_ && _); inv E; reflexivity.
Qed.
Lemma tick_static now hook sr c : io_static (snd (fst (io_tick now hook sr c))) = io_static c.
Proof.
  unfold io_tick. cbv zeta. destruct (_ <? _); [reflexivity|]. destruct (_ <=? _); [|reflexivity].
  destruct (_ && _); reflexivity.
Qed.
Lemma output_static c d : io_static (io_set_output c d) = io_static c.
Proof. reflexivity. Qed.

Lemma static_oid c c' : io_static c' = io_static c -> io_oid c' = io_oid c.
Proof. unfold io_static. congruence. Qed.
Lemma static_t2o c c' : io_static c' = io_static c -> io_t2oId c' = io_t2oId c.
Proof. unfold io_static. congruence. Qed.

(** ** Receiving *)

(** The decoder of io_receive: header, then sequence count. *)
Lemma receive_order h c hdr seq data :
  is_u32 hdr -> is_u16 seq -> 
  let d := (if io_t2oRTF c then le 4 hdr else []) ++ (if has_seq (io_trigger c) then le 2 seq else []) ++ data in
  io_receive h c d
  = if io_t2oFixed c && negb (zlen data =? io_t2oSize c) then Ok (c, [])
    else Ok (io_set_tcount c 0, [EvData (io_oid c) (if io_t2oRTF c then hdr else 0)
                                        (if has_seq (io_trigger c) then seq else 0) data]).
Proof.
  intros H S. cbv zeta. unfold io_receive. cbv zeta.
  set (a := if io_t2oRTF c then le 4 hdr else []). set (b := if has_seq (io_trigger c) then le 2 seq else []).
  rewrite buf_of_at.
  replace (if io_t2oRTF c then get_u32 h (at_ [] (a ++ b ++ data)) else Ok (0, at_ [] (a ++ b ++ data)))
    with (Ok (if io_t2oRTF c then hdr else 0, at_ a (b ++ data))).
  2:{ unfold a. destruct (io_t2oRTF c); [|reflexivity]. rewrite get_u32_le, u32_small by assumption. reflexivity. }
  cbn [bind].
  replace (if has_seq (io_trigger c) then get_u16 h (at_ a (b ++ data)) else Ok (0, at_ a (b ++ data)))
    with (Ok (if has_seq (io_trigger c) then seq else 0, at_ (a ++ b) data)).
  2:{ unfold b. destruct (has_seq (io_trigger c)); [|now rewrite app_nil_r]. rewrite get_u16_le, u16_small by assumption. reflexivity. }
  cbn [bind].
  replace (buf_valid (at_ (a ++ b) data)) with true
    by (symmetry; apply buf_valid_spec; unfold at_; cbn [bpos bdata]; rewrite !app_length; lia).
  cbn [negb]. unfold at_; cbn [bpos].
  replace (skipn (List.length (a ++ b)) (a ++ b ++ data)) with data; [reflexivity|].
  rewrite app_assoc. symmetry. apply skipn_app_exact.
Qed.

(** Length of what precedes the application data *)
Definition head_len (c : iocon) : nat := (if io_t2oRTF c then 4 else 0) + (if has_seq (io_trigger c) then 2 else 0).

Lemma receive_split c d : is_bytes d -> (head_len c <= List.length d)%nat ->
  exists hdr seq data, is_u32 hdr /\ is_u16 seq /\
    d = (if io_t2oRTF c then le 4 hdr else []) ++ (if has_seq (io_trigger c) then le 2 seq else []) ++ data
    /\ data = skipn (head_len c) d.
Proof.
  unfold head_len. intros B L. destruct (io_t2oRTF c), (has_seq (io_trigger c)); cbn [Nat.add] in *.
  - destruct (take_le_front 4 d B ltac:(lia)) as (v & r & -> & V & Br & Lr).
    rewrite app_length, le_length in L, Lr.
    destruct (take_le_front 2 r Br ltac:(lia)) as (v2 & r2 & -> & V2 & _ & _).
    exists v, v2, r2. split; [exact V|split; [exact V2|split; [reflexivity|]]].
    reflexivity.
  - destruct (take_le_front 4 d B ltac:(lia)) as (v & r & -> & V & Br & Lr).
    exists v, 0, r. split; [exact V|split; [unfold is_u16; lia|split; [reflexivity|]]].
    reflexivity.
  - destruct (take_le_front 2 d B ltac:(lia)) as (v & r & -> & V & Br & Lr).
    exists 0, v, r. split; [unfold is_u32; lia|split; [exact V|split; [reflexivity|]]].
    reflexivity.
  - exists 0, 0, d. split; [unfold is_u32; lia|split; [unfold is_u16; lia|split; reflexivity]].
Qed.

(** Too short for its header: out of bounds, whatever lies behind the buffer. *)
Lemma receive_short h c d : (List.length d < head_len c)%nat -> exists u, io_receive h c d = Undef u.
Proof.
  intros L. unfold io_receive. cbv zeta. unfold head_len in L.
  destruct (io_t2oRTF c).
  - destruct (ro_result get_u32 reader_u32 h (buf_of d)) as [(v & b1 & E)|E]; rewrite E; cbn [bind]; [|eauto].
    pose proof (moves_u32 _ _ _ _ E) as M. destruct (ro_data get_u32 reader_u32 _ _ _ _ E) as [D _]. cbn [buf_of bdata bpos] in *.
    destruct (has_seq (io_trigger c)).
    + destruct (ro_result get_u16 reader_u16 h b1) as [(v2 & b2 & E2)|E2]; rewrite E2; cbn [bind]; [|eauto].
      pose proof (moves_u16 _ _ _ _ E2) as M2. destruct (ro_data get_u16 reader_u16 _ _ _ _ E2) as [D2 _].
      replace (buf_valid b2) with false by (symmetry; apply buf_valid_false; rewrite D2, D; lia). cbn [negb]. eauto.
    + cbn [bind]. replace (buf_valid b1) with false by (symmetry; apply buf_valid_false; rewrite D; lia). cbn [negb]. eauto.
  - cbn [bind]. destruct (has_seq (io_trigger c)); [|lia].
    destruct (ro_result get_u16 reader_u16 h (buf_of d)) as [(v2 & b2 & E2)|E2]; rewrite E2; cbn [bind]; [|eauto].
    pose proof (moves_u16 _ _ _ _ E2) as M2. destruct (ro_data get_u16 reader_u16 _ _ _ _ E2) as [D2 _]. cbn [buf_of bdata bpos] in *.
    replace (buf_valid b2) with false by (symmetry; apply buf_valid_false; rewrite D2; lia). cbn [negb]. eauto.
Qed.

(** Everything io_receive can do. *)
Lemma receive_total h c d : is_bytes d ->
  if Nat.ltb (List.length d) (head_len c) then exists u, io_receive h c d = Undef u
  else if io_t2oFixed c && negb (zlen d - Z.of_nat (head_len c) =? io_t2oSize c) then io_receive h c d = Ok (c, [])
  else exists hdr seq, io_receive h c d = Ok (io_set_tcount c 0, [EvData (io_oid c) hdr seq (skipn (head_len c) d)]).
Proof.
  intros B. destruct (Nat.ltb_spec (List.length d) (head_len c)) as [L|L]; [now apply receive_short|].
  destruct (receive_split c d B L) as (hdr & seq & data & H & S & E & Ed).
  assert (Z : zlen d - Z.of_nat (head_len c) = zlen data).
  { rewrite Ed. unfold zlen. rewrite skipn_length. lia. }
  rewrite Z. pose proof (receive_order h c hdr seq data H S) as R. cbv zeta in R. rewrite <- E in R.
  rewrite R, <- Ed. destruct (_ && _); [reflexivity|]. eauto.
Qed.

(** ** Ticks *)
Definition clocked (c : iocon) (k : clock) : Prop :=
  k_last k = io_last c /\ io_tcount c = 1000 * k_idle k /\ io_o2tTimer c = 1000 * k_since k
  /\ io_o2tSeq c = k_slots k mod 2 ^ 32 /\ (has_seq (io_trigger c) = true -> io_seqCount c = k_slots k mod 65536)
  /\ k_out k = io_out c
  /\ 0 <= k_idle k /\ 1000 * k_idle k <= io_mult c * io_t2oAPI c
  /\ 0 <= k_since k /\ (k_since k = 0 \/ 1000 * k_since k < io_o2tAPI c).

Lemma packet_bytes c s k (out : bytes) count : zlen out <= 65000 -> s = spec_of c -> count = k mod 65536 ->
  cp_pack [item_sequenced (io_o2tId c) (k mod 2 ^ 32);
           item_connected (bdata (put_bytes (let b := if has_seq (io_trigger c) then put_u16 buf_new count else buf_new in
                                             if io_o2tRTF c then put_u32 b 1 else b) out))]
  = io_packet s k out.
Proof.
  intros LO -> ->. rewrite cp_pack_any. unfold io_packet, spec_of; cbn [sp_o2tId sp_seq sp_o2tHead].
  rewrite has_seq_mod. cbv zeta. cbn [map concat]. rewrite app_nil_r.
  f_equal. unfold item_sequenced, item_connected.
  rewrite !item_pack_any by (unfold is_u16, SEQUENCED_ADDRESS_ITEM, CONNECTED_TRANSPORT_PACKET; lia).
  rewrite !put_u32_le. cbn [bdata buf_new app].
  replace (bdata (put_bytes _ out)) with ((if negb (io_trigger c mod 4 =? 0) then le 2 (k mod 65536) else [])
                 ++ (if io_o2tRTF c then [1; 0; 0; 0] else []) ++ out).
  2:{ destruct (negb _), (io_o2tRTF c); rewrite ?put_u32_le, ?put_u16_le; unfold put_bytes; cbn [bdata buf_new app]; rewrite <- ?app_assoc; reflexivity. }
  set (payload := (if negb _ then _ else _) ++ _).
  assert (LP : zlen payload < 65536).
  { unfold payload. rewrite !zlen_app. unfold zlen at 1 2. destruct (negb _), (io_o2tRTF c); rewrite ?le_length; cbn [List.length]; lia. }
  f_equal. f_equal. rewrite (Z.mod_small (zlen payload)) by (pose proof (zlen_nonneg payload); lia).
  f_equal. destruct (Z.eqb_spec (zlen payload) 0) as [E|]; [|reflexivity].
  destruct payload; [reflexivity|]. rewrite zlen_cons in E. pose proof (zlen_nonneg payload). lia.
Qed.

Lemma fixed_fits (b : bool) (n : Z) (d : bytes) : b && negb (zlen d =? n) = negb (fits (if b then Some n else None) d).
Proof. destruct b; reflexivity. Qed.

Lemma le_val4 v : is_u32 v -> le_val (le 4 v) = v.
Proof. intros V. rewrite le_val_le. change (256 ^ Z.of_nat 4) with (2 ^ 32). apply Z.mod_small. exact V. Qed.
Lemma le_val2 v : is_u16 v -> le_val (le 2 v) = v.
Proof. intros V. rewrite le_val_le. change (256 ^ Z.of_nat 2) with 65536. apply Z.mod_small. exact V. Qed.

(** The connection behaves as specified. *)
Lemma run_refines h s ops : forall c k, spec_of c = s -> io_wf c -> clocked c k -> zlen (k_out k) <= 65000 ->
  sane s (k_last k) ops ->
  match io_run h ops c, spec_run s ops k with
  | (Open c', ev), (Some k', ev') => ev = ev' /\ spec_of c' = s /\ io_wf c' /\ clocked c' k' /\ io_static c' = io_static c
  | (Closed, ev), (None, ev') => ev = ev'
  | _, _ => False
  end.
Proof.
  induction ops as [|op ops IH]; intros c k Es W C LO Sane.
  { cbn [io_run spec_run]. auto. }
  destruct op as [now hook sr|t d|d]; cbn [io_run spec_run].
  - destruct Sane as (Le & Hook & Gap & Sane). pose proof W as (W1 & W2 & W3 & W4). pose proof C as (C1 & C2 & C3 & C4 & C5 & C6 & C7 & C8 & C9 & C10).
    assert (Lim : sp_limit s = io_mult c * io_t2oAPI c) by (rewrite <- Es; reflexivity).
    assert (Api : sp_api s = io_o2tAPI c) by (rewrite <- Es; reflexivity).
    assert (Ooid : sp_oid s = io_oid c) by (rewrite <- Es; reflexivity).
    assert (Odest : sp_dest s = io_dest c) by (rewrite <- Es; reflexivity).
    rewrite C1 in *. set (ms := (now - io_last c) / 1000000) in *.
    assert (Ms : 0 <= ms) by (apply Z.div_pos; lia).
    unfold io_tick. cbv zeta. rewrite Z.quot_div_nonneg by lia. fold ms.
    change (2 ^ 32) with 4294967296 in *.
    assert (LimNN : 0 <= io_mult c * io_t2oAPI c) by (unfold is_u8, is_u32 in *; nia).
    assert (T1 : u32 (io_tcount c + ms * 1000) = 1000 * (k_idle k + ms)) by (unfold u32; rewrite C2, Z.mod_small; lia).
    assert (T2 : u32 (io_mult c * io_t2oAPI c) = sp_limit s) by (unfold u32; rewrite Z.mod_small; lia).
    assert (T3 : u32 (io_o2tTimer c + ms * 1000) = 1000 * (k_since k + ms)).
    { unfold u32; rewrite C3, Z.mod_small; [lia|]. unfold is_u32 in W2. lia. }
    rewrite T1, T2, T3. destruct (Z.ltb_spec (sp_limit s) (1000 * (k_idle k + ms))) as [Cl|NCl]; [now rewrite Ooid|].
    rewrite Api. destruct (Z.leb_spec (io_o2tAPI c) (1000 * (k_since k + ms))) as [Sl|NSl].
    + assert (Sq : u32 (io_o2tSeq c + 1) = (k_slots k + 1) mod 2 ^ 32).
      { rewrite C4. unfold u32. change (2 ^ 32) with 4294967296. lia. }
      set (count := if has_seq (io_trigger c) then u16 (io_seqCount c + 1) else io_seqCount c).
      assert (Cn : has_seq (io_trigger c) = true -> count = (k_slots k + 1) mod 65536).
      { unfold count. intros Hs. rewrite Hs, (C5 Hs). unfold u16. lia. }
      rewrite Sq. rewrite C6. set (out := hook (io_out c)).
      assert (LOut : zlen out <= 65000) by (apply Hook; rewrite <- C6; exact LO).
      rewrite (fixed_fits (io_o2tFixed c) (io_o2tSize c) out).
      replace (if io_o2tFixed c then Some (io_o2tSize c) else None) with (sp_o2tSize s) by (rewrite <- Es; reflexivity).
      set (c' := io_set_tick c _ _ _ _ _ _).
      assert (C' : clocked c' (mkClock now (k_idle k + ms) 0 (k_slots k + 1) out)).
      { unfold clocked, c'; cbn [k_last k_idle k_since k_slots k_out io_last io_tcount io_o2tTimer io_o2tSeq io_seqCount io_trigger io_out io_mult io_t2oAPI io_o2tAPI io_set_tick].
        rewrite <- Lim. repeat match goal with |- _ /\ _ => split end; try reflexivity; try exact Cn; try lia. }
      pose proof (IH c' _ (Es : spec_of c' = s) (W : io_wf c') C' LOut Sane) as R. cbn [k_last] in R.
      destruct (io_run h ops c') as [e ev] eqn:ER. destruct (spec_run s ops _) as [e' ev'].
      destruct (fits (sp_o2tSize s) out) eqn:F; cbn [negb].
      * assert (Pk : cp_pack [item_sequenced (io_o2tId c) ((k_slots k + 1) mod 2 ^ 32);
           item_connected (bdata (put_bytes (if io_o2tRTF c then put_u32 (if has_seq (io_trigger c) then put_u16 buf_new count else buf_new) 1
             else if has_seq (io_trigger c) then put_u16 buf_new count else buf_new) out))] = io_packet s (k_slots k + 1) out).
        { destruct (has_seq (io_trigger c)) eqn:Hs.
          - pose proof (packet_bytes c s (k_slots k + 1) out count LOut (eq_sym Es) (Cn eq_refl)) as P. rewrite Hs in P. exact P.
          - pose proof (packet_bytes c s (k_slots k + 1) out _ LOut (eq_sym Es) eq_refl) as P. rewrite Hs in P. exact P. }
        rewrite Pk, Ooid, Odest. cbn [app].
        assert (G : match omap (fun _ : unit => true) (send_check (zlen (io_packet s (k_slots k + 1) out)) (sr (zlen (io_packet s (k_slots k + 1) out)))) with Ok false => False | _ => True end).
        { unfold send_check. destruct (_ <? _); exact Logic.I. }
        destruct (omap _ _) as [[]|?|?|]; try contradiction; rewrite ?ER;
          (destruct e; destruct e'; try contradiction; [destruct R as [R1 R2]; split; [rewrite R1; reflexivity|exact R2] | cbn; rewrite R; reflexivity]).
      * rewrite ?ER. cbn [app]. destruct e; destruct e'; try contradiction; exact R.
    + set (c' := io_set_tick c _ _ _ _ _ _).
      assert (C' : clocked c' (mkClock now (k_idle k + ms) (k_since k + ms) (k_slots k) (k_out k))).
      { unfold clocked, c'; cbn [k_last k_idle k_since k_slots k_out io_last io_tcount io_o2tTimer io_o2tSeq io_seqCount io_trigger io_out io_mult io_t2oAPI io_o2tAPI io_set_tick].
        rewrite <- Lim. repeat match goal with |- _ /\ _ => split end; try reflexivity; try assumption; try lia. }
      pose proof (IH c' _ (Es : spec_of c' = s) (W : io_wf c') C' LO Sane) as R. cbn [k_last] in R.
      destruct (io_run h ops c') as [e ev] eqn:ER. destruct (spec_run s ops _) as [e' ev']. rewrite ?ER. cbn [app].
      destruct e; destruct e'; try contradiction; exact R.
  - destruct Sane as (B & L & Sane).
    assert (Hh : sp_t2oHead s = io_t2oRTF c) by (rewrite <- Es; reflexivity).
    assert (Hq : sp_seq s = has_seq (io_trigger c)) by (rewrite <- Es, has_seq_mod; reflexivity).
    assert (Hz : sp_t2oSize s = if io_t2oFixed c then Some (io_t2oSize c) else None) by (rewrite <- Es; reflexivity).
    assert (Ooid : sp_oid s = io_oid c) by (rewrite <- Es; reflexivity).
    rewrite Hh, Hq in *.
    destruct (receive_split c d B) as (hdr & seq & data & Hd & Sq & E & Ed).
    { unfold head_len. unfold zlen in L. destruct (io_t2oRTF c), (has_seq (io_trigger c)); lia. }
    pose proof (receive_order h c hdr seq data Hd Sq) as R0. cbv zeta in R0. rewrite <- E in R0. rewrite R0.
    replace (skipn _ d) with data by (rewrite Ed; unfold head_len; reflexivity).
    rewrite (fixed_fits (io_t2oFixed c) (io_t2oSize c) data), <- Hz.
    destruct (fits (sp_t2oSize s) data); cbn [negb].
    + set (c' := io_set_tcount c 0).
      assert (C' : clocked c' (mkClock (k_last k) 0 (k_since k) (k_slots k) (k_out k))).
      { destruct C as (C1 & C2 & C3 & C4 & C5 & C6 & C7 & C8 & C9 & C10). destruct W as (W1 & W2 & W3 & W4).
        unfold clocked, c'; cbn [k_last k_idle k_since k_slots k_out io_last io_tcount io_o2tTimer io_o2tSeq io_seqCount io_trigger io_out io_mult io_t2oAPI io_o2tAPI io_set_tcount].
        repeat match goal with |- _ /\ _ => split end; try assumption; try lia. }
      pose proof (IH c' _ (Es : spec_of c' = s) (W : io_wf c') C' LO Sane) as R.
      destruct (io_run h ops c') as [e ev] eqn:ER. destruct (spec_run s ops _) as [e' ev'].
      replace (if io_t2oRTF c then le_val (firstn 4 d) else 0) with (if io_t2oRTF c then hdr else 0).
      2:{ rewrite E. destruct (io_t2oRTF c); [|reflexivity]. symmetry. exact (le_val4 hdr Hd). }
      replace (if has_seq (io_trigger c) then le_val (firstn 2 (skipn _ d)) else 0) with (if has_seq (io_trigger c) then seq else 0).
      2:{ rewrite E. destruct (has_seq (io_trigger c)); [|reflexivity].
          replace (skipn _ _) with (le 2 seq ++ data) by (destruct (io_t2oRTF c); reflexivity).
          symmetry. exact (le_val2 seq Sq). }
      rewrite Ooid. destruct e; destruct e'; try contradiction; [destruct R as (-> & R); auto | now rewrite R].
    + pose proof (IH c k Es W C LO Sane) as R.
      destruct (io_run h ops c) as [e ev]. destruct (spec_run s ops _) as [e' ev']. rewrite ?ER. cbn [app].
      destruct e; destruct e'; try contradiction; exact R.
  - destruct Sane as (L & Sane).
    set (c' := io_set_output c d).
    assert (C' : clocked c' (mkClock (k_last k) (k_idle k) (k_since k) (k_slots k) d)).
    { destruct C as (C1 & C2 & C3 & C4 & C5 & C6 & C7 & C8 & C9 & C10). repeat split; assumption. }
    pose proof (IH c' _ (Es : spec_of c' = s) (W : io_wf c') C' L Sane) as R.
    destruct (io_run h ops c') as [e ev] eqn:ER. destruct (spec_run s ops _) as [e' ev'].
    destruct e; destruct e'; try contradiction; exact R.
Qed.
