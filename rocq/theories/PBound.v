(** Proofs about what a peer can make the library hold. *)
From Verif Require Import Base MBuffer SBuffer PBase PBuffer MEip SEip PEip PRouter MSocket SSocket PSocket SObj SExn PExn MFile MIdent MParam MDisc MConn PReuse SBound.
Ltac Zify.zify_post_hook ::= Z.div_mod_to_equations.
Local Open Scope outcome_scope.

Lemma volume_app a b : volume (a ++ b) = volume a + volume b.
Proof. induction a as [|[l|e|] a IH]; cbn [app volume]; lia. Qed.

Lemma recv_volume segs : forall n acc o segs', recv_loop n acc segs = (o, segs') ->
  volume segs' <= volume segs <= volume segs' + Z.of_nat n.
Proof.
  induction segs as [|[l|e|] segs IH]; intros n acc o segs' E; (destruct n as [|n]; [cbn [recv_loop] in E; inversion E; subst; lia|]); cbn [recv_loop] in E.
  - inversion E. subst. cbn [volume]. lia.
  - destruct (Nat.leb_spec (List.length l) (S n)) as [L|L].
    + apply IH in E. cbn [volume]. unfold zlen. lia.
    + assert (X : segs' = Data (skipn (S n) l) :: segs) by congruence. rewrite X. cbn [volume].
      assert (Y : zlen (skipn (S n) l) = zlen l - Z.of_nat (S n)) by (unfold zlen; rewrite skipn_length; lia).
      rewrite Y. lia.
  - destruct (e =? EINTR); [apply IH in E; cbn [volume]; lia|]. inversion E. subst. cbn [volume]. lia.
  - inversion E. subst. lia.
Qed.
Lemma get_u16_range h b v b' : get_u16 h b = Ok (v, b') -> 0 <= v < 65536.
Proof.
  unfold get_u16. intros E. apply bind_Ok in E as ([x0 b0] & _ & E). apply bind_Ok in E as ([x1 b1] & _ & E).
  assert (X : v = u16 (u16 x0 + u16 (Z.shiftl x1 8))) by congruence. rewrite X. unfold u16. apply Z.mod_pos_bound. lia.
Qed.
Lemma header_u16 h header len : length_from_header h header = Ok len -> 0 <= len < 65536.
Proof.
  unfold length_from_header. intros E. apply bind_Ok in E as ([v b] & _ & E). apply bind_Ok in E as ([n b'] & E1 & E).
  apply get_u16_range in E1. congruence.
Qed.
Lemma reply_volume h handle w o w' : receive_reply h handle w = (o, w') ->
  n_sent w' = n_sent w /\ volume (n_in w') <= volume (n_in w) <= volume (n_in w') + 65559.
Proof.
  unfold receive_reply, st_bind, net_receive, tcp_receive. intros E.
  destruct (recv_loop HEADER_SIZE [] (n_in w)) as [o1 s1] eqn:E1. apply recv_volume in E1. unfold HEADER_SIZE in E1.
  destruct o1 as [hd| | |]; try (inversion E; subst; cbn [n_sent n_in]; split; [reflexivity|lia]).
  destruct (length_from_header h hd) as [len| | |] eqn:El; try (inversion E; subst; cbn [n_sent n_in]; split; [reflexivity|lia]).
  apply header_u16 in El. cbn [n_in n_sent n_results] in E. destruct (recv_loop (Z.to_nat len) [] s1) as [o2 s2] eqn:E2. apply recv_volume in E2.
  destruct o2 as [d| | |]; inversion E; subst; cbn [n_sent n_in]; (split; [reflexivity|lia]).
Qed.
Lemma net_send_world p d w o w' : net_send p d w = (o, w') ->
  exists got, n_sent w' = n_sent w ++ [got] /\ n_in w' = n_in w ++ p (n_sent w) got.
Proof. intros E. apply (f_equal snd) in E. cbn [snd net_send] in E. subst w'. eexists. split; reflexivity. Qed.

Lemma exchange_volume h p handle q w o w' : send_and_receive h p handle q w = (o, w') ->
  exists got, n_sent w' = n_sent w ++ [got]
    /\ volume (n_in w') <= volume (n_in w) + volume (p (n_sent w) got) <= volume (n_in w') + 65559.
Proof.
  intros E. unfold send_and_receive, st_bind at 1 in E.
  destruct (net_send p (encaps_pack q) w) as [o1 w1] eqn:En. destruct (net_send_world _ _ _ _ _ En) as (got & S & I).
  exists got. destruct o1 as [[]| | |].
  - apply reply_volume in E as [S' V]. rewrite I, volume_app in V. split; [congruence|lia].
  - inversion E; subst. rewrite I, volume_app. split; [exact S|lia].
  - inversion E; subst. rewrite I, volume_app. split; [exact S|lia].
  - inversion E; subst. rewrite I, volume_app. split; [exact S|lia].
Qed.

Lemma byte_stream segs : Forall byte_seg segs -> is_bytes (stream segs).
Proof.
  induction 1 as [|[l|e|] segs B _ IH]; [constructor| | |].
  - cbn [stream]. apply is_bytes_app. split; [exact B|exact IH].
  - destruct (err_cases e) as [->|[N H]]; [exact IH|]. destruct (H segs) as (X & _). rewrite X. constructor.
  - constructor.
Qed.
Lemma live_modest h p handle : byte_peer p -> modest byte_net (live_session h p handle).
Proof.
  intros P q w o w' B E. destruct (live_decent h p handle P q w o w' B E) as [B' D]. split; [exact B'|].
  intros r ->. split; [exact D|]. cbn [live_session si_exchange] in E. unfold send_and_receive, st_bind at 1 in E.
  destruct (net_send p (encaps_pack q) w) as [o1 w1] eqn:En. destruct (net_send_world _ _ _ _ _ En) as (got & S & I).
  destruct o1 as [[]| | |]; try discriminate.
  apply receive_reply_sound in E.
  - destruct E as [[W L] _]. destruct W as (_ & Wl & _). rewrite <- L. unfold is_u16 in Wl. lia.
  - rewrite I. apply byte_stream, Forall_app. split; [exact B|apply P].
Qed.

(** ** Responses *)

Lemma items_bytes_size l : zlen (items_bytes l) = items_size l.
Proof.
  unfold items_bytes. induction l as [|i l IH]; [reflexivity|]. cbn [map List.concat items_size]. rewrite zlen_app, IH.
  unfold item_bytes. rewrite !zlen_app. unfold zlen. rewrite !le_length. lia.
Qed.
Lemma words_size l : zlen (List.concat (map (le 2) l)) = 2 * zlen l.
Proof.
  induction l as [|x l IH]; [reflexivity|]. cbn [map List.concat]. rewrite zlen_app, IH. unfold zlen. rewrite le_length. cbn [List.length]. lia.
Qed.
Lemma response_size h rcv r : is_bytes (e_data rcv) -> reply_response h rcv = Ok r -> footprint r + 20 <= zlen (e_data rcv).
Proof.
  intros B E. destruct (reply_sound h rcv r B E) as (ih & to & count & a & it & extra & rest & service & rsv & status & addl & d & Ed & _ & _ & _ & Ei & _ & _ & ->).
  unfold footprint. cbn [r_data r_addl r_items]. rewrite Ed, !zlen_app, items_bytes_size. cbn [items_size]. rewrite Ei.
  unfold response_bytes. rewrite !zlen_app, words_size.
  pose proof (zlen_nonneg (it_data a)). pose proof (zlen_nonneg rest).
  assert (zlen (le 4 ih) = 4) by (unfold zlen; now rewrite le_length).
  assert (zlen (le 2 to) = 2) by (unfold zlen; now rewrite le_length).
  assert (zlen (le 2 count) = 2) by (unfold zlen; now rewrite le_length).
  assert (zlen [service; rsv; status; zlen addl] = 4) by reflexivity. lia.
Qed.
Lemma request_size {W} I h (si : session_if W) use8 service path data extra w o w' :
  modest I si -> I w -> send_request h si use8 service path data extra w = (o, w') ->
  I w' /\ forall r, o = Ok r -> footprint r <= 65515.
Proof.
  intros M Iw E. unfold send_request in E.
  destruct (si_exchange si (request_packet (si_handle si) use8 service path data extra) w) as [x w1] eqn:X.
  destruct (M _ _ _ _ Iw X) as [I1 D]. destruct x as [rcv| | |]; inversion E; subst; (split; [exact I1|]); intros r Er; try discriminate.
  destruct (D rcv eq_refl) as [B L]. apply (response_size h) in Er; [lia|exact B].
Qed.
Lemma size_parts l : 0 <= items_size l.
Proof. induction l as [|i l IH]; cbn [items_size]; [lia|]. pose proof (zlen_nonneg (it_data i)). lia. Qed.
Lemma response_data r : footprint r <= 65515 -> zlen (r_data r) <= 65515.
Proof. unfold footprint. pose proof (size_parts (r_items r)). pose proof (zlen_nonneg (r_addl r)). lia. Qed.

(** ** Readers *)

Lemma fetch_byte h b v b' : is_bytes (bdata b) -> fetch h b = Ok (v, b') -> 0 <= v < 256 /\ bdata b' = bdata b.
Proof.
  intros B E. unfold fetch in E. destruct (nth_error (bdata b) (bpos b)) as [x|] eqn:N.
  - assert (X : x = v /\ b' = mkBuf (bdata b) (S (bpos b))) by (split; congruence). destruct X as [-> ->].
    split; [|reflexivity]. apply nth_error_In in N. unfold is_bytes in B. rewrite Forall_forall in B. apply B in N. exact N.
  - destruct (h (bdata b) (bpos b)) as [x|]; [|discriminate].
    assert (X : u8 x = v /\ b' = mkBuf (bdata b) (S (bpos b))) by (split; congruence). destruct X as [<- ->].
    split; [unfold u8; apply Z.mod_pos_bound; lia|reflexivity].
Qed.
Lemma bytes_bounds h n : forall b v b', is_bytes (bdata b) -> get_bytes h n b = Ok (v, b') ->
  List.length v = n /\ bdata b' = bdata b.
Proof.
  induction n as [|n IH]; intros b v b' B E; cbn [get_bytes] in E.
  - inversion E; subst. auto.
  - apply bind_Ok in E as ([x b1] & E1 & E). apply bind_Ok in E as ([xs b2] & E2 & E).
    apply fetch_byte in E1 as [_ K1]; [|exact B]. apply IH in E2 as [L K2]; [|now rewrite K1].
    inversion E; subst. cbn [List.length]. split; [congruence|congruence].
Qed.
(** Readers that leave the data of the buffer alone. *)
Definition steady {A} (f : buffer -> outcome (A * buffer)) : Prop :=
  forall b v b', is_bytes (bdata b) -> f b = Ok (v, b') -> bdata b' = bdata b.
Lemma steady_bind {A B} (f : buffer -> outcome (A * buffer)) (k : A -> buffer -> outcome (B * buffer)) :
  steady f -> (forall a, steady (k a)) -> steady (fun b => bind (f b) (fun '(a, b) => k a b)).
Proof.
  intros F K b v b' B0 E. apply bind_Ok in E as ([a b1] & E1 & E). apply F in E1; [|exact B0].
  apply K in E; [congruence|now rewrite E1].
Qed.
Lemma steady_ret {A} (a : A) : steady (fun b => Ok (a, b)).
Proof. intros b v b' _ E. congruence. Qed.
Lemma steady_fetch h : steady (fetch h).
Proof. intros b v b' B E. now apply fetch_byte in E. Qed.
Lemma steady_u16 h : steady (get_u16 h).
Proof.
  apply (steady_bind (fetch h)); [apply steady_fetch|intros x0]. apply (steady_bind (fetch h)); [apply steady_fetch|intros x1]. apply steady_ret.
Qed.
Lemma steady_u32 h : steady (get_u32 h).
Proof.
  apply (steady_bind (fetch h)); [apply steady_fetch|intros x0]. apply (steady_bind (fetch h)); [apply steady_fetch|intros x1].
  apply (steady_bind (fetch h)); [apply steady_fetch|intros x2]. apply (steady_bind (fetch h)); [apply steady_fetch|intros x3]. apply steady_ret.
Qed.
Lemma steady_bytes h n : steady (get_bytes h n).
Proof. intros b v b' B E. now apply bytes_bounds in E. Qed.
Lemma steady_rev h : steady (get_rev h).
Proof.
  apply (steady_bind (fetch h)); [apply steady_fetch|intros x0]. apply (steady_bind (fetch h)); [apply steady_fetch|intros x1]. apply steady_ret.
Qed.
Lemma steady_s16 h : steady (get_s16 h).
Proof. apply (steady_bind (get_u16 h)); [apply steady_u16|intros x]. apply steady_ret. Qed.
Lemma steady_endpoint h : steady (get_endpoint h).
Proof.
  apply (steady_bind (get_s16 h)); [apply steady_s16|intros f]. apply (steady_bind (get_u16 h)); [apply steady_u16|intros p].
  apply (steady_bind (get_u32 h)); [apply steady_u32|intros a]. apply (steady_bind (get_bytes h 8)); [apply steady_bytes|intros z]. apply steady_ret.
Qed.
Lemma short_bounds h b s b' : is_bytes (bdata b) -> get_short_string h b = Ok (s, b') ->
  zlen (str_data s) <= 255 /\ bdata b' = bdata b.
Proof.
  intros B E. unfold get_short_string in E. apply bind_Ok in E as ([len b1] & E1 & E). apply bind_Ok in E as ([d b2] & E2 & E).
  apply fetch_byte in E1 as [R K1]; [|exact B]. apply bytes_bounds in E2 as [L K2]; [|now rewrite K1].
  inversion E; subst. unfold short_string. cbn [str_data]. unfold zlen. split; [lia|congruence].
Qed.
Lemma steady_short h : steady (get_short_string h).
Proof. intros b v b' B E. now apply short_bounds in E. Qed.

Lemma identity_bounds h n b i b' : is_bytes (bdata b) -> get_identity h n b = Ok (i, b') -> zlen (str_data (id_name i)) <= 255.
Proof.
  intros B E. unfold get_identity in E.
  apply bind_Ok in E as ([x1 b1] & E1 & E). apply steady_u16 in E1; [|exact B].
  apply bind_Ok in E as ([x2 b2] & E2 & E). apply steady_u16 in E2; [|now rewrite E1].
  apply bind_Ok in E as ([x3 b3] & E3 & E). apply steady_u16 in E3; [|now rewrite E2, E1].
  apply bind_Ok in E as ([x4 b4] & E4 & E). apply steady_rev in E4; [|now rewrite E3, E2, E1].
  apply bind_Ok in E as ([x5 b5] & E5 & E). apply steady_u16 in E5; [|now rewrite E4, E3, E2, E1].
  apply bind_Ok in E as ([x6 b6] & E6 & E). apply steady_u32 in E6; [|now rewrite E5, E4, E3, E2, E1].
  apply bind_Ok in E as ([x7 b7] & E7 & E). apply short_bounds in E7 as [L _]; [|now rewrite E6, E5, E4, E3, E2, E1].
  inversion E; subst. exact L.
Qed.

(** ** Objects *)

Lemma response_bytes_data h rcv r : is_bytes (e_data rcv) -> reply_response h rcv = Ok r -> is_bytes (r_data r).
Proof.
  intros B E. destruct (reply_sound h rcv r B E) as (ih & to & count & a & it & extra & rest & service & rsv & status & addl & d & _ & _ & F & _ & Ei & _ & _ & ->).
  inversion F as [|? ? _ F']. subst. inversion F' as [|? ? (_ & _ & _ & X) _]. subst. rewrite Ei in X.
  unfold response_bytes in X. apply is_bytes_app in X as [_ X]. apply is_bytes_app in X as [_ X]. exact X.
Qed.
Lemma request_bounds {W} I h (si : session_if W) use8 service path data extra w o w' :
  modest I si -> I w -> send_request h si use8 service path data extra w = (o, w') ->
  I w' /\ forall r, o = Ok r -> is_bytes (r_data r) /\ zlen (r_data r) <= 65515.
Proof.
  intros M Iw E. destruct (request_size I h si use8 service path data extra w o w' M Iw E) as [I' F]. split; [exact I'|].
  intros r Er. split; [|now apply response_data, F]. unfold send_request in E.
  destruct (si_exchange si (request_packet (si_handle si) use8 service path data extra) w) as [x w1] eqn:X.
  destruct (M _ _ _ _ Iw X) as [I1 D]. destruct x as [rcv| | |]; try (subst o; congruence).
  destruct (D rcv eq_refl) as [B L]. apply (response_bytes_data h rcv); [exact B|]. congruence.
Qed.
Lemma identity_size {W} I h use8 (si : session_if W) n w i w' : modest I si -> I w ->
  identity_read h use8 si n w = (Ok i, w') -> I w' /\ zlen (str_data (id_name i)) <= 255.
Proof.
  intros M Iw E. unfold identity_read in E.
  destruct (send_request h si use8 GET_ATTRIBUTE_ALL (epath2 IDENTITY_CLASS_ID 1) [] [] w) as [o w1] eqn:R.
  destruct (request_bounds I h si use8 _ _ _ _ _ _ _ M Iw R) as [I1 D].
  assert (Ew : w1 = w') by congruence. subst w1. split; [exact I1|].
  apply (f_equal fst) in E. cbn [fst] in E. apply bind_Ok in E as (r & -> & E). destruct (D r eq_refl) as [B _].
  destruct (r_status r =? GSC_SUCCESS); [|discriminate]. apply bind_Ok in E as ([j b] & E1 & E).
  apply identity_bounds in E1; [|exact B]. assert (X : j = i) by (destruct (negb (buf_valid b)); congruence). now subst j.
Qed.

Lemma ask_bounds {W} I h use8 (si : session_if W) service path w o w' : modest I si -> I w ->
  ask h use8 si service path w = (o, w') -> I w' /\ forall d, o = Ok d -> is_bytes d.
Proof.
  intros M Iw E. unfold ask in E. destruct (send_request h si use8 service path [] [] w) as [x w1] eqn:R.
  destruct (request_bounds I h si use8 _ _ _ _ _ _ _ M Iw R) as [I1 D]. inversion E; subst. split; [exact I1|].
  intros d Ed. apply bind_Ok in Ed as (r & -> & Ed). destruct (D r eq_refl) as [B _].
  destruct (r_status r =? GSC_SUCCESS); [|discriminate]. congruence.
Qed.
Lemma zeros_zlen n : zlen (zeros n) = Z.of_nat n.
Proof. unfold zlen, zeros. now rewrite repeat_length. Qed.
Lemma attributes_size h id full size d p : is_bytes d -> param_attributes h id full size d = Ok p ->
  param_size p <= 4 * Z.of_nat size + 3 * 255.
Proof.
  intros B E. unfold param_attributes in E.
  apply bind_Ok in E as ([x1 b1] & E1 & E). apply bytes_bounds in E1 as [L1 E1]; [|exact B]. cbn [bdata buf_of] in E1.
  apply bind_Ok in E as ([x2 b2] & E2 & E). apply steady_fetch in E2; [|now rewrite E1].
  apply bind_Ok in E as ([x3 b3] & E3 & E). apply steady_bytes in E3; [|now rewrite E2, E1].
  apply bind_Ok in E as ([x4 b4] & E4 & E). apply steady_u16 in E4; [|now rewrite E3, E2, E1].
  apply bind_Ok in E as ([x5 b5] & E5 & E). apply steady_fetch in E5; [|now rewrite E4, E3, E2, E1].
  assert (B5 : is_bytes (bdata b5)) by (now rewrite E5, E4, E3, E2, E1). clear E1 E2 E3 E4 E5.
  cbv zeta in E. destruct full.
  - apply bind_Ok in E as ([x6 b6] & E6 & E). apply steady_bytes in E6; [|exact B5].
    apply bind_Ok in E as ([x7 b7] & E7 & E). apply short_bounds in E7 as [L7 E7]; [|now rewrite E6].
    apply bind_Ok in E as ([x8 b8] & E8 & E). apply short_bounds in E8 as [L8 E8]; [|now rewrite E7, E6].
    apply bind_Ok in E as ([x9 b9] & E9 & E). apply short_bounds in E9 as [L9 E9]; [|now rewrite E8, E7, E6].
    apply bind_Ok in E as ([y1 c1] & F1 & E). apply bytes_bounds in F1 as [M1 F1]; [|now rewrite E9, E8, E7, E6].
    apply bind_Ok in E as ([y2 c2] & F2 & E). apply bytes_bounds in F2 as [M2 F2]; [|now rewrite F1, E9, E8, E7, E6].
    apply bind_Ok in E as ([y3 c3] & F3 & E). apply bytes_bounds in F3 as [M3 F3]; [|now rewrite F2, F1, E9, E8, E7, E6].
    apply bind_Ok in E as ([y4 c4] & _ & E). injection E as <-. unfold param_size; cbn [pa_value pa_min pa_max pa_default pa_name pa_units pa_help].
    unfold str_std. unfold zlen in *. lia.
  - injection E as <-. unfold param_size; cbn [pa_value pa_min pa_max pa_default pa_name pa_units pa_help].
    rewrite !zeros_zlen. change (zlen []) with 0. unfold zlen. lia.
Qed.
Lemma scaling_size h p d p' : param_scaling h p d = Ok p' -> param_size p' = param_size p.
Proof.
  unfold param_scaling. intros E. do 4 (apply bind_Ok in E as ([? ?] & _ & E)). injection E as <-. reflexivity.
Qed.
Lemma stb_Ok {S A B} (m : st S A) (k : A -> st S B) s v s' : st_bind m k s = (Ok v, s') ->
  exists a s1, m s = (Ok a, s1) /\ k a s1 = (Ok v, s').
Proof. unfold st_bind. destruct (m s) as [[a| | |] s1]; intros E; try discriminate. eauto. Qed.
Lemma parameter_size {W} I h use8 (si : session_if W) id full w p w' : modest I si -> I w ->
  param_read h use8 si id full w = (Ok p, w') -> param_size p <= 7 * 255.
Proof.
  intros M Iw E. unfold param_read in E.
  apply stb_Ok in E as (d1 & w1 & A1 & E). destruct (ask_bounds I _ _ _ _ _ _ _ _ M Iw A1) as [I1 D1]. specialize (D1 d1 eq_refl).
  apply stb_Ok in E as (size & w2 & G & E). unfold st_lift in G.
  assert (w2 = w1) by congruence. subst w2. apply (f_equal fst) in G. cbn [fst] in G.
  destruct (get_u8 h (buf_of d1)) as [[v b]| | |] eqn:G1; try discriminate.
  apply fetch_byte in G1 as [R _]; [|exact D1]. assert (X : Ok v = Ok size) by exact G. injection X as ->.
  apply stb_Ok in E as (d2 & w2 & A2 & E). destruct (ask_bounds I _ _ _ _ _ _ _ _ M I1 A2) as [I2 D2]. specialize (D2 d2 eq_refl).
  apply stb_Ok in E as (q & w3 & P & E). unfold st_lift in P. apply (f_equal fst) in P. cbn [fst] in P.
  apply attributes_size in P; [|exact D2].
  destruct (full && pa_scalable q).
  - apply stb_Ok in E as (d3 & w4 & _ & E). unfold st_lift in E. apply (f_equal fst) in E. cbn [fst] in E. apply scaling_size in E. lia.
  - assert (X : q = p) by (unfold st_ret in E; congruence). subst q. lia.
Qed.
Lemma update_size {W} h use8 (si : session_if W) p w o p' w' : update_value h use8 si (p, w) = (o, (p', w')) ->
  param_size p' = param_size p.
Proof.
  unfold update_value. destruct (pa_router p); [|intros E; congruence].
  destruct (ask h use8 si GET_ATTRIBUTE_SINGLE (epath3 PARAMETER_CLASS_ID (pa_id p) ATTR_VALUE) w) as [x w1].
  destruct (d <- x ;; get_bytes h (List.length (pa_value p)) (buf_of d)) as [[v b]| | |] eqn:G; intros E; try congruence.
  assert (X : p' = pa_set_value p v) by congruence. subst p'. apply bind_Ok in G as (d & _ & G). apply get_bytes_len in G.
  unfold param_size, pa_set_value; cbn [pa_value pa_min pa_max pa_default pa_name pa_units pa_help]. unfold zlen. lia.
Qed.

(** ** Uploads *)

Definition piece_ok (f : fobj) : Prop := match fo_state f with FUpload _ t _ _ _ => t <= 255 | _ => True end.
Lemma transferred_size h f size t content n hid r b f' : is_bytes (r_data r) -> zlen (r_data r) <= 65515 -> t <= 255 ->
  fo_state f = FUpload size t content n hid -> transferred h f size t content n hid r = Ok (b, f') ->
  piece_ok f' /\ zlen (held f') <= zlen (held f) + (if b : bool then 255 else 65511).
Proof.
  intros B L T S E. assert (Hf : held f = content) by (unfold held; now rewrite S).
  assert (KEEP : forall c, piece_ok (f_call f c) /\ held (f_call f c) = content).
  { intros c. unfold piece_ok, held, f_call; cbn [fo_state]. rewrite S. auto. }
  unfold transferred in E. destruct (r_status r =? GSC_SUCCESS).
  2: { assert (X : b = true /\ f' = f_call f (mkCall hid (r_status r) [])) by (split; congruence). destruct X as [-> ->].
       destruct (KEEP (mkCall hid (r_status r) [])) as [P ->]. rewrite Hf. split; [exact P|lia]. }
  apply bind_Ok in E as ([num b1] & E1 & E). apply steady_fetch in E1; [|exact B].
  apply bind_Ok in E as ([ty b2] & E2 & E). apply steady_fetch in E2; [|now rewrite E1].
  destruct (negb (num =? n)).
  { assert (X : b = false /\ f' = f_call f (mkCall hid GSC_INVALID_PARAMETER [])) by (split; congruence). destruct X as [-> ->].
    destruct (KEEP (mkCall hid GSC_INVALID_PARAMETER [])) as [P ->]. rewrite Hf. split; [exact P|lia]. }
  destruct ((ty =? 0) || (ty =? 1)).
  { apply bind_Ok in E as ([d b3] & E3 & E). apply bytes_bounds in E3 as [Ld _]; [|now rewrite E2, E1].
    assert (X : b = true /\ f' = f_set f (FUpload size t (content ++ d) (u8 (n + 1)) hid)) by (split; congruence). destruct X as [-> ->].
    unfold piece_ok, held at 1, f_set; cbn [fo_state]. rewrite Hf, zlen_app. split; [exact T|]. unfold zlen at 2. lia. }
  destruct ((ty =? 2) || (ty =? 4)); [|discriminate].
  destruct (Nat.ltb_spec (List.length (r_data r)) 4) as [K|K]; [discriminate|].
  apply bind_Ok in E as ([d b3] & E3 & E). apply bytes_bounds in E3 as [Ld _]; [|now rewrite E2, E1]. cbv zeta in E.
  assert (X : b = false /\ exists c, f' = f_call (f_set f (FUpload size t (content ++ d) n hid)) c) by (split; [congruence|eexists; injection E as _ <-; reflexivity]).
  destruct X as [-> [c ->]]. unfold piece_ok, held at 1, f_call, f_set; cbn [fo_state]. rewrite Hf, zlen_app. split; [exact T|].
  unfold zlen in *. lia.
Qed.
Lemma transfer_size {W} I h use8 (si : session_if W) f w o f' w' : modest I si -> I w -> piece_ok f ->
  handle_transfers h use8 si (f, w) = (o, (f', w')) ->
  I w' /\ piece_ok f' /\ zlen (held f') <= zlen (held f) + (match o with Ok true => 255 | _ => 65511 end).
Proof.
  intros M Iw P E. unfold handle_transfers in E. destruct (fo_state f) as [| | | |size t content n hid] eqn:S;
    try (assert (X : o = Ok false /\ f' = f /\ w' = w) by (repeat split; congruence); destruct X as (-> & -> & ->); split; [exact Iw|]; split; [exact P|lia]).
  destruct (send_request h si use8 UPLOAD_TRANSFER (epath2 FILE_OBJECT_CLASS_ID (fo_id f)) (bdata (put_u8 (buf_of []) n)) [] w) as [x w1] eqn:R.
  destruct (request_bounds I h si use8 _ _ _ _ _ _ _ M Iw R) as [I1 D].
  assert (Pt : t <= 255) by (unfold piece_ok in P; now rewrite S in P).
  destruct (r <- x ;; transferred h f size t content n hid r) as [[b g]| | |] eqn:T; inversion E; subst;
    try (split; [exact I1|]; split; [exact P|lia]).
  apply bind_Ok in T as (r & -> & T). destruct (D r eq_refl) as [B L].
  destruct (transferred_size _ _ _ _ _ _ _ _ _ _ B L Pt S T) as [P' K]. split; [exact I1|]. split; [exact P'|]. destruct b; lia.
Qed.
Lemma loop_size {W} I h use8 (si : session_if W) n : forall f w o f' w', modest I si -> I w -> piece_ok f ->
  transfer_loop h use8 si n (f, w) = (o, (f', w')) ->
  zlen (held f') <= zlen (held f) + 255 * Z.of_nat n + 65511
  /\ (o = Ok true -> zlen (held f') <= zlen (held f) + 255 * Z.of_nat n).
Proof.
  induction n as [|n IH]; intros f w o f' w' M Iw P E; cbn [transfer_loop] in E.
  - assert (X : f' = f) by (unfold st_ret in E; congruence). subst f'. lia.
  - unfold st_bind in E. destruct (handle_transfers h use8 si (f, w)) as [x [g w1]] eqn:T.
    destruct (transfer_size I h use8 si f w x g w1 M Iw P T) as (I1 & P1 & K).
    destruct x as [[|]| | |]; try (inversion E; subst; split; [lia|intros; discriminate]).
    destruct (IH g w1 o f' w' M I1 P1 E) as [A C]. split; [lia|]. intros Y. specialize (C Y). lia.
Qed.
Lemma upload_size {W} I h use8 (si : session_if W) hid n f w o f' w' : modest I si -> I w -> fo_state f = FLoaded ->
  upload h use8 si hid n (f, w) = (o, (f', w')) ->
  zlen (held f') <= 255 * Z.of_nat n + 65511
  /\ (o = Ok true -> zlen (held f') <= 255 * Z.of_nat n).
Proof.
  intros M Iw S E. unfold upload, st_bind in E. destruct (begin_upload h use8 si hid (f, w)) as [x [g w1]] eqn:Bg.
  assert (K : I w1 /\ piece_ok g /\ held g = []).
  { unfold begin_upload in Bg. rewrite S in Bg.
    destruct (send_request h si use8 INITIATE_UPLOAD (epath2 FILE_OBJECT_CLASS_ID (fo_id f)) (bdata (put_u8 (buf_of []) MAX_TRANSFER_SIZE)) [] w) as [y w2] eqn:R.
    destruct (request_bounds I h si use8 _ _ _ _ _ _ _ M Iw R) as [I1 D].
    assert (Kf : piece_ok f /\ held f = []) by (unfold piece_ok, held; now rewrite S).
    destruct (r <- y ;; initiated h hid f r) as [g'| | |] eqn:T; inversion Bg; subst; try (split; [exact I1|exact Kf]).
    split; [exact I1|]. apply bind_Ok in T as (r & -> & T). destruct (D r eq_refl) as [B _]. unfold initiated in T.
    destruct (r_status r =? GSC_SUCCESS).
    - apply bind_Ok in T as ([size b1] & E1 & T). apply steady_u32 in E1; [|exact B]. apply bind_Ok in T as ([t b2] & E2 & T).
      apply fetch_byte in E2 as [Rt _]; [|now rewrite E1]. injection T as <-. unfold piece_ok, held, f_set; cbn [fo_state]. split; [lia|reflexivity].
    - injection T as <-. unfold piece_ok, held, f_call; cbn [fo_state]. rewrite S. auto. }
  destruct K as (I1 & P & H0). destruct x as [[]| | |]; try (inversion E; subst; rewrite H0; change (zlen []) with 0; split; [lia|intros; discriminate]).
  destruct (loop_size I h use8 si n g w1 o f' w' M I1 P E) as [A C]. rewrite H0 in A, C. change (zlen []) with 0 in A, C.
  split; [lia|]. intros Y. specialize (C Y). lia.
Qed.
