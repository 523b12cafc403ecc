(** Proofs: socket addresses on all hosts. *)
From Verif Require Import Base MBuffer SBuffer PBase PBuffer PBound PConnCall2 MEip MSocket MConnReq MConn MEndian SEndian.
Ltac Zify.zify_post_hook ::= Z.div_mod_to_equations.

Lemma lo8 x y : is_u8 x -> u8 (x + 256 * y) = x.
Proof. unfold is_u8, u8. intros. lia. Qed.
Lemma hi8 x y : is_u8 x -> is_u8 y -> u8 (Z.shiftr (x + 256 * y) 8) = y.
Proof. unfold is_u8, u8. intros. rewrite Z.shiftr_div_pow2 by lia. change (2 ^ 8) with 256. lia. Qed.
Lemma u8_id x : is_u8 x -> u8 x = x.
Proof. unfold is_u8, u8. intros. lia. Qed.
Lemma u16_s16 x : u16 (s16 x) = u16 x.
Proof. unfold u16, s16. lia. Qed.
Lemma u16_two x y : is_u8 x -> is_u8 y -> u16 (x + 256 * y) = x + 256 * y.
Proof. unfold is_u8, u16. intros. lia. Qed.
Lemma htons_two x y : is_u8 x -> is_u8 y -> htons (x + 256 * y) = y + 256 * x.
Proof.
  unfold is_u8, htons, u16. intros. rewrite Z.shiftl_mul_pow2, Z.shiftr_div_pow2 by lia. change (2 ^ 8) with 256. lia.
Qed.
Lemma lo16 a b c d : is_u8 a -> is_u8 b -> u16 (a + 256 * (b + 256 * (c + 256 * (d + 256 * 0)))) = a + 256 * b.
Proof. unfold is_u8, u16. intros. lia. Qed.
Lemma hi16 a b c d : is_u8 a -> is_u8 b -> is_u8 c -> is_u8 d -> u16 (Z.shiftr (a + 256 * (b + 256 * (c + 256 * (d + 256 * 0)))) 16) = c + 256 * d.
Proof. unfold is_u8, u16. intros. rewrite Z.shiftr_div_pow2 by lia. change (2 ^ 16) with 65536. lia. Qed.

Definition fam_bytes (y : layout) (f0 f1 : Z) : bytes := if y_len y then [0; if y_big y then f1 else 0] else [f1; f0].
Definition rest_bytes (y : layout) (p0 p1 a b c d : Z) : bytes := (if y_big y then [p1; p0; d; c; b; a] else [p0; p1; a; b; c; d]) ++ zeros 8.

Lemma read_exact y h pre f0 f1 p0 p1 a b c d z rest : is_u8 f0 -> is_u8 f1 -> is_u8 p0 -> is_u8 p1 -> octets a b c d -> List.length z = 8%nat ->
  read_on y h (at_ pre ([f0; f1; p0; p1; a; b; c; d] ++ z ++ rest))
  = Ok (of_mem y (fam_bytes y f0 f1 ++ rest_bytes y p0 p1 a b c d), at_ (pre ++ [f0; f1; p0; p1; a; b; c; d] ++ z) rest).
Proof.
  intros F0 F1 P0 P1 (A & B & C & D) L. unfold read_on, get_s16. cbn [app]. rewrite get_u16_at by assumption. cbn [bind].
  rewrite get_u16_at by assumption. cbn [bind]. rewrite get_u32_at by assumption. cbn [bind].
  rewrite <- L at 1. rewrite get_bytes_at. cbn [bind]. rewrite <- !app_assoc. cbn [app]. do 2 f_equal. f_equal. f_equal.
  cbn [le_val]. replace (f0 + 256 * (f1 + 256 * 0)) with (f0 + 256 * f1) by lia. replace (p0 + 256 * (p1 + 256 * 0)) with (p0 + 256 * p1) by lia.
  rewrite u16_s16, u16_two by assumption.
  destruct y as [[] []]; unfold set_family, fam_at, family, htons_on, fam_bytes, rest_bytes, store32, store16, load16; cbn [y_big y_len];
    rewrite ?lo16, ?hi16, ?lo8, ?hi8 by assumption; cbn [zeros repeat poke peek nth app Nat.add].
  - unfold u16. rewrite (Z.mod_small f1) by (unfold is_u8 in *; lia). now rewrite u8_id.
  - replace (256 * f1 + f0) with (f0 + 256 * f1) by lia. rewrite u16_two, lo8, hi8 by assumption. reflexivity.
  - replace (u8 (htons f0)) with 0; [reflexivity|]. unfold htons, u16, u8, is_u8 in *. rewrite Z.shiftl_mul_pow2, Z.shiftr_div_pow2 by lia. change (2 ^ 8) with 256. lia.
  - rewrite htons_two, lo8, hi8 by assumption. reflexivity.
Qed.

(** reading what is on the wire *)
Lemma split_u16 p : is_u16 p -> is_u8 (p / 256) /\ is_u8 (p mod 256).
Proof. unfold is_u16, is_u8. lia. Qed.
Lemma text_of m a b c d : peek m 4 = a -> peek m 5 = b -> peek m 6 = c -> peek m 7 = d -> memory_text m = dotted a b c d.
Proof. intros <- <- <- <-. reflexivity. Qed.
Lemma two_256 p : 256 * (p / 256) + p mod 256 = p.
Proof. lia. Qed.

Lemma read_wire y h pre f p a b c d rest : is_u16 f -> is_u16 p -> octets a b c d ->
  read_on y h (at_ pre (on_wire f p a b c d ++ rest))
  = Ok (of_mem y (fam_bytes y (f / 256) (f mod 256) ++ rest_bytes y (p / 256) (p mod 256) a b c d), at_ (pre ++ on_wire f p a b c d) rest).
Proof.
  intros F P O. destruct (split_u16 f F), (split_u16 p P). unfold on_wire. rewrite <- app_assoc. now apply read_exact.
Qed.

Lemma of_mem_right y fb p a b c d : y_big y = false -> is_u16 p -> List.length fb = 2%nat ->
  eo_host (of_mem y (fb ++ rest_bytes y (p / 256) (p mod 256) a b c d)) = dotted a b c d /\
  eo_port (of_mem y (fb ++ rest_bytes y (p / 256) (p mod 256) a b c d)) = p.
Proof.
  intros E P L. destruct fb as [|x [|x' [|]]]; try discriminate. destruct y as [[] l]; try discriminate. split; [reflexivity|].
  unfold of_mem, rest_bytes, load16, htons_on. cbn [y_big app eo_port peek nth]. destruct (split_u16 p P). rewrite htons_two by assumption. lia.
Qed.
Lemma of_mem_big y fb p a b c d : y_big y = true -> is_u16 p -> List.length fb = 2%nat ->
  eo_host (of_mem y (fb ++ rest_bytes y (p / 256) (p mod 256) a b c d)) = dotted d c b a /\
  eo_port (of_mem y (fb ++ rest_bytes y (p / 256) (p mod 256) a b c d)) = swapped p.
Proof.
  intros E P L. destruct fb as [|x [|x' [|]]]; try discriminate. destruct y as [[] l]; try discriminate. split; [reflexivity|].
  unfold of_mem, rest_bytes, load16, htons_on, swapped. cbn [y_big app eo_port peek nth]. unfold u16, is_u16 in *. lia.
Qed.
Lemma swapped_div p : is_u16 p -> swapped p / 256 = p mod 256.
Proof. unfold swapped, is_u16. lia. Qed.
Lemma swapped_mod p : is_u16 p -> swapped p mod 256 = p / 256.
Proof. unfold swapped, is_u16. lia. Qed.

Lemma read_little y h pre f p a b c d rest : y_big y = false -> is_u16 f -> is_u16 p -> octets a b c d ->
  exists e, read_on y h (at_ pre (on_wire f p a b c d ++ rest)) = Ok (e, at_ (pre ++ on_wire f p a b c d) rest)
    /\ is_endpoint y e (if y_len y then 0 else f) p a b c d.
Proof.
  intros E F P O. eexists. split; [now apply read_wire|]. destruct y as [bg l]; cbn [y_big y_len] in *; subst bg.
  destruct (of_mem_right (mkLayout false l) (fam_bytes (mkLayout false l) (f / 256) (f mod 256)) p a b c d) as [E1 E2]; [reflexivity|assumption|now destruct l|].
  split; [exact E1|]. split; [exact E2|]. exists 0. unfold of_mem, fam_bytes, rest_bytes. cbn [y_big y_len eo_addr]. destruct l; reflexivity.
Qed.
Lemma read_big y h pre f p a b c d rest : y_big y = true -> is_u16 f -> is_u16 p -> octets a b c d -> (y_len y = true -> f < 256) ->
  exists e, read_on y h (at_ pre (on_wire f p a b c d ++ rest)) = Ok (e, at_ (pre ++ on_wire f p a b c d) rest)
    /\ is_endpoint y e (if y_len y then f else swapped f) (swapped p) d c b a.
Proof.
  intros E F P O K. eexists. split; [now apply read_wire|]. destruct y as [bg l]; cbn [y_big y_len] in *; subst bg.
  destruct (of_mem_big (mkLayout true l) (fam_bytes (mkLayout true l) (f / 256) (f mod 256)) p a b c d) as [E1 E2]; [reflexivity|assumption|now destruct l|].
  split; [exact E1|]. split; [exact E2|]. exists 0. unfold of_mem, fam_bytes, rest_bytes. cbn [y_big y_len eo_addr].
  rewrite swapped_div, swapped_mod by assumption. destruct l.
  - rewrite (Z.mod_small f) by (specialize (K eq_refl); unfold is_u16 in F; lia). reflexivity.
  - rewrite swapped_div, swapped_mod by assumption. reflexivity.
Qed.

(** the constructor from a text *)
Lemma text_right y aton host port a b c d : is_u16 port -> octets a b c d -> aton host = Some [a; b; c; d] ->
  eo_host (of_text y aton host port) = host /\ eo_port (of_text y aton host port) = port /\ struct_is y (eo_addr (of_text y aton host port)) AF_INET port a b c d.
Proof.
  intros P O E. split; [reflexivity|]. split; [reflexivity|]. exists 0. unfold of_text. rewrite E. cbn [eo_addr].
  assert (U : u16 port = port) by (unfold u16, is_u16 in *; lia). rewrite U. destruct (split_u16 port P) as [P1 P2].
  assert (H : htons port = port / 256 + 256 * (port mod 256)).
  { rewrite <- (two_256 port) at 1. rewrite Z.add_comm. now rewrite htons_two. }
  unfold htons_on, set_family, store16. destruct y as [[] []]; cbn [y_big y_len]; rewrite ?H, ?U, ?lo8, ?hi8 by assumption.
  - replace (u8 (Z.shiftr port 8)) with (port / 256) by (unfold u8, is_u16 in *; rewrite Z.shiftr_div_pow2 by lia; change (2 ^ 8) with 256; lia). reflexivity.
  - replace (u8 (Z.shiftr port 8)) with (port / 256) by (unfold u8, is_u16 in *; rewrite Z.shiftr_div_pow2 by lia; change (2 ^ 8) with 256; lia). reflexivity.
  - reflexivity.
  - reflexivity.
Qed.

(** writing *)
Lemma le2 x y : is_u8 x -> is_u8 y -> le 2 (x + 256 * y) = [x; y].
Proof. unfold is_u8. intros. cbn [le]. unfold u8. repeat f_equal; try (rewrite ?Z.shiftr_div_pow2 by lia; change (2 ^ 8) with 256); lia. Qed.
Lemma le4 a b c d : octets a b c d -> le 4 (a + 256 * b + 65536 * (c + 256 * d)) = [a; b; c; d].
Proof.
  intros (A & B & C & D). unfold is_u8 in *. cbn [le].
  repeat f_equal; unfold u8; rewrite ?Z.shiftr_div_pow2 by lia; change (2 ^ 8) with 256; lia.
Qed.
Lemma le2_rev x y : is_u8 x -> is_u8 y -> le 2 (256 * x + y) = [y; x].
Proof. intros. rewrite Z.add_comm. now apply le2. Qed.
Lemma le4_rev a b c d : octets a b c d -> le 4 (65536 * (256 * a + b) + (256 * c + d)) = [d; c; b; a].
Proof.
  intros (A & B & C & D). replace (65536 * (256 * a + b) + (256 * c + d)) with (d + 256 * c + 65536 * (b + 256 * a)) by lia.
  apply le4. exact (conj D (conj C (conj B A))).
Qed.
Lemma htons_u16 x : htons (s16 x) = htons x.
Proof. unfold htons. now rewrite u16_s16. Qed.

Lemma write_exact y b e : write_on y b e
  = mkBuf (bdata b ++ le 2 (htons_on y (s16 (family y (eo_addr e)))) ++ le 2 (load16 (y_big y) (eo_addr e) 2) ++ le 4 (load32 (y_big y) (eo_addr e) 4) ++ zeros 8) (bpos b).
Proof.
  unfold write_on. rewrite put_u32_le, !put_u16_le. cbn [bdata bpos]. unfold put_bytes. cbn [bdata bpos]. now rewrite <- !app_assoc.
Qed.

Lemma struct_family y m f p a b c d : struct_is y m f p a b c d -> family y m = f.
Proof.
  intros (len & ->). unfold family, load16. destruct y as [[] []]; cbn [y_len y_big app peek nth]; lia.
Qed.
Lemma struct_port y m f p a b c d : struct_is y m f p a b c d ->
  load16 (y_big y) m 2 = if y_big y then 256 * (p / 256) + p mod 256 else p / 256 + 256 * (p mod 256).
Proof. intros (len & ->). unfold load16. destruct y as [[] []]; reflexivity. Qed.
Lemma struct_addr y m f p a b c d : struct_is y m f p a b c d ->
  load32 (y_big y) m 4 = if y_big y then 65536 * (256 * a + b) + (256 * c + d) else a + 256 * b + 65536 * (c + 256 * d).
Proof. intros (len & ->). unfold load32, load16. destruct y as [[] []]; reflexivity. Qed.

Lemma write_little y buf e f p a b c d : y_big y = false -> is_u16 f -> is_u16 p -> octets a b c d -> struct_is y (eo_addr e) f p a b c d ->
  write_on y buf e = mkBuf (bdata buf ++ on_wire f p a b c d) (bpos buf).
Proof.
  intros E F P O S. rewrite write_exact, (struct_family _ _ _ _ _ _ _ _ S), (struct_port _ _ _ _ _ _ _ _ S), (struct_addr _ _ _ _ _ _ _ _ S).
  unfold htons_on. rewrite E, htons_u16. destruct (split_u16 f F), (split_u16 p P).
  rewrite le4, le2 by assumption. rewrite htons_swap by assumption. rewrite Z.add_comm, le2 by assumption. reflexivity.
Qed.
Lemma write_big y buf e f p a b c d : y_big y = true -> is_u16 f -> is_u16 p -> octets a b c d -> struct_is y (eo_addr e) f p a b c d ->
  write_on y buf e = mkBuf (bdata buf ++ on_wire (swapped f) (swapped p) d c b a) (bpos buf).
Proof.
  intros E F P O S. rewrite write_exact, (struct_family _ _ _ _ _ _ _ _ S), (struct_port _ _ _ _ _ _ _ _ S), (struct_addr _ _ _ _ _ _ _ _ S).
  unfold htons_on. rewrite E, u16_s16, u16_small by assumption. destruct (split_u16 f F), (split_u16 p P).
  rewrite le4_rev, le2_rev by assumption. unfold on_wire. rewrite !swapped_div, !swapped_mod by assumption.
  rewrite <- (two_256 f) at 1. rewrite le2_rev by assumption. reflexivity.
Qed.

Lemma swapped_twice p : is_u16 p -> swapped (swapped p) = p.
Proof. unfold swapped, is_u16. lia. Qed.
Lemma swapped_u16 p : is_u16 p -> is_u16 (swapped p).
Proof. unfold swapped, is_u16. lia. Qed.
Lemma rev_octets a b c d : octets a b c d -> octets d c b a.
Proof. intros (A & B & C & D). exact (conj D (conj C (conj B A))). Qed.

(** equality *)
Lemma same_iff y e1 e2 f1 p1 a1 b1 c1 d1 f2 p2 a2 b2 c2 d2 :
  octets a1 b1 c1 d1 -> octets a2 b2 c2 d2 -> is_u16 p1 -> is_u16 p2 ->
  is_endpoint y e1 f1 p1 a1 b1 c1 d1 -> is_endpoint y e2 f2 p2 a2 b2 c2 d2 ->
  same_on y e1 e2 = true <-> (f1, p1, (a1, b1, c1, d1)) = (f2, p2, (a2, b2, c2, d2)).
Proof.
  intros O1 O2 P1 P2 (H1 & Q1 & S1) (H2 & Q2 & S2). unfold same_on.
  rewrite (struct_family _ _ _ _ _ _ _ _ S1), (struct_family _ _ _ _ _ _ _ _ S2), (struct_addr _ _ _ _ _ _ _ _ S1), (struct_addr _ _ _ _ _ _ _ _ S2), (struct_port _ _ _ _ _ _ _ _ S1), (struct_port _ _ _ _ _ _ _ _ S2), H1, H2, Q1, Q2.
  rewrite !andb_true_iff, !Z.eqb_eq, String.eqb_eq. split.
  - intros ((((_ & P) & A) & _) & F). subst. unfold octets, is_u8 in *.
    assert (a1 = a2 /\ b1 = b2 /\ c1 = c2 /\ d1 = d2) as (-> & -> & -> & ->) by (destruct (y_big y); lia). now rewrite P.
  - intros E. injection E as -> -> -> -> -> ->. auto.
Qed.

(** the main model *)
Definition linux : layout := mkLayout false false.
Definition main_ep (e : endpoint_on) : endpoint :=
  mkEP (eo_host e) (eo_port e) (mkAddr (load16 false (eo_addr e) 0) (load16 false (eo_addr e) 2) (load32 false (eo_addr e) 4)).

Lemma linux_write b e : write_on linux b e = put_endpoint b (main_ep e).
Proof.
  unfold write_on, put_endpoint, main_ep, linux, family, htons_on. cbn [y_len y_big ep_addr sa_family sa_port sa_addr].
  rewrite !put_u32_le. unfold put_bytes. do 2 f_equal. cbn [bdata]. f_equal. cbn [le]. unfold u32.
  repeat (f_equal; try lia).
Qed.

Lemma main_read f p a : is_u16 p -> is_u32 a ->
  main_ep (of_mem linux (set_family linux (store32 false (store16 false (store16 false (zeros 16) 0 f) 2 p) 4 a)
    (htons (family linux (store32 false (store16 false (store16 false (zeros 16) 0 f) 2 p) 4 a)))))
  = ep_of_addr (mkAddr (htons f) p a).
Proof.
  intros P A. unfold main_ep, of_mem, linux, set_family, family, store32, store16, load32, load16, htons_on, ep_of_addr, memory_text, inet_ntoa.
  cbn [y_len y_big zeros repeat poke peek nth app Nat.add eo_host eo_port eo_addr sa_addr sa_port].
  rewrite !Z.shiftr_div_pow2 by lia. change (2 ^ 8) with 256. change (2 ^ 16) with 65536. change (2 ^ 24) with 16777216.
  assert (Ef : u8 f + 256 * u8 (f / 256) = u16 f) by (unfold u8, u16; lia).
  assert (Ep : u8 p + 256 * u8 (p / 256) = p) by (unfold u8, is_u16 in *; lia).
  assert (E2 : u8 (u16 a) + 256 * u8 (u16 a / 256) = u16 a) by (unfold u8, u16; lia).
  assert (E3 : u8 (u16 (a / 65536)) + 256 * u8 (u16 (a / 65536) / 256) = u16 (a / 65536)) by (unfold u8, u16; lia).
  assert (E4 : u16 a + 65536 * u16 (a / 65536) = a) by (unfold u16, is_u32 in *; lia).
  rewrite Ef, Ep, E2, E3, E4.
  assert (R : is_u16 (htons f)) by apply htons_range. assert (G : htons (u16 f) = htons f) by (unfold htons, u16; now rewrite Z.mod_mod by lia).
  rewrite G. replace (u8 (htons f) + 256 * u8 (htons f / 256)) with (htons f) by (unfold u8, is_u16 in *; lia).
  replace (u8 (u16 a)) with (u8 a) by (unfold u8, u16; lia). replace (u8 (u16 a / 256)) with (u8 (a / 256)) by (unfold u8, u16; lia).
  replace (u8 (u16 (a / 65536))) with (u8 (a / 65536)) by (unfold u8, u16; lia).
  replace (u8 (u16 (a / 65536) / 256)) with (u8 (a / 16777216)) by (unfold u8, u16, is_u32 in *; lia). reflexivity.
Qed.
Lemma get_u32_small h b v b' : get_u32 h b = Ok (v, b') -> is_u32 v.
Proof.
  unfold get_u32. intros E. repeat (match type of E with bind ?x _ = _ => destruct x as [[? ?]| | |]; cbn [bind] in E; try discriminate end).
  inv E. unfold is_u32, u32. lia.
Qed.
Lemma linux_read h b : get_endpoint h b = bind (read_on linux h b) (fun '(e, b') => Ok (main_ep e, b')).
Proof.
  unfold get_endpoint, read_on. destruct (get_s16 h b) as [[f b1]| | |]; try reflexivity. cbn [bind].
  destruct (get_u16 h b1) as [[p b2]| | |] eqn:E2; try reflexivity. cbn [bind].
  destruct (get_u32 h b2) as [[a b3]| | |] eqn:E3; try reflexivity. cbn [bind].
  destruct (get_bytes h 8 b3) as [[z b4]| | |]; try reflexivity. cbn [bind]. unfold fam_at, htons_on. cbn [linux y_len y_big].
  fold linux. rewrite main_read; [reflexivity| |eapply get_u32_small; eassumption]. unfold is_u16. eapply get_u16_range; eassumption.
Qed.
Lemma linux_text aton host port : (forall s l, aton s = Some l -> exists a b c d, l = [a; b; c; d] /\ octets a b c d) ->
  main_ep (of_text linux aton host port) = ep_of_host (fun s => option_map le_val (aton s)) host port.
Proof.
  intros H. unfold of_text, ep_of_host, main_ep, linux, set_family, htons_on, store16. cbn [y_len y_big eo_host eo_port].
  assert (R : is_u16 (htons (u16 port))) by apply htons_range. set (p := htons (u16 port)) in *.
  assert (Ep : u8 p + 256 * u8 (Z.shiftr p 8) = p) by (rewrite Z.shiftr_div_pow2 by lia; change (2 ^ 8) with 256; unfold u8, is_u16 in *; lia).
  destruct (aton host) as [l|] eqn:E; unfold load16, load32, load16.
  - destruct (H host l E) as (a & b & c & d & -> & (A & B & C & D)).
    cbn [zeros repeat poke peek nth app Nat.add eo_addr set_octets option_map le_val]. rewrite Ep. f_equal. f_equal. lia.
  - cbn [zeros repeat poke peek nth app Nat.add eo_addr option_map]. rewrite Ep. reflexivity.
Qed.

(** where the data of a connection is sent *)
Lemma dotted_ne a b c d : octets a b c d -> String.eqb (dotted a b c d) "0.0.0.0" = (a =? 0) && (b =? 0) && (c =? 0) && (d =? 0).
Proof.
  intros (A & B & C & D). apply Bool.eq_iff_eq_true. rewrite String.eqb_eq, !andb_true_iff, !Z.eqb_eq.
  split; [intros E; apply dotted_zero in E as (-> & -> & -> & ->); auto|intros (((-> & ->) & ->) & ->); reflexivity].
Qed.
Lemma dest_little y h aton host items i f p a b c d rest : y_big y = false -> is_u16 f -> is_u16 p -> octets a b c d ->
  find (fun i => it_type i =? O2T_SOCKADDR_INFO) items = Some i -> it_data i = on_wire f p a b c d ++ rest ->
  exists e, dest_on y h aton host items = Ok e
  /\ if (a =? 0) && (b =? 0) && (c =? 0) && (d =? 0) then e = of_text y aton host p else is_endpoint y e (if y_len y then 0 else f) p a b c d.
Proof.
  intros E F P O I D. unfold dest_on. rewrite I, D, buf_of_at. destruct (read_little y h [] f p a b c d rest E F P O) as (e & -> & R). cbn [bind].
  eexists. split; [reflexivity|]. destruct R as (R1 & R2 & R3). rewrite R1, R2, dotted_ne by assumption.
  destruct ((a =? 0) && (b =? 0) && (c =? 0) && (d =? 0)); [reflexivity|]. now split.
Qed.
Lemma dest_big y h aton host items i f p a b c d rest : y_big y = true -> is_u16 f -> is_u16 p -> octets a b c d -> (y_len y = true -> f < 256) ->
  find (fun i => it_type i =? O2T_SOCKADDR_INFO) items = Some i -> it_data i = on_wire f p a b c d ++ rest ->
  exists e, dest_on y h aton host items = Ok e
  /\ if (a =? 0) && (b =? 0) && (c =? 0) && (d =? 0) then e = of_text y aton host (swapped p) else is_endpoint y e (if y_len y then f else swapped f) (swapped p) d c b a.
Proof.
  intros E F P O K I D. unfold dest_on. rewrite I, D, buf_of_at. destruct (read_big y h [] f p a b c d rest E F P O K) as (e & -> & R). cbn [bind].
  eexists. split; [reflexivity|]. destruct R as (R1 & R2 & R3). rewrite R1, R2, dotted_ne by (now apply rev_octets).
  replace ((d =? 0) && (c =? 0) && (b =? 0) && (a =? 0)) with ((a =? 0) && (b =? 0) && (c =? 0) && (d =? 0)) by (destruct (a =? 0), (b =? 0), (c =? 0), (d =? 0); reflexivity).
  destruct ((a =? 0) && (b =? 0) && (c =? 0) && (d =? 0)); [reflexivity|]. now split.
Qed.
