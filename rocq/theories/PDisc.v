(** Proofs about the discovery of devices. *)
From Verif Require Import Base MBuffer SBuffer PBase PBuffer PBufferT PReader PTrunc MEip SEip PEip MFile MIdent MParam SParam PParam PRouter MSocket MDisc SDisc.
Ltac Zify.zify_post_hook ::= Z.div_mod_to_equations.
Local Open Scope outcome_scope.

(** ** One item *)
Definition rd_unit (n : Z) : reader entry := fun h b =>
  '(_, b) <- get_u16 h b ;;
  '(addr, b) <- get_endpoint h b ;;
  '(o, b) <- get_identity h (u16 n) b ;;
  Ok (mkEntry o addr, b).
Lemma disc_item_rd h n it : disc_item h n it = omap fst (rd_unit n h (buf_of (it_data it))).
Proof.
  unfold disc_item, rd_unit. destruct (get_u16 h (buf_of (it_data it))) as [[x b]| | |]; try reflexivity. cbn [bind omap].
  destruct (get_endpoint h b) as [[y b1]| | |]; try reflexivity. cbn [bind omap].
  destruct (get_identity h (u16 n) b1) as [[z b2]| | |]; reflexivity.
Qed.
Lemma reader_unit n : reader_ok (rd_unit n).
Proof.
  unfold rd_unit. pose proof reader_u16. pose proof reader_endpoint. pose proof (reader_identity (u16 n)).
  apply (reader_bind' get_u16); [assumption|intros _].
  apply (reader_bind' get_endpoint); [assumption|intros a].
  apply (reader_bind' (fun h => get_identity h (u16 n))); [assumption|intros o].
  apply (reader_ret (mkEntry o a)).
Qed.
Lemma prefix_unit n : prefix_ok (rd_unit n).
Proof.
  unfold rd_unit. pose proof prefix_u16. pose proof prefix_endpoint. pose proof (prefix_identity (u16 n)).
  apply (prefix_bind get_u16); [assumption|intros _].
  apply (prefix_bind get_endpoint); [assumption|intros a].
  apply (prefix_bind (fun h => get_identity h (u16 n))); [assumption|intros o].
  apply (prefix_ret (mkEntry o a)).
Qed.

Lemma rd_unit_at h n u rest : unit_wf u ->
  exists e, rd_unit n h (buf_of (unit_bytes u ++ rest)) = Ok (e, at_ (unit_bytes u) rest) /\ shows_unit u e.
Proof.
  intros (W1 & W2 & Wa & Wb & Wc & Wd & Wp & [Wf Lf] & Wi). unfold rd_unit, unit_bytes.
  rewrite buf_of_at, <- !app_assoc, get_u16_le. cbn [bind].
  rewrite get_endpoint_ignores_pad by (try assumption; unfold zlen in Lf; lia). cbn [bind].
  destruct (get_identity_at h (u16 n) (u_ident u)
     (([] ++ le 2 (u_version u)) ++ be16 (u_family u) ++ be16 (u_port u) ++ [u_a u; u_b u; u_c u; u_d u] ++ u_fill u) rest Wi)
    as (o & E & _ & S0).
  rewrite E. cbn [bind]. eexists. split; [do 2 f_equal; f_equal; rewrite <- !app_assoc; reflexivity|].
  split; [exact S0|reflexivity].
Qed.

Lemma disc_item_shown h n u it : announcement u it -> exists e, disc_item h n it = Ok e /\ shows_unit u e.
Proof.
  intros (_ & W & more & E). rewrite disc_item_rd, E.
  destruct (rd_unit_at h n u more W) as (e & F & S0). rewrite F. exists e. split; [reflexivity|exact S0].
Qed.

(** Any data either starts with a device or ends in the middle of one. *)
Lemma is_bytes_firstn n l : is_bytes l -> is_bytes (firstn n l).
Proof. intros B. rewrite <- (firstn_skipn n l) in B. apply is_bytes_app in B. exact (proj1 B). Qed.

Lemma be16_of_bytes l : is_bytes l -> List.length l = 2%nat -> exists v, is_u16 v /\ l = be16 v.
Proof.
  intros B L. destruct l as [|x [|y [|]]]; try discriminate L. inv B. inv H2.
  unfold is_u8, is_u16, be16 in *. exists (256 * x + y). split; [lia|]. f_equal; [|f_equal]; lia.
Qed.

Ltac chop k a l B L :=
  let r := fresh "r" in let E := fresh "E" in let La := fresh "L" in
  destruct (split_n k l) as (a & r & E & La); [lia|];
  subst l; rename r into l; apply is_bytes_app in B as [? B]; rewrite app_length, La in L.

(** The first 33 bytes: everything but the name. *)
Lemma head_of_bytes (l : bytes) : is_bytes l -> List.length l = 33%nat ->
  exists u n, 0 <= n <= 255 /\
    forall name, is_bytes name -> zlen name = n ->
      let v := mkUnit (u_version u) (u_family u) (u_a u) (u_b u) (u_c u) (u_d u) (u_port u) (u_fill u)
                 (mkIdent (i_vendor (u_ident u)) (i_type (u_ident u)) (i_code (u_ident u)) (i_major (u_ident u))
                          (i_minor (u_ident u)) (i_status (u_ident u)) (i_serial (u_ident u)) name) in
      unit_wf v /\ unit_bytes v = l ++ name.
Proof.
  intros B L.
  chop 2%nat x l B L. chop 2%nat x0 l B L. chop 2%nat x1 l B L. chop 4%nat x2 l B L. chop 8%nat x3 l B L. chop 2%nat x4 l B L. chop 2%nat x5 l B L. chop 2%nat x6 l B L. chop 2%nat x7 l B L. chop 2%nat x8 l B L. chop 4%nat x9 l B L.
  destruct (le_of_bytes 2 x) as (ver & -> & Hver); [assumption..|].
  destruct (be16_of_bytes x0) as (fam & Hfam & ->); [assumption..|].
  destruct (be16_of_bytes x1) as (port & Hport & ->); [assumption..|].
  destruct x2 as [|a [|b [|c [|d [|]]]]]; try discriminate L3.
  destruct (le_of_bytes 2 x4) as (ven & -> & Hven); [assumption..|].
  destruct (le_of_bytes 2 x5) as (ty & -> & Hty); [assumption..|].
  destruct (le_of_bytes 2 x6) as (code & -> & Hcode); [assumption..|].
  destruct x7 as [|maj [|mi [|]]]; try discriminate L8.
  destruct (le_of_bytes 2 x8) as (st & -> & Hst); [assumption..|].
  destruct (le_of_bytes 4 x9) as (ser & -> & Hser); [assumption..|].
  destruct l as [|n [|]]; cbn [List.length] in L; try lia.
  exists (mkUnit ver fam a b c d port x3 (mkIdent ven ty code maj mi st ser [])), n.
  repeat match goal with X : is_bytes (_ :: _) |- _ => inv X | X : Forall is_u8 (_ :: _) |- _ => inv X end.
  change (256 ^ Z.of_nat 2) with 65536 in *. change (256 ^ Z.of_nat 4) with 4294967296 in *.
  split; [unfold is_u8 in *; lia|]. intros name Bn Ln. cbv zeta. cbn [u_version u_family u_a u_b u_c u_d u_port u_fill u_ident i_vendor i_type i_code i_major i_minor i_status i_serial].
  split.
  - unfold unit_wf, ident_wf; cbn [u_version u_family u_a u_b u_c u_d u_port u_fill u_ident i_vendor i_type i_code i_major i_minor i_status i_serial i_name].
    unfold is_u8 in *. repeat match goal with |- _ /\ _ => split end; try assumption; unfold is_u8, is_u16, is_u32, zlen in *; lia.
  - unfold unit_bytes, ident_bytes; cbn [u_version u_family u_a u_b u_c u_d u_port u_fill u_ident i_vendor i_type i_code i_major i_minor i_status i_serial i_name].
    rewrite Ln, <- !app_assoc. reflexivity.
Qed.

Lemma unit_cases (l : bytes) : is_bytes l ->
  (exists u more, unit_wf u /\ l = unit_bytes u ++ more)
  \/ exists u k, unit_wf u /\ (k < List.length (unit_bytes u))%nat /\ l = firstn k (unit_bytes u).
Proof.
  intros B. destruct (Nat.lt_ge_cases (List.length l) 33) as [L|L].
  - right. pose (l' := l ++ zeros (33 - List.length l)).
    destruct (head_of_bytes l') as (u & n & N & H).
    + apply is_bytes_app; split; [assumption|apply zeros_bytes].
    + unfold l', zeros. rewrite app_length, repeat_length. lia.
    + destruct (H (zeros (Z.to_nat n))) as [W E]; [apply zeros_bytes|unfold zlen, zeros; rewrite repeat_length; lia|].
      eexists _, (List.length l). split; [exact W|]. cbv zeta in E. rewrite E. unfold l', zeros. split.
      * rewrite !app_length, !repeat_length. lia.
      * rewrite <- app_assoc, firstn_app, Nat.sub_diag, firstn_all. cbn [firstn]. now rewrite app_nil_r.
  - destruct (split_n 33 l L) as (a & r & -> & La). apply is_bytes_app in B as [Ba Br].
    destruct (head_of_bytes a Ba La) as (u & n & N & H).
    destruct (Nat.lt_ge_cases (List.length r) (Z.to_nat n)) as [R|R].
    + right. destruct (H (r ++ zeros (Z.to_nat n - List.length r))) as [W E].
      * apply is_bytes_app; split; [assumption|apply zeros_bytes].
      * unfold zlen, zeros. rewrite app_length, repeat_length. lia.
      * eexists _, (List.length (a ++ r)). split; [exact W|]. cbv zeta in E. rewrite E. unfold zeros. split.
        -- rewrite !app_length, !repeat_length. lia.
        -- rewrite app_assoc, firstn_app, Nat.sub_diag, firstn_all. cbn [firstn]. now rewrite app_nil_r.
    + left. destruct (split_n (Z.to_nat n) r R) as (name & more & -> & Ln). apply is_bytes_app in Br as [Bn Bm].
      destruct (H name Bn) as [W E]; [unfold zlen; lia|].
      eexists _, more. split; [exact W|]. cbv zeta in E. rewrite E, <- app_assoc. reflexivity.
Qed.

Lemma disc_item_strict_cases n it : item_wf it ->
  (exists u, announcement u it) \/ ((forall u, ~ announcement u it) /\ disc_item strict n it = Undef UbOobRead).
Proof.
  intros W. destruct (unit_cases (it_data it)) as [(u & more & Wu & E)|(u & k & Wu & K & E)]; [apply W| |].
  - left. exists u. split; [exact W|]. split; [exact Wu|]. now exists more.
  - right. assert (X : disc_item strict n it = Undef UbOobRead).
    { rewrite disc_item_rd, E. destruct (rd_unit_at strict n u [] Wu) as (e & F & _).
      rewrite app_nil_r in F. erewrite (cut_short _ _ _ _ _ (reader_unit n) (prefix_unit n) F); [reflexivity|].
      unfold at_; cbn [bpos]. exact K. }
    split; [|exact X]. intros v A. destruct (disc_item_shown strict n v it A) as (e & F & _). rewrite F in X. discriminate.
Qed.

(** ** The items of a reply *)
Lemma disc_items_shown h us : forall items n acc, Forall2 announcement us items ->
  exists es, disc_items h n items acc = Ok (acc ++ es) /\ Forall2 shows_unit us es.
Proof.
  induction us as [|u us IH]; intros items n acc F; inv F.
  - exists []. rewrite app_nil_r. split; [reflexivity|constructor].
  - cbn [disc_items]. destruct (disc_item_shown h n u y H1) as (e & E & S0). rewrite E. cbn [bind].
    destruct (IH l' (n + 1) (acc ++ [e]) H3) as (es & G & Q). exists (e :: es). rewrite G, <- app_assoc.
    split; [reflexivity|]. constructor; assumption.
Qed.

Lemma disc_items_cases items : forall n acc, Forall item_wf items ->
  (exists us, Forall2 announcement us items)
  \/ ((forall us, ~ Forall2 announcement us items) /\ disc_items strict n items acc = Undef UbOobRead).
Proof.
  induction items as [|it items IH]; intros n acc W.
  - left. exists []. constructor.
  - inv W. destruct (disc_item_strict_cases n it H1) as [(u & A)|[A X]].
    + destruct (disc_item_shown strict n u it A) as (e & E & _).
      destruct (IH (n + 1) (acc ++ [e]) H2) as [(us & F)|[F X]].
      * left. exists (u :: us). constructor; assumption.
      * right. split; [intros us G; inv G; eapply F; eassumption|]. cbn [disc_items]. rewrite E. exact X.
    + right. split; [intros us G; inv G; eapply A; eassumption|]. cbn [disc_items]. rewrite X. reflexivity.
Qed.

(** ** One datagram *)
Lemma seen504_udp l r : fst (udp_receive EIP_MAX_PACKET_SIZE (Dgram l :: r)) = Ok (seen504 l).
Proof. reflexivity. Qed.
Lemma seen504_bytes l : is_bytes l -> is_bytes (seen504 l).
Proof. intros B. unfold seen504. apply is_bytes_app. split; [now apply is_bytes_firstn|apply zeros_bytes]. Qed.
Lemma seen504_length l : List.length (seen504 l) = Z.to_nat 504.
Proof. unfold seen504, zeros. rewrite app_length, firstn_length, repeat_length. lia. Qed.

Lemma announcements_wf us items : Forall2 announcement us items -> Forall item_wf items.
Proof. induction 1 as [|u i us items A _ IH]; constructor; [apply A|exact IH]. Qed.

Lemma skip_header header (l : bytes) : List.length header = 24%nat -> skipn HEADER_SIZE (header ++ l) = l.
Proof. intros L. change HEADER_SIZE with 24%nat. rewrite <- L, skipn_app, skipn_all, Nat.sub_diag. reflexivity. Qed.

Lemma reply_shown h l us acc : announces l us ->
  exists es, disc_reply h (seen504 l) acc = Ok (acc ++ es) /\ Forall2 shows_unit us es.
Proof.
  intros (header & count & items & rest & Lh & C & F & E & Q). unfold disc_reply. rewrite E, skip_header by assumption.
  rewrite cp_expand_good' by (assumption || now apply (announcements_wf us)). cbn [finished bind].
  now apply disc_items_shown.
Qed.

Lemma reply_cases l acc : is_bytes l ->
  (exists us, announces l us)
  \/ ((forall us, ~ announces l us) /\ disc_reply strict (seen504 l) acc = Undef UbOobRead).
Proof.
  intros B. destruct (split_n 24 (seen504 l)) as (header & data & E & Lh); [rewrite seen504_length; lia|].
  pose proof (seen504_bytes l B) as Bs. rewrite E in Bs. apply is_bytes_app in Bs as [_ Bd].
  pose proof (seen504_length l) as Ls. rewrite E, app_length, Lh in Ls.
  unfold disc_reply. rewrite E, skip_header by assumption.
  assert (U : forall us, announces l us -> exists items, Forall2 announcement us items /\ cp_expand strict data = (items, Ok tt)).
  { intros us (hd & count & items & rest & Lh' & C & F & E' & Q). exists items. split; [assumption|].
    assert (data = le 2 count ++ items_bytes items ++ rest) as ->.
    { rewrite E in E'. apply app_inj_length in E'; [apply E'|lia]. }
    apply cp_expand_good'; [assumption|now apply (announcements_wf us)|assumption]. }
  destruct (cp_cases data Bd) as (count & items & tail & C & W & -> & Q); [lia|].
  assert (Bt : is_bytes tail) by (apply is_bytes_app in Bd as [_ Bd]; apply is_bytes_app in Bd as [_ Bd]; exact Bd).
  assert (D : zlen items = count \/ zlen items < count /\ tail = [] \/ zlen items < count /\ cut tail) by tauto.
  assert (GOOD : (zlen items = count \/ zlen items < count /\ tail = []) ->
    (exists us, announces l us) \/ ((forall us, ~ announces l us)
      /\ bind (finished (cp_expand strict (le 2 count ++ items_bytes items ++ tail))) (fun x => disc_items strict 0 x acc) = Undef UbOobRead)).
  { intros G. pose proof (cp_expand_good' strict count items tail C W G) as X. rewrite X. cbn [finished bind].
    destruct (disc_items_cases items 0 acc W) as [(us & F)|[F Y]].
    - left. exists us, header, count, items, tail. repeat (split; [assumption|]). assumption.
    - right. split; [|exact Y]. intros us A. destruct (U us A) as (it & F' & X'). rewrite X in X'. inv X'. now apply (F us). }
  destruct D as [D|[D|[D T]]]; [apply GOOD; auto..|].
  right. pose proof (cp_expand_cut_strict count items tail C W Bt D T) as X. rewrite X.
  split; [|reflexivity]. intros us A. destruct (U us A) as (it & _ & X'). rewrite X in X'. discriminate.
Qed.

(** With any memory behind the buffers, a malformed reply never throws a system
    error. *)
Lemma disc_items_no_throw h items : forall n acc e, disc_items h n items acc <> Throw e.
Proof.
  induction items as [|it items IH]; intros n acc e; cbn [disc_items]; [discriminate|].
  rewrite disc_item_rd. destruct (ro_result _ (reader_unit n) h (buf_of (it_data it))) as [(x & b & F)|F]; rewrite F; cbn [omap bind fst]; [apply IH|discriminate].
Qed.

(** ** The loop *)
Lemma loop_shown h ls : forall uss acc rest, Forall2 announces ls uss ->
  exists es, disc_loop h acc (map Dgram ls ++ rest) = disc_loop h (acc ++ es) rest
    /\ Forall2 shows_unit (concat uss) es.
Proof.
  induction ls as [|l ls IH]; intros uss acc rest F; inv F.
  - exists []. rewrite app_nil_r. split; [reflexivity|constructor].
  - cbn [map app disc_loop]. rewrite seen504_udp. cbn [bind].
    destruct (reply_shown h l y acc H1) as (es & E & S0). rewrite E.
    destruct (IH l' (acc ++ es) rest H3) as (es' & G & S'). exists (es ++ es').
    rewrite G, app_assoc. split; [reflexivity|]. cbn [concat]. now apply Forall2_app.
Qed.

Lemma loop_timeout h acc rest : timeout rest -> disc_loop h acc rest = Ok acc.
Proof. intros [->|(r & ->)]; reflexivity. Qed.
Lemma loop_error h acc e rest : e <> 11 -> disc_loop h acc (DErr e :: rest) = Throw (SystemError e).
Proof. intros N. cbn. unfold EAGAIN. now destruct (Z.eqb_spec e 11). Qed.

Lemma discover_open h k ep ds : open k -> discover h k ep ds = (disc_loop h [] ds, [(ep_addr ep, list_identity_request)]).
Proof.
  intros (S0 & B & C). unfold discover. rewrite S0, B, C. cbn [Z.ltb Z.compare].
  rewrite factory_list_identity. unfold send_check. rewrite C. reflexivity.
Qed.

Lemma discover_reports h k ep ls uss rest : open k -> Forall2 announces ls uss -> timeout rest ->
  exists es, discover h k ep (map Dgram ls ++ rest) = (Ok es, [(ep_addr ep, list_identity_request)])
    /\ Forall2 shows_unit (concat uss) es.
Proof.
  intros O F T. rewrite discover_open by assumption.
  destruct (loop_shown h ls uss [] rest F) as (es & E & S0). exists es. rewrite E, loop_timeout by assumption.
  split; [reflexivity|exact S0].
Qed.

Lemma discover_error h k ep ls uss e rest : open k -> Forall2 announces ls uss -> e <> 11 ->
  fst (discover h k ep (map Dgram ls ++ DErr e :: rest)) = Throw (SystemError e).
Proof.
  intros O F T. rewrite discover_open by assumption.
  destruct (loop_shown h ls uss [] (DErr e :: rest) F) as (es & E & S0). cbn [fst]. rewrite E. now apply loop_error.
Qed.

Lemma discover_bad h k ep ls uss l rest e : open k -> Forall2 announces ls uss ->
  (forall acc, disc_reply h (seen504 l) acc = e) -> (forall x, e <> Ok x) -> (forall x, e <> Throw (SystemError x)) ->
  fst (discover h k ep (map Dgram ls ++ Dgram l :: rest)) = e.
Proof.
  intros O F B N1 N2. rewrite discover_open by assumption.
  destruct (loop_shown h ls uss [] (Dgram l :: rest) F) as (es & E & S0). cbn [fst]. rewrite E.
  cbn [disc_loop]. rewrite seen504_udp. cbn [bind]. rewrite B.
  destruct e as [x|[]| |]; cbn; try reflexivity; [now destruct (N1 x)|now destruct (N2 errno)].
Qed.

(** ** Everything that can happen *)

Lemma split_good ds : Forall dgram_bytes ds ->
  exists ls uss rest, ds = map Dgram ls ++ rest /\ Forall2 announces ls uss
    /\ (timeout rest \/ (exists e r, e <> 11 /\ rest = DErr e :: r)
        \/ exists l r, rest = Dgram l :: r /\ is_bytes l /\ forall us, ~ announces l us).
Proof.
  induction ds as [|d ds IH]; intros B.
  - exists [], [], []. repeat split; [constructor|]. left. now left.
  - inv B. destruct d as [l|e].
    + destruct (reply_cases l [] H1) as [(us & A)|[A _]].
      * destruct (IH H2) as (ls & uss & rest & -> & F & C). exists (l :: ls), (us :: uss), rest.
        split; [reflexivity|]. split; [now constructor|exact C].
      * exists [], [], (Dgram l :: ds). split; [reflexivity|]. split; [constructor|]. right. right. eauto.
    + exists [], [], (DErr e :: ds). split; [reflexivity|]. split; [constructor|].
      destruct (Z.eq_dec e 11) as [->|N]; [left; right; eauto|right; left; eauto].
Qed.

Lemma discover_all k ep ds : open k -> Forall dgram_bytes ds ->
  exists ls uss rest, ds = map Dgram ls ++ rest /\ Forall2 announces ls uss
    /\ let '(o, sent) := discover strict k ep ds in
       sent = [(ep_addr ep, list_identity_request)] /\
       (timeout rest /\ (exists es, o = Ok es /\ Forall2 shows_unit (concat uss) es)
        \/ (exists e r, e <> 11 /\ rest = DErr e :: r /\ o = Throw (SystemError e))
        \/ (exists l r, rest = Dgram l :: r /\ (forall us, ~ announces l us) /\ o = Undef UbOobRead)).
Proof.
  intros O B. destruct (split_good ds B) as (ls & uss & rest & -> & F & C).
  exists ls, uss, rest. split; [reflexivity|]. split; [exact F|].
  destruct (discover strict k ep (map Dgram ls ++ rest)) as [o sent] eqn:E.
  split; [rewrite discover_open in E by assumption; now inv E|].
  destruct C as [T|[(e & r & N & ->)|(l & r & -> & Bl & N)]].
  - left. split; [exact T|]. destruct (discover_reports strict k ep ls uss rest O F T) as (es & G & S0).
    rewrite G in E. inv E. eauto.
  - right. left. pose proof (discover_error strict k ep ls uss e r O F N) as G. rewrite E in G. cbn [fst] in G. eauto 6.
  - right. right. exists l, r. split; [reflexivity|]. split; [exact N|].
    rewrite <- (discover_bad strict k ep ls uss l r (Undef UbOobRead) O F); [now rewrite E| |discriminate|discriminate].
    intros acc. destruct (reply_cases l acc Bl) as [(us & A)|[_ X]]; [now destruct (N us)|exact X].
Qed.

Lemma fits_announces l us : fits l us -> announces l us.
Proof.
  intros (L & header & items & Lh & F & ->). unfold cpf_bytes in *.
  assert (Hc : zlen items < 65536).
  { unfold zlen. rewrite !app_length in L. assert (H : (List.length items <= List.length (items_bytes items))%nat).
    { clear. induction items as [|i items IH]; [cbn; lia|]. unfold items_bytes in *. cbn [map concat List.length].
      rewrite app_length. unfold item_bytes at 1. rewrite !app_length, le_length. lia. }
    lia. }
  exists header, (zlen items), items, (zeros (Z.to_nat 504 - List.length (header ++ le 2 (zlen items) ++ items_bytes items))).
  split; [assumption|]. split; [unfold is_u16, zlen in *; lia|]. split; [assumption|]. split; [|now left].
  unfold seen504. rewrite firstn_all2 by assumption. now rewrite <- !app_assoc.
Qed.
Lemma fits_all ls uss : Forall2 fits ls uss -> Forall2 announces ls uss.
Proof. induction 1; constructor; [now apply fits_announces|assumption]. Qed.

(** Errors before the loop. *)
Lemma discover_socket h k ep ds e : dk_socket k = Some e -> discover h k ep ds = (Throw (SystemError e), []).
Proof. intros E. unfold discover. now rewrite E. Qed.
Lemma discover_broadcast h k ep ds e : dk_socket k = None -> dk_broadcast k = Some e ->
  discover h k ep ds = (Throw (SystemError e), []).
Proof. intros E F. unfold discover. now rewrite E, F. Qed.
Lemma discover_send_failed h k ep : dk_socket k = None -> dk_broadcast k = None -> s_count (dk_send k) = -1 ->
  discover h k ep [] = (Ok [], []).
Proof. intros E F G. unfold discover. rewrite E, F, G. unfold send_check. rewrite G, factory_list_identity. reflexivity. Qed.
Lemma discover_send_partial h k ep ds : dk_socket k = None -> dk_broadcast k = None -> 0 <= s_count (dk_send k) < 24 ->
  discover h k ep ds = (Throw (SystemError (s_errno (dk_send k))), [(ep_addr ep, firstn (Z.to_nat (s_count (dk_send k))) list_identity_request)]).
Proof.
  intros E F G. unfold discover. rewrite E, F. unfold send_check. rewrite factory_list_identity.
  change (zlen (encaps_bytes 99 0 0 0 (zeros 8) 0 [])) with 24.
  destruct (Z.ltb_spec (s_count (dk_send k)) 0); [lia|]. destruct (Z.ltb_spec (s_count (dk_send k)) 24); [reflexivity|lia].
Qed.

(** ** Replies that do not fit *)
Lemma disc_items_length h items : forall n acc es, disc_items h n items acc = Ok es ->
  List.length es = (List.length acc + List.length items)%nat.
Proof.
  induction items as [|it items IH]; intros n acc es; cbn [disc_items].
  - intros E; inv E. cbn. lia.
  - intros E. apply bind_Ok in E as (e & _ & E). apply IH in E. rewrite E, app_length. cbn. lia.
Qed.
Lemma firstn_more (n : nat) (a b : bytes) : (List.length a <= n)%nat -> firstn n (a ++ b) = a ++ firstn (n - List.length a) b.
Proof. intros L. rewrite firstn_app, firstn_all2 by assumption. reflexivity. Qed.

Lemma expand_no_sys h data items e : cp_expand h data <> (items, Throw (SystemError e)).
Proof.
  unfold cp_expand.
  destruct (ro_result _ reader_u16 h (buf_of data)) as [(c & b & G)|G]; rewrite G; [|discriminate].
  clear G. generalize (Z.to_nat c). intros n. generalize (@nil cpitem). revert b.
  induction n as [|n IH]; intros b acc; [discriminate|].
  rewrite cp_loop_S. destruct (buf_empty b); [discriminate|].
  unfold item_step.
  destruct (ro_result _ reader_u16 h b) as [(ty & b1 & E1)|E1]; rewrite E1; cbn [bind]; [|discriminate].
  destruct (ro_result _ reader_u16 h b1) as [(len & b2 & E2)|E2]; rewrite E2; cbn [bind]; [|discriminate].
  destruct (ro_result _ (reader_bytes (Z.to_nat len)) h b2) as [(d & b3 & E3)|E3]; rewrite E3; cbn [bind]; [|discriminate].
  destruct (negb (buf_valid b3)); [discriminate|]. apply IH.
Qed.
Lemma reply_no_sys h data acc e : disc_reply h data acc <> Throw (SystemError e).
Proof.
  unfold disc_reply. pose proof (expand_no_sys h (skipn HEADER_SIZE data)) as N.
  destruct (cp_expand h (skipn HEADER_SIZE data)) as [items [u|x| |]]; cbn [finished bind]; try discriminate.
  - apply disc_items_no_throw.
  - intros E. inv E. exact (N items e eq_refl).
Qed.

Lemma loop_one h l es : disc_loop h [] [Dgram l] = Ok es -> disc_reply h (seen504 l) [] = Ok es.
Proof.
  cbn [disc_loop]. rewrite seen504_udp. cbn [bind]. pose proof (reply_no_sys h (seen504 l) []) as N.
  destruct (disc_reply h (seen504 l) []) as [x|[]| |]; intros X; cbn in X; try discriminate; [exact X|].
  now destruct (N errno).
Qed.

Lemma too_long_lost h k ep header items es : open k -> List.length header = 24%nat ->
  Forall item_wf items -> zlen items < 65536 ->
  let l := header ++ cpf_bytes items in
  (Z.to_nat 504 < List.length l)%nat ->
  fst (discover h k ep [Dgram l]) = Ok es -> (List.length es < List.length items)%nat.
Proof.
  intros O Lh W Z0 l L E. rewrite discover_open in E by assumption. cbn [fst] in E. apply loop_one in E.
  unfold disc_reply, seen504, l, cpf_bytes in E. unfold l, cpf_bytes in L.
  assert (U : is_u16 (zlen items)) by (unfold is_u16, zlen in *; lia).
  replace (Z.to_nat 504 - List.length (header ++ le 2 (zlen items) ++ items_bytes items))%nat with 0%nat in E by lia.
  change (zeros 0) with (@nil Z) in E. rewrite app_nil_r in E.
  rewrite firstn_more, skip_header in E by (assumption || lia). rewrite Lh in E.
  rewrite firstn_more in E by (rewrite le_length; lia). rewrite le_length in E.
  set (m := (Z.to_nat 504 - 24 - 2)%nat) in E.
  assert (Lm : (m < List.length (items_bytes items))%nat) by (rewrite !app_length, le_length in L; unfold m; lia).
  assert (Bi : is_bytes (items_bytes items)).
  { clear -W. induction W as [|i items Wi _ IH]; [constructor|]. unfold items_bytes in *. cbn [map concat].
    apply is_bytes_app. split; [|exact IH]. unfold item_bytes. repeat (apply is_bytes_app; split); [apply le_bytes..|apply Wi]. }
  destruct (items_cases (List.length items) (firstn m (items_bytes items)) (is_bytes_firstn m _ Bi)) as (its & tail & Wi & Ei & C).
  rewrite Ei in E.
  destruct C as [C|[C T]].
  - exfalso. assert (X : items_bytes items = items_bytes its ++ tail ++ skipn m (items_bytes items)).
    { rewrite app_assoc, <- Ei. now rewrite firstn_skipn. }
    assert (its = items).
    { pose proof (cp_expand_good' strict (zlen items) items [] U W (or_introl eq_refl)) as P1.
      rewrite app_nil_r, X in P1. rewrite cp_expand_good' in P1; [now inv P1|assumption..|left; unfold zlen; lia]. }
    subst its. apply (f_equal (@List.length Z)) in Ei. rewrite firstn_length, app_length in Ei. lia.
  - assert (Bt : is_bytes tail).
    { pose proof (is_bytes_firstn m _ Bi) as B. rewrite Ei in B. apply is_bytes_app in B. exact (proj2 B). }
    destruct T as [->|T].
    + rewrite cp_expand_good' in E; [|assumption..|right; split; [unfold zlen; lia|reflexivity]].
      cbn [finished bind] in E. apply disc_items_length in E. cbn [List.length] in E. lia.
    + destruct (cp_expand_cut h (zlen items) its tail U Wi Bt) as [X|X]; [unfold zlen; lia|assumption|..];
        rewrite X in E; discriminate.
Qed.

(** ** Only the timeout ends the loop normally *)
Lemma loop_ok_timeout h ds : forall acc es, disc_loop h acc ds = Ok es ->
  exists ls rest, ds = map Dgram ls ++ rest /\ timeout rest.
Proof.
  induction ds as [|d ds IH]; intros acc es E.
  - exists [], []. split; [reflexivity|now left].
  - destruct d as [l|e].
    + cbn [disc_loop] in E. rewrite seen504_udp in E. cbn [bind] in E.
      pose proof (reply_no_sys h (seen504 l) acc) as N.
      destruct (disc_reply h (seen504 l) acc) as [x|[]| |]; try discriminate; [|now destruct (N errno)].
      destruct (IH _ _ E) as (ls & rest & -> & T). exists (l :: ls), rest. split; [reflexivity|exact T].
    + cbn in E. destruct (Z.eqb_spec e EAGAIN) as [->|N]; [|discriminate].
      exists [], (DErr EAGAIN :: ds). split; [reflexivity|]. right. now exists ds.
Qed.

Lemma discover_ok_timeout h k ep ds es : fst (discover h k ep ds) = Ok es ->
  exists ls rest, ds = map Dgram ls ++ rest /\ timeout rest.
Proof.
  unfold discover. destruct (dk_socket k); [discriminate|]. destruct (dk_broadcast k); [discriminate|]. cbn [fst].
  intros E. apply bind_Ok in E as (u & _ & E). now apply loop_ok_timeout in E.
Qed.

(** ** Witnesses *)
Definition dk_fine : dkernel := mkDK None None (mkSend 24 0).
Definition lan : endpoint := the_endpoint 2 192 168 1 255 44818.
Definition plc : unit_info := mkUnit 1 2 192 168 1 5 44818 (zeros 8) (mkIdent 1 14 94 3 4 48 305419896 [80; 76; 67]).
Definition drive : unit_info := mkUnit 1 2 192 168 1 9 44818 (zeros 8) (mkIdent 44 120 7 1 2 0 17 [86; 53]).
Definition item_of_unit (u : unit_info) : cpitem := item_of 12 (unit_bytes u ++ [3]).
Definition reply (us : list unit_info) : bytes :=
  le 2 99 ++ le 2 (zlen (cpf_bytes (map item_of_unit us))) ++ zeros 20 ++ cpf_bytes (map item_of_unit us).
(** a reply whose only item claims to have 65535 bytes *)
Definition bad_reply : bytes := le 2 99 ++ le 2 6 ++ zeros 20 ++ [1; 0; 12; 0; 255; 255].

Ltac bts := repeat first [apply Forall_nil | apply Forall_cons; [unfold is_u8; lia|]].
Lemma unit_ok u : (u = plc \/ u = drive) -> unit_wf u.
Proof.
  intros H; destruct H; subst u; unfold unit_wf, ident_wf; cbn [plc drive u_version u_family u_a u_b u_c u_d u_port u_fill u_ident i_vendor i_type i_code i_major i_minor i_status i_serial i_name];
    unfold is_u16, is_u32, is_u8; repeat match goal with |- _ /\ _ => split end; try lia; try reflexivity; try apply zeros_bytes; try (vm_compute; congruence); bts.
Qed.
Lemma item_ok t u : is_u16 t -> (u = plc \/ u = drive) -> announcement u (item_of t (unit_bytes u ++ [3])).
Proof.
  intros T H. split; [|split].
  - destruct H; subst u; (split; [exact T|]; split; [reflexivity|]; split; [vm_compute; congruence|]);
      vm_compute; repeat first [apply Forall_nil | apply Forall_cons; [split; congruence|]].
  - now apply unit_ok.
  - now exists [3].
Qed.
Lemma fits_reply u : (u = plc \/ u = drive) -> fits (reply [u]) [u].
Proof.
  intros H. split; [destruct H; subst u; vm_compute; lia|].
  exists (le 2 99 ++ le 2 (zlen (cpf_bytes (map item_of_unit [u]))) ++ zeros 20), [item_of_unit u].
  split; [rewrite !app_length, !le_length; reflexivity|]. split.
  - constructor; [|constructor]. apply item_ok; [unfold is_u16; lia|exact H].
  - unfold reply. cbn [map]. now rewrite <- !app_assoc.
Qed.

Lemma bad_cut : cut ([12; 0; 255; 255] ++ zeros (Z.to_nat 474)).
Proof.
  split; [discriminate|]. intros (i & rest & (Ti & Li & Bi & Bd) & E). unfold item_bytes in E. rewrite <- !app_assoc in E.
  change ([12; 0; 255; 255] ++ zeros (Z.to_nat 474)) with ([12; 0] ++ [255; 255] ++ zeros (Z.to_nat 474)) in E.
  apply app_inj_length in E as [E1 E]; [|reflexivity]. apply app_inj_length in E as [E2 E]; [|reflexivity].
  apply (f_equal le_val) in E2. rewrite le_val_le in E2. change (le_val [255; 255]) with 65535 in E2.
  pose proof (zlen_nonneg (it_data i)). change (256 ^ Z.of_nat 2) with 65536 in E2. rewrite Z.mod_small in E2 by lia.
  apply (f_equal (@List.length Z)) in E. rewrite app_length in E. unfold zeros, zlen in *. rewrite repeat_length in E. lia.
Qed.
Lemma bad_reply_fails h : exists e, (forall acc, disc_reply h (seen504 bad_reply) acc = e)
  /\ (e = Undef UbOobRead \/ e = Throw (RuntimeError RtCommonPacketFormat)).
Proof.
  assert (E : seen504 bad_reply = (le 2 99 ++ le 2 6 ++ zeros 20) ++ le 2 1 ++ items_bytes [] ++ ([12; 0; 255; 255] ++ zeros (Z.to_nat 474)))
    by reflexivity.
  unfold disc_reply. rewrite E, skip_header by reflexivity.
  destruct (cp_expand_cut h 1 [] ([12; 0; 255; 255] ++ zeros (Z.to_nat 474))) as [X|X];
    [unfold is_u16; lia|constructor| |reflexivity|apply bad_cut| |].
  - apply is_bytes_app. split; [bts|apply zeros_bytes].
  - rewrite X. cbn [finished bind]. eexists. split; [reflexivity|auto].
  - rewrite X. cbn [finished bind]. eexists. split; [reflexivity|auto].
Qed.

Lemma malformed_refuted : exists k ep l us bad, open k /\ us <> [] /\ fits l us /\
  forall h, (forall es, fst (discover h k ep [Dgram l; Dgram bad]) <> Ok es)
         /\ (forall es, fst (discover h k ep [Dgram bad; Dgram l]) <> Ok es).
Proof.
  exists dk_fine, lan, (reply [plc]), [plc], bad_reply. split; [repeat split|]. split; [discriminate|].
  split; [apply fits_reply; auto|]. intros h.
  assert (A : Forall2 announces [reply [plc]] [[plc]]).
  { constructor; [apply fits_announces, fits_reply; auto|constructor]. }
  destruct (bad_reply_fails h) as (e & X & H).
  assert (N1 : forall x, e <> Ok x) by (destruct H; subst e; discriminate).
  assert (N2 : forall x, e <> Throw (SystemError x)) by (destruct H; subst e; discriminate).
  split; intros es.
  - pose proof (discover_bad h dk_fine lan _ _ bad_reply [] e ltac:(repeat split) A X N1 N2) as F.
    cbn [map app] in F. rewrite F. apply N1.
  - pose proof (discover_bad h dk_fine lan [] [] bad_reply [Dgram (reply [plc])] e ltac:(repeat split) (Forall2_nil _) X N1 N2) as F.
    cbn [map app] in F. rewrite F. apply N1.
Qed.

(** two devices with names of 255 bytes in one reply *)
Definition long_unit (x : Z) : unit_info := mkUnit 1 2 192 168 1 x 44818 (zeros 8) (mkIdent 1 14 94 3 4 48 x (repeat 65 (Z.to_nat 255))).
Lemma long_ok x : is_u8 x -> announcement (long_unit x) (item_of_unit (long_unit x)).
Proof.
  intros X.
  assert (W : unit_wf (long_unit x)).
  { unfold unit_wf, ident_wf; cbn [long_unit u_version u_family u_a u_b u_c u_d u_port u_fill u_ident i_vendor i_type i_code i_major i_minor i_status i_serial i_name];
    unfold is_u16, is_u32, is_u8 in *. repeat match goal with |- _ /\ _ => split end; try lia; try reflexivity; try apply zeros_bytes; try (vm_compute; congruence).
    apply Forall_forall. intros y Y. apply repeat_spec in Y. subst y. unfold is_u8; lia. }
  split; [|split; [exact W|now exists [3]]].
  split; [cbn; unfold is_u16; lia|]. split; [reflexivity|].
  cbn [item_of_unit item_of it_data].
  assert (zlen (unit_bytes (long_unit x) ++ [3]) = 289).
  { unfold zlen, unit_bytes, ident_bytes. rewrite !app_length, !le_length. cbn [long_unit u_ident u_fill i_name List.length be16].
    unfold zeros. rewrite !repeat_length. reflexivity. }
  split; [lia|]. apply is_bytes_app. split; [|bts].
  destruct W as (W1 & W2 & Wa & Wb & Wc & Wd & Wp & [Wf Lf] & (V1 & V2 & V3 & V4 & V5 & V6 & V7 & V8 & V9)).
  unfold unit_bytes, ident_bytes.
  repeat (apply is_bytes_app; split); try apply le_bytes; try assumption;
    repeat first [apply Forall_nil | apply Forall_cons; [first [assumption | unfold is_u8; lia | unfold is_u8, zlen; cbn [long_unit u_ident i_name]; rewrite repeat_length; lia]|]].
Qed.
Lemma shown_length us es : Forall2 shows_unit us es -> List.length us = List.length es.
Proof. induction 1; cbn; congruence. Qed.
Lemma long_refuted : exists k ep l us items, open k /\ Forall2 announcement us items
  /\ (exists header, List.length header = 24%nat /\ l = header ++ cpf_bytes items)
  /\ forall h es, fst (discover h k ep [Dgram l]) = Ok es -> ~ Forall2 shows_unit us es.
Proof.
  pose (us := [long_unit 5; long_unit 6]).
  exists dk_fine, lan, (zeros 24 ++ cpf_bytes (map item_of_unit us)), us, (map item_of_unit us).
  assert (A : Forall2 announcement us (map item_of_unit us)).
  { repeat (constructor; [apply long_ok; unfold is_u8; lia|]). constructor. }
  split; [repeat split|]. split; [exact A|]. split; [now exists (zeros 24)|].
  intros h es E. apply too_long_lost in E.
  - intros F. apply shown_length in F. rewrite <- F in E. cbn in E. lia.
  - repeat split.
  - reflexivity.
  - now apply (announcements_wf us).
  - reflexivity.
  - apply Nat.ltb_lt. vm_compute. reflexivity.
Qed.

(** an item that is not an identity item is reported as a device all the same *)
Lemma type_reported h k ep header t u : open k -> List.length header = 24%nat -> is_u16 t -> (u = plc \/ u = drive) ->
  let it := item_of t (unit_bytes u ++ [3]) in
  exists e, fst (discover h k ep [Dgram (header ++ cpf_bytes [it])]) = Ok [e] /\ shows_unit u e.
Proof.
  intros O Lh T H it.
  destruct (discover_reports h k ep [header ++ cpf_bytes [it]] [[u]] [] O) as (es & E & S0).
  - constructor; [|constructor]. apply fits_announces. split.
    + rewrite app_length, Lh. destruct H; subst u; vm_compute; lia.
    + exists header, [it]. split; [exact Lh|]. split; [constructor; [now apply item_ok|constructor]|reflexivity].
  - now left.
  - inv S0. inv H4. cbn [map app] in E. rewrite E. exists y. split; [reflexivity|assumption].
Qed.
