(** Proofs about the example programs. *)
From Verif Require Import Base MBuffer SBuffer PBase PBuffer PReader PTrunc MEip SEip PRouter SObj PObj MFile SFile PFile MYaskawa
  PPath PPathT PEip PConnOpen MIdent MParam SParam PParam PParam2 MFault MExample SExample.
From Coq Require Import SpecFloat.
Ltac Zify.zify_post_hook ::= Z.div_mod_to_equations.
Local Open Scope Z_scope.

(** ** Parameters *)
Lemma parameters_answers ps descr later more i p : instance ps i = Some p ->
  let dev := parameters_device ps descr later more in
  dev tt (attribute_request i 6) = (done [zlen (d_value p)], tt)
  /\ dev tt (all_request i) = (done (all_bytes (offers_all descr) p more), tt)
  /\ dev tt (attribute_request i 13) = (done (le 2 (d_mult p)), tt)
  /\ dev tt (attribute_request i 14) = (done (le 2 (d_div p)), tt)
  /\ dev tt (attribute_request i 15) = (done (le 2 (d_base p)), tt)
  /\ dev tt (attribute_request i 16) = (done (le 2 (d_offset p)), tt)
  /\ dev tt (attribute_request i 1) = (done (if i =? 1 then later else d_value p), tt).
Proof.
  intros E dev. assert (0 < i). { unfold instance in E. destruct (Z.ltb_spec i 1); [discriminate|lia]. }
  destruct i as [|i|i]; [lia| |lia]. subst dev. unfold parameters_device, attribute_request, all_request. rewrite E.
  repeat split.
Qed.

Lemma instance_mid pre p post : instance (pre ++ p :: post) (1 + zlen pre) = Some p.
Proof.
  unfold instance, zlen. destruct (Z.ltb_spec (1 + Z.of_nat (List.length pre)) 1); [lia|].
  replace (Z.to_nat (1 + Z.of_nat (List.length pre) - 1)) with (List.length pre) by lia.
  rewrite nth_error_app2, Nat.sub_diag by lia. reflexivity.
Qed.

Lemma read_from_all h handle descr later more ps : is_u32 handle -> Forall pdev_wf ps -> is_bytes more -> zlen more <= 50000 ->
  zlen ps <= 65535 ->
  forall post pre tr, ps = pre ++ post ->
  exists l, read_from h (served handle (parameters_device ps descr later more)) (offers_all descr) (1 + zlen pre) (List.length post) (tt, tr)
            = (Ok l, (tt, tr ++ List.concat (map (fun x => parameter_trace (fst x) (offers_all descr) (snd x) more) (numbered (1 + zlen pre) post))))
  /\ Forall2 (fun q x => shows_parameter q (fst x) (offers_all descr) (snd x)) l (numbered (1 + zlen pre) post)
  /\ Forall (fun q => pa_router q = true) l.
Proof.
  intros H P B L N. induction post as [|p post IH]; intros pre tr E.
  - exists []. cbn. rewrite app_nil_r. repeat split; constructor.
  - assert (I : instance ps (1 + zlen pre) = Some p) by (rewrite E; apply instance_mid).
    destruct (parameters_answers ps descr later more _ p I) as (E1 & E2 & E3 & E4 & E5 & E6 & _).
    assert (W : pdev_wf p) by (rewrite E in P; apply Forall_app in P as [_ P]; now inversion P).
    assert (S0 : sendable false (1 + zlen pre)).
    { split; [|discriminate]. rewrite E, zlen_app, zlen_cons in N. pose proof (zlen_nonneg pre). pose proof (zlen_nonneg post). unfold is_u16; lia. }
    destruct (parameter_reads_any _ tt h false handle _ (offers_all descr) p more tr E1 E2 E3 E4 E5 E6 H S0 W B L) as (q & Eq & Sq).
    destruct (IH (pre ++ [p]) (tr ++ parameter_trace (1 + zlen pre) (offers_all descr) p more)) as (l & El & Sl & Rl); [now rewrite E, <- app_assoc|].
    replace (1 + zlen (pre ++ [p])) with (1 + zlen pre + 1) in El, Sl by (rewrite zlen_app, zlen_cons, zlen_nil; lia).
    exists (q :: l). cbn [List.length read_from numbered map fst snd List.concat]. unfold st_bind at 1. rewrite Eq.
    unfold st_bind at 1.
    match type of El with ?m = _ => match goal with |- context[read_from ?a ?b ?c ?d ?e ?f] => change (read_from a b c d e f) with m end end.
    rewrite El. unfold st_ret. rewrite <- app_assoc. split; [reflexivity|].
    split; constructor; try assumption. exact (param_read_router _ _ _ _ _ _ _ _ Eq).
Qed.

Lemma class_attribute_read h handle ps descr later more a v tr : is_u32 handle -> is_u16 v -> 0 <= a < 256 ->
  parameters_device ps descr later more tt (attribute_request 0 a) = (done (le 2 v), tt) ->
  class_attribute h (served handle (parameters_device ps descr later more)) a (tt, tr)
  = (Ok (Some v), (tt, tr ++ [(attribute_request 0 a, done (le 2 v))])).
Proof.
  intros H V A E. unfold class_attribute, st_bind, GET_ATTRIBUTE_SINGLE, PARAMETER_CLASS_ID.
  rewrite (served3 h false handle _ 14 15 0 a [] tt tr (done (le 2 v)) tt);
    [|lia|lia|split; [unfold is_u16; lia|discriminate]|assumption|lia|constructor|cbn; lia|exact E|apply le_wf; lia].
  cbn [r_status done a_status Z.eqb GSC_SUCCESS r_data a_data]. unfold st_lift.
  rewrite <- (app_nil_r (le 2 v)), buf_of_at, get_u16_le, u16_small by assumption. rewrite app_nil_r. reflexivity.
Qed.

Lemma word_read h d : (2 <= List.length d)%nat -> is_bytes d -> encode_value h IU16 d = Ok (word_of d).
Proof.
  intros L B. destruct d as [|x [|y d]]; cbn in L; try lia.
  apply is_bytes_cons in B as [X B]. apply is_bytes_cons in B as [Y B]. unfold is_u8 in *.
  unfold encode_value, get_int. rewrite buf_of_at.
  replace (x :: y :: d) with (le 2 (x + 256 * y) ++ d) by (cbn [le app]; repeat f_equal; lia).
  rewrite get_u16_le, u16_small by (unfold is_u16; lia). cbn [omap bind fst le app word_of]. f_equal. lia.
Qed.

Lemma use_first_read h handle (ps : list pdev) descr later more p rest q l (tr : trace) :
  is_u32 handle -> ps = p :: rest -> pdev_wf p ->
  (2 <= List.length (d_value p))%nat -> zlen later = zlen (d_value p) -> is_bytes later ->
  shows_parameter q 1 (offers_all descr) p -> pa_router q = true ->
  exists q', use_first h (served handle (parameters_device ps descr later more)) (q :: l) (tt, tr)
    = (Ok (q' :: l, Some (word_of (d_value p), actual_to_eng double q (of_int double (word_of (d_value p))), word_of later)),
       (tt, tr ++ [(attribute_request 1 1, done later)]))
    /\ pa_value q' = later /\ same_but_value q q'.
Proof.
  intros H E W L2 LL B S0 R. destruct S0 as (I1 & _ & _ & V & _).
  assert (I : instance ps 1 = Some p) by (rewrite E; reflexivity).
  destruct (parameters_answers ps descr later more 1 p I) as (_ & _ & _ & _ & _ & _ & E1). cbn [Z.eqb Pos.eqb] in E1.
  assert (BV : is_bytes (d_value p) /\ zlen (d_value p) <= 255) by (destruct W as (W & _); exact W).
  destruct (update_good h false handle (parameters_device ps descr later more) 1 H ltac:(split; [unfold is_u16; lia|discriminate])
              q tt tr (done later) tt R I1 E1) as (q' & U & V' & SB).
  - apply done_wf; [assumption|lia].
  - reflexivity.
  - rewrite V. cbn [a_data done]. lia.
  - cbn [a_data done] in V'. rewrite V in V'.
    assert (Ln : List.length (d_value p) = List.length later) by (unfold zlen in LL; lia).
    rewrite Ln, firstn_all in V'. exists q'. split; [|split; assumption].
    unfold use_first, st_bind, st_lift, get_eng. rewrite V, word_read by (apply BV || assumption). cbn [bind].
    match type of U with ?m = _ => match goal with |- context[update_value ?a ?b ?c ?d] => change (update_value a b c d) with m end end.
    rewrite U, V', word_read by (assumption || lia). reflexivity.
Qed.

Lemma descr_bit descr : negb (Z.land descr 2 =? 0) = offers_all descr.
Proof.
  unfold offers_all. destruct (Z.testbit descr 1) eqn:T.
  - apply negb_true_iff, Z.eqb_neq. intros E.
    assert (X : Z.testbit (Z.land descr 2) 1 = true) by (rewrite Z.land_spec, T; reflexivity). rewrite E in X. discriminate X.
  - apply negb_false_iff, Z.eqb_eq. apply Z.bits_inj'. intros n N. rewrite Z.land_spec, Z.bits_0.
    destruct (Z.eq_dec n 1) as [->|D]; [now rewrite T|].
    change 2 with (2 ^ 1). rewrite Z.pow2_bits_false by lia. apply andb_false_r.
Qed.

Theorem parameters_scanned h handle ps descr later more tr :
  is_u32 handle -> is_u16 descr -> Forall pdev_wf ps -> zlen ps <= 65535 -> is_bytes more -> zlen more <= 50000 ->
  is_bytes later ->
  (forall p rest, ps = p :: rest -> (2 <= List.length (d_value p))%nat /\ zlen later = zlen (d_value p)) ->
  exists l shown, parameter_example h (served handle (parameters_device ps descr later more)) (tt, tr)
    = (Ok (Some (l, shown)), (tt, tr ++ scan_trace ps descr later more))
  /\ shows_all l (offers_all descr) (match ps with [] => [] | p :: r => with_value p later :: r end)
  /\ match ps, shown with
     | [], None => True
     | p :: _, Some (v, x, v') => v = word_of (d_value p) /\ v' = word_of later
         /\ exists q, shows_parameter q 1 (offers_all descr) p /\ x = actual_to_eng double q (of_int double v)
     | _, _ => False
     end.
Proof.
  intros H D P N B L BL F. unfold parameter_example. unfold st_bind at 1.
  pose proof (zlen_nonneg ps) as N0.
  rewrite (class_attribute_read h handle ps descr later more 2 (zlen ps) tr H) by (reflexivity || lia || (unfold is_u16; lia)).
  unfold st_bind at 1.
  rewrite (class_attribute_read h handle ps descr later more 8 descr _ H) by (reflexivity || lia || assumption).
  unfold st_bind at 1. rewrite descr_bit.
  destruct (read_from_all h handle descr later more ps H P B L N ps []
              ((tr ++ [(attribute_request 0 2, done (le 2 (zlen ps)))]) ++ [(attribute_request 0 8, done (le 2 descr))]) eq_refl)
    as (l & El & Sl & Rl).
  change (1 + zlen []) with 1 in El, Sl. replace (Z.to_nat (zlen ps)) with (List.length ps) by (unfold zlen; lia).
  match type of El with ?m = _ => match goal with |- context[read_from ?a ?b ?c ?d ?e ?f] => change (read_from a b c d e f) with m end end.
  rewrite El. unfold st_bind at 1. unfold scan_trace. rewrite <- !app_assoc.
  destruct ps as [|p rest].
  - inversion Sl; subst. cbn [use_first]. unfold st_ret. exists [], None. split; [|split; [constructor|exact I]].
    cbn. reflexivity.
  - cbn [numbered] in Sl. inversion Sl as [|q x l' xs S1 S2]; subst. cbn [fst snd] in S1. inversion Rl as [|? ? R1 R2]; subst.
    destruct (F p rest eq_refl) as [F1 F2].
    match goal with |- context[use_first h _ _ (tt, ?T)] =>
      destruct (use_first_read h handle (p :: rest) descr later more p rest q l' T H eq_refl ltac:(now inversion P) F1 F2 BL S1 R1)
        as (q' & U & V & SB) end.
    match type of U with ?m = _ => match goal with |- context[use_first ?a ?b ?c ?d] => change (use_first a b c d) with m end end.
    rewrite U. unfold st_ret. eexists (q' :: l'), _. split; [f_equal; f_equal; rewrite <- !app_assoc; reflexivity|].
    split; [|split; [reflexivity|split; [reflexivity|exists q; split; [exact S1|reflexivity]]]]. unfold shows_all. cbn [numbered]. constructor; [|exact S2].
    cbn [fst snd]. destruct S1 as (A1 & A2 & A3 & A4 & A5 & A6 & A7 & A8).
    destruct SB as (C1 & C2 & C3 & C4 & C5 & C6 & C7 & C8 & C9 & C10 & C11 & C12 & C13 & C14 & C15 & C16 & C17 & C18).
    unfold shows_parameter, with_value; cbn [d_value d_type d_name d_units d_help d_min d_max d_default d_mult d_div d_base d_offset d_precision].
    change (d_scalable (mkPdev later (d_link p) (d_descriptor p) (d_type p) (d_size_again p) (d_name p) (d_units p) (d_help p)
    (d_min p) (d_max p) (d_default p) (d_skipped p) (d_mult p) (d_div p) (d_base p) (d_offset p) (d_precision p))) with (d_scalable p).
    change (d_readonly (mkPdev later (d_link p) (d_descriptor p) (d_type p) (d_size_again p) (d_name p) (d_units p) (d_help p)
    (d_min p) (d_max p) (d_default p) (d_skipped p) (d_mult p) (d_div p) (d_base p) (d_offset p) (d_precision p))) with (d_readonly p).
    repeat match goal with |- _ /\ _ => split end; try congruence.
    intros X. destruct (A8 X) as (G1 & G2 & G3 & G4 & G5 & G6 & G7).
    repeat match goal with |- _ /\ _ => split end; try congruence.
    intros Y. destruct (G7 Y) as (K1 & K2 & K3 & K4 & K5).
    repeat match goal with |- _ /\ _ => split end; congruence.
Qed.

(** A parameter of less than two bytes is read past its end. *)
Lemma word_short d : (List.length d < 2)%nat -> encode_value strict IU16 d = Undef UbOobRead.
Proof. destruct d as [|x [|y d]]; cbn [List.length]; intros L; [reflexivity|reflexivity|lia]. Qed.

(** ** Explicit messages *)
Theorem explicit_runs {D} h handle (dev : device D) d tr a d1 a' d2 :
  is_u32 handle -> dev d vendor_request = (a, d1) -> answer_wf a -> dev d1 output_request = (a', d2) -> answer_wf a' ->
  (a_status a = 0 -> (2 <= List.length (a_data a))%nat) ->
  explicit_example h (served handle dev) (d, tr)
  = (Ok (if a_status a =? 0 then inl (word_of (a_data a)) else inr (a_status a), a_status a'),
     (d2, tr ++ [(vendor_request, a); (output_request, a')])).
Proof.
  intros H E W E' W' L. unfold explicit_example, st_bind at 1, GET_ATTRIBUTE_SINGLE.
  rewrite (served3 h false handle dev 14 1 1 1 [] d tr a d1);
    [|lia|lia|split; [unfold is_u16; lia|discriminate]|assumption|lia|constructor|cbn; lia|exact E|assumption].
  cbn [r_status r_data]. unfold GSC_SUCCESS.
  assert (K : forall v : Z + Z, st_bind (send_request h (served handle dev) false SET_ATTRIBUTE_SINGLE (epath3 4 151 3) [1; 2; 3; 4; 5; 6; 7; 8; 9; 10] [])
                (fun r => st_ret (v, r_status r)) (d1, tr ++ [(vendor_request, a)])
             = (Ok (v, a_status a'), (d2, tr ++ [(vendor_request, a); (output_request, a')]))).
  { intros v. unfold st_bind, SET_ATTRIBUTE_SINGLE.
    rewrite (served3 h false handle dev 16 4 151 3 _ d1 (tr ++ [(vendor_request, a)]) a' d2);
      [|lia|lia|split; [unfold is_u16; lia|discriminate]|assumption|lia|repeat constructor; unfold is_u8; lia|cbn; lia|exact E'|assumption].
    rewrite <- app_assoc. reflexivity. }
  destruct (Z.eqb_spec (a_status a) 0) as [S0|S0].
  - unfold st_bind at 1, st_lift. specialize (L S0).
    assert (B : is_bytes (a_data a)) by apply W. pose proof (word_read h (a_data a) L B) as G.
    unfold encode_value, get_int in G. destruct (get_u16 h (buf_of (a_data a))) as [[x b]| | |]; try discriminate G.
    cbn [omap bind fst] in *. injection G as ->. apply K.
  - unfold st_bind at 1, st_ret at 1. apply K.
Qed.
Theorem explicit_short {D} handle (dev : device D) d tr a d1 :
  is_u32 handle -> dev d vendor_request = (a, d1) -> answer_wf a -> a_status a = 0 -> (List.length (a_data a) < 2)%nat ->
  fst (explicit_example strict (served handle dev) (d, tr)) = Undef UbOobRead.
Proof.
  intros H E W S0 L. unfold explicit_example, st_bind at 1, GET_ATTRIBUTE_SINGLE.
  rewrite (served3 strict false handle dev 14 1 1 1 [] d tr a d1);
    [|lia|lia|split; [unfold is_u16; lia|discriminate]|assumption|lia|constructor|cbn; lia|exact E|assumption].
  cbn [r_status r_data]. rewrite S0. cbn [Z.eqb GSC_SUCCESS]. unfold st_bind, st_lift.
  pose proof (word_short _ L) as G. unfold encode_value, get_int in G.
  destruct (get_u16 strict (buf_of (a_data a))) as [[x b]| | |]; try discriminate G. injection G as ->. reflexivity.
Qed.

(** ** Assemblies *)
Lemma yasked service c n at_ data handle :
  is_u32 handle -> is_u8 service -> is_u8 c -> is_u8 n -> is_u8 at_ -> is_bytes data -> zlen data <= 60000 ->
  asked (encaps_pack (yrequest_packet handle service (ypath3 c n at_) data []))
  = Some (mkReq service [(KClass, c); (KInst, n); (KAttr, at_)] data).
Proof.
  intros H S C N A B L.
  assert (SM : ids_small (Ids3 c n at_)).
  { unfold ids_small; cbn [ids_list]. do 3 (apply Forall_cons; [assumption|]). apply Forall_nil. }
  assert (SE : ids_sendable true (Ids3 c n at_)).
  { split; [|intros _; exact SM]. unfold ids_wf; cbn [ids_list]. unfold is_u8 in *.
    do 3 (apply Forall_cons; [cbn [snd]; unfold is_u16; lia|]). apply Forall_nil. }
  destruct (yrequest_on_wire service (Ids3 c n at_) data [] handle) as [E1 E2]; try assumption; try discriminate.
  - constructor.
  - pose proof (request_items_len true service (Ids3 c n at_) data) as R.
    rewrite (proj1 (request_recover true service (Ids3 c n at_) data ltac:(discriminate))) in R.
    unfold request_bytes in R. rewrite !zlen_app in R. pose proof (path_len true (Ids3 c n at_)) as P.
    rewrite !zlen_cons, !zlen_nil in R. lia.
  - cbn [ybuild] in E1, E2. unfold asked. rewrite E1. cbn [wire_items map app]. rewrite E2, parse_path_segments by assumption. reflexivity.
Qed.

Lemma yserved {D} h handle (dev : device D) service c n at_ data d tr a d' :
  is_u32 handle -> 0 <= service < 128 -> is_u8 c -> is_u8 n -> is_u8 at_ -> is_bytes data -> zlen data <= 60000 ->
  dev d (mkReq service [(KClass, c); (KInst, n); (KAttr, at_)] data) = (a, d') -> answer_wf a ->
  ysend_request h (served handle dev) service (ypath3 c n at_) data [] (d, tr)
  = (Ok (mkResp (service + 128) (a_status a) (a_addl a) (a_data a) []),
     (d', tr ++ [(mkReq service [(KClass, c); (KInst, n); (KAttr, at_)] data, a)])).
Proof.
  intros H S C N A B L E W. unfold ysend_request, served; cbn [si_exchange si_handle].
  rewrite yasked by (assumption || (unfold is_u8; lia)). rewrite E.
  cbn [q_service]. rewrite reply_packet_ok by assumption. reflexivity.
Qed.

Lemma read_buffer_n h n : forall pre rest, (n <= List.length rest)%nat ->
  read_buffer h (at_ pre rest) n = Ok (firstn n rest).
Proof.
  induction n as [|n IH]; intros pre rest L; [reflexivity|]. destruct rest as [|x rest]; cbn in L; [lia|].
  cbn [read_buffer firstn]. rewrite get_u8_at. cbn [bind]. rewrite IH by lia. reflexivity.
Qed.
Lemma read_buffer_short n : forall pre rest, (List.length rest < n)%nat ->
  read_buffer strict (at_ pre rest) n = Undef UbOobRead.
Proof.
  induction n as [|n IH]; intros pre rest L; [lia|]. destruct rest as [|x rest]; cbn [read_buffer].
  - assert (G : get_u8 strict (at_ pre []) = Undef UbOobRead).
    { apply (strict_short get_u8 1); [apply reader_u8|apply moves_fetch|..]; unfold at_; cbn [bpos bdata]; rewrite app_nil_r; lia. }
    rewrite G. reflexivity.
  - rewrite get_u8_at. cbn [bind]. rewrite IH by (cbn in L; lia). reflexivity.
Qed.

Theorem assembly_read {D} h handle (dev : device D) n d tr a d' :
  is_u32 handle -> is_u8 n -> dev d (assembly_request n) = (a, d') -> answer_wf a ->
  (a_status a = 0 -> 128 <= zlen (a_data a)) ->
  read_assembly h (served handle dev) n (d, tr)
  = (Ok (if a_status a =? 0 then firstn 128 (a_data a) else []), (d', tr ++ [(assembly_request n, a)])).
Proof.
  intros H N E W L. unfold read_assembly, st_bind, GET_ATTRIBUTE_SINGLE.
  rewrite (yserved h handle dev 14 4 n 3 [] d tr a d'); try assumption; try lia; try (unfold is_u8; lia); try (cbn; lia); [|constructor].
  cbn [r_status r_data]. unfold GSC_SUCCESS. destruct (Z.eqb_spec (a_status a) 0) as [S0|S0]; [|reflexivity].
  unfold st_lift. rewrite buf_of_at, read_buffer_n by (specialize (L S0); unfold zlen in L; lia). reflexivity.
Qed.
Theorem assembly_short {D} handle (dev : device D) n d tr a d' :
  is_u32 handle -> is_u8 n -> dev d (assembly_request n) = (a, d') -> answer_wf a ->
  a_status a = 0 -> zlen (a_data a) < 128 ->
  fst (read_assembly strict (served handle dev) n (d, tr)) = Undef UbOobRead.
Proof.
  intros H N E W S0 L. unfold read_assembly, st_bind, GET_ATTRIBUTE_SINGLE.
  rewrite (yserved strict handle dev 14 4 n 3 [] d tr a d'); try assumption; try lia; try (unfold is_u8; lia); try (cbn; lia); [|constructor].
  cbn [r_status r_data]. rewrite S0. cbn [Z.eqb GSC_SUCCESS]. unfold st_lift.
  rewrite buf_of_at, read_buffer_short by (unfold zlen in L; lia). reflexivity.
Qed.
Theorem assembly_written {D} h handle (dev : device D) n data d tr a d' :
  is_u32 handle -> is_u8 n -> is_bytes data -> zlen data <= 60000 -> dev d (assembly_write n data) = (a, d') -> answer_wf a ->
  write_assembly h (served handle dev) n data (d, tr)
  = (Ok (a_status a =? 0), (d', tr ++ [(assembly_write n data, a)])).
Proof.
  intros H N B L E W. unfold write_assembly, st_bind, SET_ATTRIBUTE_SINGLE.
  rewrite (yserved h handle dev 16 4 n 3 data d tr a d'); try assumption; try lia; try (unfold is_u8; lia). reflexivity.
Qed.

Lemma fill_from_spec n : forall i offset, 0 <= i ->
  fill_from i offset n = firstn n (repeat 0 (Z.to_nat (offset - i))) ++ repeat 222 (n - Z.to_nat (offset - i)).
Proof.
  induction n as [|n IH]; intros i offset I; [reflexivity|]. cbn [fill_from]. rewrite IH by lia.
  destruct (Z.ltb_spec i offset).
  - replace (Z.to_nat (offset - i)) with (S (Z.to_nat (offset - (i + 1)))) by lia. reflexivity.
  - replace (Z.to_nat (offset - i)) with 0%nat by lia. replace (Z.to_nat (offset - (i + 1))) with 0%nat by lia.
    cbn [repeat]. rewrite !firstn_nil. rewrite !Nat.sub_0_r. reflexivity.
Qed.
Lemma filled size : fill_vector 0 size = repeat 222 size.
Proof. unfold fill_vector. rewrite fill_from_spec by lia. cbn [Z.sub Z.opp Z.add Z.to_nat repeat]. now rewrite firstn_nil, Nat.sub_0_r. Qed.

Theorem yaskawa_runs h handle a b tr : is_u32 handle -> is_bytes a -> is_bytes b ->
  128 <= zlen a <= 60000 -> zlen b = 128 ->
  yaskawa_example h (served handle assemblies) ((a, b), tr)
  = (Ok (firstn 128 a, b, true),
     ((a, repeat 222 128), tr ++ [(assembly_request 101, done a); (assembly_request 111, done b);
                                  (assembly_write 111 (repeat 222 128), done [])])).
Proof.
  intros H A B LA LB. unfold yaskawa_example, st_bind at 1.
  rewrite (assembly_read h handle assemblies 101 (a, b) tr (done a) (a, b) H ltac:(unfold is_u8; lia) eq_refl)
    by (try (apply done_wf; [assumption|lia]); intros _; cbn [a_data done]; lia).
  unfold st_bind at 1.
  rewrite (assembly_read h handle assemblies 111 (a, b) _ (done b) (a, b) H ltac:(unfold is_u8; lia) eq_refl)
    by (try (apply done_wf; [assumption|lia]); intros _; cbn [a_data done]; lia).
  unfold st_bind at 1. rewrite filled. cbn [done a_status a_data Z.eqb].
  rewrite (assembly_written h handle assemblies 111 (repeat 222 128) (a, b) _ (done []) (a, repeat 222 128) H).
  - unfold st_ret. cbn [done a_status Z.eqb]. rewrite (firstn_all2 b) by (unfold zlen in LB; lia).
    rewrite <- !app_assoc. reflexivity.
  - unfold is_u8; lia.
  - apply Forall_forall. intros x X. apply repeat_spec in X. subst. unfold is_u8; lia.
  - unfold zlen. rewrite repeat_length. lia.
  - unfold assemblies, assembly_write. rewrite LB. reflexivity.
  - apply done_wf; [constructor|cbn; lia].
Qed.

(** ** A file *)
Theorem file_saved h handle F T crc : is_u32 handle -> is_bytes F -> zlen F < 2 ^ 32 -> 1 <= T <= 255 ->
  is_bytes crc -> List.length crc = 2%nat -> forall (tr : trace),
  exists n trn, Z.of_nat n = pieces (zlen F) T /\ List.length trn = (List.length tr + 2 + n)%nat
  /\ forall m, (n <= m)%nat ->
     file_example h (served handle (uploader 200 F T crc)) m (None, tr) = (Ok (false, Some F), (Some n, trn)).
Proof.
  intros H B L R C C2 tr.
  destruct (upload_complete h false handle 200 F T crc 0%nat H ltac:(split; [unfold is_u16; lia|discriminate]) B L R C C2 tr)
    as (f0 & f1 & f2 & n & trn & w0 & w1 & E0 & E1 & _ & E2 & K & L' & N).
  exists n, trn. split; [assumption|]. split; [assumption|]. intros m M. unfold file_example, st_bind. rewrite E0. unfold upload, st_bind.
  rewrite E1, (E2 m M), K. reflexivity.
Qed.
Lemma refused_loop h handle n : is_u32 handle -> forall f tr, fo_id f = 200 -> (exists k, fo_state f = FUpload 5 2 [] (Z.of_nat k mod 256) 0) ->
  written (fo_calls f) = None ->
  exists f' tr', transfer_loop h false (served handle refusing) n (f, (tt, tr)) = (Ok true, (f', (tt, tr'))) /\ written (fo_calls f') = None.
Proof.
  intros H. induction n as [|n IH]; intros f tr I [k S] W; cbn [transfer_loop]; [eexists; eexists; split; [reflexivity|assumption]|].
  unfold st_bind.
  assert (Q : refusing tt (transfer_request (fo_id f) (Z.of_nat k)) = (failed 16, tt)) by (rewrite I; reflexivity).
  rewrite (transfer_request_ok h false handle refusing f 5 2 [] k 0 tt tr (failed 16) tt H); try assumption.
  - unfold transferred; cbn [r_status failed a_status Z.eqb GSC_SUCCESS bind]. apply IH; [exact I|exists k; exact S|].
    unfold f_call; cbn [fo_calls]. unfold written in *. rewrite fold_left_app, W. reflexivity.
  - rewrite I. split; [unfold is_u16; lia|discriminate].
  - unfold failed, answer_wf; cbn [a_status a_addl a_data]. split; [unfold is_u8; lia|]. split; [constructor|]. split; [cbn; lia|]. split; [constructor|cbn; lia].
Qed.
Theorem file_endless h handle n tr : is_u32 handle ->
  fst (file_example h (served handle refusing) n (tt, tr)) = Ok (true, None).
Proof.
  intros H. unfold file_example, st_bind.
  rewrite (file_open_request h false handle refusing 200 tt tr (done [2]) tt H);
    [|split; [unfold is_u16; lia|discriminate]|reflexivity|apply done_wf; [repeat constructor; unfold is_u8; lia|cbn; lia]].
  unfold synced; cbn [r_status r_data done a_status a_data GSC_SUCCESS Z.eqb]. rewrite u8_at. cbn [bind Z.eqb Pos.eqb].
  unfold upload, st_bind.
  rewrite (begin_request h false handle refusing (mkFile 200 FLoaded []) 0 tt _ (done (le 4 5 ++ [2])) tt H); try reflexivity.
  - unfold initiated; cbn [r_status r_data done a_status a_data GSC_SUCCESS Z.eqb].
    rewrite buf_of_at, get_u32_le by (unfold is_u32; lia). cbn [bind]. rewrite get_u8_at. cbn [bind].
    match goal with |- context[transfer_loop ?a ?b ?c n (?f, (tt, ?t))] =>
      destruct (refused_loop h handle n H f t eq_refl (ex_intro _ 0%nat eq_refl) eq_refl) as (f' & tr' & E & W);
      change (transfer_loop h false (served handle refusing) n (f, (tt, t))) with (transfer_loop a b c n (f, (tt, t))) in E end.
    rewrite E, W. reflexivity.
  - cbn [fo_id]. split; [unfold is_u16; lia|discriminate].
  - apply done_wf; [cbn [le app]; repeat constructor; unfold is_u8; lia|cbn; lia].
Qed.

(** ** For the theorems *)
Lemma parameter_short ps descr later more p rest handle (tr : trace) : is_u32 handle -> is_u16 descr -> Forall pdev_wf ps -> zlen ps <= 65535 ->
  is_bytes more -> zlen more <= 50000 -> ps = p :: rest -> (List.length (d_value p) < 2)%nat ->
  fst (parameter_example strict (served handle (parameters_device ps descr later more)) (tt, tr)) = Undef UbOobRead.
Proof.
  intros H D P N B L -> S. unfold parameter_example. unfold st_bind at 1.
  pose proof (zlen_nonneg (p :: rest)) as N0.
  rewrite (class_attribute_read strict handle (p :: rest) descr later more 2 (zlen (p :: rest)) tr H) by (reflexivity || lia || (unfold is_u16; lia)).
  unfold st_bind at 1.
  rewrite (class_attribute_read strict handle (p :: rest) descr later more 8 descr _ H) by (reflexivity || lia || assumption).
  unfold st_bind at 1. rewrite descr_bit.
  destruct (read_from_all strict handle descr later more (p :: rest) H P B L N (p :: rest) []
              ((tr ++ [(attribute_request 0 2, done (le 2 (zlen (p :: rest))))]) ++ [(attribute_request 0 8, done (le 2 descr))]) eq_refl)
    as (l & El & Sl & _).
  change (1 + zlen []) with 1 in El, Sl. replace (Z.to_nat (zlen (p :: rest))) with (List.length (p :: rest)) by (unfold zlen; lia).
  match type of El with ?m = _ => match goal with |- context[read_from ?a ?b ?c ?d ?e ?f] => change (read_from a b c d e f) with m end end.
  rewrite El. cbn [numbered] in Sl. inversion Sl as [|q x l' xs S1 S2]; subst. cbn [fst snd] in S1.
  unfold st_bind at 1. cbn [use_first]. unfold st_bind at 1, st_lift at 1.
  destruct S1 as (_ & _ & _ & V & _).
  rewrite V, (word_short _ S). reflexivity.
Qed.
Lemma fill_spec offset size : 0 <= offset ->
  fill_vector offset size = firstn size (repeat 0 (Z.to_nat offset)) ++ repeat 222 (size - Z.to_nat offset).
Proof. intros O. unfold fill_vector. rewrite fill_from_spec by lia. now rewrite Z.sub_0_r. Qed.
Lemma repeat_bytes x n : is_u8 x -> is_bytes (repeat x n).
Proof. intros X. apply Forall_forall. intros y Y. apply repeat_spec in Y. now subst. Qed.
Definition word_pdev : pdev :=
  mkPdev [10; 0] [32; 15] 22 199 2 [70; 114; 101; 113] [72; 122] [] [0; 0] [255; 255] [1; 0] (repeat 0 16) 1 2 3 (-4) 1.
Definition byte_pdev : pdev :=
  mkPdev [10] [32; 15] 22 198 1 [70; 114; 101; 113] [72; 122] [] [0] [255] [1] (repeat 0 16) 1 2 3 (-4) 1.
Lemma pdevs_wf : pdev_wf word_pdev /\ pdev_wf byte_pdev.
Proof.
  unfold pdev_wf, word_pdev, byte_pdev, text_wf, is_u16, is_u8, is_s16, zlen; cbn.
  repeat match goal with |- _ /\ _ => split end; try lia; repeat (constructor; [unfold is_u8; lia|]); constructor.
Qed.
Lemma examples_refuted : exists ps descr later more a b,
  Forall pdev_wf ps /\ is_u16 descr /\ is_bytes later /\ is_bytes more /\ is_bytes a /\ is_bytes b
  /\ fst (parameter_example strict (served 7 (parameters_device ps descr later more)) (tt, [])) = Undef UbOobRead
  /\ fst (yaskawa_example strict (served 7 assemblies) ((a, b), [])) = Undef UbOobRead.
Proof.
  exists [byte_pdev], 2, [10], [], (repeat 5 32), (repeat 6 32).
  split; [constructor; [apply pdevs_wf|constructor]|]. split; [unfold is_u16; lia|].
  split; [apply (repeat_bytes 10 1); unfold is_u8; lia|]. split; [constructor|].
  split; [apply repeat_bytes; unfold is_u8; lia|]. split; [apply repeat_bytes; unfold is_u8; lia|].
  split; vm_compute; reflexivity.
Qed.
