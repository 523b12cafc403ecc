(** A request made through the message router reaches the device as it was
    meant, and its answer comes back. *)
From Verif Require Import Base MBuffer SBuffer PBase PBuffer MEip SEip PPath PPathT PEip PRouter PConnOpen SObj.
Ltac Zify.zify_post_hook ::= Z.div_mod_to_equations.

Definition ids_sendable (use8 : bool) (i : ids) : Prop :=
  ids_wf i /\ (use8 = true -> ids_small i).

Lemma parse_path_segments use8 i : ids_sendable use8 i ->
  parse_path (path_bytes (segments use8 i)) = Some (ids_list i).
Proof.
  intros [W S]. unfold segments, path_bytes, ids_wf, ids_small in *. revert W S.
  generalize (ids_list i) as l. clear i. induction l as [|[k v] l IH]; intros W S; [reflexivity|].
  apply Forall_cons_iff in W as [Hv W]. cbn [snd] in Hv.
  assert (IH' := IH W (fun e => proj2 (proj1 (Forall_cons_iff _ _ _) (S e)))). clear IH.
  destruct use8.
  - specialize (S eq_refl). apply Forall_cons_iff in S as [Sv _]. cbn [snd] in Sv. unfold is_u8 in Sv.
    cbn [map concat fst snd seg_bytes]. rewrite Z.mod_small by lia.
    destruct k; cbn [code8 app parse_path kind_of8 Z.eqb Pos.eqb]; rewrite IH'; reflexivity.
  - unfold is_u16 in Hv. cbn [map concat fst snd seg_bytes le].
    assert (E : v mod 256 + 256 * (v / 256 mod 256) = v) by lia.
    destruct k; cbn [code16 app parse_path kind_of8 kind_of16 Z.eqb Pos.eqb]; rewrite IH', E; reflexivity.
Qed.

Lemma path_len use8 i : zlen (path_bytes (segments use8 i)) <= 12.
Proof.
  destruct i, use8; cbn [segments ids_list map fst snd path_bytes concat seg_bytes le app];
    unfold zlen; cbn [List.length app]; lia.
Qed.

Lemma asked_request use8 service i data handle :
  i <> Ids0 -> is_u32 handle -> is_u8 service -> ids_sendable use8 i -> is_bytes data -> zlen data <= 60000 ->
  asked (encaps_pack (request_packet handle use8 service (build i) data [])) = Some (mkReq service (ids_list i) data).
Proof.
  intros N H S I B L.
  destruct (request_on_wire use8 service i data [] handle) as [E1 E2]; try assumption.
  - apply I.
  - constructor.
  - pose proof (request_items_len use8 service i data) as R.
    rewrite (proj1 (request_recover use8 service i data N)) in R.
    unfold request_bytes in R. rewrite !zlen_app in R. pose proof (path_len use8 i) as P.
    rewrite !zlen_cons, !zlen_nil in R. lia.
  - unfold asked. rewrite E1. cbn [wire_items map app]. rewrite E2, parse_path_segments by assumption. reflexivity.
Qed.

Lemma words_bytes l : is_words l -> is_bytes (concat (map (le 2) l)) /\ zlen (concat (map (le 2) l)) = 2 * zlen l.
Proof.
  induction 1 as [|x l Hx Hl [IH1 IH2]]; cbn [map concat]; [split; [constructor|reflexivity]|].
  rewrite zlen_app, zlen_cons, IH2. split; [apply is_bytes_app; split; [apply le_bytes|assumption]|].
  unfold zlen at 1. rewrite le_length. lia.
Qed.

Lemma reply_packet_ok h handle service a : 0 <= service < 128 -> answer_wf a ->
  reply_response h (reply_packet handle service a)
  = Ok (mkResp (service + 128) (a_status a) (a_addl a) (a_data a) []).
Proof.
  intros S (W1 & W2 & W3 & W4 & W5). destruct (words_bytes _ W2) as [B1 B2]. unfold reply_packet.
  set (r := response_bytes (service + 128) 0 (a_status a) (a_addl a) (a_data a)).
  assert (Br : is_bytes r).
  { unfold r, response_bytes. apply is_bytes_app; split; [|apply is_bytes_app; now split].
    pose proof (zlen_nonneg (a_addl a)). unfold is_u8 in *. repeat constructor; unfold is_u8; lia. }
  assert (Lr : zlen r < 65536).
  { unfold r, response_bytes. rewrite !zlen_app, B2, !zlen_cons, zlen_nil. lia. }
  eapply (reply_good h _ 0 0 2 (mkItem 0 0 []) (mkItem 178 (zlen r) r) [] [] _ 0).
  - unfold packet; cbn [e_data]. unfold cpf_bytes. cbv zeta. rewrite app_nil_r. reflexivity.
  - unfold is_u16; lia.
  - constructor; [apply item_null_wf|]. constructor; [|constructor]. unfold item_wf; cbn [it_type it_length it_data].
    split; [unfold is_u16; lia|]. split; [reflexivity|]. split; [exact Lr|exact Br].
  - left. reflexivity.
  - reflexivity.
  - assumption.
  - assumption.
Qed.

Lemma served_request {D} h use8 handle (dev : device D) service i data d tr a d' :
  i <> Ids0 -> is_u32 handle -> 0 <= service < 128 -> ids_sendable use8 i -> is_bytes data -> zlen data <= 60000 ->
  dev d (mkReq service (ids_list i) data) = (a, d') -> answer_wf a ->
  send_request h (served handle dev) use8 service (build i) data [] (d, tr)
  = (Ok (mkResp (service + 128) (a_status a) (a_addl a) (a_data a) []),
     (d', tr ++ [(mkReq service (ids_list i) data, a)])).
Proof.
  intros N H S I B L E W. unfold send_request, served; cbn [si_exchange si_handle].
  rewrite asked_request by (assumption || (unfold is_u8; lia)). rewrite E.
  cbn [q_service]. rewrite reply_packet_ok by assumption. reflexivity.
Qed.

Lemma sendable2 use8 c n : 0 <= c < 256 -> sendable use8 n -> ids_sendable use8 (Ids2 c n).
Proof.
  intros C [W S]. split; [|intros E; specialize (S E)];
    unfold ids_wf, ids_small; cbn [ids_list]; repeat constructor; cbn [snd]; unfold is_u8, is_u16 in *; lia.
Qed.
Lemma sendable3 use8 c n a : 0 <= c < 256 -> 0 <= a < 256 -> sendable use8 n -> ids_sendable use8 (Ids3 c n a).
Proof.
  intros C A [W S]. split; [|intros E; specialize (S E)];
    unfold ids_wf, ids_small; cbn [ids_list]; repeat constructor; cbn [snd]; unfold is_u8, is_u16 in *; lia.
Qed.

(** The two shapes the clients use. *)
Lemma served2 {D} h use8 handle (dev : device D) service c n data d tr a d' :
  0 <= c < 256 -> sendable use8 n -> is_u32 handle -> 0 <= service < 128 -> is_bytes data -> zlen data <= 60000 ->
  dev d (mkReq service [(KClass, c); (KInst, n)] data) = (a, d') -> answer_wf a ->
  send_request h (served handle dev) use8 service (epath2 c n) data [] (d, tr)
  = (Ok (mkResp (service + 128) (a_status a) (a_addl a) (a_data a) []),
     (d', tr ++ [(mkReq service [(KClass, c); (KInst, n)] data, a)])).
Proof.
  intros C S H V B L E W. apply (served_request h use8 handle dev service (Ids2 c n)); try assumption; [discriminate|now apply sendable2].
Qed.
Lemma served3 {D} h use8 handle (dev : device D) service c n at_ data d tr a d' :
  0 <= c < 256 -> 0 <= at_ < 256 -> sendable use8 n -> is_u32 handle -> 0 <= service < 128 -> is_bytes data -> zlen data <= 60000 ->
  dev d (mkReq service [(KClass, c); (KInst, n); (KAttr, at_)] data) = (a, d') -> answer_wf a ->
  send_request h (served handle dev) use8 service (epath3 c n at_) data [] (d, tr)
  = (Ok (mkResp (service + 128) (a_status a) (a_addl a) (a_data a) []),
     (d', tr ++ [(mkReq service [(KClass, c); (KInst, n); (KAttr, at_)] data, a)])).
Proof.
  intros C A S H V B L E W. apply (served_request h use8 handle dev service (Ids3 c n at_)); try assumption; [discriminate|now apply sendable3].
Qed.
