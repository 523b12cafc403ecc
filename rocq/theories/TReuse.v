(** Property C88: objects of the wire formats can be used again; new ones are
    empty. *)
From Verif Require Import Base MBuffer SBuffer PBase MEip MYaskawa MConnReq SEip PPath PPathT PEip PRouter MReuse SReuse PReuse.
Local Open Scope outcome_scope.

(** A path that is read replaces what the object held. *)
Theorem C88_path : forall (h : heap) (p : epath) (segs : list segment), Forall seg_wf segs ->
  let c := last_id KClass segs in let o := last_id KInst segs in let a := last_id KAttr segs in
  epath_expand_on h p (path_bytes segs) = (mkPath c o a (size_of c o a), Ok tt).
Proof. intros h p segs W. cbv zeta. rewrite epath_again. exact (expand_good h segs W). Qed.
Print Assumptions C88_path.
Theorem C88_path_any : forall (h : heap) (p q : epath) (data : bytes),
  epath_expand_on h p data = epath_expand_on h q data.
Proof. intros h p q data. rewrite !epath_again. reflexivity. Qed.
Print Assumptions C88_path_any.
Theorem C88_yaskawa_path : forall (h : heap) (p : ypath) (segs : list segment), Forall seg_wf segs ->
  let c := last_id KClass segs mod 256 in let o := last_id KInst segs mod 256 in let a := last_id KAttr segs mod 256 in
  ypath_expand_on h p (path_bytes segs) = (mkYPath c o a (size_of c o a), Ok tt).
Proof. intros h p segs W. cbv zeta. rewrite ypath_again. exact (yexpand_good h segs W). Qed.
Print Assumptions C88_yaskawa_path.
Theorem C88_yaskawa_path_any : forall (h : heap) (p q : ypath) (data : bytes),
  ypath_expand_on h p data = ypath_expand_on h q data.
Proof. intros h p q data. rewrite !ypath_again. reflexivity. Qed.
Print Assumptions C88_yaskawa_path_any.
(** After an exception about an unknown segment the object has the ids before it, whatever it held, but no
    size. *)
Theorem C88_left : forall (h : heap) (p : epath) (q : ypath) (segs : list segment) (tail : bytes), Forall seg_wf segs -> unknown tail ->
  let c := last_id KClass segs in let o := last_id KInst segs in let a := last_id KAttr segs in
  epath_expand_on h p (path_bytes segs ++ tail) = (mkPath c o a 0, Throw (RuntimeError RtEPathUnknownSegment))
  /\ ypath_expand_on h q (path_bytes segs ++ tail) = (mkYPath (c mod 256) (o mod 256) (a mod 256) 0, Throw (RuntimeError RtEPathUnknownSegment)).
Proof. intros h p q segs tail W U. cbv zeta. rewrite epath_again, ypath_again. split; [now apply left_unknown|now apply yleft_unknown]. Qed.
Print Assumptions C88_left.
Example C88_left_case : Forall seg_wf [Seg8 KClass 6] /\ unknown [52; 1]
  /\ epath_expand_on strict (epath3 4 100 3) ([32; 6] ++ [52; 1]) = (mkPath 6 0 0 0, Throw (RuntimeError RtEPathUnknownSegment)).
Proof.
  split; [repeat constructor; unfold is_u8; cbn; lia|]. split; [|reflexivity]. exists 52, [1]. split; [reflexivity|].
  intros ([| |] & [E|E]); cbn [code8 code16] in E; lia.
Qed.
(** an object that held class 4, instance 100, attribute 3 *)
Example C88_path_example : Forall seg_wf [Seg8 KClass 6; Seg8 KInst 1]
  /\ epath_expand_on strict (epath3 4 100 3) [32; 6; 36; 1] = (mkPath 6 1 0 2, Ok tt)
  /\ ypath_expand_on strict (ypath3 4 100 3) [32; 6; 36; 1] = (mkYPath 6 1 0 2, Ok tt)
  /\ snd (epath_expand_on strict (epath3 4 100 3) [32; 6; 52; 1]) = Throw (RuntimeError RtEPathUnknownSegment).
Proof. split; [repeat constructor; unfold is_u8, is_u16; cbn; lia|]. repeat split; reflexivity. Qed.

(** After any calls, whether they failed or not, a packet accepts and refuses
    the same bytes as a new one and then holds the same. *)
Theorem C88_packet : forall (h : heap) (ops : list packet_op) (data : bytes), is_bytes data ->
  let p := fold_left (packet_step h) ops encaps0 in
  snd (encaps_expand h p data) = snd (encaps_expand h encaps0 data)
  /\ (snd (encaps_expand h p data) = Ok tt -> encaps_expand h p data = encaps_expand h encaps0 data).
Proof. exact packet_again. Qed.
Print Assumptions C88_packet.
(** The same of responses except for the additional items, which are not part
    of the bytes and stay. *)
Theorem C88_response : forall (h : heap) (ops : list response_op) (data : bytes), is_bytes data ->
  let r := fold_left (response_step h) ops response0 in
  snd (response_expand h r data) = snd (response_expand h response0 data)
  /\ forall r', response_expand h response0 data = (r', Ok tt) ->
     response_expand h r data = (mkResp (r_service r') (r_status r') (r_addl r') (r_data r') (r_items r), Ok tt).
Proof. intros h ops data B r. exact (response_again h r data B). Qed.
Print Assumptions C88_response.
Theorem C88_items : forall (h : heap) (before : list items_op) (items more : list cpitem),
  Forall item_wf items -> zlen items < 65536 ->
  fold_left (items_step h) (before ++ CpExpand (cpf_bytes items) :: map CpAdd more) [] = items ++ more.
Proof.
  intros h before items more W L. destruct (cp_roundtrip h items W L) as [<- _]. exact (items_again h before items more W L).
Qed.
Print Assumptions C88_items.
Example C88_example :
  let p := fold_left (packet_step strict) [PkCommand 101; PkData [1; 2; 3]; PkExpand [7];
             PkExpand (repeat 255 24); PkHandle 9] encaps0 in
  p = mkEncaps 65535 65535 9 4294967295 (repeat 255 8) 4294967295 [1; 2; 3]
  /\ encaps_expand strict p (encaps_pack (packet 111 7 0 [1; 2])) = (packet 111 7 0 [1; 2], Ok tt)
  /\ (let r := fold_left (response_step strict) [RpItems [item_null]; RpStatus 5; RpData [8]; RpExpand [142; 0; 31; 9]] response0 in
      r = mkResp 142 31 [] [8] [item_null]
      /\ response_expand strict r [131; 0; 0; 0; 4] = (mkResp 131 0 [] [4] [item_null], Ok tt))
  /\ fold_left (items_step strict) ([CpAdd (item_of 178 [1]); CpExpand [3; 0]] ++ CpExpand [1; 0; 0; 0; 0; 0] :: [CpAdd (item_of 177 [5])]) []
     = [item_null; item_of 177 [5]].
Proof. repeat split; reflexivity. Qed.

(** Setters: each value is the last one given, in any order, the length is that
    of the data, and everything else is as it was. *)
Theorem C88_setters : forall (h : heap) (ops : list packet_op) (p : encaps), Forall no_parse ops ->
  fold_left (packet_step h) ops p
  = mkEncaps (or_else (latest command_given ops) (e_command p))
      (match latest data_given ops with Some d => zlen d mod 65536 | None => e_length p end)
      (or_else (latest handle_given ops) (e_handle p)) (or_else (latest status_given ops) (e_status p))
      (e_context p) (e_options p) (or_else (latest data_given ops) (e_data p)).
Proof. exact setters_last. Qed.
Print Assumptions C88_setters.
Theorem C88_response_setters : forall (h : heap) (ops : list response_op) (r : response), Forall no_rparse ops ->
  fold_left (response_step h) ops r
  = mkResp (r_service r) (or_else (latest rstatus_given ops) (r_status r)) (r_addl r)
      (or_else (latest rdata_given ops) (r_data r)) (or_else (latest ritems_given ops) (r_items r)).
Proof. exact rsetters_last. Qed.
Print Assumptions C88_response_setters.
Example C88_setters_example : Forall no_parse [PkData [1]; PkHandle 7; PkCommand 111; PkData [4; 5]; PkHandle 8]
  /\ fold_left (packet_step strict) [PkData [1]; PkHandle 7; PkCommand 111; PkData [4; 5]; PkHandle 8] encaps0
     = mkEncaps 111 2 8 0 (repeat 0 8) 0 [4; 5]
  /\ Forall no_rparse [RpStatus 5; RpItems [item_null]; RpStatus 8]
  /\ fold_left (response_step strict) [RpStatus 5; RpItems [item_null]; RpStatus 8] response0 = mkResp 1 8 [] [] [item_null].
Proof. split; [repeat constructor|]. split; [reflexivity|]. split; [repeat constructor|reflexivity]. Qed.

(** New objects are written as zeros only, a new response is an empty
    success, and new connection parameters ask for no real time header. *)
Theorem C88_new :
  encaps_pack encaps0 = repeat 0 24 /\ cp_pack [] = repeat 0 2 /\ item_pack item_null = repeat 0 4
  /\ fo_pack cparams0 = Ok (repeat 0 36) /\ lfo_pack cparams0 = Ok (repeat 0 40)
  /\ (c_o2tRTF cparams0 = 0 /\ c_t2oRTF cparams0 = 0 /\ c_path cparams0 = [])
  /\ bdata (put_rev buf_new revision0) = repeat 0 2
  /\ (r_status response0 = 0 /\ r_addl response0 = [] /\ r_data response0 = [] /\ r_items response0 = []).
Proof. repeat split; reflexivity. Qed.
Print Assumptions C88_new.
(** and a packet written right after construction is read as that packet *)
Theorem C88_new_packet : forall h, encaps_expand h encaps0 (repeat 0 24) = (encaps0, Ok tt).
Proof. reflexivity. Qed.
Print Assumptions C88_new_packet.
(** The default path is the exception: it has no words but is written with a
    class. *)
Theorem C88_new_path : forall use8, epath_words use8 epath0 = 0
  /\ epath_pack use8 epath0 = (if use8 then [32; 0] else [33; 0; 0; 0])
  /\ ypath_words ypath0 = 0 /\ ypath_pack ypath0 = [32; 0].
Proof. intros [|]; repeat split; reflexivity. Qed.
Print Assumptions C88_new_path.
