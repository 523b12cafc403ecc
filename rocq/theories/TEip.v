(** Properties C11-C18: responses, common packets, encapsulation packets and
    explicit messaging. *)
From Verif Require Import Base MBuffer SBuffer PBase MEip MYaskawa SEip PPathT PEip PRouter.
Local Open Scope outcome_scope.

Ltac wf := repeat (split || constructor); unfold is_u8, is_u16, is_u32; cbn; lia.
Ltac items_wf :=
  repeat first [apply Forall_nil | exact item_null_wf | apply item_of_wf | apply Forall_cons];
  unfold is_u16, is_u8; cbn; lia.

(** C11 *)
Theorem C11_cases : forall data : bytes, is_bytes data ->
  (List.length data < 4)%nat
  \/ (exists service rsv status n rest, data = [service; rsv; status; n] ++ rest /\ zlen rest < 2 * n)
  \/ (exists service rsv status addl d, data = response_bytes service rsv status addl d
        /\ is_words addl /\ zlen addl < 256).
Proof. exact response_cases. Qed.
Print Assumptions C11_cases.
Example C11_cases_example :
  [142; 0; 31; 2; 1; 2; 3; 4; 9; 9] = response_bytes 142 0 31 [513; 1027] [9; 9]
  /\ is_words [513; 1027] /\ zlen [513; 1027] < 256.
Proof. split; [reflexivity|]. split; [wf|reflexivity]. Qed.

Theorem C11_good : forall (h : heap) (r : response) service rsv status addl data,
  is_words addl -> zlen addl < 256 ->
  response_expand h r (response_bytes service rsv status addl data)
  = (mkResp service status addl data (r_items r), Ok tt).
Proof. exact response_good. Qed.
Print Assumptions C11_good.
Example C11_example :
  response_expand strict response0 [142; 0; 31; 2; 1; 2; 3; 4; 9; 9]
  = (mkResp 142 31 [513; 1027] [9; 9] [], Ok tt) /\ is_words [513; 1027].
Proof. split; [reflexivity|wf]. Qed.

Theorem C11_short : forall (h : heap) (r : response) data, (List.length data < 4)%nat ->
  response_expand h r data = (r, Throw (RuntimeError RtMrrShort)).
Proof. exact response_short. Qed.
Print Assumptions C11_short.
Example C11_short_example : (List.length [142; 0; 31]%Z < 4)%nat
  /\ response_expand strict (mkResp 1 2 [3] [4] []) [142; 0; 31]
     = (mkResp 1 2 [3] [4] [], Throw (RuntimeError RtMrrShort)).
Proof. split; [cbn; lia|reflexivity]. Qed.

(** The object keeps the service and status it read before refusing. *)
Theorem C11_bad_size : forall (h : heap) (r : response) service rsv status n rest,
  zlen rest < 2 * n ->
  response_expand h r ([service; rsv; status; n] ++ rest)
  = (mkResp service status (r_addl r) (r_data r) (r_items r), Throw (RuntimeError RtMrrStatusSize)).
Proof. exact response_bad_size. Qed.
Print Assumptions C11_bad_size.
Example C11_bad_size_example : zlen [1; 2; 3] < 2 * 2
  /\ response_expand strict response0 [142; 0; 31; 2; 1; 2; 3]
     = (mkResp 142 31 [] [] [], Throw (RuntimeError RtMrrStatusSize)).
Proof. split; reflexivity. Qed.

Theorem C11_memory_safe : forall (r : response) (data : bytes) (u : ub), is_bytes data ->
  snd (response_expand strict r data) <> Undef u.
Proof. exact response_safe. Qed.
Print Assumptions C11_memory_safe.
Example C11_memory_safe_example : is_bytes [142; 0; 31; 255; 1; 2; 3]
  /\ snd (response_expand strict response0 [142; 0; 31; 255; 1; 2; 3]) = Throw (RuntimeError RtMrrStatusSize).
Proof. split; [wf|reflexivity]. Qed.

Theorem C11_accepted_iff : forall (h : heap) (r : response) data r', is_bytes data ->
  (response_expand h r data = (r', Ok tt) <->
   exists service rsv status addl d, data = response_bytes service rsv status addl d
     /\ is_words addl /\ zlen addl < 256 /\ r' = mkResp service status addl d (r_items r)).
Proof. exact response_accept. Qed.
Print Assumptions C11_accepted_iff.
Example C11_accepted_example : is_bytes [142; 0; 31; 1; 1; 2; 9]
  /\ response_expand strict response0 [142; 0; 31; 1; 1; 2; 9] = (mkResp 142 31 [513] [9] [], Ok tt)
  /\ snd (response_expand strict response0 [142; 0; 31; 1; 1]) <> Ok tt.
Proof. split; [wf|]. split; [reflexivity|discriminate]. Qed.

(** C12. Full statement: every list of items. It fails above the 16-bit limits. *)
Theorem C12_roundtrip_partial : forall (h : heap) (items : list cpitem),
  Forall item_wf items -> zlen items < 65536 ->
  cp_pack items = cpf_bytes items /\ cp_expand h (cp_pack items) = (items, Ok tt).
Proof. exact cp_roundtrip. Qed.
Print Assumptions C12_roundtrip_partial.
Example C12_example : Forall item_wf [item_null; item_of 178 [1; 2; 3]]
  /\ cp_pack [item_null; item_of 178 [1; 2; 3]] = [2; 0; 0; 0; 0; 0; 178; 0; 3; 0; 1; 2; 3].
Proof. split; [items_wf|reflexivity]. Qed.

(** Any number of items: only the first [count mod 65536] survive. *)
Theorem C12_any_count : forall (h : heap) (items : list cpitem), Forall item_wf items ->
  cp_expand h (cp_pack items) = (firstn (Z.to_nat (zlen items mod 65536)) items, Ok tt).
Proof. exact cp_roundtrip_any. Qed.
Print Assumptions C12_any_count.
Example C12_any_count_example : Forall item_wf [item_of 178 [1; 2; 3]; item_null]
  /\ cp_expand strict (cp_pack [item_of 178 [1; 2; 3]; item_null]) = ([item_of 178 [1; 2; 3]; item_null], Ok tt).
Proof. split; [items_wf|reflexivity]. Qed.

(** The bytes of one item of any size. *)
Theorem C12_item_bytes : forall ty (d : bytes), is_u16 ty ->
  item_pack (item_of ty d) = le 2 ty ++ le 2 (zlen d) ++ (if zlen d mod 65536 =? 0 then [] else d).
Proof. exact item_pack_any. Qed.
Print Assumptions C12_item_bytes.
Example C12_item_bytes_example : is_u16 178 /\ item_pack (item_of 178 [7; 8]) = [178; 0; 2; 0; 7; 8]
  /\ item_pack (item_of 161 []) = [161; 0; 0; 0].
Proof. split; [wf|split; reflexivity]. Qed.

Theorem C12_refuted : exists items : list cpitem,
  Forall (fun i => exists ty d, is_u16 ty /\ is_bytes d /\ i = item_of ty d) items
  /\ zlen items < 65536
  /\ exists items', cp_expand strict (cp_pack items) = (items', Ok tt) /\ items' <> items.
Proof. exact cp_roundtrip_refuted. Qed.
Print Assumptions C12_refuted.

Theorem C12_item_equality : forall a b : cpitem, item_eqb a b = true <-> a = b.
Proof. exact item_eqb_iff. Qed.
Print Assumptions C12_item_equality.
Example C12_item_equality_example :
  item_eqb (item_of 178 [7; 8]) (item_of 178 [7; 8]) = true
  /\ item_eqb (item_of 178 [7; 8]) (item_of 178 [7; 9]) = false
  /\ item_eqb (item_of 178 [7; 8]) (item_of 177 [7; 8]) = false.
Proof. repeat split. Qed.

(** C13 *)
Theorem C13_accepted_iff : forall (h : heap) (data : bytes) (items : list cpitem),
  is_bytes data -> (2 <= List.length data)%nat ->
  (cp_expand h data = (items, Ok tt) <->
   exists count rest, is_u16 count /\ Forall item_wf items
     /\ data = le 2 count ++ items_bytes items ++ rest
     /\ (zlen items = count \/ zlen items < count /\ rest = [])).
Proof. exact cp_accept. Qed.
Print Assumptions C13_accepted_iff.
Example C13_example :
  cp_expand strict [2; 0; 0; 0; 0; 0; 178; 0; 1; 0; 7; 5]
  = ([item_null; item_of 178 [7]], Ok tt).
Proof. reflexivity. Qed.

(** Every input of at least two bytes is a count, complete items and a rest. *)
Theorem C13_cases : forall data : bytes, is_bytes data -> (2 <= List.length data)%nat ->
  exists count items tail, is_u16 count /\ Forall item_wf items
    /\ data = le 2 count ++ items_bytes items ++ tail
    /\ (zlen items = count \/ zlen items < count /\ (tail = [] \/ cut tail)).
Proof. exact cp_cases. Qed.
Print Assumptions C13_cases.
Example C13_cases_example :
  [3; 0; 0; 0; 0; 0; 178; 0; 9; 0; 1] = le 2 3 ++ items_bytes [item_null] ++ [178; 0; 9; 0; 1]
  /\ is_bytes [3; 0; 0; 0; 0; 0; 178; 0; 9; 0; 1] /\ zlen [item_null] < 3.
Proof. split; [reflexivity|]. split; [wf|reflexivity]. Qed.

Theorem C13_cut_not_accepted : forall (h : heap) count items tail,
  is_u16 count -> Forall item_wf items -> is_bytes tail -> zlen items < count -> cut tail ->
  cp_expand h (le 2 count ++ items_bytes items ++ tail) = (items, Undef UbOobRead)
  \/ cp_expand h (le 2 count ++ items_bytes items ++ tail)
     = (items, Throw (RuntimeError RtCommonPacketFormat)).
Proof. exact cp_expand_cut. Qed.
Print Assumptions C13_cut_not_accepted.
Example C13_cut_example : cut [178; 0; 9; 0; 1].
Proof.
  split; [discriminate|]. intros (i & rest & W & E).
  destruct W as (T & _ & L & B). unfold item_bytes in E. unfold is_u16 in T.
  cbn [le app] in E. injection E as E1 E2 E3 E4 E5.
  pose proof (zlen_nonneg (it_data i)).
  assert (H9 : zlen (it_data i) = 9) by (clear - E3 E4 L H; Z.div_mod_to_equations; lia).
  unfold zlen in H9. apply (f_equal (@List.length Z)) in E5. rewrite app_length in E5. cbn in E5. lia.
Qed.

(** How it is refused: the bytes beyond the input are read first. *)
Theorem C13_cut_reads_out_of_bounds : forall count items tail,
  is_u16 count -> Forall item_wf items -> is_bytes tail -> zlen items < count -> cut tail ->
  cp_expand strict (le 2 count ++ items_bytes items ++ tail) = (items, Undef UbOobRead).
Proof. exact cp_expand_cut_strict. Qed.
Print Assumptions C13_cut_reads_out_of_bounds.
Example C13_cut_reads_example :
  is_u16 3 /\ Forall item_wf [item_null] /\ zlen [item_null] < 3
  /\ cp_expand strict (le 2 3 ++ items_bytes [item_null] ++ [178; 0; 9; 0; 1]) = ([item_null], Undef UbOobRead).
Proof. split; [wf|]. split; [items_wf|]. split; reflexivity. Qed.

(** Inputs without a complete count never give an item. *)
Theorem C13_no_count : forall (h : heap) data, (List.length data < 2)%nat ->
  cp_expand h data = ([], Ok tt) \/ cp_expand h data = ([], Undef UbOobRead).
Proof. exact cp_expand_tiny. Qed.
Print Assumptions C13_no_count.
Example C13_no_count_example :
  cp_expand (fun _ _ => Some 0) [7] = ([], Undef UbOobRead)
  \/ cp_expand (fun _ _ => Some 0) [7] = ([], Ok tt).
Proof. vm_compute. auto. Qed.
Theorem C13_no_count_reads_out_of_bounds : forall data, (List.length data < 2)%nat ->
  cp_expand strict data = ([], Undef UbOobRead).
Proof. exact cp_expand_tiny_strict. Qed.
Print Assumptions C13_no_count_reads_out_of_bounds.
Example C13_no_count_reads_example : (List.length [7]%Z < 2)%nat /\ cp_expand strict [7] = ([], Undef UbOobRead).
Proof. split; [cbn; lia|reflexivity]. Qed.

(** C14 *)
Theorem C14_setters : forall c hd st d,
  e_set_data (e_set_status (e_set_handle (e_set_command encaps0 c) hd) st) d = packet c hd st d.
Proof. exact encaps_built. Qed.
Print Assumptions C14_setters.

Theorem C14_roundtrip : forall (h : heap) (p0 p : encaps),
  encaps_wf p -> e_length p = zlen (e_data p) -> List.length (e_context p0) = 8%nat ->
  encaps_pack p = encaps_bytes (e_command p) (zlen (e_data p)) (e_handle p) (e_status p)
                               (e_context p) (e_options p) (e_data p)
  /\ List.length (encaps_pack p) = (24 + List.length (e_data p))%nat
  /\ encaps_expand h p0 (encaps_pack p) = (p, Ok tt).
Proof. exact encaps_roundtrip. Qed.
Print Assumptions C14_roundtrip.
Example C14_example : encaps_wf (packet 111 7 0 [1; 2]) /\ e_length (packet 111 7 0 [1; 2]) = 2
  /\ encaps_pack (packet 111 7 0 [1; 2])
     = [111; 0; 2; 0; 7; 0; 0; 0; 0; 0; 0; 0; 0; 0; 0; 0; 0; 0; 0; 0; 0; 0; 0; 0; 1; 2].
Proof.
  split; [|split; reflexivity]. apply packet_wf; [unfold is_u16; lia|unfold is_u32; lia..|].
  repeat constructor; unfold is_u8; lia.
Qed.

(** Data of any size: up to 65535 bytes the packet survives, above that the
    receiver refuses it. *)
Theorem C14_any_size : forall (h : heap) c hd st d,
  is_u16 c -> is_u32 hd -> is_u32 st -> is_bytes d ->
  let p := packet c hd st d in
  if zlen d <? 65536
  then encaps_expand h encaps0 (encaps_pack p) = (p, Ok tt)
  else snd (encaps_expand h encaps0 (encaps_pack p)) = Throw (RuntimeError RtEncapsLength).
Proof. exact packet_roundtrip. Qed.
Print Assumptions C14_any_size.
Example C14_any_size_example :
  encaps_expand strict encaps0 (encaps_pack (packet 111 7 0 [1; 2])) = (packet 111 7 0 [1; 2], Ok tt).
Proof. apply (C14_any_size strict 111 7 0 [1; 2]); wf. Qed.
Example C14_any_size_large_example :
  let d := repeat 0 (Z.to_nat 65536) in
  snd (encaps_expand strict encaps0 (encaps_pack (packet 111 7 0 d))) = Throw (RuntimeError RtEncapsLength).
Proof.
  intros d. assert (L : zlen d = 65536) by (unfold zlen, d; rewrite repeat_length; reflexivity).
  assert (B : is_bytes d)
    by (apply Forall_forall; intros x H; apply repeat_spec in H; subst; unfold is_u8; lia).
  pose proof (C14_any_size strict 111 7 0 d) as T. cbv zeta in T. rewrite L in T.
  apply T; [unfold is_u16|unfold is_u32..|exact B]; lia.
Qed.

Theorem C14_equality : forall a b : encaps, encaps_eqb a b = true <-> a = b.
Proof. exact encaps_eqb_iff. Qed.
Print Assumptions C14_equality.
Example C14_equality_example :
  encaps_eqb (packet 111 7 0 [1; 2]) (packet 111 7 0 [1; 2]) = true
  /\ encaps_eqb (packet 111 7 0 [1; 2]) (packet 111 7 1 [1; 2]) = false.
Proof. split; reflexivity. Qed.

(** C15. [h] is arbitrary, so with [strict] no byte outside the input is read. *)
Theorem C15_validation : forall (h : heap) (p : encaps) (data : bytes),
  is_bytes data -> List.length (e_context p) = 8%nat ->
  snd (encaps_expand h p data)
  = (if Nat.ltb (List.length data) 24 then Throw (RuntimeError RtEncapsShort)
     else if le_val (firstn 2 (skipn 2 data)) =? zlen data - 24 then Ok tt
     else Throw (RuntimeError RtEncapsLength)).
Proof. exact encaps_total. Qed.
Print Assumptions C15_validation.
Example C15_example : List.length (e_context encaps0) = 8%nat
  /\ snd (encaps_expand strict encaps0 (encaps_pack (packet 111 7 0 [1; 2]) ++ [3]))
     = Throw (RuntimeError RtEncapsLength).
Proof. split; reflexivity. Qed.

(** What is accepted is exactly the encoding of the resulting packet. *)
Theorem C15_value : forall (h : heap) (p : encaps) data p',
  is_bytes data -> List.length (e_context p) = 8%nat ->
  encaps_expand h p data = (p', Ok tt) ->
  encaps_wf p' /\ e_length p' = zlen (e_data p') /\ encaps_pack p' = data.
Proof. exact encaps_value. Qed.
Print Assumptions C15_value.
Example C15_value_example :
  let data := encaps_pack (packet 111 7 0 [1; 2]) in
  is_bytes data /\ encaps_expand strict (packet 1 2 3 [4]) data = (packet 111 7 0 [1; 2], Ok tt).
Proof. split; [wf|reflexivity]. Qed.

(** A wrong length leaves the header of the bad packet in the object. *)
Theorem C15_header : forall (h : heap) (p0 : encaps) command length handle status context options data,
  is_u16 command -> is_u16 length -> is_u32 handle -> is_u32 status -> is_u32 options ->
  List.length context = 8%nat -> List.length (e_context p0) = 8%nat ->
  encaps_expand h p0 (encaps_bytes command length handle status context options data)
  = if zlen data =? length
    then (mkEncaps command length handle status context options data, Ok tt)
    else (mkEncaps command length handle status context options (e_data p0), Throw (RuntimeError RtEncapsLength)).
Proof. exact encaps_head. Qed.
Print Assumptions C15_header.
Example C15_header_example :
  encaps_expand strict (packet 1 2 3 [4]) (encaps_bytes 111 3 7 0 [1;2;3;4;5;6;7;8] 9 [5])
  = (mkEncaps 111 3 7 0 [1;2;3;4;5;6;7;8] 9 [4], Throw (RuntimeError RtEncapsLength)).
Proof. apply (C15_header strict (packet 1 2 3 [4]) 111 3 7 0 [1;2;3;4;5;6;7;8] 9 [5]); wf. Qed.

Theorem C15_length_from_header : forall (h : heap) data, is_bytes data -> (4 <= List.length data)%nat ->
  length_from_header h data = Ok (le_val (firstn 2 (skipn 2 data))).
Proof. exact length_from_header_ok. Qed.
Print Assumptions C15_length_from_header.
Example C15_length_example : is_bytes [111; 0; 2; 1] /\ (4 <= List.length [111; 0; 2; 1]%Z)%nat
  /\ length_from_header strict [111; 0; 2; 1] = Ok 258.
Proof. split; [wf|]. split; [cbn; lia|reflexivity]. Qed.
Theorem C15_length_from_short_header : forall data, (List.length data < 4)%nat ->
  length_from_header strict data = Undef UbOobRead.
Proof. exact length_from_header_short. Qed.
Print Assumptions C15_length_from_short_header.
Example C15_length_short_example : (List.length [111; 0; 2]%Z < 4)%nat
  /\ length_from_header strict [111; 0; 2] = Undef UbOobRead.
Proof. split; [cbn; lia|reflexivity]. Qed.

(** C16 *)
Theorem C16_register_session :
  encaps_pack register_packet = encaps_bytes 101 4 0 0 [0;0;0;0;0;0;0;0] 0 (le 2 1 ++ le 2 0).
Proof. exact factory_register. Qed.
Print Assumptions C16_register_session.
Theorem C16_unregister_session : forall handle,
  encaps_pack (unregister_packet handle) = encaps_bytes 102 0 handle 0 [0;0;0;0;0;0;0;0] 0 [].
Proof. exact factory_unregister. Qed.
Print Assumptions C16_unregister_session.
Theorem C16_send_rr_data : forall handle timeout data,
  encaps_pack (rr_data_packet handle timeout data)
  = encaps_bytes 111 (6 + zlen data) handle 0 [0;0;0;0;0;0;0;0] 0 (le 4 0 ++ le 2 timeout ++ data).
Proof. exact factory_rr. Qed.
Print Assumptions C16_send_rr_data.
Theorem C16_list_identity :
  encaps_pack list_identity_packet = encaps_bytes 99 0 0 0 [0;0;0;0;0;0;0;0] 0 [].
Proof. exact factory_list_identity. Qed.
Print Assumptions C16_list_identity.
Example C16_example : encaps_pack register_packet
  = [101; 0; 4; 0; 0; 0; 0; 0; 0; 0; 0; 0; 0; 0; 0; 0; 0; 0; 0; 0; 0; 0; 0; 0; 1; 0; 0; 0]
  /\ encaps_pack (rr_data_packet 258 3 [9])
  = [111; 0; 7; 0; 2; 1; 0; 0; 0; 0; 0; 0; 0; 0; 0; 0; 0; 0; 0; 0; 0; 0; 0; 0; 0; 0; 0; 0; 3; 0; 9].
Proof. split; reflexivity. Qed.

(** C17 *)
Theorem C17_one_packet : forall (h : heap) handle answer use8 service path data extra log,
  let p := request_packet handle use8 service path data extra in
  send_request h (recording handle answer) use8 service path data extra log
  = (rcv <- answer log p ;; reply_response h rcv, log ++ [p]).
Proof. exact send_recorded. Qed.
Print Assumptions C17_one_packet.

Theorem C17_adapter_recovers : forall use8 service (i : ids) data extra handle,
  i <> Ids0 -> is_u32 handle -> is_u8 service -> ids_wf i -> is_bytes data -> Forall item_wf extra ->
  zlen (cpf_bytes ([item_null; item_of 178 (request_pack use8 service (build i) data)] ++ extra)) + 6 < 65536 ->
  parse_rr (encaps_pack (request_packet handle use8 service (build i) data extra))
  = Some (mkRR handle 0 ([(0, []); (178, request_pack use8 service (build i) data)] ++ wire_items extra))
  /\ parse_request (request_pack use8 service (build i) data)
     = Some (service, path_bytes (segments use8 i), data).
Proof. exact request_on_wire. Qed.
Print Assumptions C17_adapter_recovers.
Example C17_example :
  Ids3 4 100 3 <> Ids0 /\ ids_wf (Ids3 4 100 3) /\ Forall item_wf [item_of 32768 [1; 2]]
  /\ zlen (cpf_bytes ([item_null; item_of 178 (request_pack false 16 (build (Ids3 4 100 3)) [5])]
                        ++ [item_of 32768 [1; 2]])) + 6 < 65536
  /\ parse_rr (encaps_pack (request_packet 9 false 16 (build (Ids3 4 100 3)) [5] [item_of 32768 [1; 2]]))
     = Some (mkRR 9 0 [(0, []); (178, [16; 6; 33; 0; 4; 0; 37; 0; 100; 0; 49; 0; 3; 0; 5]); (32768, [1; 2])]).
Proof.
  split; [discriminate|]. split; [wf|]. split; [items_wf|].
  split; [cbn; lia|reflexivity].
Qed.

Theorem C17_yaskawa_one_packet : forall (h : heap) handle answer service path data extra log,
  let p := yrequest_packet handle service path data extra in
  ysend_request h (recording handle answer) service path data extra log
  = (rcv <- answer log p ;; reply_response h rcv, log ++ [p]).
Proof. exact ysend_recorded. Qed.
Print Assumptions C17_yaskawa_one_packet.

Theorem C17_yaskawa_adapter_recovers : forall service (i : ids) data extra handle,
  i <> Ids0 -> is_u32 handle -> is_u8 service -> ids_small i -> is_bytes data -> Forall item_wf extra ->
  zlen (cpf_bytes ([item_null; item_of 178 (request_pack true service (build i) data)] ++ extra)) + 6 < 65536 ->
  parse_rr (encaps_pack (yrequest_packet handle service (ybuild i) data extra))
  = Some (mkRR handle 0 ([(0, []); (178, yrequest_pack service (ybuild i) data)] ++ wire_items extra))
  /\ parse_request (yrequest_pack service (ybuild i) data)
     = Some (service, path_bytes (segments true i), data).
Proof. exact yrequest_on_wire. Qed.
Print Assumptions C17_yaskawa_adapter_recovers.
Example C17_yaskawa_example :
  Ids3 114 1 1 <> Ids0 /\ ids_small (Ids3 114 1 1)
  /\ parse_rr (encaps_pack (yrequest_packet 9 14 (ybuild (Ids3 114 1 1)) [5] [item_of 32768 [1; 2]]))
     = Some (mkRR 9 0 [(0, []); (178, yrequest_pack 14 (ybuild (Ids3 114 1 1)) [5]); (32768, [1; 2])])
  /\ parse_request (yrequest_pack 14 (ybuild (Ids3 114 1 1)) [5])
     = Some (14, [32; 114; 36; 1; 48; 1], [5]).
Proof. split; [discriminate|]. split; [wf|]. split; reflexivity. Qed.

(** Above the size limit the packet carries a length its receiver refuses. *)
Theorem C17_too_long : forall (h : heap) handle timeout d,
  is_u32 handle -> is_bytes d -> 65536 <= zlen d + 6 ->
  snd (encaps_expand h encaps0 (encaps_pack (rr_data_packet handle timeout d)))
  = Throw (RuntimeError RtEncapsLength).
Proof. exact encaps_too_long. Qed.
Print Assumptions C17_too_long.
Example C17_too_long_example :
  let d := repeat 0 (Z.to_nat 65530) in
  is_u32 9 /\ is_bytes d /\ 65536 <= zlen d + 6.
Proof.
  intros d. split; [unfold is_u32; lia|]. split.
  - apply Forall_forall. intros x H. apply repeat_spec in H. subst. unfold is_u8. lia.
  - unfold zlen, d. rewrite repeat_length, Z2Nat.id; lia.
Qed.

(** C18 *)
Theorem C18_well_formed : forall (h : heap) rcv ih to count a it extra rest service rsv status addl d,
  e_data rcv = le 4 ih ++ le 2 to ++ le 2 count ++ items_bytes (a :: it :: extra) ++ rest ->
  is_u16 count -> Forall item_wf (a :: it :: extra) ->
  (zlen (a :: it :: extra) = count \/ zlen (a :: it :: extra) < count /\ rest = []) ->
  it_data it = response_bytes service rsv status addl d -> is_words addl -> zlen addl < 256 ->
  reply_response h rcv = Ok (mkResp service status addl d extra).
Proof. exact reply_good. Qed.
Print Assumptions C18_well_formed.
Example C18_example :
  reply_response strict (packet 111 9 0 [0;0;0;0; 0;0; 3;0; 0;0;0;0; 178;0;5;0;142;0;0;0;77; 0;128;1;0;55])
  = Ok (mkResp 142 0 [] [77] [item_of 32768 [55]]).
Proof. reflexivity. Qed.

(** A response is only ever produced from such a reply. *)
Theorem C18_sound : forall (h : heap) rcv r, is_bytes (e_data rcv) -> reply_response h rcv = Ok r ->
  exists ih to count a it extra rest service rsv status addl d,
    e_data rcv = le 4 ih ++ le 2 to ++ le 2 count ++ items_bytes (a :: it :: extra) ++ rest
    /\ is_u16 count /\ Forall item_wf (a :: it :: extra)
    /\ (zlen (a :: it :: extra) = count \/ zlen (a :: it :: extra) < count /\ rest = [])
    /\ it_data it = response_bytes service rsv status addl d /\ is_words addl /\ zlen addl < 256
    /\ r = mkResp service status addl d extra.
Proof. exact reply_sound. Qed.
Print Assumptions C18_sound.
Example C18_sound_example :
  let rcv := packet 111 9 0 [0;0;0;0; 0;0; 9;0; 0;0;0;0; 178;0;6;0;142;0;1;1;3;2] in
  is_bytes (e_data rcv) /\ reply_response strict rcv = Ok (mkResp 142 1 [515] [] []).
Proof. split; [wf|reflexivity]. Qed.

Theorem C18_too_short : forall (h : heap) rcv, (List.length (e_data rcv) < 6)%nat ->
  reply_response h rcv = Throw LengthError.
Proof. exact reply_short. Qed.
Print Assumptions C18_too_short.
Example C18_too_short_example :
  let rcv := packet 111 9 0 [0;0;0;0;0] in
  (List.length (e_data rcv) < 6)%nat /\ reply_response strict rcv = Throw LengthError.
Proof. split; [cbn; lia|reflexivity]. Qed.

Theorem C18_few_items : forall (h : heap) rcv ih to count items rest,
  e_data rcv = le 4 ih ++ le 2 to ++ le 2 count ++ items_bytes items ++ rest ->
  is_u16 count -> Forall item_wf items -> (List.length items < 2)%nat ->
  (zlen items = count \/ zlen items < count /\ rest = []) ->
  reply_response h rcv = Throw OutOfRange.
Proof. exact reply_few_items. Qed.
Print Assumptions C18_few_items.
Example C18_few_items_example :
  reply_response strict (packet 111 9 0 [0;0;0;0; 0;0; 1;0; 178;0;4;0;142;0;0;0]) = Throw OutOfRange.
Proof. reflexivity. Qed.

Theorem C18_never_aborts : forall (h : heap) rcv, is_bytes (e_data rcv) -> reply_response h rcv <> Abort.
Proof. exact reply_no_abort. Qed.
Print Assumptions C18_never_aborts.
Example C18_never_aborts_example :
  let rcv := packet 111 9 0 [0;0;0;0; 0;0; 2;0; 0;0;0;0; 178;0;3;0;142;0;1] in
  is_bytes (e_data rcv) /\ reply_response strict rcv = Throw (RuntimeError RtMrrShort).
Proof. split; [wf|reflexivity]. Qed.

(** "Raises an exception" fails for a valid packet that ends after the
    interface handle and timeout: the count is read out of bounds. *)
Theorem C18_refuted : exists rcv, is_bytes (e_data rcv) /\ encaps_wf rcv
  /\ e_length rcv = zlen (e_data rcv) /\ reply_response strict rcv = Undef UbOobRead.
Proof. exact reply_unsafe. Qed.
Print Assumptions C18_refuted.
