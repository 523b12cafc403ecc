(** The unit tests of the repository (test/), run on the model: what the tests
    expect of the program is what the model does. Not repeated here are tests of
    nothing but C++ itself (test/utils/TestBuffer.cpp:266-274 and 286-294 compare
    a constant with itself) and the tests that are disabled
    (test/vendor/ra/powerFlex525/TestDPIFaultManager.cpp:34-91). *)
From Verif Require Import Base MBuffer MEip MSocket MFile MIdent MParam MReal MFault MDisc.
From Coq Require Import SpecFloat.
Local Open Scope outcome_scope.

(** ** test/Mocks.h *)

(** TMockMessageRouter: the calls that are expected, each once and in any order
    (EXPECT_CALL ... WillOnce), and the reply to each. Here they are seen below
    the router, as the requests that reach the session; the handle is 0. *)
Definition expected := list (encaps * encaps).
Definition call (service : Z) (path : epath) (data : bytes) (status : Z) (reply : bytes) : encaps * encaps :=
  (request_packet 0 false service path data [],
   rr_data_packet 0 0 (cp_pack [item_null; item_unconnected ([Z.lor service 128; 0; status; 0] ++ reply)])).
Fixpoint answer (p : encaps) (l : expected) : outcome encaps * expected :=
  match l with
  | [] => (Abort, [])
  | (q, r) :: l' => if encaps_eqb p q then (Ok r, l') else let '(o, l'') := answer p l' in (o, (q, r) :: l'')
  end.
Definition mock (handle : Z) : session_if expected := mkSession handle (fun p l => answer p l).

(** The value, if all the expected calls were made. *)
Definition met {A} (r : outcome A * expected) : option A := match r with (Ok a, []) => Some a | _ => None end.
Definition throws {A} (o : outcome A) : bool := match o with Throw (RuntimeError _) => true | _ => false end.

(** EXPECT_DOUBLE_EQ: at most four units in the last place apart. *)
Definition double_eq (bits : Z) (o : outcome spec_float) : bool :=
  match o with Ok f => Z.abs (bits_of_float RLreal f - bits) <=? 4 | _ => false end.

(** ** test/utils/TestBuffer.cpp *)

Example push_uint8 : bdata (put_u8 (put_u8 (put_u8 buf_new 0) 1) 2) = [0; 1; 2].
Proof. vm_compute. reflexivity. Qed.
Example push_int8 : bdata (put_s8 (put_s8 (put_s8 buf_new 0) 1) 2) = [0; 1; 2].
Proof. vm_compute. reflexivity. Qed.
Example push_uint16 : bdata (put_u16 (put_u16 buf_new 0x100) 0x0302) = [0; 1; 2; 3].
Proof. vm_compute. reflexivity. Qed.
Example push_int16 : bdata (put_s16 (put_s16 buf_new 0x100) 0x0302) = [0; 1; 2; 3].
Proof. vm_compute. reflexivity. Qed.
Example push_uint32 : bdata (put_u32 buf_new 0x03020100) = [0; 1; 2; 3].
Proof. vm_compute. reflexivity. Qed.
Example push_int32 : bdata (put_s32 buf_new 0x03020100) = [0; 1; 2; 3].
Proof. vm_compute. reflexivity. Qed.
Example push_uint64 : bdata (put_u64 buf_new 0x0706050403020100) = [0; 1; 2; 3; 4; 5; 6; 7].
Proof. vm_compute. reflexivity. Qed.
Example push_int64 : bdata (put_s64 buf_new 0x0706050403020100) = [0; 1; 2; 3; 4; 5; 6; 7].
Proof. vm_compute. reflexivity. Qed.
Example push_vector_uint8 : bdata (put_bytes buf_new [0; 1; 2; 3]) = [0; 1; 2; 3].
Proof. vm_compute. reflexivity. Qed.
Example push_vector_uint16 : bdata (put_words buf_new [0x100; 0x0302]) = [0; 1; 2; 3].
Proof. vm_compute. reflexivity. Qed.

Definition three {A} (get : buffer -> outcome (A * buffer)) (d : bytes) : outcome (A * A * A) :=
  '(a, b) <- get (buf_of d) ;; '(a', b) <- get b ;; '(a'', _) <- get b ;; Ok (a, a', a'').
Definition two {A} (get : buffer -> outcome (A * buffer)) (d : bytes) : outcome (A * A) :=
  '(a, b) <- get (buf_of d) ;; '(a', _) <- get b ;; Ok (a, a').
Definition one {A} (get : buffer -> outcome (A * buffer)) (d : bytes) : outcome A := omap fst (get (buf_of d)).

Example pull_uint8 : three (get_u8 strict) [0; 1; 2] = Ok (0, 1, 2).
Proof. vm_compute. reflexivity. Qed.
Example pull_int8 : three (get_s8 strict) [0; 1; 2] = Ok (0, 1, 2).
Proof. vm_compute. reflexivity. Qed.
Example pull_uint16 : two (get_u16 strict) [0; 1; 2; 3] = Ok (0x100, 0x0302).
Proof. vm_compute. reflexivity. Qed.
Example pull_int16 : two (get_s16 strict) [0; 1; 2; 3] = Ok (0x100, 0x0302).
Proof. vm_compute. reflexivity. Qed.
Example pull_uint32 : one (get_u32 strict) [0; 1; 2; 3] = Ok 0x03020100.
Proof. vm_compute. reflexivity. Qed.
Example pull_int32 : one (get_s32 strict) [0; 1; 2; 3] = Ok 0x03020100.
Proof. vm_compute. reflexivity. Qed.
Example pull_uint64 : one (get_u64 strict) [0; 1; 2; 3; 4; 5; 6; 7] = Ok 0x0706050403020100.
Proof. vm_compute. reflexivity. Qed.
Example pull_int64 : one (get_s64 strict) [0; 1; 2; 3; 4; 5; 6; 7] = Ok 0x0706050403020100.
Proof. vm_compute. reflexivity. Qed.
Example pull_vector_uint8 : one (get_bytes strict 4) [0; 1; 2; 3] = Ok [0; 1; 2; 3].
Proof. vm_compute. reflexivity. Qed.
Example pull_vector_uint16 : one (get_words strict 2) [0; 1; 2; 3] = Ok [0x100; 0x0302].
Proof. vm_compute. reflexivity. Qed.

Example decode_revision : bdata (put_rev buf_new (mkRev 1 2)) = [1; 2].
Proof. vm_compute. reflexivity. Qed.
Example encode_revision : one (get_rev strict) [1; 2] = Ok (mkRev 1 2).
Proof. vm_compute. reflexivity. Qed.

(** inet_aton on the texts of the tests *)
Definition aton (s : string) : option Z := if String.eqb s "127.0.0.1" then Some 0x0100007F else None.
Definition loopback_2222 : bytes := [0x00; 0x02; 0x08; 0xae; 0x7f; 0x0; 0x0; 0x1; 0; 0; 0; 0; 0; 0; 0; 0].
Example decode_endpoint : bdata (put_endpoint buf_new (ep_of_host aton "127.0.0.1" 2222)) = loopback_2222.
Proof. vm_compute. reflexivity. Qed.
Example encode_endpoint :
  one (get_endpoint strict) loopback_2222 = Ok (mkEP "127.0.0.1" 2222 (mkAddr 2 0xae08 0x0100007f)).
Proof. vm_compute. reflexivity. Qed.

(** 10.5 *)
Example decode_float : decode_real RReal (S754_finite false 11010048 (-20)) = [0; 0; 0x28; 0x41].
Proof. vm_compute. reflexivity. Qed.
Example decode_double : decode_real RLreal (S754_finite false 5910974510923776 (-49)) = [0; 0; 0; 0; 0; 0; 0x25; 0x40].
Proof. vm_compute. reflexivity. Qed.
Example ten_and_a_half :
  SFmul 24 128 (S754_finite false 11010048 (-20)) (binary_normalize 24 128 2 0 false) = binary_normalize 24 128 21 0 false
  /\ SFmul 53 1024 (S754_finite false 5910974510923776 (-49)) (of_int double 2) = of_int double 21.
Proof. vm_compute. split; reflexivity. Qed.

(** ** test/cip *)

(** TestCipRevision.cpp *)
Example revision_text : rev_to_string (mkRev 1 2) = "1.2"%string.
Proof. vm_compute. reflexivity. Qed.

(** TestCipString.cpp *)
Definition hello : bytes := map (fun c => Z.of_nat (Ascii.nat_of_ascii c)) (String.list_ascii_of_string "Hello!").
Example string_to_std : str_std (short_string hello) = hello.
Proof. vm_compute. reflexivity. Qed.
Example string_by_buffer :
  omap (fun x => str_std (fst x)) (get_short_string strict (put_short_string buf_new (short_string hello))) = Ok hello.
Proof. vm_compute. reflexivity. Qed.

(** TestEPath.cpp *)
Definition expands_to (d : bytes) (p : epath) : bool :=
  match epath_expand strict d with (q, Ok _) => epath_eqb p q | _ => false end.
Example path_8b : expands_to [0x20; 0x05; 0x24; 0x02; 0x30; 0x01] (epath3 0x05 0x02 0x01) = true.
Proof. vm_compute. reflexivity. Qed.
Example path_16b :
  expands_to [0x21; 0x00; 0x05; 0x00; 0x25; 0x00; 0x02; 0x00; 0x31; 0x00; 0x01; 0x00] (epath3 0x05 0x02 0x01) = true.
Proof. vm_compute. reflexivity. Qed.
Example path_combo : expands_to [0x21; 0x00; 0x05; 0x00; 0x24; 0x02; 0x31; 0x00; 0x01; 0x00] (epath3 0x05 0x02 0x01) = true.
Proof. vm_compute. reflexivity. Qed.
Example path_only_class : expands_to [0x21; 0x00; 0x05; 0x00] (epath1 0x05) = true.
Proof. vm_compute. reflexivity. Qed.
Example path_class_and_object : expands_to [0x21; 0x00; 0x05; 0x00; 0x24; 0x02] (epath2 0x05 0x02) = true.
Proof. vm_compute. reflexivity. Qed.
Example path_wrong_segment : throws (snd (epath_expand strict [0x21; 0x00; 0x05; 0x00; 0xf4; 0x02])) = true.
Proof. vm_compute. reflexivity. Qed.

(** ShouldThrowExceptionIfThePathNotComplited passes only if the byte behind
    the vector can be read: the reading itself is undefined. *)
Example path_not_completed (x : Z) :
  throws (snd (epath_expand (fun _ _ => Some x) [0x21; 0x00; 0x05; 0x00; 0x24])) = true.
Proof. vm_compute. reflexivity. Qed.
Example path_not_completed_strict : snd (epath_expand strict [0x21; 0x00; 0x05; 0x00; 0x24]) = Undef UbOobRead.
Proof. vm_compute. reflexivity. Qed.

(** TestMessageRouterResponse.cpp *)
Example response_too_short : throws (snd (response_expand strict response0 [0; 0; 0])) = true.
Proof. vm_compute. reflexivity. Qed.
Example response_status_size : throws (snd (response_expand strict response0 [0; 0; 0; 2; 0; 1])) = true.
Proof. vm_compute. reflexivity. Qed.

(** ** test/eip *)

(** TestCommonPacket.cpp *)
Example packet_expand :
  omap (map it_type) (finished (cp_expand strict ([0x2; 0x0] ++ item_pack item_null ++ item_pack (item_unconnected [0x0; 0x2]))))
  = Ok [NULL_ADDR; UNCONNECTED_MESSAGE].
Proof. vm_compute. reflexivity. Qed.
(** As above, the test relies on a read outside the vector. *)
Definition invalid_packet : bytes := removelast ([0x2; 0x0] ++ item_pack (item_unconnected []) ++ item_pack (item_unconnected [])).
Example packet_invalid : throws (snd (cp_expand (fun _ _ => Some 0) invalid_packet)) = true.
Proof. vm_compute. reflexivity. Qed.
Example packet_invalid_strict : snd (cp_expand strict invalid_packet) = Undef UbOobRead.
Proof. vm_compute. reflexivity. Qed.

(** TestCommonPacketItem.cpp and TestCommonPacketItemFactory.cpp *)
Example unconnected_item :
  item_unconnected [1; 2; 3; 4] = mkItem UNCONNECTED_MESSAGE 4 [1; 2; 3; 4]
  /\ item_pack (item_unconnected [1; 2; 3; 4]) = [0xB2; 0; 4; 0; 1; 2; 3; 4].
Proof. vm_compute. split; reflexivity. Qed.
Example null_item : it_type item_null = NULL_ADDR /\ it_length item_null = 0 /\ item_pack item_null = [0; 0; 0; 0].
Proof. vm_compute. repeat split. Qed.

(** TestEncapsPacket.cpp *)
Definition rr_header : bytes := [0x6F; 0; 0xB; 0; 0xDD; 0xCC; 0xBB; 0xAA] ++ zeros 16.
Example encaps_expands :
  encaps_expand strict encaps0 (rr_header ++ [0; 0; 0; 0; 0x64; 0; 1; 2; 3; 4; 5])
  = (mkEncaps CMD_SEND_RR_DATA 11 0xaabbccdd ENCAPS_SUCCESS (zeros 8) 0 [0; 0; 0; 0; 0x64; 0; 1; 2; 3; 4; 5], Ok tt).
Proof. vm_compute. reflexivity. Qed.
Example encaps_too_short : throws (snd (encaps_expand strict encaps0 (removelast rr_header))) = true.
Proof. vm_compute. reflexivity. Qed.
Example encaps_wrong_length :
  throws (snd (encaps_expand strict encaps0 (rr_header ++ [0; 0; 0; 0; 0x64; 0; 1; 2; 3; 4; 5; 10]))) = true.
Proof. vm_compute. reflexivity. Qed.

(** TestEncapsPacketFactory.cpp *)
Example make_register : encaps_pack register_packet = [0x65; 0; 4; 0] ++ zeros 20 ++ [1; 0; 0; 0].
Proof. vm_compute. reflexivity. Qed.
Example make_unregister :
  encaps_pack (unregister_packet 0xaabbccdd) = [0x66; 0; 0; 0; 0xdd; 0xcc; 0xbb; 0xaa] ++ zeros 16.
Proof. vm_compute. reflexivity. Qed.
Example make_rr_data :
  encaps_pack (rr_data_packet 0xaabbccdd 100 [1; 2; 3; 4; 5]) = rr_header ++ [0; 0; 0; 0; 0x64; 0; 1; 2; 3; 4; 5].
Proof. vm_compute. reflexivity. Qed.
Example make_list_identity : encaps_pack list_identity_packet = [0x63] ++ zeros 23.
Proof. vm_compute. reflexivity. Qed.

(** ** test/sockets/TestEndPoint.cpp *)

Example endpoint_of_host :
  ep_of_host aton "127.0.0.1" 0xAA00 = mkEP "127.0.0.1" 0xAA00 (mkAddr 2 0x00AA 0x0100007F)
  /\ ep_to_string (ep_of_host aton "127.0.0.1" 0xAA00) = "127.0.0.1:43520"%string.
Proof. vm_compute. split; reflexivity. Qed.
Example endpoint_of_addr :
  ep_of_addr (mkAddr 2 0x00AA 0x0100007F) = mkEP "127.0.0.1" 0xAA00 (mkAddr 2 0x00AA 0x0100007F)
  /\ ep_to_string (ep_of_addr (mkAddr 2 0x00AA 0x0100007F)) = "127.0.0.1:43520"%string.
Proof. vm_compute. split; reflexivity. Qed.
Example endpoint_not_parsed : sa_addr (ep_addr (ep_of_host aton "XXXX" 0)) = 0.
Proof. vm_compute. reflexivity. Qed.

(** ** test/TestMessageRouter.cpp *)

Definition router_call : encaps * encaps :=
  (rr_data_packet 10 0 (cp_pack [item_null; item_unconnected (request_pack false 16 (epath3 1 2 3) [0; 1; 2; 3]); item_null]),
   rr_data_packet 10 0 (cp_pack [item_null; item_unconnected [Z.lor 16 128; 0; 0; 0]; item_null])).
Example router_form_and_parse :
  match met (send_request strict (mock 10) false SET_ATTRIBUTE_SINGLE (epath3 1 2 3) [0; 1; 2; 3] [item_null] [router_call]) with
  | Some r => (r_status r =? GSC_SUCCESS) && (zlen (r_items r) =? 1) && forallb (item_eqb item_null) (r_items r)
  | None => false
  end = true.
Proof. vm_compute. reflexivity. Qed.

(** ** test/TestDiscoveryManager.cpp *)

Definition identity_item : bytes :=
  [0xc; 0x0; 0x42; 0x0; 0x1; 0x0; 0x0; 0x2; 0xaf; 0x12; 0xc0; 0xa8;
   0x1; 0xf; 0x0; 0x0; 0x0; 0x0; 0x0; 0x0; 0x0; 0x0; 0x1; 0x0; 0x96; 0x0; 0x9; 0x0;
   0x5; 0x1; 0x30; 0x0; 0x92; 0xe1; 0x8d; 0x80; 0x1d; 0x50; 0x6f; 0x77; 0x65; 0x72; 0x46; 0x6c;
   0x65; 0x78; 0x20; 0x35; 0x32; 0x35; 0x20; 0x31; 0x50; 0x20; 0x31; 0x31; 0x30; 0x56; 0x20; 0x20;
   0x20; 0x2e; 0x35; 0x30; 0x48; 0x50; 0x0; 0x0; 0x0; 0xff].
Definition identity_response : bytes := [0xc6; 0x63] ++ zeros 22 ++ [0x2; 0x0] ++ identity_item ++ identity_item.
Definition text (l : bytes) : string := string_of_list_ascii (map (fun x => ascii_of_nat (Z.to_nat x)) l).
Definition broadcast : endpoint := mkEP "255.255.255.255" 0 (mkAddr 2 0 0xFFFFFFFF).
Example discovery :
  match discover strict (mkDK None None (mkSend 24 0)) broadcast [Dgram identity_response; Dgram identity_response] with
  | (Ok [d0; d1; d2; d3], [(to, request)]) =>
    (text (str_std (id_name (en_identity d3))), id_vendor (en_identity d1), ep_to_string (en_address d0), request)
    = ("PowerFlex 525 1P 110V   .50HP"%string, 1, "192.168.1.15:44818"%string, [0x63] ++ zeros 23)
  | _ => False
  end.
Proof. vm_compute. reflexivity. Qed.

(** ** test/TestIdentityObject.cpp *)

Definition identity_data : bytes :=
  [0x01; 0x0; 0x02; 0x0; 0x03; 0x0; 0x03; 0x04; 0x05; 0x06; 0x07; 0x08; 0x09; 0x0A; 5; 68; 69; 86; 48; 49].
Example identity_constructor :
  option_map (fun o => (o, text (str_std (id_name o))))
    (met (identity_read strict false (mock 0) 1 [call GET_ATTRIBUTE_ALL (epath2 1 1) [] 0 identity_data]))
  = Some (mkIdentity 1 1 2 3 (mkRev 3 4) 0x605 0xA090807 (mkStr 5 [68; 69; 86; 48; 49]), "DEV01"%string).
Proof. vm_compute. reflexivity. Qed.

(** ** test/TestParameterObject.cpp *)

(** CipDataTypes::UDINT is 0xC8 (src/cip/Types.h). *)
Definition param_data (descriptor : Z) : bytes :=
  [0x01; 0x0; 0x0; 0x0; 0x6; 0x20; 0x05; 0x24; 0x02; 0x30; 0x01; descriptor; 0x0; 0xC8; 0x4;
   5; 80; 65; 82; 65; 77; 3; 77; 80; 97; 4; 72; 69; 76; 80;
   0x0; 0x0; 0x0; 0x0; 0x5; 0x0; 0x0; 0x0; 0x3; 0x0; 0x0; 0x0;
   0x2; 0x0; 0x4; 0x0; 0x1; 0x0; 0x6; 0x0; 0x00; 0x00; 0x00; 0x00; 0x00; 0x00; 0x00; 0x00; 0x1].
Definition param_calls (full : bool) (descriptor : Z) : expected :=
  [call GET_ATTRIBUTE_SINGLE (epath3 0x0F 1 6) [] 0 [4];
   call GET_ATTRIBUTE_ALL (epath2 0x0F 1) [] 0 (param_data descriptor)]
  ++ (if (Z.land descriptor 4 >? 0) && full then
        [call GET_ATTRIBUTE_SINGLE (epath3 0x0F 1 13) [] 0 [0x2; 0x0];
         call GET_ATTRIBUTE_SINGLE (epath3 0x0F 1 14) [] 0 [0x4; 0x0];
         call GET_ATTRIBUTE_SINGLE (epath3 0x0F 1 15) [] 0 [0x1; 0x0];
         call GET_ATTRIBUTE_SINGLE (epath3 0x0F 1 16) [] 0 [0x6; 0x0]]
      else []).
Example param_stub :
  match met (param_read strict false (mock 0) 1 false (param_calls false 4)) with
  | Some p => (pa_full p, pa_scalable p, pa_readonly p, encode_value strict IU32 (pa_value p), pa_type p, text (pa_name p))
              = (false, true, false, Ok 1, 0xC8, ""%string)
  | None => False
  end.
Proof. vm_compute. reflexivity. Qed.
Example param_full :
  match met (param_read strict false (mock 0) 1 true (param_calls true 4)) with
  | Some p =>
    (pa_full p, pa_readonly p, encode_value strict IU32 (pa_value p), pa_type p, text (pa_name p), text (pa_units p), text (pa_help p))
    = (true, false, Ok 1, 0xC8, "PARAM"%string, "MPa"%string, "HELP"%string)
    /\ map (encode_value strict IU32) [pa_min p; pa_max p; pa_default p] = [Ok 0; Ok 5; Ok 3]
    /\ (pa_scalable p, pa_mult p, pa_div p, pa_base p, pa_offset p, pa_precision p) = (true, 2, 4, 1, 6, 1)
    /\ double_eq 4599976659396224614 (get_eng double strict IU32 p (pa_value p)) = true
    /\ double_eq 4599075939470750515 (get_eng double strict IU32 p (pa_min p)) = true
    /\ double_eq 4603129179135383962 (get_eng double strict IU32 p (pa_max p)) = true
    /\ double_eq 4601778099247172813 (get_eng double strict IU32 p (pa_default p)) = true
  | None => False
  end.
Proof. vm_compute. repeat split. Qed.
Example param_update :
  match param_read strict false (mock 0) 1 true
          (param_calls true 4 ++ [call GET_ATTRIBUTE_SINGLE (epath3 0x0F 1 1) [] 0 [4; 0; 0; 0]]) with
  | (Ok p, l) =>
    encode_value strict IU32 (pa_value p) = Ok 1
    /\ match update_value strict false (mock 0) (p, l) with
       | (Ok _, (p', [])) => encode_value strict IU32 (pa_value p') = Ok 4
       | _ => False
       end
  | _ => False
  end.
Proof. vm_compute. split; reflexivity. Qed.
Definition param_by_setters : param :=
  fold_left pa_apply [SetReadOnly true; SetScalable true; SetMult 2; SetDiv 4; SetBase 1; SetOffset 6; SetPrecision 1]
            (param_new 1 true 4).
Definition of_bits (bits : Z) : spec_float := float_of_bits RLreal bits.
Example param_setters :
  pa_readonly param_by_setters = true
  /\ double_eq 4599075939470750515 (get_eng double strict IU32 param_by_setters (pa_value param_by_setters)) = true
  /\ (p <- set_eng_min double IU32 param_by_setters (of_bits 4599075939470750515) ;;
      e <- encode_value strict IU32 (pa_min p) ;;
      Ok (double_eq 4599075939470750515 (get_eng double strict IU32 p (pa_min p)), e)) = Ok (true, 0)
  /\ (p <- set_eng_max double IU32 param_by_setters (of_bits 4603129179135383962) ;;
      e <- encode_value strict IU32 (pa_max p) ;;
      Ok (double_eq 4603129179135383962 (get_eng double strict IU32 p (pa_max p)), e)) = Ok (true, 5)
  /\ (p <- set_eng_default double IU32 param_by_setters (of_bits 4601778099247172813) ;;
      e <- encode_value strict IU32 (pa_default p) ;;
      Ok (double_eq 4601778099247172813 (get_eng double strict IU32 p (pa_default p)), e)) = Ok (true, 3).
Proof. vm_compute. repeat split. Qed.
Example param_read_only :
  option_map pa_readonly (met (param_read strict false (mock 0) 1 false (param_calls false 0x10))) = Some true.
Proof. vm_compute. reflexivity. Qed.

(** ** test/fileObject *)

(** TestFileObjectLoadedState.cpp; cip::GeneralStatusCodes::INVALID_PARAMETER is
    0x20. *)
Definition file_state (code : Z) : encaps * encaps := call GET_ATTRIBUTE_SINGLE (epath3 0x37 1 1) [] 0 [code].
Definition initiate (status : Z) : encaps * encaps :=
  call 0x4b (epath2 0x37 1) [0xff] status (bdata (put_u8 (put_u32 buf_new 1000000) 0xff)).
Definition loaded_upload (status : Z) : option fobj :=
  match file_open strict false (mock 0) 1 [file_state 2; initiate status] with
  | (Ok f, l) =>
    match begin_upload strict false (mock 0) 0 (f, l) with (Ok _, (f', [])) => Some f' | _ => None end
  | _ => None
  end.
Example file_initiate : option_map (fun f => state_code (fo_state f)) (loaded_upload 0) = Some 5.
Proof. vm_compute. reflexivity. Qed.
Example file_initiate_failed : option_map (fun f => map hc_status (fo_calls f)) (loaded_upload 0x20) = Some [0x20].
Proof. vm_compute. reflexivity. Qed.

(** TestFileObjectUploadInProgressState.cpp *)
Definition transfer (asked number type : Z) (file : bytes) : encaps * encaps :=
  call 0x4f (epath2 0x37 1) [asked] 0 ([number; type] ++ (if (type =? 2) || (type =? 4) then [0; 0] else []) ++ file).
Definition uploading (size : Z) : fobj := mkFile 1 (FUpload size 255 [] 0 0) [].
(** What the calls of handleTransfers return, and the calls of the handler. *)
Fixpoint handles (n : nat) (x : fobj * expected) : option (list bool * list hcall) :=
  match n with
  | O => match x with (f, []) => Some ([], fo_calls f) | _ => None end
  | S n' =>
    match handle_transfers strict false (mock 0) x with
    | (Ok b, x') => option_map (fun '(bs, c) => (b :: bs, c)) (handles n' x')
    | _ => None
    end
  end.
Example file_opens_in_upload : option_map fo_state (met (file_open strict false (mock 0) 1 [file_state 5])) = Some FLoaded.
Proof. vm_compute. reflexivity. Qed.
Example file_upload :
  handles 3 (uploading (255 * 2 + 10), [transfer 0 0 0 (zeros 255); transfer 1 1 1 (zeros 255); transfer 2 2 2 (zeros 10)])
  = Some ([true; true; false], [mkCall 0 0 (zeros (255 * 2 + 10))]).
Proof. vm_compute. reflexivity. Qed.
Example file_first_and_last :
  handles 1 (uploading 56, [transfer 0 0 4 (zeros 56)]) = Some ([false], [mkCall 0 0 (zeros 56)]).
Proof. vm_compute. reflexivity. Qed.
Example file_check_size :
  handles 2 (uploading (255 * 2 + 10), [transfer 0 0 0 (zeros 255); transfer 1 1 2 (zeros 12)])
  = Some ([true; false], [mkCall 0 0x20 []]).
Proof. vm_compute. reflexivity. Qed.
Example file_check_number :
  handles 1 (uploading (255 * 2 + 10), [transfer 0 255 0 (zeros 255)]) = Some ([false], [mkCall 0 0x20 []]).
Proof. vm_compute. reflexivity. Qed.

(** ** test/vendor/ra/powerFlex525 *)

Definition parameter (n : Z) (status : Z) (reply : bytes) : encaps * encaps :=
  call GET_ATTRIBUTE_SINGLE (epath3 0x0F n 1) [] status reply.
Definition clear_queue : encaps * encaps := call SET_ATTRIBUTE_SINGLE (epath3 0x97 0 3) [2] 0 [].

(** TestDPIFaultManager.cpp *)
Example fault_command : met (write_command strict false (mock 0) CLEAR_FAULT_QUEUE [clear_queue]) = Some tt.
Proof. vm_compute. reflexivity. Qed.
Definition faults_found (clear : bool) (l : expected) : option (list Z) :=
  match handle_faults strict false (mock 0) clear false ([], l) with
  | (Ok _, (fs, [])) => Some (map (fun f => fd_code (fa_details f)) fs)
  | _ => None
  end.
Example faults_and_clear :
  faults_found true [parameter 7 0 [4; 0]; parameter 8 0 [5; 0]; parameter 9 0 [0; 0]; clear_queue] = Some [4; 5].
Proof. vm_compute. reflexivity. Qed.
Example faults_none : faults_found true [parameter 7 0 [0; 0]] = Some [].
Proof. vm_compute. reflexivity. Qed.
Example faults_not_cleared :
  faults_found false [parameter 7 0 [4; 0]; parameter 8 0 [5; 0]; parameter 9 0 [0; 0]] = Some [4; 5].
Proof. vm_compute. reflexivity. Qed.

(** TestDPIFaultObject.cpp *)
Definition fault_information : bytes :=
  [0x01; 0x0; 0x02; 0x03; 69; 82; 82; 79; 82; 32; 32; 32; 32; 32; 32; 32; 32; 32; 32; 32;
   0x01; 0x02; 0x03; 0x4; 0x5; 0x6; 0x7; 0x8; 0x3; 0x0].
Definition fault_object_call (status : Z) : expected := [call GET_ATTRIBUTE_SINGLE (epath3 0x97 1 0) [] status fault_information].
Example fault_object_constructor :
  match met (fault_object_read strict false (mock 0) 1 (fault_object_call 0)) with
  | Some o => (fo2_code o, fo2_port o, fo2_device o, text (str_std (fo2_text o)), fo2_timer o, fo2_valid o, fo2_real o)
              = (1, 2, 3, "ERROR           "%string, 0x0807060504030201, true, true)
  | None => False
  end.
Proof. vm_compute. reflexivity. Qed.
(** INVALID_ATTRIBUTE_VALUE is 9 *)
Example fault_object_failed : throws (fst (fault_object_read strict false (mock 0) 1 (fault_object_call 9))) = true.
Proof. vm_compute. reflexivity. Qed.

(** TestDPIFaultParameter.cpp *)
Example fault_parameter :
  option_map fa_details (met (fault_read strict false (mock 0) 1 true
                                [parameter 7 0 [4; 0]; parameter 651 0 [3; 0]; parameter 641 0 [200; 0]; parameter 631 0 [100; 0]]))
  = Some (mkDetails 1 4 (of_int double 3) (of_int double 2) (of_int double 1)).
Proof. vm_compute. reflexivity. Qed.
Example fault_parameter_failed : throws (fst (fault_read strict false (mock 0) 1 false [parameter 7 9 []])) = true.
Proof. vm_compute. reflexivity. Qed.
