(** Properties C31-C38, C42, C43, C46, C71: the connection manager. *)
From Verif Require Import Base MBuffer SBuffer PBase MEip SEip MSocket MConnReq SConnReq MConn SConn PConnOpen PIo PConnCall PConnCall2 PConnHist PIo2 PConnTop PIoTop PRefute.

(** C31. Full statement: every parameter set. In any history of calls by a
    program, the k-th open sends this: *)
Theorem C31_sent : forall h inc ops, Forall (fun x => recorded (snd x)) ops -> zlen (opens_of inc ops) <= 2147483647 ->
  forall k o p, nth_error (opens_of inc ops) k = Some o -> nth_error (sent_opens h ops (start inc)) k = Some p ->
  p = Some (expected_open (firstn k (opens_of inc ops)) o).
Proof. exact open_exact. Qed.
Print Assumptions C31_sent.
Example C31_sent_example : Forall (fun x => recorded (snd x)) [(0%nat, refused_call); (1%nat, refused_call)]
  /\ nth_error (opens_of inc0 [(0%nat, refused_call); (1%nat, refused_call)]) 1 = Some (mkAnOpen 1 false (class1 1 0))
  /\ nth_error (sent_opens strict [(0%nat, refused_call); (1%nat, refused_call)] (start inc0)) 1
     = Some (Some (expected_open [mkAnOpen 1 false (class1 1 0)] (mkAnOpen 1 false (class1 1 0))))
  /\ c_serial (snd (expected_open [mkAnOpen 1 false (class1 1 0)] (mkAnOpen 1 false (class1 1 0)))) = 2.
Proof.
  split; [constructor; [exact refused_recorded|constructor; [exact refused_recorded|constructor]]|].
  repeat split; vm_compute; reflexivity.
Qed.
(** The sizes are right unless the sum leaves the size field, the path length
    unless the path is odd or too long. *)
Theorem C31_sizes_partial : forall h inc ops, Forall (fun x => recorded (snd x)) ops -> zlen (opens_of inc ops) <= 2147483647 ->
  forall k o s c, nth_error (opens_of inc ops) k = Some o ->
  nth_error (sent_opens h ops (start inc)) k = Some (Some (s, c)) ->
  let a := ao_params o in
  s = (if ao_large o then 91 else 84) /\ c_path c = c_path a
  /\ (zlen (c_path a) mod 2 = 0 -> zlen (c_path a) <= 510 -> 2 * c_pathSize c = zlen (c_path a))
  /\ (part (ao_large o) FSize (c_o2tParams a) + overhead (c_trigger a) (c_o2tRTF a) < 2 ^ width (ao_large o) FSize ->
      part (ao_large o) FSize (c_o2tParams c) = part (ao_large o) FSize (c_o2tParams a) + overhead (c_trigger a) (c_o2tRTF a)
      /\ forall f, f <> FSize -> part (ao_large o) f (c_o2tParams c) = part (ao_large o) f (c_o2tParams a))
  /\ (part (ao_large o) FSize (c_t2oParams a) + overhead (c_trigger a) (c_t2oRTF a) < 2 ^ width (ao_large o) FSize ->
      part (ao_large o) FSize (c_t2oParams c) = part (ao_large o) FSize (c_t2oParams a) + overhead (c_trigger a) (c_t2oRTF a)
      /\ forall f, f <> FSize -> part (ao_large o) f (c_t2oParams c) = part (ao_large o) f (c_t2oParams a)).
Proof. exact sizes_added. Qed.
Print Assumptions C31_sizes_partial.
Example C31_example : recorded refused_call
  /\ opens_of inc0 [(0%nat, refused_call)] = [mkAnOpen 1 false (class1 1 0)]
  /\ part false FSize (c_o2tParams (class1 1 0)) = 4 /\ overhead 1 0 = 2 /\ overhead 1 1 = 6 /\ overhead 0 0 = 0
  /\ sent_opens strict [(0%nat, refused_call)] start0
     = [Some (84, mkCParams 0 0 0 0x10001 1 342 0x12345678 0 10000 0x4206 10000 0x4206 1 4 0 0 [32; 4; 36; 151; 44; 150; 44; 100])].
Proof. split; [exact refused_recorded|]. repeat split; vm_compute; reflexivity. Qed.
Theorem C31_size_refuted : exists s c, sent_opens strict [(0%nat, call510)] start0 = [Some (s, c)]
  /\ part false FSize (c_o2tParams params510) = 510 /\ part false FVar (c_o2tParams params510) = 0
  /\ part false FSize (c_o2tParams c) = 0 /\ part false FVar (c_o2tParams c) = 1.
Proof. exact carry_refuted. Qed.
Print Assumptions C31_size_refuted.
Theorem C31_path_refuted : exists s c, sent_opens strict [(0%nat, call_odd)] start0 = [Some (s, c)]
  /\ zlen (c_path c) = 512 /\ c_pathSize c = 0.
Proof. exact path_refuted. Qed.
Print Assumptions C31_path_refuted.

(** C32. Full statement: every history. Proved up to 2^31 - 1 opens; the next
    one is undefined. *)
Theorem C32_serials_partial : forall h inc ops, Forall (fun x => recorded (snd x)) ops ->
  zlen (opens_of inc ops) <= 2147483647 ->
  forall i j si ci sj cj, (i < j < i + Z.to_nat 65536)%nat ->
  nth_error (sent_opens h ops (start inc)) i = Some (Some (si, ci)) ->
  nth_error (sent_opens h ops (start inc)) j = Some (Some (sj, cj)) ->
  c_serial ci <> c_serial cj.
Proof. exact serials_distinct. Qed.
Print Assumptions C32_serials_partial.
Example C32_example : map (option_map (fun x => c_serial (snd x)))
  (sent_opens strict [(0%nat, refused_call); (1%nat, open_call 7 1 1 (class1 1 0)); (0%nat, refused_call)] start0)
  = [Some 1; Some 2; Some 3].
Proof. vm_compute. reflexivity. Qed.
Theorem C32_refuted : exists ops : list (nat * call (list encaps)),
  Forall (fun x => recorded (snd x)) ops /\ zlen ops = 2147483647
  /\ forall h, fst (call_world h 0 refused_call (run_calls h ops start0)) = Undef UbSignedOverflow.
Proof. exact serial_overflow. Qed.
Print Assumptions C32_refuted.

(** C33. Full statement: both kinds of ids, starting from the incarnation id.
    T2O ids: true (the exact values are in [expected_open]); O2T multicast ids
    are 16 bits wide and start from 1. *)
Theorem C33_ids_partial : forall h inc ops, Forall (fun x => recorded (snd x)) ops ->
  zlen (opens_of inc ops) <= 2147483647 ->
  forall i j oi oj si ci sj cj, (i < j)%nat ->
  nth_error (opens_of inc ops) i = Some oi -> nth_error (opens_of inc ops) j = Some oj ->
  nth_error (sent_opens h ops (start inc)) i = Some (Some (si, ci)) ->
  nth_error (sent_opens h ops (start inc)) j = Some (Some (sj, cj)) ->
  (is_p2p oi = true -> is_p2p oj = true -> c_t2oId ci <> c_t2oId cj)
  /\ (is_multicast oi = true -> is_multicast oj = true -> (j < i + Z.to_nat 65536)%nat -> c_o2tId ci <> c_o2tId cj).
Proof. exact ids_distinct. Qed.
Print Assumptions C33_ids_partial.
Example C33_example : map (option_map (fun x => c_t2oId (snd x)))
  (sent_opens strict [(0%nat, refused_call); (1%nat, open_call 7 1 1 (class1 1 0)); (0%nat, refused_call)] start0)
  = [Some 0x10001; Some 0x10002; Some 0x10003].
Proof. vm_compute. reflexivity. Qed.
Theorem C33_refuted : exists s c, sent_opens strict [(0%nat, multicast_call)] start0 = [Some (s, c)]
  /\ m_inc (w_m start0 0%nat) = 1 /\ c_t2oId c = 0x10001 /\ c_o2tId c = 1.
Proof. exact multicast_refuted. Qed.
Print Assumptions C33_refuted.

(** C34. Full statement: every set of connections already open. True unless an
    open connection has a T2O id with the same low 16 bits; then the new
    connection is lost. *)
Theorem C34_registers_partial : forall S h use8 (si : session_if S) host env large c g m s oid g' m' s',
  reachable S g m -> 0 <= c_multiplier c ->
  forward_open h use8 si host env large c (g, m, s) = (Ok (Some oid), (g', m', s')) ->
  lock oid m = None /\ exists resp r data io,
    send_request h si use8 (if large then 91 else 84) (epath2 6 1) data [] s = (Ok resp, s')
    /\ r_status resp = 0 /\ fo_expand h (r_data resp) = Ok r
    /\ fo_dest h (v_aton env) host (r_items resp) = Ok (io_dest io) /\ io_last io = v_now env
    /\ io_oid io = oid /\ agreed large c r io
    /\ ((forall o c', lock o m = Some c' -> io_t2oId c' mod 65536 <> f_t2oId r mod 65536) ->
        has_open m' = true /\ forall o, lock o m' = if Nat.eqb o oid then Some io else lock o m)
    /\ ((exists o c', lock o m = Some c' /\ io_t2oId c' mod 65536 = f_t2oId r mod 65536) ->
        forall o, lock o m' = lock o m).
Proof. exact open_registers. Qed.
Print Assumptions C34_registers_partial.
Example C34_registers_example : reachable (list encaps) (w_g start0) (w_m start0 0%nat) /\ 0 <= c_multiplier (class1 1 0)
  /\ fst (forward_open strict false (recording 1 (accepts 0x10007 10000 10000)) "10.0.0.1" (env_ok 0) false (class1 1 0)
            (w_g start0, w_m start0 0%nat, [])) = Ok (Some 0%nat)
  /\ (forall o c', lock o (w_m start0 0%nat) = Some c' -> io_t2oId c' mod 65536 <> 7).
Proof.
  split; [exists strict, [], start0, 0%nat; split; [apply start_new|split; reflexivity]|].
  split; [vm_compute; discriminate|]. split; [vm_compute; reflexivity|].
  intros [|o] c' L; vm_compute in L; discriminate.
Qed.
(** The target accepts: a pointer is returned. *)
Theorem C34_accepted : forall S h use8 (si : session_if S) host env large c g m (s : S) resp r rsv rest dest,
  g_serial g <> 2147483647 ->
  (forall data, exists s', send_request h si use8 (fo_service large) CM_PATH data [] s = (Ok resp, s')) ->
  r_status resp = 0 -> fo_response_wf r -> r_data resp = fo_reply_bytes r rsv rest ->
  0 <= c_multiplier c < 32 -> fo_dest h (v_aton env) host (r_items resp) = Ok dest -> v_udp env = None -> v_bind env = None ->
  fst (forward_open h use8 si host env large c (g, m, s)) = Ok (Some (g_oid g)).
Proof. exact @open_accepted. Qed.
Print Assumptions C34_accepted.
Example C34_example :
  let m := w_m after1 0%nat in
  reachable (list encaps) (w_g after1) m /\ has_open m = true
  /\ option_map (fun c => (io_o2tId c, io_t2oId c, io_o2tAPI c, io_mult c, io_o2tSize c, io_o2tFixed c, io_dest c)) (lock 0 m)
     = Some (0x0A0B0C0D, 0x10007, 10000, 4, 4, false, ep_of_host (fun _ => Some 0x0100007F) "10.0.0.1" 2222).
Proof. split; [exact after1_reach|]. split; vm_compute; reflexivity. Qed.
Theorem C34_refuted : exists oid g' m' s',
  forward_open strict false collides_target "10.0.0.1" (env_ok 0) false (class1 1 0) (w_g after1, w_m after1 0%nat, w_s after1)
  = (Ok (Some oid), (g', m', s')) /\ lock oid m' = None.
Proof. exact open_collides_refuted. Qed.
Print Assumptions C34_refuted.

(** C35 *)
Theorem C35_untouched : forall S h use8 (si : session_if S) host env large c g m (s : S) o g' m' s',
  forward_open h use8 si host env large c (g, m, s) = (o, (g', m', s')) -> (forall oid, o <> Ok (Some oid)) ->
  m_map m' = m_map m /\ m_log m' = m_log m.
Proof. exact @open_fails. Qed.
Print Assumptions C35_untouched.
Example C35_untouched_example :
  let r := forward_open strict false (recording 1 refuses) "10.0.0.1" (env_ok 0) false (class1 1 0)
             (w_g after1, w_m after1 0%nat, w_s after1) in
  fst r = Ok None /\ m_map (snd (fst (snd r))) = m_map (w_m after1 0%nat)
  /\ List.length (m_map (w_m after1 0%nat)) = 1%nat.
Proof. vm_compute. auto. Qed.
Theorem C35_no_pointer : forall S h use8 (si : session_if S) host env large c g m (s : S),
  g_serial g <> 2147483647 ->
  (forall data, exists o s', send_request h si use8 (fo_service large) CM_PATH data [] s = (o, s')
     /\ match o with
        | Ok resp => r_status resp <> 0
                     \/ (exists e, v_bind env = Some e) /\ existsb (same_key (ep_of_host (v_aton env) host EIP_DEFAULT_IMPLICIT_PORT)) (m_socks m) = false
        | _ => True
        end) ->
  forall oid, fst (forward_open h use8 si host env large c (g, m, s)) <> Ok (Some oid).
Proof. exact @open_refused. Qed.
Print Assumptions C35_no_pointer.
Example C35_example :
  let m := w_m after1 0%nat in
  fst (call_mgr strict refused_call (w_g after1, m, w_s after1)) = Ok None
  /\ m_map (snd (fst (snd (call_mgr strict refused_call (w_g after1, m, w_s after1))))) = m_map m
  /\ fst (call_mgr strict (COpen false (recording 1 (accepts 7 1 1)) "10.0.0.1" (mkFoEnv None (Some 98) 0 (fun _ => None)) false (class1 1 0))
            (globals0, mgr0 1, [])) = Throw (SystemError 98).
Proof. split; [|split]; vm_compute; reflexivity. Qed.

(** C36. The destination of a connection is [fo_dest] of the reply (C34) and
    data is sent there (C45). *)
Theorem C36_item : forall h aton host pre i post f a b c d p pad rest,
  it_type i = 32768 -> Forall (fun x => it_type x <> 32768) pre ->
  is_u16 f -> is_u16 p -> is_u8 a -> is_u8 b -> is_u8 c -> is_u8 d -> List.length pad = 8%nat ->
  it_data i = be16 f ++ be16 p ++ [a; b; c; d] ++ pad ++ rest ->
  fo_dest h aton host (pre ++ i :: post)
  = Ok (if (a =? 0) && (b =? 0) && (c =? 0) && (d =? 0) then ep_of_host aton host p else the_endpoint f a b c d p).
Proof. exact dest_item. Qed.
Print Assumptions C36_item.
Example C36_item_example :
  fo_dest strict (fun _ => None) "10.0.0.1"
    ([mkItem 32769 0 []] ++ mkItem 32768 18 ([0; 2; 8; 174; 192; 168; 1; 9] ++ [1;2;3;4;5;6;7;8] ++ [5; 6]) :: [item_null])
  = Ok (the_endpoint 2 192 168 1 9 2222).
Proof.
  apply (C36_item strict (fun _ => None) "10.0.0.1" [mkItem 32769 0 []]
           (mkItem 32768 18 ([0; 2; 8; 174; 192; 168; 1; 9] ++ [1;2;3;4;5;6;7;8] ++ [5; 6])) [item_null]
           2 192 168 1 9 2222 [1;2;3;4;5;6;7;8] [5; 6]);
    try reflexivity; try (unfold is_u16, is_u8; lia).
  constructor; [discriminate|constructor].
Qed.
Theorem C36_default : forall h aton host items, Forall (fun x => it_type x <> 32768) items ->
  fo_dest h aton host items = Ok (ep_of_host aton host 2222).
Proof. exact dest_default. Qed.
Print Assumptions C36_default.
Example C36_default_example : Forall (fun x => it_type x <> 32768) [mkItem 32769 0 []; item_null]
  /\ fo_dest strict (fun _ => Some 0x0100000A) "10.0.0.1" [mkItem 32769 0 []; item_null]
     = Ok (the_endpoint 2 10 0 0 1 2222).
Proof. split; [repeat constructor; discriminate|vm_compute; reflexivity]. Qed.
(** An item too short to hold an address is read beyond its end. *)
Theorem C36_short_item : forall aton host pre i post, it_type i = 32768 -> Forall (fun x => it_type x <> 32768) pre ->
  (List.length (it_data i) < 16)%nat -> fo_dest strict aton host (pre ++ i :: post) = Undef UbOobRead.
Proof. exact dest_short. Qed.
Print Assumptions C36_short_item.
Example C36_short_example :
  fo_dest strict (fun _ => None) "10.0.0.1" ([item_null] ++ mkItem 32768 8 [0; 2; 8; 174; 10; 0; 0; 1] :: [])
  = Undef UbOobRead.
Proof.
  apply C36_short_item; [reflexivity|constructor; [discriminate|constructor]|cbn; lia].
Qed.
Example C36_example :
  fo_dest strict (fun _ => None) "10.0.0.1" [mkItem 32769 0 []; mkItem 32768 16 ([0; 2; 8; 174] ++ [192; 168; 1; 9] ++ zeros 8)]
  = Ok (the_endpoint 2 192 168 1 9 2222)
  /\ fo_dest strict (fun _ => None) "10.0.0.1" [mkItem 32768 16 ([0; 2; 8; 175] ++ [0; 0; 0; 0] ++ zeros 8)]
  = Ok (ep_of_host (fun _ => None) "10.0.0.1" 2223).
Proof. split; vm_compute; reflexivity. Qed.

(** C37. Full statement: every history and every pointer. True of pointers that
    die with the connection; false of pointers the application keeps alive. *)
Theorem C37_removes_partial : forall S h use8 (si : session_if S) g m s oid c resp s', reachable S g m -> lock oid m = Some c ->
  send_request h si use8 78 (epath2 6 1) (fc_pack (u16 (io_serial c)) (io_vendor c) (io_orig c) (io_path c)) [] s = (Ok resp, s') ->
  exists m', forward_close h use8 si (lock oid m) (m, s) = (Ok tt, (m', s'))
    /\ m_log m' = m_log m /\ forall o, lock o m' = if Nat.eqb o oid then None else lock o m.
Proof. exact close_removes. Qed.
Print Assumptions C37_removes_partial.
Example C37_removes_example : reachable (list encaps) (w_g after1) (w_m after1 0%nat) /\ lock 0 (w_m after1 0%nat) = Some con1
  /\ (exists resp s', send_request strict (recording 1 refuses) false 78 (epath2 6 1)
        (fc_pack (u16 (io_serial con1)) (io_vendor con1) (io_orig con1) (io_path con1)) [] (w_s after1) = (Ok resp, s')
        /\ r_status resp <> 0)
  /\ lock 0 (fst (snd (forward_close strict false (recording 1 refuses) (Some con1) (w_m after1 0%nat, w_s after1)))) = None.
Proof.
  split; [exact after1_reach|]. split; [vm_compute; reflexivity|].
  split; [eexists; eexists; split; [vm_compute; reflexivity|discriminate]|vm_compute; reflexivity].
Qed.
Theorem C37_packet : forall S h use8 handle answer g m log oid c, reachable S g m -> lock oid m = Some c -> is_u32 handle ->
  is_u16 (io_serial c) -> is_u16 (io_vendor c) -> is_u32 (io_orig c) -> is_bytes (io_path c) -> zlen (io_path c) <= 60000 ->
  exists p request path, snd (snd (forward_close h use8 (recording handle answer) (lock oid m) (m, log))) = log ++ [p]
    /\ parse_rr (encaps_pack p) = Some (mkRR handle 0 [(0, []); (178, request)])
    /\ parse_request request = Some (78, path,
         fc_bytes (io_serial c) (io_vendor c) (io_orig c) ((zlen (io_path c) / 2) mod 256) (io_path c))
    /\ names_cm path = true.
Proof. exact close_packet. Qed.
Print Assumptions C37_packet.
Example C37_packet_example : is_u32 1 /\ is_u16 (io_serial con1) /\ is_u16 (io_vendor con1) /\ is_u32 (io_orig con1)
  /\ is_bytes (io_path con1) /\ zlen (io_path con1) <= 60000
  /\ fc_bytes (io_serial con1) (io_vendor con1) (io_orig con1) ((zlen (io_path con1) / 2) mod 256) (io_path con1)
     = [0; 0; 5; 0; 86; 1; 120; 86; 52; 18; 4; 0; 32; 4; 36; 151; 44; 150; 44; 100].
Proof.
  split; [unfold is_u32; lia|]. repeat match goal with |- _ /\ _ => split end; try (vm_compute; discriminate || reflexivity);
    try (repeat (apply Forall_cons || apply Forall_nil); unfold is_u8; vm_compute; split; discriminate || reflexivity).
  all: vm_compute; split; discriminate || reflexivity.
Qed.
Theorem C37_dead : forall S h use8 (si : session_if S) m (s : S) oid, lock oid m = None ->
  forward_close h use8 si (lock oid m) (m, s) = (Ok tt, (m, s)).
Proof. exact @close_dead. Qed.
Print Assumptions C37_dead.
Example C37_dead_example : lock 0 (w_m after2 0%nat) = None
  /\ forward_close strict false (recording 1 refuses) (lock 0 (w_m after2 0%nat)) (w_m after2 0%nat, w_s after2)
     = (Ok tt, (w_m after2 0%nat, w_s after2)).
Proof. split; vm_compute; reflexivity. Qed.
(** No answer at all: the exception is passed on and the connection stays. *)
Theorem C37_no_answer : forall S h use8 (si : session_if S) m (s : S) oid c o s', lock oid m = Some c ->
  send_request h si use8 78 CM_PATH (fc_pack (u16 (io_serial c)) (io_vendor c) (io_orig c) (io_path c)) [] s = (o, s') ->
  (forall resp, o <> Ok resp) ->
  forward_close h use8 si (lock oid m) (m, s) = (omap (fun _ => tt) o, (m, s')).
Proof. exact @close_fails_same. Qed.
Print Assumptions C37_no_answer.
Example C37_no_answer_example : lock 0 (w_m after1 0%nat) = Some con1
  /\ let r := forward_close strict false (recording 1 (fun _ _ => Throw (SystemError 110))) (Some con1)
                (w_m after1 0%nat, w_s after1) in
     fst r = Throw (SystemError 110) /\ lock 0 (fst (snd r)) = Some con1.
Proof. split; [vm_compute; reflexivity|]. split; vm_compute; reflexivity. Qed.
Example C37_example : lock 0 (w_m after1 0%nat) = Some con1
  /\ lock 0 (w_m after2 0%nat) = None /\ List.length (w_s after2) = 2%nat
  /\ is_u16 (io_serial con1) /\ is_u16 (io_vendor con1) /\ is_u32 (io_orig con1).
Proof.
  split; [vm_compute; reflexivity|]. split; [vm_compute; reflexivity|]. split; [vm_compute; reflexivity|].
  repeat split; vm_compute; discriminate || reflexivity.
Qed.
Theorem C37_refuted : exists use8 (si : session_if (list encaps)) c m2 s2 m3 s3,
  (exists g m, reachable (list encaps) g m /\ lock 0 m = Some c)
  /\ (exists g, reachable (list encaps) g m2) /\ lock 0 m2 = None
  /\ fst (forward_close strict use8 si (Some c) (m2, s2)) = Abort
  /\ (exists g, reachable (list encaps) g m3) /\ lock 0 m3 = None /\ lock 1 m3 <> None
  /\ fst (forward_close strict use8 si (Some c) (m3, s3)) = Ok tt
  /\ lock 1 (fst (snd (forward_close strict use8 si (Some c) (m3, s3)))) = None.
Proof. exact close_held_refuted'. Qed.
Print Assumptions C37_refuted.

(** C38. Full statement: every set of ids. True when ids of open connections
    equal to X modulo 2^16 equal X. *)
Theorem C38_delivery_partial : forall S g h l m i0 i1 items X rest, reachable S g m -> is_bytes l ->
  carries l (i0 :: i1 :: items) -> is_u32 X -> it_data i0 = le 4 X ++ rest ->
  (forall o c, lock o m = Some c -> io_t2oId c mod 65536 = X mod 65536 -> io_t2oId c = X) ->
  (forall o c, lock o m = Some c -> io_t2oId c <> X) /\ on_readable h (Dgram l) m = (Ok tt, m)
  \/ exists c, io_t2oId c = X /\ lock (io_oid c) m = Some c
     /\ (forall o c', lock o m = Some c' -> io_t2oId c' = X -> o = io_oid c)
     /\ (front c <= zlen (it_data i1) ->
          exists c' ev m', io_receive h c (it_data i1) = Ok (c', ev) /\ on_readable h (Dgram l) m = (Ok tt, m') /\ m_log m' = m_log m ++ ev
            /\ forall o, lock o m' = if Nat.eqb o (io_oid c) then Some c' else lock o m).
Proof. exact delivered. Qed.
Print Assumptions C38_delivery_partial.
Theorem C38_items : forall h l items, is_bytes l -> (carries l items <-> cp_expand h (seen l) = (items, Ok tt)).
Proof. exact carries_iff. Qed.
Print Assumptions C38_items.
Example C38_items_example : is_bytes (gram 7 [1; 0; 9])
  /\ cp_expand strict (seen (gram 7 [1; 0; 9])) = ([mkItem 32770 8 (le 4 7 ++ le 4 1); mkItem 177 3 [1; 0; 9]], Ok tt).
Proof. split; [repeat constructor; cbn; lia|vm_compute; reflexivity]. Qed.
Example C38_example :
  carries (gram 0x10007 [1; 0; 9; 9]) [mkItem 32770 8 (le 4 0x10007 ++ le 4 1); mkItem 177 4 [1; 0; 9; 9]]
  /\ (forall o c, lock o (w_m after1 0%nat) = Some c -> io_t2oId c = 0x10007)
  /\ m_log (snd (on_readable strict (Dgram (gram 0x10007 [1; 0; 9; 9])) (w_m after1 0%nat))) = [EvData 0 0 1 [9; 9]]
  /\ on_readable strict (Dgram (gram 0x10008 [1; 0; 9; 9])) (w_m after1 0%nat) = (Ok tt, w_m after1 0%nat).
Proof.
  split; [|split; [|split; vm_compute; reflexivity]].
  - apply (carries_iff strict); [repeat constructor; cbn; lia|]. vm_compute. reflexivity.
  - intros o c L. destruct o as [|o]; vm_compute in L; [now inv L|discriminate].
Qed.
Theorem C38_refuted : exists g m c X payload m', reachable (list encaps) g m /\ lock 0 m = Some c
  /\ (forall o c', lock o m = Some c' -> io_t2oId c' <> X) /\ is_u32 X
  /\ on_readable strict (Dgram (gram X payload)) m = (Ok tt, m') /\ m_log m' = m_log m ++ [EvData 0 0 1 [9; 9]].
Proof. exact alias_refuted'. Qed.
Print Assumptions C38_refuted.

(** C42. Full statement: m = 0..7. True up to 5; the multiplier in force is
    [io_mult] (C34), and it is zero for 6 and 7. *)
Theorem C42_multiplier_partial : forall large c r io, agreed large c r io -> 0 <= c_multiplier c <= 5 ->
  io_mult io = 4 * 2 ^ c_multiplier c.
Proof. exact multiplier_agreed. Qed.
Print Assumptions C42_multiplier_partial.
Example C42_example : option_map io_mult (lock 0 (w_m (run_calls strict [(0%nat, open_call 7 1 1 (class1 1 5))] start0) 0%nat)) = Some 128.
Proof. vm_compute. reflexivity. Qed.
Theorem C42_zero : forall m, m = 6 \/ m = 7 ->
  option_map io_mult (lock 0 (w_m (run_calls strict [(0%nat, open_call 7 1 1 (class1 1 m))] start0) 0%nat)) = Some 0.
Proof. exact multiplier_refuted. Qed.
Print Assumptions C42_zero.
Theorem C42_refuted : exists m g mg c, (m = 6 \/ m = 7) /\ reachable (list encaps) g mg
  /\ w_m (run_calls strict [(0%nat, open_call 7 1 1 (class1 1 m))] start0) 0%nat = mg
  /\ lock 0 mg = Some c /\ io_mult c = 0.
Proof. exact multiplier_refuted'. Qed.
Print Assumptions C42_refuted.

(** C43, C46. What happens to manager [i] in any history of calls: every
    connection is opened at most once, is closed or times out at most once and
    never both, and it is open exactly in between. Assumed of the operating
    system: sendto() on a datagram socket fails or sends the whole datagram. *)
Theorem C43_notified_once : forall S h i (ops : list (nat * call S)) w, new_world w ->
  Forall (fun x => sends_whole (snd x)) ops ->
  let '(hs, w') := happenings h i ops w in
  NoDup hs
  /\ (forall oid, ~ (In (ClosedBy oid) hs /\ In (TimedOut oid) hs))
  /\ (forall oid, In (ClosedBy oid) hs \/ In (TimedOut oid) hs -> In (Opened oid) hs)
  /\ (forall oid, lock oid (w_m w' i) <> None <-> In (Opened oid) hs /\ ~ In (ClosedBy oid) hs /\ ~ In (TimedOut oid) hs).
Proof. exact history_told. Qed.
Print Assumptions C43_notified_once.
Definition happy_history : list (nat * call (list encaps)) :=
  [(0%nat, open_call 1 10000 1000 (class1 1 0)); (0%nat, open_call 2 10000 1000000 (class1 1 0));
   (0%nat, CHandle [] SelQuiet (env_at 20000000 (fun n => n))); (0%nat, close_call 1); (0%nat, close_call 1)].
Example C43_example : Forall (fun x => sends_whole (snd x)) happy_history
  /\ fst (happenings strict 0 happy_history start0) = [Opened 0; Opened 1; TimedOut 0; ClosedBy 1]
  /\ has_open (w_m (run_calls strict (firstn 3 happy_history) start0) 0%nat) = true
  /\ has_open (w_m (run_calls strict happy_history start0) 0%nat) = false.
Proof. split; [repeat constructor|]. repeat split; vm_compute; reflexivity. Qed.
(** Without the assumption about sendto() the listener can be called twice. *)
Theorem C43_short_send : fst (happenings strict 0 short_history start0)
  = [Opened 0; Opened 1; TimedOut 0; TimedOut 0].
Proof. exact short_send. Qed.
Print Assumptions C43_short_send.

Theorem C46_has_open : forall S h i (ops : list (nat * call S)) w, new_world w ->
  Forall (fun x => sends_whole (snd x)) ops ->
  let '(hs, w') := happenings h i ops w in
  has_open (w_m w' i) = true <-> exists oid, In (Opened oid) hs /\ ~ In (ClosedBy oid) hs /\ ~ In (TimedOut oid) hs.
Proof. exact history_open. Qed.
Print Assumptions C46_has_open.
Example C46_example : happenings strict 0 (firstn 1 happy_history) start0 = ([Opened 0], run_calls strict (firstn 1 happy_history) start0)
  /\ has_open (w_m start0 0%nat) = false.
Proof. split; [|reflexivity]. cbn [firstn happy_history happenings run_calls]. destruct (call_world _ _ _ _) eqn:E. vm_compute in E. inv E. reflexivity. Qed.

(** C71. Full statement: in every reachable state. True exactly when the manager
    has a socket, which it has from the first successful open on. *)
Theorem C71_callable_partial : forall S h g m rounds env, reachable S g m ->
  Forall (fun r => Forall (fun x => x = None) (sr_ready r)) rounds ->
  (forall o n, s_count (t_send env o n) = n \/ s_count (t_send env o n) = -1 /\ n < 2 ^ 63) ->
  (fst (handle_connections h rounds SelQuiet env m) = Ok tt <-> m_socks m <> []).
Proof. exact @no_socket_iff. Qed.
Print Assumptions C71_callable_partial.
Theorem C71_after_open : forall S h use8 (si : session_if S) host env large c g m s oid g' m' s',
  forward_open h use8 si host env large c (g, m, s) = (Ok (Some oid), (g', m', s')) -> m_socks m' <> [].
Proof. exact @open_socket. Qed.
Print Assumptions C71_after_open.
Example C71_after_open_example :
  m_socks (w_m start0 0%nat) = [] /\ m_socks (w_m after1 0%nat) <> [].
Proof. split; [reflexivity|vm_compute; discriminate]. Qed.
Theorem C71_stays : forall S h (op : call S) g m s o g' m' s', call_mgr h op (g, m, s) = (o, (g', m', s')) ->
  m_socks m <> [] -> m_socks m' <> [].
Proof. exact @socks_grow. Qed.
Print Assumptions C71_stays.
Example C71_example : fst (handle_connections strict [] SelQuiet (env_at 0 (fun n => n)) (w_m after1 0%nat)) = Ok tt.
Proof. vm_compute. reflexivity. Qed.
Theorem C71_fresh : forall h rounds ending env inc,
  handle_connections h rounds ending env (mgr0 inc) = (Undef UbDerefEnd, mgr0 inc).
Proof. exact no_socket. Qed.
Print Assumptions C71_fresh.
Theorem C71_refuted : exists g m, reachable (list encaps) g m
  /\ forall h rounds ending env, handle_connections h rounds ending env m = (Undef UbDerefEnd, m).
Proof. exact no_socket_refuted. Qed.
Print Assumptions C71_refuted.
