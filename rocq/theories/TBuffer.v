(** Properties C01-C05: the byte buffer, strings and socket addresses. *)
From Verif Require Import Base MBuffer SBuffer PBase PBuffer PReader PBufferT.

(** C01 (separate encode / decode). *)
Theorem C01_buffer_roundtrip : forall (h : heap) (vs : list value),
  Forall wf_value vs ->
  exists b', reads h (map type_of vs) (buf_of (bdata (writes buf_new vs))) = Ok (map shows vs, b')
             /\ bdata b' = bdata (writes buf_new vs)
             /\ bpos b' = List.length (bdata (writes buf_new vs))
             /\ buf_valid b' = true /\ buf_empty b' = true.
Proof. exact buffer_roundtrip. Qed.
Print Assumptions C01_buffer_roundtrip.

Example C01_example :
  Forall wf_value [VU16 65535; VS32 (-2); VWords [1; 65535]; VShort [72; 105]; VRev 1 2;
                   VAddr 2 192 168 0 1 44818; VS64 (-9223372036854775808)].
Proof.
  repeat (apply Forall_cons || apply Forall_nil || split); cbn;
    unfold is_u16, is_s32, is_u8, is_words, is_bytes, is_s64, is_u16;
    try (repeat (apply Forall_cons || apply Forall_nil); cbn; lia); try lia.
Qed.

(** C01 (interleaved encode / decode): a buffer behaves like a queue of values. *)
Theorem C01_buffer_queue : forall (h : heap) (ops : list bop) (out : list shown) (q' : list value),
  Forall op_wf ops -> queue_run ops [] out q' ->
  exists b', run_ops h ops buf_new = Ok (out, b')
             /\ skipn (bpos b') (bdata b') = concat (map layout q')
             /\ buf_valid b' = true.
Proof. exact buffer_queue. Qed.
Print Assumptions C01_buffer_queue.

Example C01_queue_example :
  queue_run [BWrite (VU16 513); BWrite (VU8 7); BRead TU16; BWrite (VS8 (-1)); BRead TU8]
            [] [ShInt 513; ShInt 7] [VS8 (-1)].
Proof.
  apply QWrite, QWrite. cbn [app]. apply (QRead (VU16 513)). apply QWrite. cbn [app].
  apply (QRead (VU8 7)). apply QNil.
Qed.

(** C02. *)
Theorem C02_wire_layout : forall (b : buffer) (vs : list value),
  Forall wf_value vs ->
  bdata (writes b vs) = bdata b ++ concat (map layout vs) /\ bpos (writes b vs) = bpos b.
Proof. exact wire_layout. Qed.
Print Assumptions C02_wire_layout.
Example C02_wire_layout_example :
  Forall wf_value [VS16 (-2); VShort [72; 105]; VRev 1 2]
  /\ bdata (writes (mkBuf [7] 1) [VS16 (-2); VShort [72; 105]; VRev 1 2]) = [7; 254; 255; 2; 72; 105; 1; 2].
Proof.
  split; [|reflexivity].
  repeat (apply Forall_cons || apply Forall_nil || split); cbn; unfold is_s16, is_u8, is_bytes;
    try (repeat (apply Forall_cons || apply Forall_nil); unfold is_u8; lia); try lia.
Qed.

Theorem C02_width : forall (v : value) (w : nat),
  wf_value v -> fixed_width (type_of v) = Some w -> List.length (layout v) = w.
Proof. exact layout_length. Qed.
Print Assumptions C02_width.

Example C02_example :
  bdata (writes buf_new [VS16 (-2); VU32 305419896; VAddr 2 10 0 0 7 2222])
  = [254; 255; 120; 86; 52; 18; 0; 2; 8; 174; 10; 0; 0; 7; 0; 0; 0; 0; 0; 0; 0; 0].
Proof. vm_compute. reflexivity. Qed.

(** C03: a decode that stays in bounds returns the value encoded at the cursor
    and moves by the width of the type, whatever follows the buffer. *)
Theorem C03_in_bounds : forall (h : heap) (t : ctype) (w : nat) (data : bytes) (pos : nat),
  fixed_width t = Some w -> t <> TAddr -> is_bytes data -> (pos + w <= List.length data)%nat ->
  exists v, type_of v = t /\ wf_value v /\ layout v = firstn w (skipn pos data)
            /\ read h t (mkBuf data pos) = Ok (shows v, mkBuf data (pos + w)).
Proof. exact read_in_bounds. Qed.
Print Assumptions C03_in_bounds.

Example C03_example : fixed_width TS32 = Some 4%nat /\ TS32 <> TAddr
  /\ is_bytes [9; 255; 255; 255; 255] /\ (1 + 4 <= List.length [9; 255; 255; 255; 255])%nat
  /\ read strict TS32 (mkBuf [9; 255; 255; 255; 255] 1) = Ok (ShInt (-1), mkBuf [9; 255; 255; 255; 255] 5).
Proof.
  repeat split; try discriminate; try (cbn; lia).
  repeat (apply Forall_cons || apply Forall_nil); unfold is_u8; lia.
Qed.

(** The exception in the previous theorem: socket addresses, whose eight
    padding bytes are skipped without being looked at. *)
Theorem C03_in_bounds_addr : forall (h : heap) pre f a b c d p pad rest,
  is_u16 f -> is_u8 a -> is_u8 b -> is_u8 c -> is_u8 d -> is_u16 p -> List.length pad = 8%nat ->
  get_endpoint h (mkBuf (pre ++ be16 f ++ be16 p ++ [a; b; c; d] ++ pad ++ rest) (List.length pre))
  = Ok (the_endpoint f a b c d p,
        mkBuf ((pre ++ be16 f ++ be16 p ++ [a; b; c; d] ++ pad) ++ rest)
              (List.length (pre ++ be16 f ++ be16 p ++ [a; b; c; d] ++ pad))).
Proof. exact get_endpoint_ignores_pad. Qed.
Print Assumptions C03_in_bounds_addr.
Example C03_in_bounds_addr_example :
  get_endpoint strict (mkBuf [9; 0; 2; 8; 174; 10; 0; 0; 7; 1; 2; 3; 4; 5; 6; 7; 8; 5] 1)
  = Ok (the_endpoint 2 10 0 0 7 2222,
        mkBuf [9; 0; 2; 8; 174; 10; 0; 0; 7; 1; 2; 3; 4; 5; 6; 7; 8; 5] 17).
Proof.
  apply (C03_in_bounds_addr strict [9] 2 10 0 0 7 2222 [1; 2; 3; 4; 5; 6; 7; 8] [5]);
    unfold is_u16, is_u8; try lia; reflexivity.
Qed.

(** Without survivable adjacent memory an over-read is undefined behaviour. *)
Theorem C03_overread_undefined : forall (t : ctype) (w : nat) (b : buffer),
  fixed_width t = Some w -> buf_valid b = true ->
  (List.length (bdata b) < bpos b + w)%nat -> read strict t b = Undef UbOobRead.
Proof.
  exact (fun t w b F V S => strict_short (fun h => read h t) w b (reader_read t)
           (moves_read t w F) (proj1 (buf_valid_spec b) V) S).
Qed.
Print Assumptions C03_overread_undefined.

Example C03_overread_example :
  buf_valid (buf_of [1]) = true /\ (List.length (bdata (buf_of [1%Z])) < bpos (buf_of [1%Z]) + 2)%nat
  /\ read strict TU16 (buf_of [1]) = Undef UbOobRead.
Proof. repeat split; cbn; lia. Qed.

(** [isValid] after any sequence of decodes says exactly whether every read
    was in bounds: it is true iff the same results are obtained without any
    access to foreign memory. *)
Theorem C03_valid_iff_in_bounds : forall (h : heap) (ts : list ctype) (b b' : buffer) (vs : list shown),
  buf_valid b = true -> reads h ts b = Ok (vs, b') ->
  (buf_valid b' = true <-> reads strict ts b = Ok (vs, b')).
Proof.
  exact (fun h ts b b' vs V E => valid_iff_strict (fun h => reads h ts) h b vs b' (reader_reads ts) V E).
Qed.
Print Assumptions C03_valid_iff_in_bounds.

Example C03_valid_example :
  let h : heap := fun _ _ => Some 170 in
  buf_valid (buf_of [1; 2; 3]) = true
  /\ reads h [TU16; TU16] (buf_of [1; 2; 3]) = Ok ([ShInt 513; ShInt 43523], mkBuf [1; 2; 3] 4)
  /\ buf_valid (mkBuf [1; 2; 3] 4) = false
  /\ reads strict [TU16; TU16] (buf_of [1; 2; 3]) = Undef UbOobRead.
Proof. vm_compute. auto. Qed.

(** Once [isValid] is false it stays false. *)
Theorem C03_invalid_stays : forall (h : heap) (ts : list ctype) (b b' : buffer) (vs : list shown),
  buf_valid b = false -> reads h ts b = Ok (vs, b') -> buf_valid b' = false.
Proof.
  exact (fun h ts b b' vs V E => invalid_stays (fun h => reads h ts) h b vs b' (reader_reads ts) V E).
Qed.
Print Assumptions C03_invalid_stays.
Example C03_invalid_example :
  let h : heap := fun _ _ => Some 170 in
  buf_valid (mkBuf [1; 2; 3] 4) = false
  /\ reads h [TU8; TU16] (mkBuf [1; 2; 3] 4) = Ok ([ShInt 170; ShInt 43690], mkBuf [1; 2; 3] 7).
Proof. vm_compute. auto. Qed.

(** A decode never throws: it returns, or reads out of bounds. *)
Theorem C03_decode_result : forall (h : heap) (ts : list ctype) (b : buffer),
  (exists vs b', reads h ts b = Ok (vs, b')) \/ reads h ts b = Undef UbOobRead.
Proof. exact (fun h ts b => ro_result _ (reader_reads ts) h b). Qed.
Print Assumptions C03_decode_result.

(** C04, full statement: for all texts, decoding an encoded string gives the
    text back. It is false for texts longer than the length field can express;
    what holds for every length is stated first. *)
Theorem C04_short_string_any_length : forall (h : heap) (text : bytes), is_bytes text ->
  let n := Z.to_nat (zlen text mod 256) in
  bdata (put_short_string buf_new (short_string text)) = zlen text mod 256 :: text
  /\ get_short_string h (buf_of (bdata (put_short_string buf_new (short_string text))))
     = Ok (short_string (firstn n text), mkBuf (zlen text mod 256 :: text) (1 + n)).
Proof. exact short_string_any. Qed.
Print Assumptions C04_short_string_any_length.
Example C04_short_long_example :
  is_bytes (repeat 65 300)
  /\ get_short_string strict (buf_of (bdata (put_short_string buf_new (short_string (repeat 65 300)))))
     = Ok (short_string (repeat 65 44), mkBuf (44 :: repeat 65 300) 45).
Proof.
  split; [|reflexivity]. apply Forall_forall. intros x H. apply repeat_spec in H. subst. unfold is_u8. lia.
Qed.

Theorem C04_string_any_length : forall (h : heap) (text : bytes), is_bytes text ->
  let n := Z.to_nat (zlen text mod 65536) in
  bdata (put_cip_string buf_new (cip_string text)) = le 2 (zlen text) ++ text
  /\ get_cip_string h (buf_of (bdata (put_cip_string buf_new (cip_string text))))
     = Ok (cip_string (firstn n text), mkBuf (le 2 (zlen text) ++ text) (2 + n)).
Proof. exact cip_string_any. Qed.
Print Assumptions C04_string_any_length.
Example C04_string_any_example : is_bytes [72; 105]
  /\ get_cip_string strict (buf_of (bdata (put_cip_string buf_new (cip_string [72; 105]))))
     = Ok (cip_string [72; 105], mkBuf [2; 0; 72; 105] 4).
Proof. split; [repeat (apply Forall_cons || apply Forall_nil); unfold is_u8; lia|reflexivity]. Qed.

(** Missing for the full statement: lengths above 255 (65535), where it fails. *)
Theorem C04_roundtrip_partial : forall (h : heap) (text : bytes), is_bytes text ->
  (zlen text <= 255 ->
   exists b', get_short_string h (buf_of (bdata (put_short_string buf_new (short_string text))))
              = Ok (mkStr (zlen text) text, b') /\ buf_empty b' = true /\ buf_valid b' = true)
  /\ (zlen text <= 65535 ->
   exists b', get_cip_string h (buf_of (bdata (put_cip_string buf_new (cip_string text))))
              = Ok (mkStr (zlen text) text, b') /\ buf_empty b' = true /\ buf_valid b' = true).
Proof. exact string_roundtrip. Qed.
Print Assumptions C04_roundtrip_partial.

Example C04_example : is_bytes [65; 66; 255] /\ zlen [65; 66; 255] <= 255.
Proof. split; [repeat (apply Forall_cons || apply Forall_nil); unfold is_u8; lia|vm_compute; discriminate]. Qed.

Theorem C04_refuted : exists text, is_bytes text /\
  exists s b', get_short_string strict (buf_of (bdata (put_short_string buf_new (short_string text)))) = Ok (s, b')
               /\ str_std s <> text.
Proof. exact string_refuted. Qed.
Print Assumptions C04_refuted.

(** C05. *)
Theorem C05_address_roundtrip : forall (h : heap) f a b c d p,
  is_u16 f -> is_u8 a -> is_u8 b -> is_u8 c -> is_u8 d -> is_u16 p ->
  bdata (put_endpoint buf_new (the_endpoint f a b c d p))
    = be16 f ++ be16 p ++ [a; b; c; d] ++ [0;0;0;0;0;0;0;0]
  /\ exists b', get_endpoint h (buf_of (bdata (put_endpoint buf_new (the_endpoint f a b c d p))))
                = Ok (the_endpoint f a b c d p, b') /\ buf_empty b' = true /\ buf_valid b' = true.
Proof. exact address_roundtrip. Qed.
Print Assumptions C05_address_roundtrip.

Example C05_example : the_endpoint 2 192 168 1 20 44818
  = mkEP "192.168.1.20" 44818 (mkAddr 2 4783 335653056).
Proof. vm_compute. reflexivity. Qed.

(** An end point made from host text: the decoded end point has the address
    the OS parser found (0.0.0.0 if it found none), and is equal to the original
    exactly when the text was the canonical dotted quad. [aton] is any parser. *)
Theorem C05_from_host_text : forall (h : heap) (aton : string -> option Z) (host : string) (port : Z),
  let a := match aton host with Some a => a | None => 0 end in
  is_u32 a -> is_u16 port ->
  let e := the_endpoint 2 (a mod 256) (a / 256 mod 256) (a / 256 / 256 mod 256)
                        (a / 256 / 256 / 256 mod 256) port in
  exists b', get_endpoint h (buf_of (bdata (put_endpoint buf_new (ep_of_host aton host port))))
             = Ok (e, b') /\ buf_empty b' = true /\ buf_valid b' = true
  /\ sa_addr (ep_addr e) = a
  /\ ep_eqb e (ep_of_host aton host port) = String.eqb (ep_host e) host.
Proof. exact endpoint_from_host. Qed.
Print Assumptions C05_from_host_text.
Example C05_from_host_example :
  let aton := fun s : string => if String.eqb s "10.0.0.007" then Some 117440522 else None in
  is_u32 117440522 /\ is_u16 44818
  /\ ep_addr (ep_of_host aton "10.0.0.007" 44818) = mkAddr 2 4783 117440522
  /\ get_endpoint strict (buf_of (bdata (put_endpoint buf_new (ep_of_host aton "10.0.0.007" 44818))))
     = Ok (the_endpoint 2 10 0 0 7 44818, mkBuf (be16 2 ++ be16 44818 ++ [10; 0; 0; 7; 0;0;0;0;0;0;0;0]) 16)
  /\ ep_eqb (the_endpoint 2 10 0 0 7 44818) (ep_of_host aton "10.0.0.007" 44818) = false.
Proof. unfold is_u32, is_u16. repeat split; try lia; vm_compute; reflexivity. Qed.
