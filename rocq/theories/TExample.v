(** Property C83: the example programs. *)
From Coq Require Import SpecFloat.
From Verif Require Import Base MBuffer SBuffer PBase MEip SEip SObj PObj MFile MIdent MParam SParam MFault MSocket MConnReq SConnReq MConn SConn
  STarget MYaskawa MDisc SDisc PDisc MExample SFile SExample PExample PExample2 PExample3.
Local Open Scope Z_scope.

(** ** Parameters *)

(** Any number of parameters, the first of at least two bytes: all are read
    once, in order; the value of the first is shown in both forms, read again and
    shown again. *)
Theorem C83_parameters_partial : forall h handle ps descr later more tr,
  is_u32 handle -> is_u16 descr -> Forall pdev_wf ps -> zlen ps <= 65535 -> is_bytes more -> zlen more <= 50000 -> is_bytes later ->
  (forall p rest, ps = p :: rest -> (2 <= List.length (d_value p))%nat /\ zlen later = zlen (d_value p)) ->
  exists l shown, parameter_example h (served handle (parameters_device ps descr later more)) (tt, tr)
    = (Ok (Some (l, shown)), (tt, tr ++ scan_trace ps descr later more))
  /\ shows_all l (offers_all descr) (match ps with [] => [] | p :: r => with_value p later :: r end)
  /\ match ps, shown with
     | [], None => True
     | p :: _, Some (v, x, v') => v = word_of (d_value p) /\ v' = word_of later
         /\ exists q, shows_parameter q 1 (offers_all descr) p /\ x = actual_to_eng double q (of_int double v)
     | _, _ => False
     end.
Proof. exact parameters_scanned. Qed.
Print Assumptions C83_parameters_partial.
(** The program takes the first parameter for a UINT without looking at its
    type: a smaller one is read past its end. *)
Theorem C83_short_parameter : forall ps descr later more p rest handle tr, is_u32 handle -> is_u16 descr -> Forall pdev_wf ps -> zlen ps <= 65535 ->
  is_bytes more -> zlen more <= 50000 -> ps = p :: rest -> (List.length (d_value p) < 2)%nat ->
  fst (parameter_example strict (served handle (parameters_device ps descr later more)) (tt, tr)) = Undef UbOobRead.
Proof. exact parameter_short. Qed.
Print Assumptions C83_short_parameter.
Example C83_short_parameter_example : pdev_wf byte_pdev /\ (List.length (d_value byte_pdev) < 2)%nat
  /\ fst (parameter_example strict (served 7 (parameters_device [byte_pdev; word_pdev] 3 [20] [])) (tt, [])) = Undef UbOobRead.
Proof. split; [apply pdevs_wf|]. split; [cbn; lia|vm_compute; reflexivity]. Qed.
Example C83_parameters_example : pdev_wf word_pdev /\ pdev_wf byte_pdev
  /\ exists l, fst (parameter_example strict (served 7 (parameters_device [word_pdev; byte_pdev] 3 [20; 1] [])) (tt, []))
     = Ok (Some (l, Some (10, S754_finite false 8106479329266893 (-53), 276)))
  /\ map pa_value l = [[20; 1]; [10]].
Proof.
  split; [apply pdevs_wf|]. split; [apply pdevs_wf|]. eexists. split; [vm_compute; reflexivity|reflexivity].
Qed.

(** ** Explicit messages *)
(** Whatever the device answers, if it gives at least two bytes of a vendor id:
    the two requests are made; the number and the statuses are shown. *)
Theorem C83_explicit_partial : forall D h handle (dev : device D) d tr a d1 a' d2,
  is_u32 handle -> dev d vendor_request = (a, d1) -> answer_wf a -> dev d1 output_request = (a', d2) -> answer_wf a' ->
  (a_status a = 0 -> (2 <= List.length (a_data a))%nat) ->
  explicit_example h (served handle dev) (d, tr)
  = (Ok (if a_status a =? 0 then inl (word_of (a_data a)) else inr (a_status a), a_status a'),
     (d2, tr ++ [(vendor_request, a); (output_request, a')])).
Proof. exact @explicit_runs. Qed.
Print Assumptions C83_explicit_partial.
Theorem C83_explicit_short : forall D handle (dev : device D) d tr a d1,
  is_u32 handle -> dev d vendor_request = (a, d1) -> answer_wf a -> a_status a = 0 -> (List.length (a_data a) < 2)%nat ->
  fst (explicit_example strict (served handle dev) (d, tr)) = Undef UbOobRead.
Proof. exact @explicit_short. Qed.
Print Assumptions C83_explicit_short.
Example C83_explicit_short_example :
  let dev : device unit := fun d q => (done [12], d) in
  answer_wf (done [12]) /\ a_status (done [12]) = 0
  /\ fst (explicit_example strict (served 7 dev) (tt, [])) = Undef UbOobRead.
Proof.
  split; [|split; [reflexivity|vm_compute; reflexivity]].
  unfold answer_wf; cbn; unfold is_u8, is_words, is_bytes; repeat match goal with |- _ /\ _ => split end; try lia; repeat constructor; cbn; lia.
Qed.
Example C83_explicit_example :
  let dev : device bytes := fun d q => match q with mkReq 14 _ _ => (done [12; 1], d) | mkReq _ _ x => (done [], x) end in
  explicit_example strict (served 7 dev) ([], []) = (Ok (inl 268, 0), ([1; 2; 3; 4; 5; 6; 7; 8; 9; 10],
    [(vendor_request, done [12; 1]); (output_request, done [])])).
Proof. vm_compute. reflexivity. Qed.

(** ** Assemblies *)
(** Reading: the first 128 bytes; of a shorter answer more than there is. *)
Theorem C83_assembly_read_partial : forall D h handle (dev : device D) n d tr a d',
  is_u32 handle -> is_u8 n -> dev d (assembly_request n) = (a, d') -> answer_wf a ->
  (a_status a = 0 -> 128 <= zlen (a_data a)) ->
  read_assembly h (served handle dev) n (d, tr)
  = (Ok (if a_status a =? 0 then firstn 128 (a_data a) else []), (d', tr ++ [(assembly_request n, a)])).
Proof. exact @assembly_read. Qed.
Print Assumptions C83_assembly_read_partial.
Example C83_assembly_read_example : is_u8 101
  /\ assemblies (repeat 5 130, [6]) (assembly_request 101) = (done (repeat 5 130), (repeat 5 130, [6]))
  /\ 128 <= zlen (repeat 5 130)
  /\ fst (read_assembly strict (served 7 assemblies) 101 ((repeat 5 130, [6]), [])) = Ok (repeat 5 128)
  /\ fst (read_assembly strict (served 7 assemblies) 102 ((repeat 5 130, [6]), [])) = Ok [].
Proof.
  split; [unfold is_u8; lia|]. split; [reflexivity|]. split; [vm_compute; discriminate|]. split; vm_compute; reflexivity.
Qed.
Theorem C83_assembly_short : forall D handle (dev : device D) n d tr a d',
  is_u32 handle -> is_u8 n -> dev d (assembly_request n) = (a, d') -> answer_wf a ->
  a_status a = 0 -> zlen (a_data a) < 128 ->
  fst (read_assembly strict (served handle dev) n (d, tr)) = Undef UbOobRead.
Proof. exact @assembly_short. Qed.
Print Assumptions C83_assembly_short.
Example C83_assembly_short_example : a_status (done (repeat 6 32)) = 0 /\ zlen (repeat 6 32) < 128
  /\ fst (read_assembly strict (served 7 assemblies) 111 ((repeat 5 130, repeat 6 32), [])) = Undef UbOobRead.
Proof. split; [reflexivity|]. split; [reflexivity|vm_compute; reflexivity]. Qed.
Theorem C83_assembly_written : forall D h handle (dev : device D) n data d tr a d',
  is_u32 handle -> is_u8 n -> is_bytes data -> zlen data <= 60000 -> dev d (assembly_write n data) = (a, d') -> answer_wf a ->
  write_assembly h (served handle dev) n data (d, tr)
  = (Ok (a_status a =? 0), (d', tr ++ [(assembly_write n data, a)])).
Proof. exact @assembly_written. Qed.
Print Assumptions C83_assembly_written.
Example C83_assembly_written_example : is_bytes [1; 2; 3]
  /\ write_assembly strict (served 7 assemblies) 111 [1; 2; 3] (([], [7; 8; 9]), [])
     = (Ok true, (([], [1; 2; 3]), [(assembly_write 111 [1; 2; 3], done [])]))
  /\ write_assembly strict (served 7 assemblies) 111 [1; 2] (([], [7; 8; 9]), [])
     = (Ok false, (([], [7; 8; 9]), [(assembly_write 111 [1; 2], failed 21)])).
Proof.
  split; [repeat constructor; unfold is_u8; lia|]. split; vm_compute; reflexivity.
Qed.
(** The whole program, with a device whose assemblies are as large as it expects. *)
Theorem C83_assemblies_partial : forall h handle a b tr, is_u32 handle -> is_bytes a -> is_bytes b ->
  128 <= zlen a <= 60000 -> zlen b = 128 ->
  yaskawa_example h (served handle assemblies) ((a, b), tr)
  = (Ok (firstn 128 a, b, true),
     ((a, repeat 222 128), tr ++ [(assembly_request 101, done a); (assembly_request 111, done b);
                                  (assembly_write 111 (repeat 222 128), done [])])).
Proof. exact yaskawa_runs. Qed.
Print Assumptions C83_assemblies_partial.
Theorem C83_fill : forall offset size, 0 <= offset ->
  fill_vector offset size = firstn size (repeat 0 (Z.to_nat offset)) ++ repeat 222 (size - Z.to_nat offset).
Proof. exact fill_spec. Qed.
Print Assumptions C83_fill.
Example C83_assemblies_example : is_u32 7 /\ is_bytes (repeat 5 130) /\ is_bytes (repeat 6 128)
  /\ fst (yaskawa_example strict (served 7 assemblies) ((repeat 5 130, repeat 6 128), [])) = Ok (repeat 5 128, repeat 6 128, true)
  /\ fst (yaskawa_example strict (served 7 assemblies) ((repeat 5 32, repeat 6 32), [])) = Undef UbOobRead
  /\ fill_vector 2 5 = [0; 0; 222; 222; 222].
Proof.
  split; [unfold is_u32; lia|]. split; [apply repeat_bytes; unfold is_u8; lia|]. split; [apply repeat_bytes; unfold is_u8; lia|].
  split; [vm_compute; reflexivity|]. split; [vm_compute; reflexivity|reflexivity].
Qed.

(** The claim "with every device that follows the protocol the examples run
    without undefined behaviour" is false: a device with one parameter of one byte;
    a device whose assemblies have 32 bytes. *)
Theorem C83_refuted : exists ps descr later more a b,
  Forall pdev_wf ps /\ is_u16 descr /\ is_bytes later /\ is_bytes more /\ is_bytes a /\ is_bytes b
  /\ fst (parameter_example strict (served 7 (parameters_device ps descr later more)) (tt, [])) = Undef UbOobRead
  /\ fst (yaskawa_example strict (served 7 assemblies) ((a, b), [])) = Undef UbOobRead.
Proof. exact examples_refuted. Qed.
Print Assumptions C83_refuted.

(** ** A file *)
(** With a device that holds a file under instance 200, of any content and any
    transfer size, the program ends once all pieces have come, each asked for once,
    and what it has written is the file. *)
Theorem C83_file_partial : forall h handle F T crc, is_u32 handle -> is_bytes F -> zlen F < 2 ^ 32 -> 1 <= T <= 255 ->
  is_bytes crc -> List.length crc = 2%nat -> forall (tr : trace),
  exists n trn, Z.of_nat n = pieces (zlen F) T /\ List.length trn = (List.length tr + 2 + n)%nat
  /\ forall m, (n <= m)%nat ->
     file_example h (served handle (uploader 200 F T crc)) m (None, tr) = (Ok (false, Some F), (Some n, trn)).
Proof. exact file_saved. Qed.
Print Assumptions C83_file_partial.
(** The claim "the program ends" is false: if the device refuses every transfer,
    the program asks for ever and writes nothing. *)
Theorem C83_file_refuted : exists handle, is_u32 handle
  /\ forall h n, fst (file_example h (served handle refusing) n (tt, [])) = Ok (true, None).
Proof. exists 7. split; [unfold is_u32; lia|]. intros h n. apply (file_endless h 7 n []). unfold is_u32; lia. Qed.
Print Assumptions C83_file_refuted.
Example C83_file_example : is_u32 7 /\ is_bytes [10; 20; 30; 40; 50] /\ pieces 5 2 = 3
  /\ fst (file_example strict (served 7 (uploader 200 [10; 20; 30; 40; 50] 2 [0; 0])) 3 (None, [])) = Ok (false, Some [10; 20; 30; 40; 50])
  /\ fst (file_example strict (served 7 (uploader 200 [10; 20; 30; 40; 50] 2 [0; 0])) 2 (None, [])) = Ok (true, None)
  /\ fst (file_example strict (served 7 refusing) 20 (tt, [])) = Ok (true, None).
Proof.
  split; [unfold is_u32; lia|]. split; [repeat constructor; unfold is_u8; lia|].
  repeat match goal with |- _ /\ _ => split end; vm_compute; reflexivity.
Qed.

(** ** Implicit messages *)
(** With a target that follows the protocol and accepts or refuses as it likes,
    whatever arrives and however the clock runs: the program asks for the
    connection it describes. If that is refused, it stops. If not, either it serves
    the connection 200 times and closes it at both ends, or it finds the connection
    timed out after at most 200 times and stops without telling the target, or it
    ends with an exception, and the target keeps the connection. In all cases only
    packets with 32 zero bytes are sent, and only 32 bytes of data received. *)
Theorem C83_implicit : forall h handle pol host env rs inc o w', is_u32 handle -> policy_wf pol ->
  implicit_example h (served handle (target pol)) host env rs (target_start inc) = (o, w') ->
  exists q c a more, example_open q c /\ snd (w_s w') = (q, a) :: more
  /\ (a_status a <> 0 /\ o = Ok 0%nat /\ more = [] /\ at_target w' = [] /\ has_open (w_m w' 0%nat) = false
         /\ m_log (w_m w' 0%nat) = []
      \/ a_status a = 0 /\ exists t, tc_name t = (c_serial c, c_vendor c, c_origSerial c) /\ tc_path t = c_path c
         /\ Forall (example_event (tc_o2t t)) (m_log (w_m w' 0%nat))
         /\ ((exists q' a', o = Ok 200%nat /\ more = [(q', a')] /\ example_close q' t /\ a_status a' = 0
                /\ at_target w' = [] /\ has_open (w_m w' 0%nat) = false)
             \/ (exists n, o = Ok n /\ (0 < n <= 200)%nat /\ more = [] /\ at_target w' = [t] /\ has_open (w_m w' 0%nat) = false)
             \/ ((forall n, o <> Ok n) /\ more = [] /\ at_target w' = [t]))).
Proof. exact implicit_runs. Qed.
Print Assumptions C83_implicit.
(** All these endings occur. *)
Example C83_implicit_example :
  policy_wf demo_policy /\ policy_wf (fun _ _ => None)
  /\ fst (implicit_example strict (served 7 (target (fun _ _ => None))) "10.0.0.1" demo_env (fun _ => demo_round 0) (target_start (fun _ => 5))) = Ok 0%nat
  /\ fst (implicit_example strict (served 7 (target demo_policy)) "10.0.0.1" demo_env (fun n => demo_round (100000000 * (200 - Z.of_nat n)))
            (target_start (fun _ => 5))) = Ok 41%nat
  /\ fst (implicit_example strict (served 7 (target demo_policy)) "10.0.0.1" demo_env (fun n => demo_round 0) (target_start (fun _ => 5))) = Ok 200%nat
  /\ fst (implicit_example strict (served 7 (target demo_policy)) "10.0.0.1" (mkFoEnv None (Some 98) 0 (fun _ => Some 1)) (fun n => demo_round 0)
            (target_start (fun _ => 5))) = Throw (SystemError 98).
Proof.
  split; [apply demo_policy_wf|]. split; [intros T c g E; discriminate E|].
  repeat match goal with |- _ /\ _ => split end; vm_compute; reflexivity.
Qed.

(** ** Identities and devices *)
(** One line with the attributes of the device, in the order of the object, with nothing between them. *)
Theorem C83_identity : forall D h handle (dev : device D) d tr a d' i rest,
  is_u32 handle -> dev d (identity_request 1) = (a, d') -> answer_wf a -> a_status a = 0 ->
  a_data a = ident_bytes i ++ rest -> ident_wf i ->
  exists s, identity_example h (served handle dev) (d, tr) = (Ok s, (d', tr ++ [(identity_request 1, a)])) /\ identity_line i s.
Proof. exact identity_run. Qed.
Print Assumptions C83_identity.
(** The line does not tell which device it is. *)
Theorem C83_identity_refuted : exists i j s, i <> j /\ ident_wf i /\ ident_wf j /\ identity_line i s /\ identity_line j s.
Proof. exact identity_ambiguous. Qed.
Print Assumptions C83_identity_refuted.
Example C83_identity_example :
  let i := mkIdent 1 14 94 3 4 48 305419896 [80; 76; 67] in
  ident_wf i /\ fst (identity_example strict (served 7 (fun (_ : unit) _ => (done (ident_bytes i ++ [3]), tt))) (tt, []))
                = Ok "114943.448305419896PLC"%string.
Proof.
  split; [|vm_compute; reflexivity].
  unfold ident_wf, is_u8, is_u16, is_u32; cbn; repeat match goal with |- _ /\ _ => split end; try lia; repeat constructor; cbn; lia.
Qed.
(** One line for each device that is announced, in the order of arrival, with its name and address (the replies are to
    fit into 504 bytes, as in C62). *)
Theorem C83_discovery_partial : forall h aton k ls uss rest,
  open k -> Forall2 fits ls uss -> timeout rest ->
  exists lines, discovery_example h aton k (map Dgram ls ++ rest)
    = (Ok lines, [(ep_addr (ep_of_host aton "172.28.255.255" 44818), list_identity_request)])
  /\ Forall2 unit_line (List.concat uss) lines.
Proof. exact discovery_run. Qed.
Print Assumptions C83_discovery_partial.
Example C83_discovery_example :
  open dk_fine /\ Forall2 fits [reply [drive]; reply [plc]] [[drive]; [plc]] /\ timeout [DErr 11]
  /\ fst (discovery_example strict (fun _ => Some 4294909100) dk_fine [Dgram (reply [drive]); Dgram (reply [plc]); DErr 11])
     = Ok ["Discovered device: V5 with address 192.168.1.9:44818"; "Discovered device: PLC with address 192.168.1.5:44818"]%string.
Proof.
  split; [repeat split|]. split; [repeat (constructor; [apply fits_reply; auto|]); constructor|]. split; [right; eauto|].
  vm_compute. reflexivity.
Qed.
