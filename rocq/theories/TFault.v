(** Properties of the PowerFlex 525 fault classes: C64 - C67. *)
From Coq Require Import QArith SpecFloat.
From Verif Require Import Base MBuffer SBuffer PBase MEip SEip SObj MFile MIdent MParam SParam SFloat MFault SFault SFaultText PFault.
Local Open Scope Z_scope.

(** ** C64 fault queue *)

(** All recorded codes known: the listener is called once per recorded fault,
    in order; only the recorded slots and the first empty one are read; the
    queue is cleared last, exactly when configured and a fault was read. *)
Theorem C64_known_partial : forall h handle d clear want tr, is_u32 handle -> drive_wf d -> all_known d ->
  exists calls d' new,
    handle_faults h false (served handle drive_device) clear want ([], (d, tr)) = (Ok tt, (calls, (d', tr ++ new)))
    /\ Forall2 (reports d want) (recorded d) calls
    /\ map fst new = concat (map (fault_requests d want) (examined d))
                     ++ (if clear && negb (Nat.eqb (List.length (recorded d)) 0) then [clear_request] else [])
    /\ dr_value d' = dr_value d
    /\ dr_commands d' = dr_commands d ++ (if clear && negb (Nat.eqb (List.length (recorded d)) 0) then [2] else []).
Proof. exact faults_known. Qed.
Print Assumptions C64_known_partial.

(** A code that is not in the table: the faults before it are reported, then
    an exception is thrown; neither it nor the later faults are reported and
    the queue is not cleared. *)
Theorem C64_unknown_code : forall h handle d clear want tr good n rest, is_u32 handle -> drive_wf d ->
  recorded d = good ++ n :: rest -> Forall (fun n => In (code_of d n) known_codes) good -> ~ In (code_of d n) known_codes ->
  exists calls new,
    handle_faults h false (served handle drive_device) clear want ([], (d, tr))
      = (Throw (RuntimeError RtFaultCode), (calls, (d, tr ++ new)))
    /\ Forall2 (reports d want) good calls
    /\ map fst new = concat (map (fault_requests d want) (good ++ [n])).
Proof. exact faults_unknown. Qed.
Print Assumptions C64_unknown_code.

(** Whatever the device answers: only parameters are read, listeners are
    called for faults 1, 2, ... of at most ten, each with a known nonzero code,
    and the only other request is one clear command at the end, sent only when
    configured and after a fault, and always then if there was no error. *)
Theorem C64_any_device : forall D h handle (dev : device D), is_u32 handle ->
  forall clear want d (tr : trace) o calls d' tr',
  handle_faults h false (served handle dev) clear want ([], (d, tr)) = (o, (calls, (d', tr'))) ->
  exists reads last, tr' = tr ++ reads ++ last /\ Forall reading reads
  /\ map (fun f => fd_number (fa_details f)) calls = firstn (List.length calls) slots /\ (List.length calls <= 10)%nat
  /\ Forall known_call calls
  /\ (last = [] \/ clear = true /\ calls <> [] /\ exists a, last = [(clear_request, a)])
  /\ (o = Ok tt -> clear = true -> calls <> [] -> last <> []).
Proof. intros D h handle dev H. exact (faults_any h handle dev H). Qed.
Print Assumptions C64_any_device.
(** No refusal goes unnoticed: when the call returns, every request it made,
    also the clear command, was accepted. *)
Theorem C64_refusals : forall D h handle (dev : device D), is_u32 handle -> device_wf dev ->
  forall clear want d (tr : trace) calls d' tr',
  handle_faults h false (served handle dev) clear want ([], (d, tr)) = (Ok tt, (calls, (d', tr'))) ->
  exists new, tr' = tr ++ new /\ Forall accepted new.
Proof. intros D h handle dev H W. exact (faults_fair h handle dev H W). Qed.
Print Assumptions C64_refusals.
(** One fault, and a clear command that is accepted or refused. *)
Definition one_fault (ok : bool) : device unit := fun u q =>
  (match q with
   | mkReq 16 _ _ => if ok then done [] else failed 8
   | mkReq _ [_; (_, 7); _] _ => done [5; 0]
   | _ => done [0; 0]
   end, u).
Example C64_refusals_example : device_wf (one_fault true) /\ device_wf (one_fault false)
  /\ (exists c, handle_faults strict false (served 7 (one_fault true)) true false ([], (tt, []))
      = (Ok tt, ([c], (tt, [(attribute_request 7 1, done [5; 0]); (attribute_request 8 1, done [0; 0]); (clear_request, done [])]))))
  /\ fst (handle_faults strict false (served 7 (one_fault false)) true false ([], (tt, []))) = Throw (RuntimeError RtRequestFailed).
Proof.
  assert (W : forall ok, device_wf (one_fault ok)).
  { intros ok d q. unfold one_fault. cbn [fst].
    repeat match goal with |- answer_wf (match ?x with _ => _ end) => destruct x end;
      (split; [cbn; unfold is_u8; lia|]; split; [constructor|]; split; [cbn; lia|]; split; [|cbn; lia]);
      repeat (apply Forall_cons; [unfold is_u8; lia|]); apply Forall_nil. }
  split; [apply W|]. split; [apply W|]. split; [|vm_compute; reflexivity]. eexists. vm_compute. reflexivity.
Qed.
Theorem C64_device_error : forall D h handle (dev : device D) d clear want tr a d', is_u32 handle ->
  dev d (attribute_request 7 1) = (a, d') -> answer_wf a -> a_status a <> 0 ->
  handle_faults h false (served handle dev) clear want ([], (d, tr))
  = (Throw (RuntimeError RtRequestFailed), ([], (d', tr ++ [(attribute_request 7 1, a)]))).
Proof. exact @faults_error. Qed.
Print Assumptions C64_device_error.
Example C64_device_error_example :
  let dev : device unit := fun u _ => (failed 20, u) in
  a_status (failed 20) <> 0
  /\ handle_faults strict false (served 7 dev) true false ([], (tt, []))
     = (Throw (RuntimeError RtRequestFailed), ([], (tt, [(attribute_request 7 1, failed 20)]))).
Proof. split; [discriminate|vm_compute; reflexivity]. Qed.

(** A drive with fault codes c1 (latest), c2, c3; other parameters 1234. *)
Definition demo_drive (c1 c2 c3 : Z) : drive :=
  mkDrive (fun n => if n =? 7 then c1 else if n =? 8 then c2 else if n =? 9 then c3 else if n =? 604 then 0 else 1234) [].
Lemma demo_drive_wf c1 c2 c3 : is_u16 c1 -> is_u16 c2 -> is_u16 c3 -> drive_wf (demo_drive c1 c2 c3).
Proof.
  intros A B C n. unfold demo_drive, dr_value. repeat (destruct (n =? _); [assumption || (unfold is_u16; lia)|]). unfold is_u16; lia.
Qed.

(** Three faults, the second with a code that is not in the table: one is
    reported and the queue is never cleared. *)
Theorem C64_refuted : exists handle d calls w,
  is_u32 handle /\ drive_wf d /\ recorded d = [1; 2; 3] /\ List.length calls = 1%nat
  /\ handle_faults strict false (served handle drive_device) true false ([], (d, []))
     = (Throw (RuntimeError RtFaultCode), (calls, w))
  /\ dr_commands (fst w) = [].
Proof.
  exists 7, (demo_drive 5 1 7). do 2 eexists.
  split; [unfold is_u32; lia|]. split; [apply demo_drive_wf; unfold is_u16; lia|].
  split; [reflexivity|]. split; [|split; [vm_compute; reflexivity|reflexivity]]. reflexivity.
Qed.
Print Assumptions C64_refuted.
Example C64_example :
  all_known (demo_drive 5 12 7) /\ recorded (demo_drive 5 12 7) = [1; 2; 3]
  /\ examined (demo_drive 5 12 7) = [1; 2; 3; 4]
  /\ (let '(o, (calls, (d, tr))) :=
        handle_faults strict false (served 7 drive_device) true true ([], (demo_drive 5 12 7, [])) in
      o = Ok tt /\ map (fun f => (fd_code (fa_details f), snd (fst (fa_description f)))) calls
        = [(5, "OverVoltage"); (12, "HW OverCurrent"); (7, "Motor Overload")]%string
      /\ List.length tr = 14%nat /\ dr_commands d = [2])
  /\ snd (snd (handle_faults strict false (served 7 drive_device) true true ([], (demo_drive 0 12 7, []))))
     = (demo_drive 0 12 7, [(attribute_request 7 1, done [0; 0])])
  /\ recorded (demo_drive 5 1 7) = [1] ++ 2 :: [3]
  /\ attribute_request 7 1 = mkReq 14 [(KClass, 15); (KInst, 7); (KAttr, 1)] [].
Proof.
  split. { apply Forall_forall. intros n I. apply existsb_known. revert n I. apply forallb_forall. reflexivity. }
  repeat match goal with |- _ /\ _ => split end; vm_compute; repeat split; reflexivity.
Qed.

(** ** C65 parameter numbers and engineering values *)
Theorem C65_read : forall h handle d want n tr, is_u32 handle -> drive_wf d -> 1 <= n <= 10 ->
  exists f new, fault_read h false (served handle drive_device) n want (d, tr) = (Ok f, (d, tr ++ new))
  /\ reports_details d want n (fa_details f) /\ fa_description f = (0, EmptyString, EmptyString)
  /\ map fst new = fault_requests d want n.
Proof. exact fault_one. Qed.
Print Assumptions C65_read.
Example C65_read_example :
  (exists f, fault_read strict false (served 7 drive_device) 4 true (mkDrive (fun _ => 0) [], [])
             = (Ok f, (mkDrive (fun _ => 0) [], [(attribute_request 604 1, done [0; 0])])))
  /\ fault_requests (mkDrive (fun n => 5) []) true 4
     = [attribute_request 604 1; attribute_request 654 1; attribute_request 644 1; attribute_request 634 1]
  /\ drive_wf (mkDrive (fun _ => 5) []).
Proof.
  split; [eexists; vm_compute; reflexivity|]. split; [reflexivity|]. intros n. cbn. unfold is_u16. lia.
Qed.
Theorem C65_number : forall W h use8 (si : session_if W) n want w, ~ 1 <= n <= 10 ->
  fault_read h use8 si n want w = (Throw (RuntimeError RtFaultNumber), w).
Proof. exact @fault_number_bad. Qed.
Print Assumptions C65_number.
Example C65_number_example : ~ 1 <= 11 <= 10
  /\ fault_read strict false (served 7 drive_device) 11 true (mkDrive (fun _ => 5) [], [])
     = (Throw (RuntimeError RtFaultNumber), (mkDrive (fun _ => 5) [], [])).
Proof. split; [lia|reflexivity]. Qed.
(** With 8-bit path segments the parameter numbers above 255 are cut: fault 4
    is read from parameter 92. *)
Theorem C65_narrow_segments : exists d f tr,
  drive_wf d /\ fault_read strict true (served 7 drive_device) 4 false (d, []) = (Ok f, (d, tr))
  /\ fd_code (fa_details f) <> code_of d 4 /\ map fst tr = [attribute_request 92 1].
Proof.
  exists (demo_drive 5 12 7). do 2 eexists. split; [apply demo_drive_wf; unfold is_u16; lia|].
  split; [vm_compute; reflexivity|]. split; [vm_compute; discriminate|reflexivity].
Qed.
Print Assumptions C65_narrow_segments.
(** 1234 in hundredths is 12.34, 0x1.8ae147ae147aep+3 *)
Example C65_example :
  omap (fun f => fa_details f) (fst (fault_read strict false (served 7 drive_device) 2 true (demo_drive 5 12 7, [])))
  = Ok (mkDetails 2 12 (S754_finite false 5427189394702336 (-42)) (S754_finite false 6946802425218990 (-49)) (S754_finite false 6946802425218990 (-49)))
  /\ (sfq (S754_finite false 5427189394702336 (-42)) == 1234)%Q
  /\ map code_param slots = [7; 8; 9; 604; 605; 606; 607; 608; 609; 610]
  /\ map volts_param slots = [651; 652; 653; 654; 655; 656; 657; 658; 659; 660]
  /\ map current_param slots = [641; 642; 643; 644; 645; 646; 647; 648; 649; 650]
  /\ map freq_param slots = [631; 632; 633; 634; 635; 636; 637; 638; 639; 640].
Proof. repeat split; vm_compute; reflexivity. Qed.

(** ** C66 descriptions *)
Theorem C66_known : forall code type name, In (code, (type, name)) catalogue ->
  exists text, fault_description code = Ok (type, name, text).
Proof. exact description_entry. Qed.
Print Assumptions C66_known.
Example C66_known_example : In (21, (1, "Output Ph Loss"%string)) catalogue
  /\ omap (fun d => fst d) (fault_description 21) = Ok (1, "Output Ph Loss"%string).
Proof. split; [vm_compute; tauto|reflexivity]. Qed.
Theorem C66_explained : forall code text, In (code, text) explanations ->
  exists type name, In (code, (type, name)) catalogue /\ fault_description code = Ok (type, name, text).
Proof. exact explained. Qed.
Print Assumptions C66_explained.
Example C66_explained_example : In (111, "Safety input enable hardware malfunction. One of the safety inputs is not enabled."%string) explanations
  /\ fault_description 111 = Ok (2, "Safety Hardware", "Safety input enable hardware malfunction. One of the safety inputs is not enabled.")%string.
Proof. split; [apply (nth_error_In _ 42); reflexivity|reflexivity]. Qed.
Theorem C66_all_explained : map fst explanations = map fst catalogue.
Proof. exact explained_all. Qed.
Print Assumptions C66_all_explained.
Theorem C66_unknown : forall code, ~ In code (map fst catalogue) ->
  fault_description code = Throw (RuntimeError RtFaultCode).
Proof. exact description_unknown. Qed.
Print Assumptions C66_unknown.
Example C66_unknown_example : ~ In 1 (map fst catalogue) /\ ~ In (-5) (map fst catalogue)
  /\ fault_description 1 = Throw (RuntimeError RtFaultCode) /\ fault_description (-5) = Throw (RuntimeError RtFaultCode).
Proof.
  split; [vm_compute; intuition discriminate|]. split; [vm_compute; intuition discriminate|]. split; reflexivity.
Qed.
Theorem C66_unique : forall code x y, In (code, x) catalogue -> In (code, y) catalogue -> x = y.
Proof. exact catalogue_unique. Qed.
Print Assumptions C66_unique.
Example C66_example : List.length catalogue = 48%nat
  /\ fault_description 13 = Ok (1, "Ground Fault",
       "A current path to earth ground has been detected at one or more of the drive output terminals.")%string
  /\ ~ In 1 (map fst catalogue) /\ ~ In (-5) (map fst catalogue)
  /\ In (13, (1, "Ground Fault"%string)) catalogue.
Proof.
  split; [reflexivity|]. split; [reflexivity|]. split; [vm_compute; intuition discriminate|].
  split; [vm_compute; intuition discriminate|vm_compute; tauto].
Qed.

(** ** C67 fault object *)
Theorem C67_decoded : forall D h use8 handle (dev : device D) id, is_u32 handle -> sendable use8 id ->
  forall d tr a d' f rest, dev d (fault_request id) = (a, d') -> answer_wf a -> a_status a = 0 ->
  a_data a = fault_bytes f ++ rest -> fault_info_wf f ->
  exists o, fault_object_read h use8 (served handle dev) id (d, tr) = (Ok o, (d', tr ++ [(fault_request id, a)]))
  /\ shows_fault o f.
Proof. intros D h use8 handle dev id H I. exact (object_reads h use8 handle dev id H I). Qed.
Print Assumptions C67_decoded.
Theorem C67_error : forall D h use8 handle (dev : device D) id, is_u32 handle -> sendable use8 id ->
  forall d tr a d', dev d (fault_request id) = (a, d') -> answer_wf a -> a_status a <> 0 ->
  fault_object_read h use8 (served handle dev) id (d, tr)
  = (Throw (RuntimeError RtRequestFailed), (d', tr ++ [(fault_request id, a)])).
Proof. intros D h use8 handle dev id H I. exact (object_error h use8 handle dev id H I). Qed.
Print Assumptions C67_error.
Example C67_error_example : is_u32 7 /\ sendable false 300 /\ a_status (failed 5) <> 0
  /\ fault_object_read strict false (served 7 scripted) 300 ([failed 5], [])
     = (Throw (RuntimeError RtRequestFailed), ([], [(fault_request 300, failed 5)])).
Proof.
  split; [unfold is_u32; lia|]. split; [split; [unfold is_u16; lia|discriminate]|]. split; [discriminate|vm_compute; reflexivity].
Qed.
(** A shorter reply is read past its end. *)
Theorem C67_truncated : forall D use8 handle (dev : device D) id d tr a d' f k, is_u32 handle -> sendable use8 id ->
  dev d (fault_request id) = (a, d') -> answer_wf a -> a_status a = 0 -> fault_info_wf f ->
  a_data a = firstn k (fault_bytes f) -> Z.of_nat k < 30 ->
  fst (fault_object_read strict use8 (served handle dev) id (d, tr)) = Undef UbOobRead.
Proof. exact @object_truncated. Qed.
Print Assumptions C67_truncated.
Example C67_truncated_example :
  fst (fault_object_read strict false (served 7 scripted) 2 ([done (repeat 1 29)], [])) = Undef UbOobRead.
Proof. vm_compute. reflexivity. Qed.
Definition demo_fault : fault_info :=
  mkFI 81 3 4 [68; 83; 73; 32; 67; 111; 109; 109; 32; 76; 111; 115; 115; 0; 0; 0] 123456789012 2.
Example C67_example : fault_info_wf demo_fault /\ answer_wf (done (fault_bytes demo_fault)) /\
  fst (fault_object_read strict false (served 7 scripted) 2 ([done (fault_bytes demo_fault)], []))
  = Ok (mkFO 81 3 4 (mkStr 16 (fi_text demo_fault)) 123456789012 false true).
Proof.
  assert (W : fault_info_wf demo_fault).
  { unfold fault_info_wf, demo_fault; cbn [fi_code fi_port fi_device fi_text fi_timer fi_flags].
    repeat match goal with |- _ /\ _ => split end; try (unfold is_u16, is_u8, is_u64; lia); try reflexivity.
    repeat (constructor; [unfold is_u8; lia|]). constructor. }
  split; [exact W|]. split; [|vm_compute; reflexivity].
  unfold answer_wf, done; cbn [a_status a_addl a_data]. repeat match goal with |- _ /\ _ => split end; try (unfold is_u8; lia); try constructor.
  all: try (vm_compute; reflexivity || discriminate).
  all: unfold fault_bytes; cbn. all: repeat (constructor; [unfold is_u8; lia|]). all: constructor.
Qed.
