(** Specification of fault handling of a PowerFlex 525 drive. *)
From Coq Require Import QArith SpecFloat.
From Verif Require Import Base MBuffer SBuffer MEip SEip SObj SParam MParam MFault SFloat.
Local Open Scope Z_scope.

(** The parameters that hold fault number [n] (1 is the latest). *)
Definition code_param (n : Z) : Z := if n <=? 3 then 6 + n else 600 + n.
Definition freq_param (n : Z) : Z := 630 + n.
Definition current_param (n : Z) : Z := 640 + n.
Definition volts_param (n : Z) : Z := 650 + n.

(** The fault table of the drive: code, type and name. *)
Definition catalogue : list (Z * (Z * string)) :=
  [(0, (0, "No Fault"));
   (2, (1, "Heatsink OvrTmp"));
   (3, (2, "Power Loss"));
   (4, (1, "UnderVoltage"));
   (5, (1, "OverVoltage"));
   (6, (1, "Motor Stalled"));
   (7, (1, "Motor Overload"));
   (8, (1, "Heatsink OvrTmp"));
   (9, (1, "CC OvrTmp"));
   (12, (2, "HW OverCurrent"));
   (13, (1, "Ground Fault"));
   (15, (2, "Load Loss"));
   (21, (1, "Output Ph Loss"));
   (29, (1, "Analog In Loss"));
   (33, (2, "Auto Rstrt Tries"));
   (38, (2, "Phase U to Gnd"));
   (39, (2, " Phase V to Gnd"));
   (40, (2, " Phase W to Gnd"));
   (41, (2, "Phase UV Short"));
   (42, (2, "Phase UW Short"));
   (43, (2, "Phase VW Short"));
   (48, (1, "Params Defaulted"));
   (59, (1, "Safety Open"));
   (63, (1, "SW OverCurrent"));
   (64, (2, "Drive Overload"));
   (70, (2, "Power Unit"));
   (71, (2, "DSI Net Loss"));
   (72, (2, "Opt Net Loss"));
   (73, (2, "EN Net Loss"));
   (80, (2, "Autotune Failure"));
   (81, (2, "DSI Comm Loss"));
   (82, (2, "Opt Comm Loss"));
   (83, (2, "EN Comm Loss"));
   (91, (2, "Encoder Loss"));
   (94, (2, "Function Loss"));
   (100, (2, "Parameter Chksum"));
   (101, (2, "External Storage"));
   (105, (2, "C Connect Err"));
   (106, (2, "Incompat C-P"));
   (107, (2, "Replaced C-P"));
   (109, (2, "Mismatch C-P"));
   (110, (2, "Keypad Membrane"));
   (111, (2, "Safety Hardware"));
   (114, (2, "uC Failure"));
   (122, (2, "I/O Board Fail"));
   (125, (2, "Flash Update Req"));
   (126, (2, "NonRecoverablErr"));
   (127, (2, "DSIFlashUpdatReq"))]%string.
Definition known_codes : list Z := map fst catalogue.

(** A drive: its parameters (16 bit) and the fault commands it has received. *)
Record drive := mkDrive { dr_value : Z -> Z; dr_commands : list Z }.
Definition drive_wf (d : drive) : Prop := forall n, is_u16 (dr_value d n).
Definition drive_device : device drive :=
  fun d q =>
    match q with
    | mkReq 14 [(KClass, 15); (KInst, n); (KAttr, 1)] [] => (done (le 2 (dr_value d n)), d)
    | mkReq 16 [(KClass, 151); (KInst, 0); (KAttr, 3)] [c] => (done [], mkDrive (dr_value d) (dr_commands d ++ [c]))
    | _ => (failed 8, d)
    end.
Definition clear_request : request := mkReq 16 [(KClass, 151); (KInst, 0); (KAttr, 3)] [2].

(** The code of fault [n]. *)
Definition code_of (d : drive) (n : Z) : Z := dr_value d (code_param n).

(** The requests for fault [n]. *)
Definition fault_requests (d : drive) (want : bool) (n : Z) : list request :=
  attribute_request (code_param n) 1
  :: (if negb (code_of d n =? 0) && want
      then [attribute_request (volts_param n) 1; attribute_request (current_param n) 1; attribute_request (freq_param n) 1]
      else []).
(** What is reported of fault [n]: the values when the details are wanted. *)
Definition reports_details (d : drive) (want : bool) (n : Z) (f : details) : Prop :=
  fd_number f = n /\ fd_code f = code_of d n
  /\ (if negb (code_of d n =? 0) && want
      then (finite (fd_volts f) /\ (sfq (fd_volts f) == inject_Z (dr_value d (volts_param n)))%Q)
           /\ nearest (fd_current f) (dr_value d (current_param n) # 100)
           /\ nearest (fd_frequency f) (dr_value d (freq_param n) # 100)
      else fd_volts f = S754_zero false /\ fd_current f = S754_zero false /\ fd_frequency f = S754_zero false).
Definition reports (d : drive) (want : bool) (n : Z) (f : fault) : Prop :=
  reports_details d want n (fa_details f) /\ In (code_of d n, (fst (fst (fa_description f)), snd (fst (fa_description f)))) catalogue.

(** The faults in the queue: slots up to the first empty one. *)
Fixpoint leading (p : Z -> bool) (l : list Z) : list Z :=
  match l with
  | [] => []
  | n :: r => if p n then n :: leading p r else []
  end.
Definition slots : list Z := [1; 2; 3; 4; 5; 6; 7; 8; 9; 10].
Definition recorded (d : drive) : list Z := leading (fun n => negb (code_of d n =? 0)) slots.
(** the slots that are looked at: one more than are recorded, if there is one *)
Definition examined (d : drive) : list Z := firstn (S (List.length (recorded d))) slots.

Definition all_known (d : drive) : Prop := Forall (fun n => In (code_of d n) known_codes) (recorded d).
(** a request that only reads a parameter value *)
Definition reading (x : request * answer) : Prop := exists n, fst x = attribute_request n 1.
(** what the listener is given has a code and its description *)
Definition known_call (f : fault) : Prop :=
  fd_code (fa_details f) <> 0
  /\ In (fd_code (fa_details f), (fst (fst (fa_description f)), snd (fst (fa_description f)))) catalogue.

(** ** Fault object *)
Record fault_info := mkFI {
  fi_code : Z; fi_port : Z; fi_device : Z; fi_text : bytes; fi_timer : Z; fi_flags : Z }.
Definition fault_info_wf (f : fault_info) : Prop :=
  is_u16 (fi_code f) /\ is_u8 (fi_port f) /\ is_u8 (fi_device f) /\ is_bytes (fi_text f) /\ zlen (fi_text f) = 16
  /\ is_u64 (fi_timer f) /\ is_u16 (fi_flags f).
Definition fault_bytes (f : fault_info) : bytes :=
  le 2 (fi_code f) ++ [fi_port f; fi_device f] ++ fi_text f ++ le 8 (fi_timer f) ++ le 2 (fi_flags f).
Definition fault_request (id : Z) : request := mkReq 14 [(KClass, 151); (KInst, id); (KAttr, 0)] [].
Definition shows_fault (o : fault_object) (f : fault_info) : Prop :=
  fo2_code o = fi_code f /\ fo2_port o = fi_port f /\ fo2_device o = fi_device f
  /\ str_std (fo2_text o) = fi_text f /\ str_length (fo2_text o) = 16 /\ fo2_timer o = fi_timer f
  /\ fo2_valid o = Z.testbit (fi_flags f) 0 /\ fo2_real o = Z.testbit (fi_flags f) 1.

(** The device accepted the request. *)
Definition accepted (x : request * answer) : Prop := a_status (snd x) = 0.
