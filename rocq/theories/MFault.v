(** Model of the PowerFlex 525 fault classes (src/vendor/ra/powerFlex525/).
    Logging is left out. Listeners are modelled as a record of the objects
    they are called with; listeners that throw are not covered. *)
From Verif Require Import Base MBuffer MEip MFile MIdent MParam.
From Coq Require Import SpecFloat.
Local Open Scope outcome_scope.

(** ** DPIFaultCode *)

(** DPIFaultCode.h:26-30: type, text, description. *)
Definition description : Type := (Z * string * string)%type.
(** DPIFaultCode.h:42-284. An unordered_map built from a list keeps the first
    entry of a key. *)
Definition fault_map : list (Z * description) :=
  [
   (0, (0, "No Fault", "No fault present."));
   (2, (1, "Heatsink OvrTmp", "Heatsink/Power Module temperature exceeds a predefined value."));
   (3, (2, "Power Loss", "Single phase operation detected with excessive load."));
   (4, (1, "UnderVoltage", "DC bus voltage fell below the minimum value."));
   (5, (1, "OverVoltage", "DC bus voltage exceeded maximum value."));
   (6, (1, "Motor Stalled", "Drive is unable to accelerate or decelerate motor."));
   (7, (1, "Motor Overload", "Internal electronic overload trip."));
   (8, (1, "Heatsink OvrTmp", "Heatsink/Power Module temperature exceeds a predefined value."));
   (9, (1, "CC OvrTmp", "Control module temperature exceeds a predefined value."));
   (12, (2, "HW OverCurrent", "The drive output current has exceeded the hardware current limit."));
   (13, (1, "Ground Fault", "A current path to earth ground has been detected at one or more of the drive output terminals."));
   (15, (2, "Load Loss", "The output torque current is below the value programmed in A490 [Load Loss Level] for a time period greater than the time programmed in A491 [Load Loss Time]."));
   (21, (1, "Output Ph Loss", "Output Phase Loss (if enabled). Configure with A557 [Output Phas Loss En]"));
   (29, (1, "Analog In Loss", "An analog input is configured to fault on signal loss. A signal loss has occurred. Configure with t094 [Anlg In V Loss] or t097 [Anlg In mA Loss]."));
   (33, (2, "Auto Rstrt Tries", "Drive unsuccessfully attempted to reset a fault and resume running for the programmed number of A541 [Auto Rstrt Tries]."));
   (38, (2, "Phase U to Gnd", "A phase to ground fault has been detected between the drive and motor in this phase."));
   (39, (2, " Phase V to Gnd", "A phase to ground fault has been detected between the drive and motor in this phase."));
   (40, (2, " Phase W to Gnd", "A phase to ground fault has been detected between the drive and motor in this phase."));
   (41, (2, "Phase UV Short", "Excessive current has been detected between these two output terminals"));
   (42, (2, "Phase UW Short", "Excessive current has been detected between these two output terminals"));
   (43, (2, "Phase VW Short", "Excessive current has been detected between these two output terminals"));
   (48, (1, "Params Defaulted", " The drive was commanded to write default values to EEPROM."));
   (59, (1, "Safety Open", "Both of the safety inputs (Safety 1, Safety 2) are not enabled. Configure with t105 [Safety Open En]."));
   (63, (1, "SW OverCurrent", "Programmed A486, A488 [Shear Pinx Level] has been exceeded for a time period greater than the time programmed in A487, A489 [Shear Pin x Time]."));
   (64, (2, "Drive Overload", "Drive overload rating has been exceeded."));
   (70, (2, "Power Unit", "Failure has been detected in the drive power section."));
   (71, (2, "DSI Net Loss", "Control over the Modbus or DSI communications link has been interrupted."));
   (72, (2, "Opt Net Loss", "Control over the network option card’s remote network has been interrupted."));
   (73, (2, "EN Net Loss", "Control through the embedded EtherNet/IP adapter has been interrupted."));
   (80, (2, "Autotune Failure", "The autotune function was either cancelled by the user or failed."));
   (81, (2, "DSI Comm Loss", "Communications between the drive and the Modbus or DSI master device have been interrupted."));
   (82, (2, "Opt Comm Loss", "Communications between the drive and the network option card have been interrupted."));
   (83, (2, "EN Comm Loss", "Internal communications between the drive and the embedded EtherNet/IP adapter have been interrupted."));
   (91, (2, "Encoder Loss", "Requires differential encoder. One of the 2 encoder channel signals is missing"));
   (94, (2, "Function Loss", "'Freeze-Fire' (Function Loss) input is inactive, input to the programmed terminal is open."));
   (100, (2, "Parameter Chksum", "Drive parameter non-volatile storage is corrupted."));
   (101, (2, "External Storage", "External non-volatile storage has failed."));
   (105, (2, "C Connect Err", "Control module was disconnected while drive was powered."));
   (106, (2, "Incompat C-P", "The PowerFlex 525 control module does not support power modules with 0.25 HP power rating"));
   (107, (2, "Replaced C-P", "The control module could not recognize the power module. Hardware failure."));
   (109, (2, "Mismatch C-P", "The control module was mounted to a different drive type power module"));
   (110, (2, "Keypad Membrane", "Keypad membrane failure / disconnected."));
   (111, (2, "Safety Hardware", "Safety input enable hardware malfunction. One of the safety inputs is not enabled."));
   (114, (2, "uC Failure", "Microprocessor failure."));
   (122, (2, "I/O Board Fail", "Failure has been detected in the drive control and I/O section."));
   (125, (2, "Flash Update Req", "The firmware in the drive is corrupt, mismatched, or incompatible with the hardware."));
   (126, (2, "NonRecoverablErr", "A non-recoverable firmware or hardware error was detected. The drive was automatically stopped and reset."));
   (127, (2, "DSIFlashUpdatReq", "A critical problem with the firmware was detected and the drive is running using backup firmware that only supports DSI communications."))
  ]%string.

Fixpoint map_find (code : Z) (m : list (Z * description)) : option description :=
  match m with
  | [] => None
  | (k, v) :: r => if k =? code then Some v else map_find code r
  end.
(** DPIFaultCode.cpp:30-51 *)
Definition fault_description (code : Z) : outcome description :=
  match map_find code fault_map with
  | Some v => Ok v
  | None => Throw (RuntimeError RtFaultCode)
  end.

(** ** DPIFaultParameter *)

(** DPIFaultParameter.h:23-34 *)
Record details := mkDetails {
  fd_number : Z; fd_code : Z; fd_volts : num double; fd_current : num double; fd_frequency : num double }.
Record fault := mkFault { fa_details : details; fa_description : description }.

(** DPIFaultParameter.cpp:29-105 and 192-256: the parameters of a fault number:
    code, bus voltage, current, frequency. *)
Definition fault_params (number : Z) : option (Z * Z * Z * Z) :=
  match number with
  | 1 => Some (7, 651, 641, 631)
  | 2 => Some (8, 652, 642, 632)
  | 3 => Some (9, 653, 643, 633)
  | 4 => Some (604, 654, 644, 634)
  | 5 => Some (605, 655, 645, 635)
  | 6 => Some (606, 656, 646, 636)
  | 7 => Some (607, 657, 647, 637)
  | 8 => Some (608, 658, 648, 638)
  | 9 => Some (609, 659, 649, 639)
  | 10 => Some (610, 660, 650, 640)
  | _ => None
  end.

(** The parameter object of processVolts (precision 0), processCurrent and
    processFrequency (precision 2), DPIFaultParameter.cpp:116-153. *)
Definition scale_object (id precision : Z) : param :=
  mkParam id true true false 0 (zeros 4) 0 [] [] [] (zeros 4) (zeros 4) (zeros 4) 1 1 1 0 precision false.
Definition process (precision raw id : Z) : num double :=
  actual_to_eng double (scale_object id precision) (of_int double raw).

(** DPIFaultParameter.cpp:185 and 301: [_fullInformation{}] sets the members
    to zero and the texts to empty. *)
Definition no_description : description := (0, EmptyString, EmptyString).
Definition fzero : num double := of_int double 0.

Section Client.
Context {W : Type}.
Variables (h : heap) (use8 : bool) (si : session_if W).

(** DPIFaultParameter.cpp:159-178 *)
Definition fault_detail (n : Z) : st W Z :=
  (d <- ask h use8 si GET_ATTRIBUTE_SINGLE (epath3 15 n 1) ;;
   st_lift (omap fst (get_u16 h (buf_of d))))%st.

(** DPIFaultParameter.cpp:183-290; the description is empty until it is set. *)
Definition fault_read (number : Z) (want : bool) : st W fault :=
  match fault_params number with
  | None => st_throw (RuntimeError RtFaultNumber)
  | Some (pcode, pvolts, pcurrent, pfreq) =>
    (code <- fault_detail pcode ;;
     if negb (code =? 0) && want then
       volts <- fault_detail pvolts ;;
       current <- fault_detail pcurrent ;;
       freq <- fault_detail pfreq ;;
       st_ret (mkFault (mkDetails number code (process 0 volts pvolts) (process 2 current pcurrent) (process 2 freq pfreq))
                       no_description)
     else st_ret (mkFault (mkDetails number code fzero fzero fzero) no_description))%st
  end.

(** ** DPIFaultManager *)

(** src/cip/Services.h:28 *)
Definition SET_ATTRIBUTE_SINGLE : Z := 16.
Definition DPI_FAULT_CLASS_ID : Z := 151.     (* DPIFaultObject.h:27 *)
Definition CLEAR_FAULT_QUEUE : Z := 2.        (* DPIFaultManager.h:25 *)

(** DPIFaultManager.cpp:96-110 *)
Definition write_command (command : Z) : st W unit :=
  fun w =>
    let '(o, w) := send_request h si use8 SET_ATTRIBUTE_SINGLE (epath3 DPI_FAULT_CLASS_ID 0 3)
                     (bdata (put_u8 buf_new command)) [] w in
    (r <- o ;; if negb (r_status r =? GSC_SUCCESS) then Throw (RuntimeError RtRequestFailed) else Ok tt, w).

(** DPIFaultManager.cpp:55-71: the fault numbers from [number] on, [n] of them;
    the state also holds what the listener was called with. The result is the
    number of faults. *)
Definition lift {A} (m : st W A) : st (list fault * W) A :=
  fun '(c, w) => let '(o, w) := m w in (o, (c, w)).
Definition notify (f : fault) : st (list fault * W) unit :=
  fun '(c, w) => (Ok tt, (c ++ [f], w)).
Fixpoint fault_loop (want : bool) (number : Z) (n : nat) : st (list fault * W) nat :=
  match n with
  | O => st_ret O
  | S n' =>
    (f <- lift (fault_read number want) ;;
     if fd_code (fa_details f) =? 0 then st_ret O
     else
       descr <- st_lift (fault_description (fd_code (fa_details f))) ;;
       u <- notify (mkFault (fa_details f) descr) ;;
       k <- fault_loop want (number + 1) n' ;;
       st_ret (S k))%st
  end.

(** DPIFaultManager.cpp:50-86. The third flag of the manager (reset) has no
    effect. *)
Definition handle_faults (clear want : bool) : st (list fault * W) unit :=
  (count <- fault_loop want 1 10 ;;
   if clear && Nat.ltb 0 count then lift (write_command CLEAR_FAULT_QUEUE) else st_ret tt)%st.

(** ** DPIFaultObject *)

(** DPIFaultObject.h:32-40; the text is a CipString of 16 bytes. *)
Record fault_object := mkFO {
  fo2_code : Z; fo2_port : Z; fo2_device : Z; fo2_text : cipstring; fo2_timer : Z; fo2_valid : bool; fo2_real : bool }.
(** DPIFaultObject.cpp:44-58 *)
Definition decode_fault (d : bytes) : outcome fault_object :=
  '(code, b) <- get_u16 h (buf_of d) ;;
  '(port, b) <- get_u8 h b ;;
  '(dev, b) <- get_u8 h b ;;
  '(text, b) <- get_bytes h 16 b ;;
  '(timer, b) <- get_u64 h b ;;
  '(flags, b) <- get_u16 h b ;;
  Ok (mkFO code port dev (cip_string text) timer (negb (Z.land flags 1 =? 0)) (negb (Z.land flags 2 =? 0))).
(** DPIFaultObject.cpp:36-63 *)
Definition fault_object_read (id : Z) : st W fault_object :=
  (d <- ask h use8 si GET_ATTRIBUTE_SINGLE (epath3 DPI_FAULT_CLASS_ID id 0) ;;
   st_lift (decode_fault d))%st.
End Client.
