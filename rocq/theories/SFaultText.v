(** The explanations of the PowerFlex 525 fault codes, taken from the table in
    src/vendor/ra/powerFlex525/DPIFaultCode.h (lines 42-284). *)
From Verif Require Import Base.

Definition explanations : list (Z * string) :=
  [
   (0, "No fault present.");
   (2, "Heatsink/Power Module temperature exceeds a predefined value.");
   (3, "Single phase operation detected with excessive load.");
   (4, "DC bus voltage fell below the minimum value.");
   (5, "DC bus voltage exceeded maximum value.");
   (6, "Drive is unable to accelerate or decelerate motor.");
   (7, "Internal electronic overload trip.");
   (8, "Heatsink/Power Module temperature exceeds a predefined value.");
   (9, "Control module temperature exceeds a predefined value.");
   (12, "The drive output current has exceeded the hardware current limit.");
   (13, "A current path to earth ground has been detected at one or more of the drive output terminals.");
   (15, "The output torque current is below the value programmed in A490 [Load Loss Level] for a time period greater than the time programmed in A491 [Load Loss Time].");
   (21, "Output Phase Loss (if enabled). Configure with A557 [Output Phas Loss En]");
   (29, "An analog input is configured to fault on signal loss. A signal loss has occurred. Configure with t094 [Anlg In V Loss] or t097 [Anlg In mA Loss].");
   (33, "Drive unsuccessfully attempted to reset a fault and resume running for the programmed number of A541 [Auto Rstrt Tries].");
   (38, "A phase to ground fault has been detected between the drive and motor in this phase.");
   (39, "A phase to ground fault has been detected between the drive and motor in this phase.");
   (40, "A phase to ground fault has been detected between the drive and motor in this phase.");
   (41, "Excessive current has been detected between these two output terminals");
   (42, "Excessive current has been detected between these two output terminals");
   (43, "Excessive current has been detected between these two output terminals");
   (48, " The drive was commanded to write default values to EEPROM.");
   (59, "Both of the safety inputs (Safety 1, Safety 2) are not enabled. Configure with t105 [Safety Open En].");
   (63, "Programmed A486, A488 [Shear Pinx Level] has been exceeded for a time period greater than the time programmed in A487, A489 [Shear Pin x Time].");
   (64, "Drive overload rating has been exceeded.");
   (70, "Failure has been detected in the drive power section.");
   (71, "Control over the Modbus or DSI communications link has been interrupted.");
   (72, "Control over the network option card’s remote network has been interrupted.");
   (73, "Control through the embedded EtherNet/IP adapter has been interrupted.");
   (80, "The autotune function was either cancelled by the user or failed.");
   (81, "Communications between the drive and the Modbus or DSI master device have been interrupted.");
   (82, "Communications between the drive and the network option card have been interrupted.");
   (83, "Internal communications between the drive and the embedded EtherNet/IP adapter have been interrupted.");
   (91, "Requires differential encoder. One of the 2 encoder channel signals is missing");
   (94, "'Freeze-Fire' (Function Loss) input is inactive, input to the programmed terminal is open.");
   (100, "Drive parameter non-volatile storage is corrupted.");
   (101, "External non-volatile storage has failed.");
   (105, "Control module was disconnected while drive was powered.");
   (106, "The PowerFlex 525 control module does not support power modules with 0.25 HP power rating");
   (107, "The control module could not recognize the power module. Hardware failure.");
   (109, "The control module was mounted to a different drive type power module");
   (110, "Keypad membrane failure / disconnected.");
   (111, "Safety input enable hardware malfunction. One of the safety inputs is not enabled.");
   (114, "Microprocessor failure.");
   (122, "Failure has been detected in the drive control and I/O section.");
   (125, "The firmware in the drive is corrupt, mismatched, or incompatible with the hardware.");
   (126, "A non-recoverable firmware or hardware error was detected. The drive was automatically stopped and reset.");
   (127, "A critical problem with the firmware was detected and the drive is running using backup firmware that only supports DSI communications.")
  ]%string.
