(** Model: the fault manager of the PowerFlex 525 when there is not enough memory. *)
From Verif Require Import Base MBuffer MEip MFile MIdent MParam MFault MMem MLow.
Local Open Scope outcome_scope.

Section FaultLow.
(** Which levels are shown. *)
Variables info error : bool.
Variable h : heap.
Context {W : Type}.
(** Requests to the drive: service, path and data. *)
Variable req : Z -> epath -> bytes -> low W response.

(** src/cip/MessageRouterResponse.cpp:81-91 (level ERROR), then std::runtime_error, which copies its text. *)
Definition fm_refused {A} : low W A :=
  l_bind (l_message error) (fun _ => l_bind l_need (fun _ => l_lift (st_throw (RuntimeError RtRequestFailed)))).
(** src/vendor/ra/powerFlex525/DPIFaultParameter.cpp:159-178: the data of the answer is copied. *)
Definition fm_detail (n : Z) : low W Z :=
  l_bind (req GET_ATTRIBUTE_SINGLE (epath3 15 n 1) []) (fun r =>
  if r_status r =? GSC_SUCCESS then l_bind l_need (fun _ => l_lift (st_lift (omap fst (get_u16 h (buf_of (r_data r)))))) else fm_refused).
(** src/vendor/ra/powerFlex525/DPIFaultParameter.cpp:183-290. The objects in 116-153 allocate; here they are one place. *)
Definition fm_read (number : Z) (want : bool) : low W fault :=
  match fault_params number with
  | None => l_bind l_need (fun _ => l_lift (st_throw (RuntimeError RtFaultNumber)))
  | Some (pcode, pvolts, pcurrent, pfreq) =>
    l_bind (fm_detail pcode) (fun code =>
    if negb (code =? 0) && want then
      l_bind (fm_detail pvolts) (fun volts =>
      l_bind (fm_detail pcurrent) (fun current =>
      l_bind (fm_detail pfreq) (fun freq =>
      l_bind l_need (fun _ =>
      l_ret (mkFault (mkDetails number code (process 0 volts pvolts) (process 2 current pcurrent) (process 2 freq pfreq)) no_description)))))
    else l_ret (mkFault (mkDetails number code fzero fzero fzero) no_description))
  end.
(** src/vendor/ra/powerFlex525/DPIFaultManager.cpp:96-110; the command is put into a buffer. *)
Definition fm_command (command : Z) : low W unit :=
  l_bind l_need (fun _ =>
  l_bind (req SET_ATTRIBUTE_SINGLE (epath3 DPI_FAULT_CLASS_ID 0 3) (bdata (put_u8 buf_new command))) (fun r =>
  if negb (r_status r =? GSC_SUCCESS) then fm_refused else l_ret tt)).

Definition fm_lift {A} (m : low W A) : low (list fault * W) A :=
  fun '(fs, (c, w)) => let '(o, (fs, w)) := m (fs, w) in (o, (fs, (c, w))).
(** src/vendor/ra/powerFlex525/DPIFaultManager.cpp:55-71. Places: DPIFaultCode, which has a table of its own
    (DPIFaultCode.h:42-284); copies of the texts, or of the text of the exception. Memory the listener needs is left out. *)
Fixpoint fm_loop (want : bool) (number : Z) (n : nat) : low (list fault * W) nat :=
  match n with
  | O => l_ret O
  | S n' =>
    l_bind (fm_lift (fm_read number want)) (fun f =>
    if fd_code (fa_details f) =? 0 then l_ret O
    else
      l_bind l_need (fun _ =>
      l_bind l_need (fun _ =>
      l_bind (l_lift (st_lift (fault_description (fd_code (fa_details f))))) (fun descr =>
      l_bind (l_lift (notify (mkFault (fa_details f) descr))) (fun _ =>
      l_bind (fm_loop want (number + 1) n') (fun k => l_ret (S k)))))))
  end.
(** src/vendor/ra/powerFlex525/DPIFaultManager.cpp:50-90: the router; then the loop, a message if there were faults, the command. *)
Definition fm_handle (clear want : bool) : low (list fault * W) unit :=
  l_bind l_need (fun _ =>
  l_bind (fm_loop want 1 10) (fun count =>
  l_bind (if Nat.ltb 0 count then l_message info else l_ret tt) (fun _ =>
  if clear && Nat.ltb 0 count then fm_lift (fm_command CLEAR_FAULT_QUEUE) else l_ret tt))).
End FaultLow.
