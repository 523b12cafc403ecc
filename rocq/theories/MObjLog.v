(** Model: the messages of the identity object, of parameter objects, of the fault
    objects of PowerFlex 525 and of the Yaskawa router. What the calls do
    otherwise is in MIdent, MParam, MFault and MYaskawa. Messages of the sockets
    are in MErrno. What becomes of a message is in MLog. *)
From Verif Require Import Base MBuffer MEip MStatus MLog MMsg MFile MIdent MParam MFault MYaskawa MExample.
From Coq Require Import SpecFloat.
Local Open Scope outcome_scope.

Section Log.
Context {W : Type}.
Variables (h : heap) (use8 : bool) (si : session_if W).

(** The state of the session and the messages so far. *)
Definition put (m : message) : st (W * list message) unit := fun '(w, l) => (Ok tt, (w, l ++ [m])).

(** sendRequest (src/MessageRouter.cpp:43-44) and what every client does with a
    reply that is not a success: logGeneralAndAdditionalStatus
    (src/cip/MessageRouterResponse.cpp:81-91), then an exception. The places are
    src/IdentityObject.cpp:37-58, src/ParameterObject.cpp:86-106, 108-109 and
    178-181, 151-160, 185-198, DPIFaultParameter.cpp:163-177,
    DPIFaultObject.cpp:39-62, DPIFaultManager.cpp:101-109. *)
Definition ask_logged (service : Z) (path : epath) (data : bytes) : st (W * list message) bytes :=
  fun '(w, l) =>
    let '(o, w') := send_request h si use8 service path data [] w in
    (r <- o ;; if r_status r =? GSC_SUCCESS then Ok (r_data r) else Throw (RuntimeError RtRequestFailed),
     (w', l ++ request_message service path ::
          match o with
          | Ok r => if r_status r =? GSC_SUCCESS then [] else [(ERROR, status_text r)]
          | _ => []
          end)).

(** src/IdentityObject.cpp:27-58 *)
Definition identity_logged (instance : Z) : st (W * list message) identity :=
  (d <- ask_logged GET_ATTRIBUTE_ALL (epath2 IDENTITY_CLASS_ID 1) [] ;;
   st_lift (omap fst (get_identity h instance (buf_of d))))%st.

(** src/ParameterObject.cpp:112-121: the descriptor, which is read before
    anything else is logged. *)
Definition param_descriptor (size : nat) (d : bytes) : outcome Z :=
  '(_, b) <- get_bytes h size (buf_of d) ;;
  '(plen, b) <- get_u8 h b ;;
  '(_, b) <- get_bytes h (Z.to_nat plen) b ;;
  '(descr, b) <- get_u16 h b ;;
  '(_, b) <- get_u8 h b ;;
  Ok descr.

(** The messages of lines 84, 125-128 and 173-177. [std::hex] does not concern
    truth values, which are written as 0 and 1; the type is one byte. *)
Definition digit (b : bool) : string := if b then "1"%string else "0"%string.
Definition begin_message (id : Z) : message := (DEBUG, "Read data from parameter ID=" ++ to_string id)%string.
Definition descriptor_message (id descr : Z) : message :=
  (DEBUG, "Parameter object ID=" ++ to_string id ++ " has descriptor=0x" ++ to_hex descr
          ++ " scalable=" ++ digit (negb (Z.land descr SUPPORTS_SCALING =? 0)%Z)
          ++ " readonly=" ++ digit (negb (Z.land descr READ_ONLY =? 0)%Z))%string.
Definition end_message (id : Z) (p : param) : message :=
  (DEBUG, "Read Parameter Object" ++ " ID=" ++ to_string id ++ " ValueSize=" ++ to_string (zlen (pa_value p))
          ++ " ValueType=0x" ++ to_hex (pa_type p) ++ " Name=" ++ text_of (pa_name p))%string.

(** src/ParameterObject.cpp:147-160 *)
Fixpoint scaling_logged (id : Z) (first : Z) (n : nat) : st (W * list message) bytes :=
  match n with
  | O => st_ret []
  | S n' => (d <- ask_logged GET_ATTRIBUTE_SINGLE (epath3 PARAMETER_CLASS_ID id first) [] ;;
             r <- scaling_logged id (first + 1) n' ;;
             st_ret (d ++ r))%st
  end.

(** src/ParameterObject.cpp:62-182 *)
Definition param_logged (id : Z) (full : bool) : st (W * list message) param :=
  (_ <- put (begin_message id) ;;
   d <- ask_logged GET_ATTRIBUTE_SINGLE (epath3 PARAMETER_CLASS_ID id ATTR_DATA_SIZE) [] ;;
   size <- st_lift (omap fst (get_u8 h (buf_of d))) ;;
   d <- ask_logged GET_ATTRIBUTE_ALL (epath2 PARAMETER_CLASS_ID id) [] ;;
   descr <- st_lift (param_descriptor (Z.to_nat size) d) ;;
   _ <- put (descriptor_message id descr) ;;
   p <- st_lift (param_attributes h id full (Z.to_nat size) d) ;;
   p <- (if full && pa_scalable p then
           d <- scaling_logged id ATTR_SCALING_MULTIPLIER (Z.to_nat (ATTR_SCALING_OFFSET - ATTR_SCALING_MULTIPLIER + 1)) ;;
           st_lift (param_scaling h p d)
         else st_ret p) ;;
   _ <- put (end_message id p) ;;
   st_ret p)%st.

(** src/ParameterObject.cpp:184-198 *)
Definition update_logged : st (param * (W * list message)) unit :=
  fun '(p, s) =>
    if pa_router p then
      let '(o, s) := ask_logged GET_ATTRIBUTE_SINGLE (epath3 PARAMETER_CLASS_ID (pa_id p) ATTR_VALUE) [] s in
      match (d <- o ;; get_bytes h (List.length (pa_value p)) (buf_of d)) with
      | Ok (v, _) => (Ok tt, (pa_set_value p v, s))
      | Throw e => (Throw e, (p, s))
      | Undef u => (Undef u, (p, s))
      | Abort => (Abort, (p, s))
      end
    else (Undef UbNullDeref, (p, s)).

(** DPIFaultParameter.cpp:159-178, 183-290 *)
Definition detail_logged (n : Z) : st (W * list message) Z :=
  (d <- ask_logged GET_ATTRIBUTE_SINGLE (epath3 15 n 1) [] ;;
   st_lift (omap fst (get_u16 h (buf_of d))))%st.
Definition fault_logged (number : Z) (want : bool) : st (W * list message) fault :=
  match fault_params number with
  | None => st_throw (RuntimeError RtFaultNumber)
  | Some (pcode, pvolts, pcurrent, pfreq) =>
    (code <- detail_logged pcode ;;
     if negb (code =? 0) && want then
       volts <- detail_logged pvolts ;;
       current <- detail_logged pcurrent ;;
       freq <- detail_logged pfreq ;;
       st_ret (mkFault (mkDetails number code (process 0 volts pvolts) (process 2 current pcurrent) (process 2 freq pfreq))
                       no_description)
     else st_ret (mkFault (mkDetails number code fzero fzero fzero) no_description))%st
  end.

(** DPIFaultManager.cpp:55-71, 50-86 (the message of lines 73-75), 96-110; the
    listener returns without using the manager. *)
Fixpoint loop_logged (want : bool) (number : Z) (n : nat) : st (list fault * (W * list message)) nat :=
  match n with
  | O => st_ret O
  | S n' =>
    (f <- lift (fault_logged number want) ;;
     if fd_code (fa_details f) =? 0 then st_ret O
     else
       descr <- st_lift (fault_description (fd_code (fa_details f))) ;;
       u <- notify (mkFault (fa_details f) descr) ;;
       k <- loop_logged want (number + 1) n' ;;
       st_ret (S k))%st
  end.
Definition count_message (k : nat) : message :=
  (INFO, "There read " ++ to_string (Z.of_nat k) ++ " faults in the queue")%string.
Definition command_logged (command : Z) : st (W * list message) unit :=
  (_ <- ask_logged SET_ATTRIBUTE_SINGLE (epath3 DPI_FAULT_CLASS_ID 0 3) (bdata (put_u8 buf_new command)) ;;
   st_ret tt)%st.
Definition handle_logged (clear want : bool) : st (list fault * (W * list message)) unit :=
  (count <- loop_logged want 1 10 ;;
   _ <- (if Nat.ltb 0 count then lift (put (count_message count)) else st_ret tt) ;;
   if clear && Nat.ltb 0 count then lift (command_logged CLEAR_FAULT_QUEUE) else st_ret tt)%st.

(** DPIFaultObject.cpp:36-63 *)
Definition fault_object_logged (id : Z) : st (W * list message) fault_object :=
  (d <- ask_logged GET_ATTRIBUTE_SINGLE (epath3 DPI_FAULT_CLASS_ID id 0) [] ;;
   st_lift (decode_fault h d))%st.

(** src/vendor/yaskawa/mp3300iec/Yaskawa_MessageRouter.cpp:38-39; the caller looks at the
    status. *)
Definition ysend_logged (service : Z) (path : ypath) (data : bytes) (extra : list cpitem) : st (W * list message) response :=
  fun '(w, l) =>
    let '(o, w') := ysend_request h si service path data extra w in
    (o, (w', l ++ [(INFO, "Send request: service=0x" ++ to_hex service ++ " epath=" ++ ypath_to_string path)%string])).
End Log.
