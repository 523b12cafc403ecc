(** Model of the texts of exceptions (what()) that contain numbers: the same
    code as in MEip, MYaskawa, MSocket, MParam and MFile, with the text of the
    last std::runtime_error that this code has thrown itself. *)
From Verif Require Import Base MBuffer MEip MYaskawa MSocket MIdent MParam MFile.
Local Open Scope outcome_scope.

(** [std::to_string] of an int. *)
Definition to_string_int (x : Z) : string :=
  if x <? 0 then ("-" ++ to_string (- x))%string else to_string x.

(** ** Paths *)

(** The type of the segment at hand, as src/cip/EPath.cpp:167 prints it. *)
Definition type_text (h : heap) (b : buffer) : string :=
  match get_u8 h b with
  | Ok (t, _) => ("Unknown EPATH segment =" ++ to_string_int t)%string
  | _ => EmptyString
  end.
(** src/cip/EPath.cpp:136-169 *)
Fixpoint epath_loop_text (h : heap) (n : nat) (b : buffer) (p : epath) : outcome buffer * string :=
  match n with
  | O => (Ok b, EmptyString)
  | S n' =>
    if buf_empty b then (Ok b, EmptyString)
    else match epath_segment h b p with
         | Ok (b', p') => epath_loop_text h n' b' p'
         | Throw e => (Throw e, type_text h b)
         | Undef u => (Undef u, EmptyString)
         | Abort => (Abort, EmptyString)
         end
  end.
(** src/cip/EPath.cpp:128-186 *)
Definition epath_expand_text (h : heap) (data : bytes) : outcome unit * string :=
  match epath_loop_text h (List.length data) (buf_of data) epath0 with
  | (Ok b, _) =>
    if negb (buf_valid b) then (Throw (RuntimeError RtEPathFormat), "Wrong EPATH format"%string)
    else (Ok tt, EmptyString)
  | (Throw e, t) => (Throw e, t)
  | (Undef u, t) => (Undef u, t)
  | (Abort, t) => (Abort, t)
  end.
(** src/vendor/yaskawa/mp3300iec/Yaskawa_EPath.cpp:105-139 *)
Fixpoint ypath_loop_text (h : heap) (n : nat) (b : buffer) (p : ypath) : outcome buffer * string :=
  match n with
  | O => (Ok b, EmptyString)
  | S n' =>
    if buf_empty b then (Ok b, EmptyString)
    else match ypath_segment h b p with
         | Ok (b', p') => ypath_loop_text h n' b' p'
         | Throw e => (Throw e, type_text h b)
         | Undef u => (Undef u, EmptyString)
         | Abort => (Abort, EmptyString)
         end
  end.
(** src/vendor/yaskawa/mp3300iec/Yaskawa_EPath.cpp:97-156 *)
Definition ypath_expand_text (h : heap) (data : bytes) : outcome unit * string :=
  match ypath_loop_text h (List.length data) (buf_of data) ypath0 with
  | (Ok b, _) =>
    if negb (buf_valid b) then (Throw (RuntimeError RtEPathFormat), "Wrong EPATH format"%string)
    else (Ok tt, EmptyString)
  | (Throw e, t) => (Throw e, t)
  | (Undef u, t) => (Undef u, t)
  | (Abort, t) => (Abort, t)
  end.

(** ** Packets and sessions *)

(** src/eip/EncapsPacket.cpp:26-47: the text is made of the fields read so far. *)
Definition encaps_text (h : heap) (p : encaps) (data : bytes) : string :=
  match encaps_expand h p data with
  | (_, Throw (RuntimeError RtEncapsShort)) => "EncapsPacket header must be 24 bytes"
  | (p1, Throw (RuntimeError RtEncapsLength)) =>
    "EncapsPacket data must be " ++ to_string (e_length p1) ++ " but we have only "
    ++ to_string (zlen data - Z.of_nat HEADER_SIZE) ++ " bytes"
  | _ => EmptyString
  end%string.

(** A computation that leaves the last text as it is. *)
Definition silent {W A} (m : st W A) : st (W * string) A :=
  fun '(w, t) => let '(o, w) := m w in (o, (w, t)).
(** A throw of std::runtime_error([text]). *)
Definition throws {W A} (e : rt_error) (text : string) : st (W * string) A :=
  fun '(w, _) => (Throw (RuntimeError e), (w, text)).

(** src/SessionInfo.cpp:58-68; the status is converted to int. *)
Definition check_reply_text {W} (handle : Z) (r : encaps) : st (W * string) encaps :=
  if negb (e_status r =? ENCAPS_SUCCESS)
  then throws RtSessionStatus ("Bad encaps packet code =" ++ to_string_int (s32 (e_status r)))
  else if negb (handle =? 0) && negb (e_handle r =? handle)
       then throws RtSessionHandle "Wrong session handle received"
       else st_ret r.
(** src/SessionInfo.cpp:47-69 *)
Definition send_and_receive_text (h : heap) (p : peer) (handle : Z) (packet : encaps) : st (net * string) encaps :=
  st_bind (silent (net_send p (encaps_pack packet))) (fun _ =>
  st_bind (silent (net_receive HEADER_SIZE)) (fun header =>
  st_bind (st_lift (length_from_header h header)) (fun len =>
  st_bind (silent (net_receive (Z.to_nat len))) (fun data =>
  st_bind (fun '(w, t) =>
             match encaps_expand h encaps0 (header ++ data) with
             | (r, Ok _) => (Ok r, (w, t))
             | (_, Throw e) => (Throw e, (w, encaps_text h encaps0 (header ++ data)))
             | (_, Undef u) => (Undef u, (w, t))
             | (_, Abort) => (Abort, (w, t))
             end) (check_reply_text handle))))).
(** src/SessionInfo.cpp:20-35 after the connection to [to] is made. *)
Definition session_register_text (h : heap) (p : peer) (to : endpoint) : st (net * string) Z :=
  st_bind (send_and_receive_text h p 0 register_packet) (fun r =>
    if negb (e_status r =? ENCAPS_SUCCESS)
    then throws RtSessionRegister ("Failed to register session in " ++ ep_to_string to)
    else st_ret (e_handle r)).

(** ** Objects *)
Section Client.
Context {W : Type}.
Variables (h : heap) (use8 : bool) (si : session_if W).

(** A request whose reply must be a success; [text] is thrown otherwise. *)
Definition ask_text (text : string) (service : Z) (path : epath) : st (W * string) bytes :=
  st_bind (silent (send_request h si use8 service path [] [])) (fun r =>
    if r_status r =? GSC_SUCCESS then st_ret (r_data r) else throws RtRequestFailed text).

(** src/ParameterObject.cpp:147-160 *)
Fixpoint ask_scaling_text (id : Z) (first : Z) (n : nat) : st (W * string) bytes :=
  match n with
  | O => st_ret []
  | S n' => (d <- ask_text ("Failed to read value of attribute=" ++ to_string_int first)
                    GET_ATTRIBUTE_SINGLE (epath3 PARAMETER_CLASS_ID id first) ;;
             r <- ask_scaling_text id (first + 1) n' ;;
             st_ret (d ++ r))%st
  end.
(** src/ParameterObject.cpp:62-182 (texts at lines 103, 157 and 180) *)
Definition param_read_text (id : Z) (full : bool) : st (W * string) param :=
  (d <- ask_text "Failed to read data size of the parameter"
          GET_ATTRIBUTE_SINGLE (epath3 PARAMETER_CLASS_ID id ATTR_DATA_SIZE) ;;
   size <- st_lift (omap fst (get_u8 h (buf_of d))) ;;
   d <- ask_text "Failed to read all attributes" GET_ATTRIBUTE_ALL (epath2 PARAMETER_CLASS_ID id) ;;
   p <- st_lift (param_attributes h id full (Z.to_nat size) d) ;;
   if full && pa_scalable p then
     d <- ask_scaling_text id ATTR_SCALING_MULTIPLIER (Z.to_nat (ATTR_SCALING_OFFSET - ATTR_SCALING_MULTIPLIER + 1)) ;;
     st_lift (param_scaling h p d)
   else st_ret p)%st.

(** src/FileObject.cpp:21-25 and src/fileObject/FileObjectState.cpp:57-90 (texts
    at lines 84 and 88) *)
Definition file_open_text (id : Z) : st (W * string) fobj :=
  (r <- silent (send_request h si use8 GET_ATTRIBUTE_SINGLE (epath3 FILE_OBJECT_CLASS_ID id FILE_ATTR_STATE) [] []) ;;
   if r_status r =? GSC_SUCCESS then
     code <- st_lift (omap fst (get_u8 h (buf_of (r_data r)))) ;;
     if code =? 0 then st_ret (mkFile id FNonExistent [])
     else if code =? 1 then st_ret (mkFile id FEmpty [])
     else if code =? 2 then st_ret (mkFile id FLoaded [])
     else if (code =? 3) || (code =? 5) then st_ret (mkFile id FLoaded [])
     else throws RtFileState "Read unknown or unsupported state"
   else throws RtRequestFailed ("Failed load the state of File Object ID=" ++ to_string id))%st.
End Client.
