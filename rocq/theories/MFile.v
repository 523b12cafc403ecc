(** Model of the File Object client (src/FileObject.cpp, src/fileObject/).

    Logging is left out (see MLog.v). The handler given to beginUpload is a
    number; what it is called with is recorded instead of being run. Handlers
    that throw or call back into the object are in MNest.v. *)
From Verif Require Import Base MBuffer MEip.
Local Open Scope outcome_scope.

(** src/fileObject/FileObjectState.h:17-35 *)
Definition FILE_OBJECT_CLASS_ID : Z := 55.   (* 0x37 *)
Definition MAX_TRANSFER_SIZE : Z := 255.
Definition FILE_ATTR_STATE : Z := 1.
Definition INITIATE_UPLOAD : Z := 75.        (* 0x4B *)
Definition UPLOAD_TRANSFER : Z := 79.        (* 0x4F *)
(** src/cip/Services.h:27 *)
Definition GET_ATTRIBUTE_SINGLE : Z := 14.
(** src/cip/GeneralStatusCodes.h:15, 136 *)
Definition GSC_SUCCESS : Z := 0.
Definition GSC_INVALID_PARAMETER : Z := 32.

(** The state objects. FUpload is FileObjectUploadInProgressState with its
    members _fileSize, _transferSize, _fileContent, _transferNumber, _handler
    (src/fileObject/FileObjectUploadInProgressState.cpp:13-24). FUnknown is the
    base class, used only while the constructor runs (src/FileObject.cpp:23). *)
Inductive fstate :=
| FUnknown
| FNonExistent
| FEmpty
| FLoaded
| FUpload (size tsize : Z) (content : bytes) (number : Z) (handler : nat).

(** src/FileObject.h:24-34 through getState()->getStateCode() *)
Definition state_code (s : fstate) : Z :=
  match s with
  | FUnknown => 255
  | FNonExistent => 0
  | FEmpty => 1
  | FLoaded => 2
  | FUpload _ _ _ _ _ => 5
  end.

(** A call of a handler: which one, the status and the content. *)
Record hcall := mkCall { hc_handler : nat; hc_status : Z; hc_content : bytes }.

(** A FileObject (src/FileObject.h:88-89, BaseObject.h:39-40) and the handler
    calls it has made. *)
Record fobj := mkFile { fo_id : Z; fo_state : fstate; fo_calls : list hcall }.
Definition f_set (f : fobj) (s : fstate) : fobj := mkFile (fo_id f) s (fo_calls f).
Definition f_call (f : fobj) (c : hcall) : fobj := mkFile (fo_id f) (fo_state f) (fo_calls f ++ [c]).

Section Client.
Context {W : Type}.
Variables (h : heap) (use8 : bool) (si : session_if W).

(** Which state SyncState enters (src/fileObject/FileObjectState.cpp:62-89,
    with the numbers of src/FileObject.h:24-34). *)
Definition synced (r : response) : outcome fstate :=
  if r_status r =? GSC_SUCCESS then
    '(code, _) <- get_u8 h (buf_of (r_data r)) ;;
    if code =? 0 then Ok FNonExistent
    else if code =? 1 then Ok FEmpty
    else if code =? 2 then Ok FLoaded
    else if (code =? 3) || (code =? 5) then Ok FLoaded
    else Throw (RuntimeError RtFileState)
  else Throw (RuntimeError RtRequestFailed).

(** src/FileObject.cpp:21-25 and src/fileObject/FileObjectState.cpp:57-90 *)
Definition file_open (id : Z) : st W fobj :=
  fun w =>
    let '(o, w) := send_request h si use8 GET_ATTRIBUTE_SINGLE
                     (epath3 FILE_OBJECT_CLASS_ID id FILE_ATTR_STATE) [] [] w in
    (r <- o ;; s <- synced r ;; Ok (mkFile id s []), w).

(** src/fileObject/FileObjectLoadedState.cpp:28-39: effect of the reply to
    Initiate_Upload. *)
Definition initiated (handler : nat) (f : fobj) (r : response) : outcome fobj :=
  if r_status r =? GSC_SUCCESS then
    '(size, b) <- get_u32 h (buf_of (r_data r)) ;;
    '(tsize, _) <- get_u8 h b ;;
    Ok (f_set f (FUpload size tsize [] 0 handler))
  else Ok (f_call f (mkCall handler (r_status r) [])).

(** src/FileObject.cpp:33-35; src/fileObject/FileObjectLoadedState.cpp:19-40;
    the other states only log: FileObjectEmptyState.cpp:15-19,
    FileObjectNonExistentState.cpp:16-21, FileObjectState.cpp:92-96,
    FileObjectUploadInProgressState.cpp:26-32. *)
Definition begin_upload (handler : nat) : st (fobj * W) unit :=
  fun '(f, w) =>
    match fo_state f with
    | FLoaded =>
      let '(o, w) := send_request h si use8 INITIATE_UPLOAD
                       (epath2 FILE_OBJECT_CLASS_ID (fo_id f))
                       (bdata (put_u8 (buf_of []) MAX_TRANSFER_SIZE)) [] w in
      match (r <- o ;; initiated handler f r) with
      | Ok f' => (Ok tt, (f', w))
      | Throw e => (Throw e, (f, w))
      | Undef u => (Undef u, (f, w))
      | Abort => (Abort, (f, w))
      end
    | _ => (Ok tt, (f, w))
    end.

(** src/fileObject/FileObjectUploadInProgressState.cpp:43-97: effect of the
    reply to Upload_Transfer. [size() - 4] with fewer than four bytes asks for
    about 2^64 bytes: std::length_error. *)
Definition transferred (f : fobj) (size tsize : Z) (content : bytes) (number : Z)
    (handler : nat) (r : response) : outcome (bool * fobj) :=
  if r_status r =? GSC_SUCCESS then
    '(num, b) <- get_u8 h (buf_of (r_data r)) ;;
    '(ty, b) <- get_u8 h b ;;
    if negb (num =? number) then
      Ok (false, f_call f (mkCall handler GSC_INVALID_PARAMETER []))
    else if (ty =? 0) || (ty =? 1) then
      '(d, _) <- get_bytes h (Z.to_nat tsize) b ;;
      Ok (true, f_set f (FUpload size tsize (content ++ d) (u8 (number + 1)) handler))
    else if (ty =? 2) || (ty =? 4) then
      if Nat.ltb (List.length (r_data r)) 4 then Throw LengthError
      else
        '(d, _) <- get_bytes h (List.length (r_data r) - 4) b ;;
        let content := content ++ d in
        let f := f_set f (FUpload size tsize content number handler) in
        Ok (false, f_call f (if zlen content =? size
                             then mkCall handler GSC_SUCCESS content
                             else mkCall handler GSC_INVALID_PARAMETER []))
    else Throw (RuntimeError RtFileTransferStatus)
  else Ok (true, f_call f (mkCall handler (r_status r) [])).

(** src/FileObject.cpp:37-39; FileObjectUploadInProgressState.cpp:34-100; the
    other states return false: FileObjectEmptyState.cpp:21-25,
    FileObjectNonExistentState.cpp:23-28, FileObjectLoadedState.cpp:42-44,
    FileObjectState.cpp:98-102. *)
Definition handle_transfers : st (fobj * W) bool :=
  fun '(f, w) =>
    match fo_state f with
    | FUpload size tsize content number handler =>
      let '(o, w) := send_request h si use8 UPLOAD_TRANSFER
                       (epath2 FILE_OBJECT_CLASS_ID (fo_id f))
                       (bdata (put_u8 (buf_of []) number)) [] w in
      match (r <- o ;; transferred f size tsize content number handler r) with
      | Ok (more, f') => (Ok more, (f', w))
      | Throw e => (Throw e, (f, w))
      | Undef u => (Undef u, (f, w))
      | Abort => (Abort, (f, w))
      end
    | _ => (Ok false, (f, w))
    end.

(** [while (file.handleTransfers(si));] (examples/FileObjectExample.cpp:43-45)
    for at most [n] calls; [Ok true]: still going on after [n] calls. *)
Fixpoint transfer_loop (n : nat) : st (fobj * W) bool :=
  match n with
  | O => st_ret true
  | S n' => (more <- handle_transfers ;; if more : bool then transfer_loop n' else st_ret false)%st
  end.

(** [beginUpload] and then the loop (examples/FileObjectExample.cpp:36-45). *)
Definition upload (handler n : nat) : st (fobj * W) bool :=
  (_ <- begin_upload handler ;; transfer_loop n)%st.
End Client.
