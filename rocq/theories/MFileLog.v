(** Model: the messages of a file object (src/fileObject/) and of the requests it
    makes (src/MessageRouter.cpp:43, src/cip/MessageRouterResponse.cpp:81-91).
    What the calls do otherwise is in MFile and MSync; handlers return without
    using the object. Messages of the sockets are in MErrno. What becomes of a
    message is in MLog. *)
From Verif Require Import Base MBuffer MEip MStatus MLog MMsg MFile MSync.
Local Open Scope outcome_scope.

(** src/fileObject/FileObjectState.cpp:41-55, for the states there are objects of *)
Definition state_name (s : fstate) : string :=
  match s with
  | FUnknown => "UNKNOWN"
  | FNonExistent => "NONEXISTENT"
  | FEmpty => "FILE_EMPTY"
  | FLoaded => "FILE_LOADED"
  | FUpload _ _ _ _ _ => "TRANSFER_UPLOAD_IN_PROGRESS"
  end%string.

(** src/fileObject/FileObjectState.cpp:37-39; every Logger has a stream of its
    own, so [std::hex] only concerns the id. *)
Definition named (id : Z) (s : fstate) (l : level) (text : string) : message :=
  (l, "FileObject=" ++ to_hex id ++ " <" ++ state_name s ++ "> " ++ text)%string.

(** setState, src/fileObject/FileObjectState.h:53-56: the new state object is
    built (FileObjectState.cpp:28), then the old one destroyed (line 32). *)
Definition set_state_log (id : Z) (old new : fstate) : list message :=
  [named id new DEBUG "Start"; named id old TRACE "Stop"].

Section Log.
Context {W : Type}.
Variables (h : heap) (use8 : bool) (si : session_if W).

(** src/fileObject/FileObjectState.cpp:57-90, on an object in state [s] *)
Definition sync_log (id : Z) (s : fstate) (w : W) : list message :=
  let path := epath3 FILE_OBJECT_CLASS_ID id FILE_ATTR_STATE in
  request_message GET_ATTRIBUTE_SINGLE path ::
  match fst (send_request h si use8 GET_ATTRIBUTE_SINGLE path [] [] w) with
  | Ok r =>
    match synced h r with
    | Ok s' =>
      match get_u8 h (buf_of (r_data r)) with
      | Ok (code, _) =>
        if (code =? 3) || (code =? 5)
        then [named id s WARNING "File is uploading. We need to re-initialize the uploading"]
        else []
      | _ => []
      end ++ set_state_log id s s'
    | _ => []
    end
  | _ => []
  end.

(** src/FileObject.cpp:21-25. If SyncState throws, the member _state is
    destroyed. *)
Definition file_open_logged (id : Z) : st (W * list message) fobj :=
  fun '(w, l) =>
    let '(o, w') := file_open h use8 si id w in
    (o, (w', l ++ named id FUnknown DEBUG "Start" :: sync_log id FUnknown w ++
             match o with Throw _ => [named id FUnknown TRACE "Stop"] | _ => [] end)).

(** src/fileObject/FileObjectLoadedState.cpp:19-40, FileObjectEmptyState.cpp:15-19,
    FileObjectNonExistentState.cpp:16-21, FileObjectState.cpp:92-96,
    FileObjectUploadInProgressState.cpp:26-32 *)
Definition begin_log (handler : nat) (f : fobj) (w : W) : list message :=
  let say := named (fo_id f) (fo_state f) in
  match fo_state f with
  | FLoaded =>
    let path := epath2 FILE_OBJECT_CLASS_ID (fo_id f) in
    say INFO "Initiate upload"%string :: request_message INITIATE_UPLOAD path ::
    match fst (send_request h si use8 INITIATE_UPLOAD path (bdata (put_u8 (buf_of []) MAX_TRANSFER_SIZE)) [] w) with
    | Ok r =>
      if r_status r =? GSC_SUCCESS then
        match initiated h handler f r with
        | Ok f' => set_state_log (fo_id f) (fo_state f) (fo_state f')
        | _ => []
        end
      else [(ERROR, status_text r)]
    | _ => []
    end
  | FUpload _ _ _ _ _ => [say INFO "Initiate upload of file again"%string]
  | FEmpty | FNonExistent => [say WARNING "File cannot be uploaded"%string]
  | FUnknown => [say ERROR "Not implemented call"%string]
  end.

(** src/fileObject/FileObjectUploadInProgressState.cpp:43-97: the messages about
    a reply *)
Definition transferred_log (f : fobj) (size : Z) (content : bytes) (number : Z) (r : response) : list message :=
  let say := named (fo_id f) (fo_state f) in
  if r_status r =? GSC_SUCCESS then
    match ('(num, b) <- get_u8 h (buf_of (r_data r)) ;;
           '(ty, b) <- get_u8 h b ;; Ok (num, ty, b)) with
    | Ok (num, ty, b) =>
      say DEBUG ("Receive transfer packet type=" ++ to_string ty)%string ::
      (if negb (num =? number) then [say ERROR "Wrong transfer number"%string]
       else if ((ty =? 2) || (ty =? 4)) && negb (Nat.ltb (List.length (r_data r)) 4) then
         match get_bytes h (List.length (r_data r) - 4) b with
         | Ok (d, _) =>
           if zlen (content ++ d) =? size then [] else [say ERROR "Wrong size of the uploaded file"%string]
         | _ => []
         end
       else [])
    | _ => []
    end
  else [(ERROR, status_text r)].

(** src/fileObject/FileObjectUploadInProgressState.cpp:34-100,
    FileObjectLoadedState.cpp:42-44, FileObjectEmptyState.cpp:21-25,
    FileObjectNonExistentState.cpp:23-28, FileObjectState.cpp:98-102 *)
Definition transfer_log (f : fobj) (w : W) : list message :=
  let say := named (fo_id f) (fo_state f) in
  match fo_state f with
  | FUpload size _ content number _ =>
    let path := epath2 FILE_OBJECT_CLASS_ID (fo_id f) in
    request_message UPLOAD_TRANSFER path ::
    match fst (send_request h si use8 UPLOAD_TRANSFER path (bdata (put_u8 (buf_of []) number)) [] w) with
    | Ok r => transferred_log f size content number r
    | _ => []
    end
  | FLoaded => []
  | FEmpty | FNonExistent => [say WARNING "Nothing to transfer"%string]
  | FUnknown => [say ERROR "Not implemented call"%string]
  end.

Definition fop_log (x : fop) (s : fobj * W) : list message :=
  let '(f, w) := s in
  match x with
  | FoBegin hid => begin_log hid f w
  | FoTransfer => transfer_log f w
  | FoSync => sync_log (fo_id f) (fo_state f) w
  end.

(** A call with its messages, and several (as MSync.fops_run). *)
Definition fop_logged (x : fop) : st (fobj * W * list message) bool :=
  fun '(s, l) => let '(o, s') := fop_run h use8 si x s in (o, (s', l ++ fop_log x s)).
Fixpoint fops_logged (ops : list fop) (s : fobj * W * list message) : list (outcome bool) * (fobj * W * list message) :=
  match ops with
  | [] => ([], s)
  | x :: r =>
    let '(o, s) := fop_logged x s in
    match o with
    | Ok _ | Throw _ => let '(os, s) := fops_logged r s in (o :: os, s)
    | _ => ([o], s)
    end
  end.
End Log.

(** src/FileObject.cpp:27, src/fileObject/FileObjectState.cpp:31-33 *)
Definition destroyed_log (f : fobj) : list message := [named (fo_id f) (fo_state f) TRACE "Stop"].
