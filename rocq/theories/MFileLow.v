(** Model: file uploads when there is not enough memory. *)
From Verif Require Import Base MBuffer MEip MSocket MConnReq MConn MFile MMem MLow.
Local Open Scope outcome_scope.

(** The end of logWithStateName (src/fileObject/FileObjectState.cpp:37-39): the name of the state is copied, which
    allocates only if it is TRANSFER_UPLOAD_IN_PROGRESS (shorter texts are in the string itself with the usual
    libraries); if that fails, and also if not, ~Logger copies the message if it is shown. *)
Definition l_named {W} (name shown : bool) : low W unit :=
  fun x =>
    let '(r, x) := if name then l_need x else (Done (Ok tt), x) in
    if shown then match l_need x with
                  | (NoMemory, x') => (Done Abort, x')
                  | (Done _, x') => (r, x')
                  end
    else (r, x).
(** logWithStateName with a text of more than 15 characters: first a string is made of it. *)
Definition l_log {W} (name shown : bool) : low W unit := l_bind l_need (fun _ => l_named name shown).

Section FileLow.
(** Which levels are shown. TRACE and DEBUG are not. *)
Variables info warning error : bool.
Variable h : heap.
Context {W : Type}.
(** Requests to the adapter: service, path and data. *)
Variable req : Z -> epath -> bytes -> low W response.
Definition fl_req (service : Z) (path : epath) (data : bytes) : low (fobj * W) response :=
  fun '(fs, (f, w)) => let '(o, (fs, w)) := req service path data (fs, w) in (o, (fs, (f, w))).
(** The object is changed. *)
Definition fl_do (g : fobj -> fobj) : low (fobj * W) unit := l_lift (fun '(f, w) => (Ok tt, (g f, w))).

(** src/FileObject.cpp:21-25, src/fileObject/FileObjectState.cpp:57-90. Places: the router, the first state and
    the path; the answer is read; the message that the upload begins again; the new state. *)
Definition fl_open (id : Z) : low W fobj :=
  l_bind l_need (fun _ =>
  l_bind (req GET_ATTRIBUTE_SINGLE (epath3 FILE_OBJECT_CLASS_ID id FILE_ATTR_STATE) []) (fun r =>
  l_bind (if r_status r =? GSC_SUCCESS then l_need else l_ret tt) (fun _ =>
  l_bind (l_lift (st_lift (synced h r))) (fun s =>
  l_bind (match get_u8 h (buf_of (r_data r)) with
          | Ok (code, _) => if (code =? 3) || (code =? 5) then l_log false warning else l_ret tt
          | _ => l_ret tt
          end) (fun _ =>
  l_bind l_need (fun _ => l_ret (mkFile id s []))))))).

(** src/FileObject.cpp:33-35: the handler is copied. src/fileObject/FileObjectLoadedState.cpp:19-40: the message is short;
    then the request is packed; the answer is read; the new state and its copy of the handler are
    made. The other states: see MFile.begin_upload. *)
Definition fl_begin (handler : nat) : low (fobj * W) unit :=
  l_bind l_need (fun _ '(fs, (f, w)) =>
  match fo_state f with
  | FLoaded =>
    l_bind (l_message info) (fun _ =>
    l_bind l_need (fun _ =>
    l_bind (fl_req INITIATE_UPLOAD (epath2 FILE_OBJECT_CLASS_ID (fo_id f)) (bdata (put_u8 (buf_of []) MAX_TRANSFER_SIZE))) (fun r =>
    if r_status r =? GSC_SUCCESS then
      l_bind l_need (fun _ =>
      l_bind (l_lift (st_lift ('(size, b) <- get_u32 h (buf_of (r_data r)) ;; '(tsize, _) <- get_u8 h b ;; Ok (size, tsize)))) (fun '(size, tsize) =>
      l_bind l_need (fun _ => fl_do (fun f => f_set f (FUpload size tsize [] 0 handler)))))
    else l_bind (l_message error) (fun _ => fl_do (fun f => f_call f (mkCall handler (r_status r) []))))))
  | FUpload _ _ _ _ _ => l_log true info
  | FUnknown => l_log false error
  | _ => l_log false warning
  end (fs, (f, w))).

(** src/fileObject/FileObjectUploadInProgressState.cpp:34-100. Places: the request is packed; the answer is copied; the
    DEBUG message (50-52); the data is copied (62, 69, 77) and put to the end of the content, which is as
    before if that fails. *)
Definition fl_transfer : low (fobj * W) bool :=
  fun '(fs, (f, w)) =>
  match fo_state f with
  | FUpload size tsize content number handler =>
    l_bind l_need (fun _ =>
    l_bind (fl_req UPLOAD_TRANSFER (epath2 FILE_OBJECT_CLASS_ID (fo_id f)) (bdata (put_u8 (buf_of []) number))) (fun r =>
    if r_status r =? GSC_SUCCESS then
      l_bind l_need (fun _ =>
      l_bind (l_lift (st_lift ('(num, b) <- get_u8 h (buf_of (r_data r)) ;; '(ty, b) <- get_u8 h b ;; Ok (num, ty, b)))) (fun '(num, ty, b) =>
      l_bind (l_log true false) (fun _ =>
      if negb (num =? number) then
        l_bind (l_log true error) (fun _ =>
        l_bind (fl_do (fun f => f_call f (mkCall handler GSC_INVALID_PARAMETER []))) (fun _ => l_ret false))
      else if (ty =? 0) || (ty =? 1) then
        l_bind l_need (fun _ =>
        l_bind (l_lift (st_lift (get_bytes h (Z.to_nat tsize) b))) (fun '(d, _) =>
        l_bind l_need (fun _ =>
        l_bind (fl_do (fun f => f_set f (FUpload size tsize (content ++ d) (u8 (number + 1)) handler))) (fun _ => l_ret true))))
      else if (ty =? 2) || (ty =? 4) then
        if Nat.ltb (List.length (r_data r)) 4 then l_lift (st_lift (Throw LengthError))
        else
          l_bind l_need (fun _ =>
          l_bind (l_lift (st_lift (get_bytes h (List.length (r_data r) - 4) b))) (fun '(d, _) =>
          l_bind l_need (fun _ =>
          l_bind (fl_do (fun f => f_set f (FUpload size tsize (content ++ d) number handler))) (fun _ =>
          if zlen (content ++ d) =? size then
            l_bind (fl_do (fun f => f_call f (mkCall handler GSC_SUCCESS (content ++ d)))) (fun _ => l_ret false)
          else
            l_bind (l_log true error) (fun _ =>
            l_bind (fl_do (fun f => f_call f (mkCall handler GSC_INVALID_PARAMETER []))) (fun _ => l_ret false))))))
      else l_lift (st_lift (Throw (RuntimeError RtFileTransferStatus))))))
    else
      l_bind (l_message error) (fun _ =>
      l_bind (fl_do (fun f => f_call f (mkCall handler (r_status r) []))) (fun _ => l_ret true))))
  | FLoaded => l_ret false
  | FUnknown => l_bind (l_log false error) (fun _ => l_ret false)
  | _ => l_bind (l_log false warning) (fun _ => l_ret false)
  end (fs, (f, w)).

(** src/FileObject.cpp:27, src/fileObject/FileObjectState.cpp:29-31: the destructor copies the name of the state for a
    message at level TRACE; an exception that leaves it ends the program. *)
Definition fl_destroy : low (fobj * W) unit :=
  fun '(fs, (f, w)) =>
  match fo_state f with
  | FUpload _ _ _ _ _ => (if hd false fs then Done Abort else Done (Ok tt), (tl fs, (f, w)))
  | _ => (Done (Ok tt), (fs, (f, w)))
  end.

(** Calls of handleTransfers, whatever each of them throws, until one says that there is no more to
    do (or the program ends). *)
Fixpoint fl_calls (fss : list (list bool)) (x : fobj * W) : list (mres bool) * (fobj * W) :=
  match fss with
  | [] => ([], x)
  | fs :: r =>
    match fl_transfer (fs, x) with
    | (Done Abort, (_, x)) => ([Done Abort], x)
    | (Done (Ok false), (_, x)) => ([Done (Ok false)], x)
    | (o, (_, x)) => let '(os, x) := fl_calls r x in (o :: os, x)
    end
  end.
End FileLow.
