(** Model of a File Object client that is used for longer: its state can be
    read from the adapter again, and calls may come in any order
    (src/FileObject.h:56-86, src/fileObject/FileObjectState.h:46-47). *)
From Verif Require Import Base MBuffer MEip MFile.
Local Open Scope outcome_scope.

Section Again.
Context {W : Type}.
Variables (h : heap) (use8 : bool) (si : session_if W).

(** [file.getState()->SyncState(si)] on an existing object
    (src/FileObject.cpp:29-31, src/fileObject/FileObjectState.cpp:57-90). The
    new state object replaces the old one (FileObjectState.h:53-56), which is
    destroyed with its content and its handler; nothing of it is used
    afterwards. An exception leaves the old one in place. *)
Definition file_sync : st (fobj * W) unit :=
  fun '(f, w) =>
    let '(o, w) := send_request h si use8 GET_ATTRIBUTE_SINGLE
                     (epath3 FILE_OBJECT_CLASS_ID (fo_id f) FILE_ATTR_STATE) [] [] w in
    match (r <- o ;; synced h r) with
    | Ok s => (Ok tt, (f_set f s, w))
    | Throw e => (Throw e, (f, w))
    | Undef u => (Undef u, (f, w))
    | Abort => (Abort, (f, w))
    end.

(** The calls of a user (src/FileObject.h:70-86, FileObjectState.h:47). *)
Inductive fop := FoBegin (handler : nat) | FoTransfer | FoSync.

(** [Ok true]: handleTransfers has returned true. *)
Definition fop_run (x : fop) : st (fobj * W) bool :=
  match x with
  | FoBegin hid => (_ <- begin_upload h use8 si hid ;; st_ret false)%st
  | FoTransfer => handle_transfers h use8 si
  | FoSync => (_ <- file_sync ;; st_ret false)%st
  end.

(** Calls in any order; the user catches every exception and carries on. The
    outcomes are listed; undefined behaviour or an abort ends the history. *)
Fixpoint fops_run (l : list fop) (s : fobj * W) : list (outcome bool) * (fobj * W) :=
  match l with
  | [] => ([], s)
  | x :: l' =>
    let '(o, s) := fop_run x s in
    match o with
    | Ok _ | Throw _ => let '(os, s) := fops_run l' s in (o :: os, s)
    | _ => ([o], s)
    end
  end.
End Again.
