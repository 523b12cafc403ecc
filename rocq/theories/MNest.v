(** Model of upload handlers that use the file object they are called for
    (the handlers of MFile.v are only recorded). *)
From Verif Require Import Base MBuffer MEip MFile MSync.

(** What a handler does: it may return, throw, or make a call on the object and
    go on depending on its result (or exception) and on what the object is
    then. It looks at the content it is given before its first call. *)
Inductive hact (W : Type) :=
| HDone
| HThrow (e : exn)
| HDo (x : fop) (k : outcome bool -> fobj * W -> hact W).
Arguments HDone {W}.
Arguments HThrow {W} _.
Arguments HDo {W} _ _.

Section Nested.
Context {W : Type}.
Variables (h : heap) (use8 : bool) (si : session_if W).
(** The handlers: what the one called does. *)
Variable H : hcall -> fobj * W -> hact W.

(** The file object, and how many state objects it has had: setState
    (src/fileObject/FileObjectState.h:53-56) destroys the old one. *)
Definition nview : Type := nat * (fobj * W).

(** Whether a call has replaced the state object:
    src/fileObject/FileObjectState.cpp:66-80 and
    src/fileObject/FileObjectLoadedState.cpp:34. *)
Definition replaces (x : fop) (o : outcome bool) (f f' : fobj) : bool :=
  match x, o with
  | FoSync, Ok _ => true
  | FoBegin _, Ok _ => match fo_state f, fo_state f' with FLoaded, FUpload _ _ _ _ _ => true | _, _ => false end
  | _, _ => false
  end.

(** The body of a handler. [own] is [Some g] for a handler called by
    transfer(): it is a member of state object number [g]
    (src/fileObject/FileObjectUploadInProgressState.cpp:58, 84, 87, 96), and
    goes with it while it runs. It is assumed to need its captures (the object
    and the session) for every further call; returning and throwing need none,
    and transfer() uses no member afterwards. A handler called by
    initiateUpload is a parameter (FileObjectLoadedState.cpp:38). [run] makes
    a call. *)
Fixpoint hbody (run : fop -> nview -> outcome bool * nview) (own : option nat) (a : hact W) (s : nview) : outcome unit * nview :=
  match a with
  | HDone => (Ok tt, s)
  | HThrow e => (Throw e, s)
  | HDo x k =>
    if match own with Some g => Nat.eqb g (fst s) | None => true end then
      let '(o, s) := run x s in
      match o with
      | Ok _ | Throw _ => hbody run own (k o (snd s)) s
      | Undef u => (Undef u, s)
      | Abort => (Abort, s)
      end
    else (Undef UbDangling, s)
  end.

(** A call, with [n] the number of calls the stack has room for; when it is
    exhausted the process ends. A call makes at most one handler call, and does
    nothing after it. *)
Fixpoint hrun (n : nat) (x : fop) (s : nview) : outcome bool * nview :=
  match n with
  | O => (Abort, s)
  | S n' =>
    let '(g, (f, w)) := s in
    let '(o, (f', w')) := fop_run h use8 si x (f, w) in
    let s' := (if replaces x o f f' then S g else g, (f', w')) in
    match o, skipn (List.length (fo_calls f)) (fo_calls f') with
    | Ok b, c :: _ =>
      let '(o, s') := hbody (hrun n') (match x with FoTransfer => Some g | _ => None end) (H c (f', w')) s' in
      (omap (fun _ => b) o, s')
    | _, _ => (o, s')
    end
  end.

(** Calls of the user, who catches every exception. *)
Fixpoint hruns (n : nat) (l : list fop) (s : nview) : list (outcome bool) * nview :=
  match l with
  | [] => ([], s)
  | x :: l' =>
    let '(o, s) := hrun n x s in
    match o with
    | Ok _ | Throw _ => let '(os, s) := hruns n l' s in (o :: os, s)
    | _ => ([o], s)
    end
  end.
End Nested.
