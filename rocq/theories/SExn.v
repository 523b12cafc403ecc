(** Specification: the exceptions that the headers announce (@throw in
    src/SessionInfo.h, MessageRouter.h, IdentityObject.h, ParameterObject.h,
    FileObject.h, Yaskawa_MessageRouter.h). *)
From Verif Require Import Base MBuffer SBuffer MEip SEip MSocket.
Local Open Scope Z_scope.

Definition documented (e : exn) : Prop :=
  match e with RuntimeError _ | SystemError _ => True | OutOfRange | LengthError | BadCall => False end.

(** The packet [r] has no place for the two items of a reply: it ends before
    the list of items, or this has fewer than two. *)
Definition misshaped (r : encaps) (e : exn) : Prop :=
  match e with
  | LengthError => (List.length (e_data r) < 6)%nat
  | OutOfRange =>
    (6 <= List.length (e_data r) < 8)%nat
    \/ exists ih to count items rest, e_data r = le 4 ih ++ le 2 to ++ le 2 count ++ items_bytes items ++ rest
       /\ is_u16 count /\ Forall item_wf items /\ (List.length items < 2)%nat
       /\ (zlen items = count \/ zlen items < count /\ rest = [])
  | _ => False
  end.

(** A session that keeps the packets it has received. *)
Definition recording {W} (si : session_if W) : session_if (W * list encaps) :=
  mkSession (si_handle si) (fun q '(w, l) =>
    let '(o, w') := si_exchange si q w in
    (o, (w', match o with Ok r => l ++ [r] | _ => l end))).
(** Sessions that themselves throw nothing else and receive bytes, as long as
    the world is as [I] says, which they keep. *)
Definition decent {W} (I : W -> Prop) (si : session_if W) : Prop := forall q w o w', I w -> si_exchange si q w = (o, w') ->
  I w' /\ match o with Ok r => is_bytes (e_data r) | Throw e => documented e | _ => True end.

(** The end of a call in which the packets [new] were received: only the last of
    them can have caused an exception that is not announced. *)
Definition blamed {A} (o : outcome A) (new : list encaps) : Prop :=
  match o with
  | Throw e => documented e \/ exists before r, new = before ++ [r] /\ misshaped r e
  | _ => True
  end.
Definition announced {W A} (I : W -> Prop) (call : st (W * list encaps) A) : Prop :=
  forall w l o w' l', I w -> call (w, l) = (o, (w', l')) -> I w' /\ exists new, l' = l ++ new /\ blamed o new.

(** What the network delivers is bytes. *)
Definition byte_seg (s : seg) : Prop := match s with Data l => is_bytes l | _ => True end.
Definition byte_net (w : net) : Prop := Forall byte_seg (n_in w).
Definition byte_peer (p : peer) : Prop := forall sent data, Forall byte_seg (p sent data).
