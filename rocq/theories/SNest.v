(** Specification of upload handlers that use the file object. *)
From Verif Require Import Base MBuffer MEip MFile MSync MNest.

(** Handlers that make no calls. *)
Definition idle_handlers {W} (H : hcall -> fobj * W -> hact W) : Prop := forall c s, H c s = HDone.

(** A handler that never synchronises the object, whatever it meets. *)
Inductive no_sync {W} : hact W -> Prop :=
| ns_done : no_sync HDone
| ns_throw e : no_sync (HThrow e)
| ns_do x k : x <> FoSync -> (forall o s, no_sync (k o s)) -> no_sync (HDo x k).

(** A handler that may synchronise the object as the last thing it does, and
    makes no transfers itself. *)
Definition leaves {W} (a : hact W) : Prop := match a with HDo _ _ => False | _ => True end.
Inductive sync_last {W} : hact W -> Prop :=
| sl_done : sync_last HDone
| sl_throw e : sync_last (HThrow e)
| sl_begin hid k : (forall o s, sync_last (k o s)) -> sync_last (HDo (FoBegin hid) k)
| sl_sync k : (forall o s, leaves (k o s)) -> sync_last (HDo FoSync k).

(** An outcome after which the program goes on. *)
Definition goes_on {A} (o : outcome A) : Prop := match o with Ok _ | Throw _ => True | _ => False end.

(** The calls [l] are among those of [l'], in the same order. *)
Inductive within : list fop -> list fop -> Prop :=
| wi_nil : within [] []
| wi_skip x l l' : within l l' -> within l (x :: l')
| wi_keep x l l' : within l l' -> within (x :: l) (x :: l').

(** Handlers that keep their own state object: none synchronises, or they do so
    last and leave the transfers to the user. *)
Definition kind_handlers {W} (H : hcall -> fobj * W -> hact W) : Prop :=
  (forall c s, no_sync (H c s)) \/ (forall c s, sync_last (H c s)).

(** A handler that asks again when it is told an error. *)
Definition retry {W} (hid : nat) (c : hcall) (_ : fobj * W) : hact W :=
  if hc_status c =? 0 then HDone else HDo (FoBegin hid) (fun _ _ => HDone).
