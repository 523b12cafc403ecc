(** Specification: the descriptors of sessions and discovery. *)
From Verif Require Import Base MEip MSocket MDisc MConn MFd MRes.

(** The call leaves a descriptor behind that nobody can close: fcntl() fails on
    a new TCP socket, before it is connected. *)
Definition leaks (c : rcall) (fd : Z) : Prop :=
  match c with
  | ROpen fd' k _ _ => fd' = fd /\ k_socket k = None /\ (k_getfl1 k <> None \/ k_setfl1 k <> None)
  | _ => False
  end.
(** The session [i] is alive and [fd] is its descriptor. *)
Definition open_session (s : rworld) (i : nat) (fd : Z) : Prop := exists v, rw_live s i = Some v /\ lv_fd v = fd.
(** [c] consists of the elements of [a] and of [b], each in their order. *)
Inductive merge {A} : list A -> list A -> list A -> Prop :=
| merge_nil : merge [] [] []
| merge_left x a b c : merge a b c -> merge (x :: a) b (x :: c)
| merge_right x a b c : merge a b c -> merge a (x :: b) (x :: c).
(** Construction of sessions in [cs]. *)
Definition opened_in (cs : list rcall) : nat :=
  List.length (filter (fun c => match c with ROpen _ _ _ _ => true | _ => false end) cs).
(** The packets that [cs] sends with the session [i]. *)
Definition packets_of (i : nat) (cs : list rcall) : list encaps :=
  flat_map (fun c => match c with RSend j q => if Nat.eqb j i then [q] else [] | _ => [] end) cs.
