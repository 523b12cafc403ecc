(** What an object holds after a sequence of calls, from the calls alone. *)
From Verif Require Import Base MEip MReuse.

(** The value given by the last call that [f] recognises. *)
Fixpoint latest {A B} (f : A -> option B) (l : list A) : option B :=
  match l with
  | [] => None
  | x :: r => match latest f r with Some v => Some v | None => f x end
  end.
Definition or_else {B} (o : option B) (d : B) : B := match o with Some v => v | None => d end.

Definition command_given (o : packet_op) : option Z := match o with PkCommand c => Some c | _ => None end.
Definition handle_given (o : packet_op) : option Z := match o with PkHandle c => Some c | _ => None end.
Definition status_given (o : packet_op) : option Z := match o with PkStatus c => Some c | _ => None end.
Definition data_given (o : packet_op) : option bytes := match o with PkData d => Some d | _ => None end.
Definition no_parse (o : packet_op) : Prop := match o with PkExpand _ => False | _ => True end.

Definition rstatus_given (o : response_op) : option Z := match o with RpStatus c => Some c | _ => None end.
Definition rdata_given (o : response_op) : option bytes := match o with RpData d => Some d | _ => None end.
Definition ritems_given (o : response_op) : option (list cpitem) := match o with RpItems l => Some l | _ => None end.
Definition no_rparse (o : response_op) : Prop := match o with RpExpand _ => False | _ => True end.
