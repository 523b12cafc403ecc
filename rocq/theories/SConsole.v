(** Specification of the console appender when output fails. *)
From Verif Require Import Base MLog SLog MConsole.
From Coq Require Import String.

Definition level_dec (a b : level) : {a = b} + {a <> b}.
Proof. decide equality. Defined.
(** The text that each step is to put on the console, beginning at a level. *)
Definition text_of (g : level) (o : console_op) : string :=
  match o with
  | CLog l pieces => if in_dec level_dec l (shown g) then (tag l ++ String.concat "" pieces ++ line_end)%string else ""%string
  | CText text => text
  | _ => ""%string
  end.
Definition level_then (g : level) (o : console_op) : level := match o with CLevel l => l | _ => g end.
Fixpoint texts (g : level) (ops : list console_op) : list string :=
  match ops with
  | [] => []
  | o :: r => text_of g o :: texts (level_then g o) r
  end.
(** [a] is the beginning of [b]. *)
Definition begins (a b : string) : Prop := exists rest, b = (a ++ rest)%string.
(** No step logs at the level OFF (see C69); none clears std::cout. *)
Definition proper (o : console_op) : Prop := match o with CLog OFF _ => False | _ => True end.
Definition no_clear (o : console_op) : Prop := o <> CClear.
(** Nothing fails. *)
Definition all_succeed (rs : results) : Prop := Forall (fun r => r = None) rs.
