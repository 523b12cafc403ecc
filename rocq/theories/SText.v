(** Specification: numbers as text. *)
From Verif Require Import Base MBuffer MEip SEip.

(** The value of a sequence of decimal digits after [acc]. *)
Fixpoint reads (acc : Z) (s : string) : option Z :=
  match s with
  | EmptyString => Some acc
  | String c r => let d := Z.of_nat (nat_of_ascii c) - 48 in
                  if (0 <=? d) && (d <=? 9) then reads (10 * acc + d) r else None
  end.
(** [s] is the decimal numeral of [v], without superfluous zeros. *)
Definition numeral (s : string) (v : Z) : Prop :=
  s <> EmptyString /\ reads 0 s = Some v /\ forall r, s = String "0" r -> r = EmptyString.
(** The same in hexadecimal, lower case. *)
Definition hex_value (c : ascii) : option Z :=
  let n := Z.of_nat (nat_of_ascii c) in
  if (48 <=? n) && (n <=? 57) then Some (n - 48) else if (97 <=? n) && (n <=? 102) then Some (n - 87) else None.
Fixpoint reads_hex (acc : Z) (s : string) : option Z :=
  match s with
  | EmptyString => Some acc
  | String c r => match hex_value c with Some d => reads_hex (16 * acc + d) r | None => None end
  end.
Definition hex_numeral (s : string) (v : Z) : Prop :=
  s <> EmptyString /\ reads_hex 0 s = Some v /\ forall r, s = String "0" r -> r = EmptyString.
(** A list of texts, each in brackets after [0x]. *)
Fixpoint bracketed (l : list string) : string :=
  match l with [] => EmptyString | s :: r => ("[0x" ++ s ++ "]" ++ bracketed r)%string end.

(** The text of a path: the ids it has, by name. *)
Definition path_shape (named : list (string * Z)) (s : string) : Prop :=
  exists l, Forall2 numeral l (map snd named)
  /\ s = ("[" ++ String.concat " " (map (fun x => fst x ++ "=" ++ snd x) (combine (map fst named) l)) ++ "]")%string.
Definition named_ids (i : ids) : list (string * Z) :=
  match i with
  | Ids0 => [("classId", 0)]
  | Ids1 c => [("classId", c)]
  | Ids2 c o => [("classId", c); ("objectId", o)]
  | Ids3 c o a => [("classId", c); ("objectId", o); ("attributeId", a)]
  end%string.
