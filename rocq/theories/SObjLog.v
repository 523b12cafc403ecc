(** Specification: what the log says about requests, refusals and objects. *)
From Verif Require Import Base MBuffer MEip SEip SObj MLog SText MMsg SMsg SErrno MParam MFault SFileLog.

(** A refusal: the additional statuses in hexadecimal; the general status as one
    character (see C80). *)
Definition tells_refusal (m : message) (a : answer) : Prop :=
  exists ds, Forall2 hex_numeral ds (a_addl a)
  /\ m = (ERROR, "Message Router error=0x" ++ String (ascii_of_nat (Z.to_nat (a_status a))) (" additional statuses " ++ bracketed ds))%string.

(** The log tells the exchanges one after the other: every request, and behind
    it the refusal if it is refused. *)
Inductive tells : list message -> trace -> Prop :=
| TellsNothing : tells [] []
| TellsDone m q a l tr : a_status a = 0 -> tells_request m q -> tells l tr -> tells (m :: l) ((q, a) :: tr)
| TellsRefused m e q a l tr : a_status a <> 0 -> tells_request m q -> tells_refusal e a -> tells l tr ->
    tells (m :: e :: l) ((q, a) :: tr).

(** The messages a user sees who has not asked for more. *)
Definition is_seen (m : message) : bool := level_value (fst m) <=? level_value INFO.
Definition seen (l : list message) : list message := filter is_seen l.

(** ** Parameter objects *)
Definition bit_digit (b : bool) : string := if b then "1"%string else "0"%string.
Definition tells_begin (id : Z) (m : string) : Prop :=
  exists i, numeral i id /\ m = ("Read data from parameter ID=" ++ i)%string.
Definition tells_descriptor (id : Z) (scalable readonly : bool) (m : string) : Prop :=
  exists i t v, numeral i id /\ hex_numeral t v /\ Z.testbit v 2 = scalable /\ Z.testbit v 4 = readonly
  /\ m = ("Parameter object ID=" ++ i ++ " has descriptor=0x" ++ t ++ " scalable=" ++ bit_digit scalable ++ " readonly=" ++ bit_digit readonly)%string.
Definition bytes_text (l : bytes) : string := string_of_list_ascii (map (fun x => ascii_of_nat (Z.to_nat x)) l).
Definition tells_end (id : Z) (p : param) (m : string) : Prop :=
  exists i n t, numeral i id /\ numeral n (zlen (pa_value p)) /\ hex_numeral t (pa_type p)
  /\ m = ("Read Parameter Object ID=" ++ i ++ " ValueSize=" ++ n ++ " ValueType=0x" ++ t ++ " Name=" ++ bytes_text (pa_name p))%string.

(** What is told of a parameter object that is read: [o] is how it ends. *)
Definition debug_told (id : Z) (o : outcome param) (ls : list string) : Prop :=
  match o with
  | Ok p => exists a b c, ls = [a; b; c] /\ tells_begin id a /\ tells_descriptor id (pa_scalable p) (pa_readonly p) b
            /\ (is_u8 (pa_type p) -> tells_end id p c)
  | _ => exists a more, ls = a :: more /\ tells_begin id a
         /\ (more = [] \/ exists b s r, more = [b] /\ tells_descriptor id s r b)
  end.

(** ** Faults *)
Definition tells_count (k : nat) (m : message) : Prop :=
  exists t, numeral t (Z.of_nat k) /\ m = (INFO, "There read " ++ t ++ " faults in the queue")%string.
Definition is_count (m : message) : bool :=
  match strip "There read " (snd m) with Some _ => true | None => false end.
(** What is told of a call of the fault manager that has given [new] to the
    listener and ends with [o]. *)
Definition count_told (new : list fault) (o : outcome unit) (ls : list message) : Prop :=
  match ls with
  | [] => o = Ok tt -> new = []
  | [m] => new <> [] /\ tells_count (List.length new) m
  | _ => False
  end.
