(** Specification of the logger and of the serial numbers of several threads. *)
From Verif Require Import Base MLog.
From Coq Require Import String.

(** The messages that are shown at a global level: those of the level itself and
    the more severe ones. (A message can be given the level OFF; it counts as
    more severe than an error.) *)
Definition shown (g : level) : list level :=
  match g with
  | OFF => []
  | ERROR => [OFF; ERROR]
  | WARNING => [OFF; ERROR; WARNING]
  | INFO => [OFF; ERROR; WARNING; INFO]
  | DEBUG => [OFF; ERROR; WARNING; INFO; DEBUG]
  | TRACE => [OFF; ERROR; WARNING; INFO; DEBUG; TRACE]
  end.

Definition sets_level (o : log_op) : Prop := match o with SetLevel _ => True | _ => False end.
Definition sets_appender (o : log_op) : Prop := match o with SetAppender _ => True | _ => False end.

(** The level and the appender in force after a history: those set last. *)
Definition level_after (ops : list log_op) (g : level) : Prop :=
  (g = INFO /\ Forall (fun o => ~ sets_level o) ops)
  \/ exists before after, ops = before ++ SetLevel g :: after /\ Forall (fun o => ~ sets_level o) after.
Definition appender_after (ops : list log_op) (a : appender) : Prop :=
  (a = Console /\ Forall (fun o => ~ sets_appender o) ops)
  \/ exists before after, ops = before ++ SetAppender a :: after /\ Forall (fun o => ~ sets_appender o) after.

(** Histories that use neither an empty appender nor one that throws. *)
Definition decent_appender (a : appender) : Prop :=
  match a with Console => True | Own _ throws => forall l m, throws l m = false | NoAppender => False end.
Definition decent (o : log_op) : Prop :=
  match o with SetAppender a => decent_appender a | _ => True end.

(** The name in front of a message on the console. *)
Definition tag (l : level) : string :=
  (match l with OFF => "" | ERROR => "[ERROR] " | WARNING => "[WARNING] " | INFO => "[INFO] " | DEBUG => "[DEBUG] "
   | TRACE => "[TRACE] " end)%string.

(** and the end of its line *)
Definition line_end : string := String (Ascii.Ascii false true false true false false false false) "".

(** ** Threads *)

(** A schedule in which nobody else uses the counter while a thread takes a
    number: the turns of the threads in order. *)
Definition one_at_a_time (turns : list nat) : list nat := List.concat (map (fun t => [t; t]) turns).

(** Two threads take one number each, in any interleaving. *)
Definition two_opens (a b : nat) (ts : list nat) : Prop :=
  List.length ts = 4%nat /\ count_occ Nat.eq_dec ts a = 2%nat /\ count_occ Nat.eq_dec ts b = 2%nat.
