(** Model of the console appender (src/utils/Logger.cpp:32-42) when output to std::cout fails. *)
From Verif Require Import Base MLog.
From Coq Require Import String Ascii.
Local Open Scope outcome_scope.

(** What becomes of each write to std::cout and each flush, in order: [None] if it succeeds, [Some k] if only the first [k]
    characters get through (all succeed when the list is used up). That characters wait in a buffer until the flush is
    left out: what is lost in a flush counts as lost in the write. Signals (SIGPIPE) are left out. *)
Definition results := list (option nat).
(** Logger::_globalLogLevel; whether std::cout is in a good state; what has come out of it; results to come. *)
Record console := mkConsole { co_level : level; co_good : bool; co_out : string; co_results : results }.
Definition console0 (rs : results) : console := mkConsole INFO true "" rs.

(** [std::cout << text]: nothing is done in a bad state. A write that fails makes the state bad; as the program does not call
    std::cout.exceptions(), nothing is thrown. Nothing can fail for an empty text. *)
Definition put (text : string) (c : console) : console :=
  if co_good c && negb (String.eqb text "") then
    match co_results c with
    | Some k :: r => mkConsole (co_level c) false (co_out c ++ substring 0 k text) r
    | rs => mkConsole (co_level c) true (co_out c ++ text) (tl rs)
    end
  else c.
(** std::flush *)
Definition flush (c : console) : console :=
  if co_good c then
    match co_results c with
    | Some _ :: r => mkConsole (co_level c) false (co_out c) r
    | rs => mkConsole (co_level c) true (co_out c) (tl rs)
    end
  else c.

(** src/utils/Logger.cpp:18-22, 32-42 *)
Definition console_log (l : level) (pieces : list string) (c : console) : outcome unit * console :=
  if negb (level_value (co_level c) =? level_value OFF) && (level_value l <=? level_value (co_level c)) then
    match level_name l with
    | None => (Abort, c)
    | Some n => (Ok tt, flush (put newline (put (String.concat "" pieces) (put n c))))
    end
  else (Ok tt, c).

(** What a program does: messages, Logger::setLogLevel (src/utils/Logger.cpp:24-26), output of its own, std::cout.clear(). *)
Inductive console_op := CLog (l : level) (pieces : list string) | CLevel (l : level) | CText (text : string) | CClear.
Definition console_step (o : console_op) (c : console) : outcome unit * console :=
  match o with
  | CLog l pieces => console_log l pieces c
  | CLevel l => (Ok tt, mkConsole l (co_good c) (co_out c) (co_results c))
  | CText text => (Ok tt, put text c)
  | CClear => (Ok tt, mkConsole (co_level c) true (co_out c) (co_results c))
  end.
Fixpoint console_run (ops : list console_op) : st console unit :=
  match ops with
  | [] => fun c => (Ok tt, c)
  | o :: r => st_bind (console_step o) (fun _ => console_run r)
  end.
