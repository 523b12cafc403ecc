(** Model of the logger (src/utils/Logger.cpp) and of the serial number counter
    used by several threads (src/ConnectionManager.cpp:54-55). *)
From Verif Require Import Base.
From Coq Require Import String Ascii.
Local Open Scope outcome_scope.

(** ** Logger *)

(** src/utils/Logger.h:18-25 *)
Inductive level := OFF | ERROR | WARNING | INFO | DEBUG | TRACE.
Definition level_value (l : level) : Z :=
  match l with OFF => 0 | ERROR => 1 | WARNING => 2 | INFO => 3 | DEBUG => 4 | TRACE => 5 end.

(** src/utils/Logger.h:33-50: the console, an appender of the program (it is told
    apart from others by [n]; [throws] says for which messages its [print]
    throws), or an empty pointer. *)
Inductive appender := Console | Own (n : nat) (throws : level -> string -> bool) | NoAppender.

(** The two static members, src/utils/Logger.cpp:11-12; what has reached each
    appender so far; what is on the console. *)
Record logger := mkLogger {
  lg_level : level; lg_appender : appender; lg_passed : list (appender * level * string); lg_console : string }.
Definition logger0 : logger := mkLogger INFO Console [] "".

(** src/utils/Logger.cpp:33-39; [None]: no entry. *)
Definition level_name (l : level) : option string :=
  match l with
  | TRACE => Some "[TRACE] " | DEBUG => Some "[DEBUG] " | INFO => Some "[INFO] "
  | WARNING => Some "[WARNING] " | ERROR => Some "[ERROR] "
  | OFF => None
  end%string.

Definition newline : string := String (ascii_of_nat 10) EmptyString.

(** The call of [print], src/utils/Logger.cpp:20, 32-42: [std::map::at] throws if
    there is no entry. Failures of [std::cout] are left out. *)
Definition print (l : level) (msg : string) : st logger unit :=
  fun s =>
    let s1 := mkLogger (lg_level s) (lg_appender s) (lg_passed s ++ [(lg_appender s, l, msg)]) (lg_console s) in
    match lg_appender s with
    | NoAppender => (Undef UbNullDeref, s)
    | Own _ throws => (if throws l msg then Throw (RuntimeError RtOther) else Ok tt, s1)
    | Console =>
      match level_name l with
      | None => (Throw OutOfRange, s1)
      | Some n => (Ok tt, mkLogger (lg_level s) (lg_appender s) (lg_passed s1) (lg_console s ++ n ++ msg ++ newline))
      end
    end.

(** The life of a Logger: constructor, the pieces written to it, destructor
    (src/utils/Logger.cpp:14-22, Logger.h:83-87). A destructor is noexcept, so an
    exception ends the program. *)
Definition log (l : level) (pieces : list string) : st logger unit :=
  fun s =>
    if negb (level_value (lg_level s) =? level_value OFF) && (level_value l <=? level_value (lg_level s))
    then let '(o, s') := print l (String.concat "" pieces) s in
         (match o with Throw _ => Abort | _ => o end, s')
    else (Ok tt, s).

(** What a program does with the logger; src/utils/Logger.cpp:24-30. *)
Inductive log_op := SetLevel (l : level) | SetAppender (a : appender) | Log (l : level) (pieces : list string).
Definition log_step (o : log_op) : st logger unit :=
  match o with
  | SetLevel l => fun s => (Ok tt, mkLogger l (lg_appender s) (lg_passed s) (lg_console s))
  | SetAppender a => fun s => (Ok tt, mkLogger (lg_level s) a (lg_passed s) (lg_console s))
  | Log l pieces => log l pieces
  end.
Fixpoint log_run (ops : list log_op) : st logger unit :=
  match ops with
  | [] => fun s => (Ok tt, s)
  | o :: r => st_bind (log_step o) (fun _ => log_run r)
  end.

(** ** The serial number counter and threads *)

(** [++serialNumberCount] on the static [int] of src/ConnectionManager.cpp:54 is
    a load and a store. Each thread is described by the value it has loaded but
    not yet stored. (The standard calls concurrent use of the counter a data
    race and gives it no meaning at all; this is the mildest reading.) *)
Record shared := mkShared {
  sh_counter : Z; sh_held : list (option Z);
  sh_given : list (nat * Z)   (* serial numbers given out: thread, number *) }.

Fixpoint set_nth {A} (n : nat) (x : A) (l : list A) : list A :=
  match l, n with
  | [], _ => []
  | _ :: r, O => x :: r
  | y :: r, S n' => y :: set_nth n' x r
  end.

(** The next access of thread [t] to the counter; the number is a CipUint
    (src/ConnectionManager.cpp:55). *)
Definition access (t : nat) : st shared unit :=
  fun s =>
    match nth_error (sh_held s) t with
    | None => (Ok tt, s)
    | Some None => (Ok tt, mkShared (sh_counter s) (set_nth t (Some (sh_counter s)) (sh_held s)) (sh_given s))
    | Some (Some v) =>
      if v =? 2147483647 then (Undef UbSignedOverflow, s)
      else (Ok tt, mkShared (v + 1) (set_nth t None (sh_held s)) (sh_given s ++ [(t, u16 (v + 1))]))
    end.
Fixpoint accesses (ts : list nat) : st shared unit :=
  match ts with
  | [] => fun s => (Ok tt, s)
  | t :: r => st_bind (access t) (fun _ => accesses r)
  end.
(** [n] threads, no connection opened yet *)
Definition shared0 (n : nat) : shared := mkShared 0 (repeat None n) [].
