(** Specification of error numbers and log output of the sockets. *)
From Verif Require Import Base MBuffer MEip MSocket SSocket MLog SLog SText MErrno.
Local Open Scope Z_scope.

(** Logging does not end the program: see C69. *)
Definition decent_thread (t : thread) : Prop := decent_appender (lg_appender (t_log t)).
Definition shows (t : thread) (l : level) : Prop := In l (shown (lg_level (t_log t))).

(** An appender that leaves errno alone. *)
Definition considerate (n : noise) : Prop := forall s l m e, n s l m e = e.

(** The program finds [e'] in errno instead of [e] because one message was
    written in between. *)
Definition blurred (n : noise) (t : thread) (l : level) (text : string -> Prop) (e e' : Z) : Prop :=
  ~ shows t l /\ e' = e
  \/ shows t l /\ exists g m, lg_level g = lg_level (t_log t) /\ lg_appender g = lg_appender (t_log t) /\ text m /\ e' = n g l m e.

(** Texts with numbers in them. *)
Definition udp_failed (fd : Z) (m : string) : Prop :=
  exists s, numeral s fd /\ m = ("Received -1 bytes from UDP socket #" ++ s ++ ".")%string.
Definition sends (kind : string) (fd size : Z) (m : string) : Prop :=
  exists s k, numeral s fd /\ numeral k size /\ m = ("Send " ++ k ++ " bytes from " ++ kind ++ " socket #" ++ s ++ ".")%string.
Definition tcp_got (fd : Z) (k : nat) (m : string) : Prop :=
  exists s c, numeral s fd /\ numeral c (Z.of_nat k) /\ m = ("Received " ++ c ++ " bytes from TCP socket #" ++ s ++ ".")%string.
Definition tcp_short (from : endpoint) (got wanted : nat) (m : string) : Prop :=
  exists g w, numeral g (Z.of_nat got) /\ numeral w (Z.of_nat wanted)
    /\ m = ("Received from " ++ ep_to_string from ++ " " ++ g ++ " of " ++ w)%string.

(** What the calls of recvfrom() meet, with the first error as the program sees
    it. When nothing is left, recvfrom() fails with EAGAIN (11). *)
Inductive seen (sees : Z -> Z -> Prop) : list dgram -> list dgram -> Prop :=
| SeenEnd e : sees 11 e -> seen sees [] [DErr e]
| SeenDgram l r r' : seen sees r r' -> seen sees (Dgram l :: r) (Dgram l :: r')
| SeenErr e e' r : sees e e' -> seen sees (DErr e :: r) (DErr e' :: r).

(** The results of send() as MSocket has them. *)
Definition result_of (r : sending) (errno : Z) : send_result :=
  match r with Took c => mkSend c errno | Refused e => mkSend (-1) e end.

(** Fewer bytes than wanted, because the stream has ended. *)
Definition ended_early (n : nat) (segs : list seg) : Prop :=
  (List.length (stream segs) < n)%nat /\ ending_of segs = Closed.

(** Messages written between two states, and those of one level. *)
Definition written (t t' : thread) (l : list (level * string)) : Prop :=
  lg_passed (t_log t') = lg_passed (t_log t) ++ map (fun m => (lg_appender (t_log t), fst m, snd m)) l.
Definition level_eqb (a b : level) : bool := level_value a =? level_value b.
Definition at_level (v : level) (l : list (level * string)) : list string :=
  map snd (filter (fun m => level_eqb (fst m) v) l).
