(** Specification: reading the log of a connection manager. *)
From Verif Require Import Base MBuffer MLog MConnReq MConn MMsg.

(** What a message says about connections. *)
Inductive said :=
| SOpened (o2t t2o serial : Z)      (* a connection has been opened *)
| SRefused (t2o : Z)                (* ... and dropped, for another one has its id *)
| SClosing (t2o : Z)                (* the program closes a connection *)
| STimedOut (serial : Z)
| SUnknown (id : Z)                 (* data for no connection *)
| SIgnored (t2o size got : Z)       (* data of the wrong size *)
| SUnsent (o2t size got : Z)        (* output of the wrong size *)
| SOther.

(** The text after a given beginning. *)
Fixpoint strip (p s : string) : option string :=
  match p, s with
  | EmptyString, _ => Some s
  | String a p', String b s' => if Ascii.eqb a b then strip p' s' else None
  | _, _ => None
  end.
(** The decimal number at the beginning of a text and what follows it. *)
Definition digit (c : ascii) : option Z :=
  let d := Z.of_nat (nat_of_ascii c) - 48 in if (0 <=? d) && (d <=? 9) then Some d else None.
Fixpoint number_from (acc : Z) (s : string) : Z * string :=
  match s with
  | String c r => match digit c with Some d => number_from (10 * acc + d) r | None => (acc, s) end
  | EmptyString => (acc, s)
  end.
Definition number (s : string) : option (Z * string) :=
  match s with
  | String c _ => match digit c with Some _ => Some (number_from 0 s) | None => None end
  | EmptyString => None
  end.
(** Each of the texts [ps] followed by a number, and then [e]: the numbers. *)
Fixpoint fields (ps : list string) (e s : string) : option (list Z) :=
  match ps with
  | [] => if String.eqb s e then Some [] else None
  | p :: r =>
    match strip p s with
    | Some s1 => match number s1 with Some (v, s2) => option_map (cons v) (fields r e s2) | None => None end
    | None => None
    end
  end.

Definition one (p e s : string) (f : Z -> said) : option said :=
  match fields [p] e s with Some [a] => Some (f a) | _ => None end.
Definition three (p q r e s : string) (f : Z -> Z -> Z -> said) : option said :=
  match fields [p; q; r] e s with Some [a; b; c] => Some (f a b c) | _ => None end.
Fixpoint first (l : list (option said)) : said :=
  match l with [] => SOther | Some x :: _ => x | None :: r => first r end.
Definition read_text (s : string) : said :=
  first
    [three "Open IO connection O2T_ID=" " T2O_ID=" " SerialNumber " "" s SOpened;
     one "Connection with T2O_ID=" " already exists." s SRefused;
     one "Close connection connection T2O_ID=" "" s SClosing;
     one "Connection SeriaNumber=" " is closed by timeout" s STimedOut;
     one "Received data from unknown connection T2O_ID=" "" s SUnknown;
     three "Connection T2O_ID=" " has fixed size " " bytes but " " bytes were received. Ignore this data." s SIgnored;
     three "Connection O2T_ID=" " has fixed size " " bytes but " " bytes are to send. Don't send this data." s SUnsent].

(** Only messages that are shown at the level a program starts with (INFO)
    are read. *)
Definition read_message (m : message) : said :=
  match fst m with ERROR | WARNING | INFO => read_text (snd m) | _ => SOther end.

(** ** Which connections are open, according to the log *)

(** T2O ids and serial numbers of the open connections, oldest first. *)
Definition after_said (open : list (Z * Z)) (x : said) : list (Z * Z) :=
  match x with
  | SOpened _ t n => open ++ [(t, n)]
  | SRefused _ => removelast open
  | SClosing t => filter (fun e => negb (fst e =? t)) open
  | STimedOut n => filter (fun e => negb (snd e =? n)) open
  | _ => open
  end.
Definition told_open (log : list message) : list (Z * Z) := fold_left after_said (map read_message log) [].

(** The log is clear: no connection is opened with the serial number of one
    that is still open according to the log. *)
Fixpoint clear (open : list (Z * Z)) (log : list said) : Prop :=
  match log with
  | [] => True
  | x :: r => match x with SOpened _ _ n => ~ In n (map snd open) | _ => True end /\ clear (after_said open x) r
  end.

(** The connections that are open. *)
Definition connections (m : mgr) : list (Z * Z) := map (fun e => (io_t2oId (snd e), io_serial (snd e))) (m_map m).

(** Every call returned normally. *)
Definition returned {A} (o : outcome A) : Prop := exists a, o = Ok a.

(** ** Messages of one call *)

Definition timeouts (log : list message) : list Z :=
  flat_map (fun m => match read_message m with STimedOut n => [n] | _ => [] end) log.
(** Messages about datagrams that were not delivered. *)
Definition complaints (log : list message) : list said :=
  filter (fun x => match x with SUnknown _ | SIgnored _ _ _ => true | _ => false end) (map read_message log).
(** Connection ids of the datagrams that are announced (level DEBUG). *)
Definition announced (m : message) : list Z :=
  match fst m, fields ["Received data from connection T2O_ID="%string] "" (snd m) with
  | DEBUG, Some [id] => [id]
  | _, _ => []
  end.
Definition announcements (log : list message) : list Z := flat_map announced log.
(** Messages about output that was not sent. *)
Definition unsent (log : list message) : list said :=
  filter (fun x => match x with SUnsent _ _ _ => true | _ => false end) (map read_message log).
(** Datagrams that arrive at the first [n] sockets. *)
Definition arrivals {A} (n : nat) (rounds : list (sel_round A)) : list A :=
  flat_map (fun r => flat_map (fun x => match x with Some d => [d] | None => [] end) (firstn n (sr_ready r))) rounds.
(** Calls of receive listeners. *)
Definition deliveries (ev : list event) : list event :=
  filter (fun e => match e with EvData _ _ _ _ => true | _ => false end) ev.
(** A datagram was sent for the connection. *)
Definition has_sent (o : nat) (ev : list event) : bool :=
  existsb (fun e => match e with EvSent o' _ _ => Nat.eqb o' o | _ => false end) ev.
(** A connection that went on to its next sequence number without sending. *)
Definition held_back (m' : mgr) (ev : list event) (c : iocon) : list said :=
  match lock (io_oid c) m' with
  | Some c' =>
    if negb (io_o2tSeq c' =? io_o2tSeq c) && negb (has_sent (io_oid c) ev)
    then [SUnsent (io_o2tId c) (io_o2tSize c) (zlen (io_out c'))]
    else []
  | None => []
  end.
