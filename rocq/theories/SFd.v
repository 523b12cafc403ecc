(** Specification: descriptors. *)
From Verif Require Import Base MConn MFd.

(** Going over what happened, with the descriptors held: [Reused] when the
    system hands out one that is held (it never does), [Fault] when one that is
    not held is used or closed. *)
Inductive verdict := Fault | Reused | Held (l : list Z).
Fixpoint audit (ev : list fdev) (have : list Z) : verdict :=
  match ev with
  | [] => Held have
  | FOpen fd :: r => if in_dec Z.eq_dec fd have then Reused else audit r (fd :: have)
  | FUse fd :: r => if in_dec Z.eq_dec fd have then audit r have else Fault
  | FClose fd :: r => if in_dec Z.eq_dec fd have then audit r (List.remove Z.eq_dec fd have) else Fault
  end.
(** Who needs a descriptor: a connection that is alive, a receiving socket. *)
Inductive holder := Conn (oid : nat) | Rx (n : nat).
Definition holds (f : fmgr) (x : holder) (fd : Z) : Prop :=
  match x with
  | Conn oid => lock oid (f_m f) <> None /\ f_conn f oid = fd
  | Rx n => nth_error (f_rx f) n = Some fd
  end.
(** The call as MConn describes it. *)
Definition plain {S} (op : fcall S) : option (call S) :=
  match op with
  | FCOpen use8 si host env large c => Some (COpen use8 si host (plain_env env) large c)
  | FCClose use8 si oid => Some (CClose use8 si oid)
  | FCHandle rounds ending env => Some (CHandle rounds ending env)
  | FCData oid d => Some (CData oid d)
  | FCDestroy _ => None
  end.
