(** Specification of several connection managers in one program. *)
From Verif Require Import Base MBuffer MEip MSocket MConnReq MConn SConn MMany.

(** Manager [i] has connection [o] under key [k]. *)
Definition keeps {S} (q : many S) (i : nat) (k : Z) (o : nat) : Prop :=
  exists x, q_mgr q i = Some x /\ In (k, o) (cm_map x).
Definition keeper {S} (q : many S) (i o : nat) : Prop := exists k, keeps q i k o.

(** Programs that keep their managers apart: no manager is copied or assigned to,
    and a connection is closed through no manager but the one that has it. *)
Definition apart_call {S} (q : many S) (c : qcall S) : Prop :=
  match c with
  | QCopy _ | QAssign _ _ => False
  | QClose i _ _ o => forall j, keeper q j o -> j = i
  | _ => True
  end.
Fixpoint apart {S} (h : heap) (cs : list (qcall S)) (q : many S) : Prop :=
  match cs with
  | [] => True
  | c :: r => apart_call q c /\ apart h r (snd (qstep h c q))
  end.
(** A call of MConn made on manager [i] of many. *)
Definition on_mgr {S} (i : nat) (op : call S) : qcall S :=
  match op with
  | COpen use8 si host env large c => QOpen i use8 si host env large c
  | CClose use8 si o => QClose i use8 si o
  | CHandle rounds ending env => QHandle i rounds ending env
  | CData o d => QData o d
  end.
(** Its connection pointer, if any, is of manager [i]. *)
Definition own_call {S} (q : many S) (i : nat) (op : call S) : Prop :=
  match op with
  | CClose _ _ o | CData o _ => forall j, keeper q j o -> j = i
  | _ => True
  end.

(** Data that has been announced; how often a connection was announced as closed. *)
Definition told_data {S} (q : many S) (o : nat) : Prop :=
  exists i hd sq d, In (EvData o hd sq d) (q_log q i).
Definition closed_times {S} (q : many S) (i o : nat) : nat :=
  List.length (filter (fun e => match e with EvClosed o' => Nat.eqb o' o | _ => false end) (q_log q i)).
(** Manager [i] receives through a socket made by manager [j]. *)
Definition hears {S} (q : many S) (i j : nat) : Prop :=
  exists x e n, q_mgr q i = Some x /\ In (e, n) (cm_socks x) /\ nth_error (q_made q) n = Some j.
Definition is_data (e : event) : bool := match e with EvData _ _ _ _ => true | _ => false end.
(** sendto() takes datagrams as a whole or fails (as [whole] of C41). *)
Definition sends_all (env : tick_env) : Prop :=
  forall o n, s_count (t_send env o n) = n \/ s_count (t_send env o n) = -1 /\ n < 2 ^ 63.
