(** Specification of who gets the datagrams. *)
From Verif Require Import Base MBuffer SBuffer MEip MSocket MConnReq MConn SConn MPort.

(** Multicast addresses: 224.0.0.0/4. *)
Definition in_group (a : Z) : Prop := 3758096384 <= a < 4026531840.
(** A packet comes to port 2222 of the host: it is addressed to it, or to a group
    that the host is a member of. *)
Definition reaches (me : Z) (p : packet) (joined : bool) : Prop :=
  k_port p = 2222 /\ (k_to p = me \/ in_group (k_to p) /\ joined = true).
(** What these packets carry, in their order. *)
Inductive sent {S} (me : Z) : list (nstep S) -> list bytes -> Prop :=
| SentNil : sent me [] []
| SentCall i op xs l : sent me xs l -> sent me (NCall i op :: xs) l
| SentIn p joined pick xs l : reaches me p joined -> sent me xs l -> sent me (NArrive p joined pick :: xs) (k_data p :: l)
| SentOut p joined pick xs l : ~ reaches me p joined -> sent me xs l -> sent me (NArrive p joined pick :: xs) l.

(** Managers after some calls. *)
Definition started {S} (w : world S) : Prop := exists h ops w0, new_world w0 /\ w = run_calls h ops w0.
Definition has_socket {S} (w : world S) (i : nat) : Prop := m_socks (w_m w i) <> [].
(** Only this manager opens connections. *)
Definition opens_only {S} (i : nat) (xs : list (nstep S)) : Prop :=
  forall j op, In (NCall j op) xs -> match op with COpen _ _ _ _ _ _ => j = i | _ => True end.
(** No program is a member of a group. *)
Definition no_member {S} (xs : list (nstep S)) : Prop := forall p joined pick, In (NArrive p joined pick) xs -> joined = false.

(** What a manager has read. *)
Definition read_by (i : nat) (e : list (nat * bytes)) : list bytes := map snd (filter (fun x => Nat.eqb (fst x) i) e).

(** The calls of a run, when no datagram is there to read. *)
Fixpoint unheard {S} (xs : list (nstep S)) : list (nat * call S) :=
  match xs with
  | [] => []
  | NCall i (CHandle _ ending env) :: r => (i, CHandle [] ending env) :: unheard r
  | NCall i op :: r => (i, op) :: unheard r
  | NArrive _ _ _ :: r => unheard r
  end.

(** Runs that differ in who sends the packets. *)
Inductive but_sender {S} : nstep S -> nstep S -> Prop :=
| ButCall i op : but_sender (NCall i op) (NCall i op)
| ButFrom p from joined pick : but_sender (NArrive p joined pick) (NArrive (mkPacket from (k_to p) (k_port p) (k_data p)) joined pick).

(** A manager reads the datagrams one after the other, up to the first one whose
    handler does not return. *)
Inductive reads (h : heap) : mgr -> list bytes -> list bytes -> outcome unit -> mgr -> Prop :=
| ReadsAll m : reads h m [] [] (Ok tt) m
| ReadsNext m d m1 l r o m2 : on_readable h (Dgram d) m = (Ok tt, m1) -> reads h m1 l r o m2 -> reads h m (d :: l) (d :: r) o m2
| ReadsStop m d l o m1 : on_readable h (Dgram d) m = (o, m1) -> o <> Ok tt -> reads h m (d :: l) [d] o m1.
