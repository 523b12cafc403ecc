(** Specification for C102: listeners that are replaced. *)
From Verif Require Import Base MBuffer MEip MSocket MConnReq MConn SConn MReent SReent MSlot.

(** What a slot holds after some happenings: what was assigned to it last. *)
Definition assigned (s0 : slots) (oid : nat) (k : lkind) (l : list happening) : slot :=
  match find (fun e => match e with HSet p j _ => Nat.eqb p oid && lkind_eqb j k | _ => false end) (rev l) with
  | Some (HSet _ _ x) => x
  | _ => s0 oid k
  end.
(** Every call is one of the callable assigned last. *)
Definition latest (s0 : slots) (l : list happening) : Prop :=
  forall before oid k f a after, l = before ++ HCall oid k f a :: after -> assigned s0 oid k before = Holds f.

(** A callable that is called for slot [k] of connection [oid] and destroys
    itself: it assigns to its own slot or closes its connection. *)
Definition destroys {S} (oid : nat) (k : lkind) (a : act S) : Prop :=
  (exists x, a = ASet oid k x) \/ (exists use8 si, a = ACall (LClose use8 si oid)).
Definition kind_of (a : larg) : lkind := match a with GotData _ _ _ => ForData | ToSend _ => ForSend | Closing => ForClose end.
(** No callable uses its captures after it has destroyed itself. *)
Definition careful {S} (bodies : view S -> nat -> nat -> larg -> list (act S)) : Prop :=
  forall w f oid a before after d, bodies w f oid a = before ++ AUse :: after -> In d before -> ~ destroys oid (kind_of a) d.
(** No close or send listener closes the connection it is called for (as in C77). *)
Definition courteous {S} (bodies : view S -> nat -> nat -> larg -> list (act S)) : Prop :=
  forall w f oid a use8 si, kind_of a <> ForData -> ~ In (ACall (LClose use8 si oid)) (bodies w f oid a).

(** Callables that replace nothing and use no captures, and the listeners they
    are in the sense of C77. *)
Definition steadfast {S} (bodies : view S -> nat -> nat -> larg -> list (act S)) : Prop :=
  forall w f oid a d, In d (bodies w f oid a) -> exists c, d = ACall c.
Definition calls_of {S} (l : list (act S)) : list (lcall S) :=
  flat_map (fun a => match a with ACall c => [c] | _ => [] end) l.
Definition holding {S} (bodies : view S -> nat -> nat -> larg -> list (act S)) (s : slots) : listeners S :=
  let run w oid k a := match s oid k with Holds f => calls_of (bodies w f oid a) | _ => [] end in
  mkListeners (fun w oid hdr seq d => run w oid ForData (GotData hdr seq d))
              (fun w oid => run w oid ForClose Closing)
              (fun w oid d => run w oid ForSend (ToSend d)).

(** The calls of listeners that events of the manager announce (data and close),
    and those that were made. *)
Definition announced_calls (ev : list event) : list (nat * larg) :=
  flat_map (fun e => match e with
                     | EvData oid hdr seq d => [(oid, GotData hdr seq d)]
                     | EvClosed oid => [(oid, Closing)]
                     | EvSent _ _ _ => []
                     end) ev.
Definition made_calls (l : list happening) : list (nat * larg) :=
  flat_map (fun e => match e with
                     | HCall oid ForSend _ _ => []
                     | HCall oid _ _ a => [(oid, a)]
                     | HSet _ _ _ => []
                     end) l.
Definition calls_for (oid : nat) (l : list (nat * larg)) : list (nat * larg) := filter (fun e => Nat.eqb (fst e) oid) l.
(** No callable empties a listener of connection [oid]. *)
Definition fills {S} (bodies : view S -> nat -> nat -> larg -> list (act S)) (oid : nat) : Prop :=
  forall w f p a k x, In (ASet oid k x) (bodies w f p a) -> exists f', x = Holds f'.
(** No callable empties a listener. *)
Definition never_empties {S} (bodies : view S -> nat -> nat -> larg -> list (act S)) : Prop :=
  forall w f p a oid k, ~ In (ASet oid k Empty) (bodies w f p a).
(** A call made by a callable ends with [o]. *)
Definition call_ends {S} (h : heap) (bodies : view S -> nat -> nat -> larg -> list (act S)) (o : outcome (option nat)) : Prop :=
  exists v0 f oid a c v v', In (ACall c) (bodies v0 f oid a) /\ do_call h c v = (o, v').

(** Programs whose listeners may be replaced: any calls of any managers, and
    calls of handleConnections with any callables in any slots, however they end. *)
Inductive sop (S : Type) :=
| SPlain (c : call S)
| SSlots (bodies : view S -> nat -> nat -> larg -> list (act S)) (s : slots) (rounds : list (sel_round dgram)) (ending : sel_end) (env : tick_env).
Arguments SPlain {S} _.
Arguments SSlots {S} _ _ _ _ _.
Definition sop_view {S} (h : heap) (op : sop S) (w : view S) : view S :=
  match op with
  | SPlain c => snd (call_mgr h c w)
  | SSlots bodies s rounds ending env => fst (snd (slot_connections h bodies rounds ending env (w, (s, []))))
  end.
Fixpoint run_sops {S} (h : heap) (ops : list (nat * sop S)) (w : world S) : world S :=
  match ops with
  | [] => w
  | (i, op) :: r =>
    let '(g, m, s) := sop_view h op (w_g w, w_m w i, w_s w) in run_sops h r (mkWorld g (update (w_m w) i m) s)
  end.
(** The counters and a manager after any such program. *)
Definition slotted (S : Type) (g : globals) (m : mgr) : Prop :=
  exists h ops (w : world S) i, new_world w /\ g = w_g (run_sops h ops w) /\ m = w_m (run_sops h ops w) i.
