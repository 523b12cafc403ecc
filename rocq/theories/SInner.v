(** Specification for C110: listeners that call handleConnections and replace listeners. *)
From Verif Require Import Base MBuffer MEip MSocket MConnReq MConn SConn MReent SReent MDeep SDeep MSlot SSlot MInner.

(** Only receive listeners call handleConnections. *)
Definition xcalm {S} (bodies : view S -> nat -> nat -> larg -> list (xact S)) : Prop :=
  forall w f oid a rounds ending env, kind_of a <> ForData -> ~ In (XHandle rounds ending env) (bodies w f oid a).
(** No close or send listener closes the connection it is called for (as in C77). *)
Definition xcourteous {S} (bodies : view S -> nat -> nat -> larg -> list (xact S)) : Prop :=
  forall w f oid a use8 si, kind_of a <> ForData -> ~ In (XAct (ACall (LClose use8 si oid))) (bodies w f oid a).
(** No callable uses its captures after it has destroyed itself (as in C102). *)
Definition xcareful {S} (bodies : view S -> nat -> nat -> larg -> list (xact S)) : Prop :=
  forall w f oid a before after d, bodies w f oid a = before ++ XAct AUse :: after -> In (XAct d) before -> ~ destroys oid (kind_of a) d.
(** No callable uses its captures after it has called handleConnections. *)
Definition prudent {S} (bodies : view S -> nat -> nat -> larg -> list (xact S)) : Prop :=
  forall w f oid a before after rounds ending env, bodies w f oid a = before ++ XAct AUse :: after ->
  ~ In (XHandle rounds ending env) before.
(** A call made by a callable ends with [o]. *)
Definition xcall_ends {S} (h : heap) (bodies : view S -> nat -> nat -> larg -> list (xact S)) (o : outcome (option nat)) : Prop :=
  exists v0 f oid a c v v', In (XAct (ACall c)) (bodies v0 f oid a) /\ do_call h c v = (o, v').
(** No callable empties a listener (of connection [oid]). *)
Definition xfills {S} (bodies : view S -> nat -> nat -> larg -> list (xact S)) (oid : nat) : Prop :=
  forall w f p a k x, In (XAct (ASet oid k x)) (bodies w f p a) -> exists f', x = Holds f'.
Definition xnever_empties {S} (bodies : view S -> nat -> nat -> larg -> list (xact S)) : Prop :=
  forall w f p a oid k, ~ In (XAct (ASet oid k Empty)) (bodies w f p a).

(** Callables without inner calls: those of C102. Callables that replace
    nothing and use no captures: the listeners of C93 that they are. *)
Definition flat {S} (bodies : view S -> nat -> nat -> larg -> list (act S)) : view S -> nat -> nat -> larg -> list (xact S) :=
  fun w f oid a => map XAct (bodies w f oid a).
Definition lasting {S} (bodies : view S -> nat -> nat -> larg -> list (xact S)) : Prop :=
  forall w f oid a d, In (XAct d) (bodies w f oid a) -> exists c, d = ACall c.
Definition ncalls_of {S} (l : list (xact S)) : list (ncall S) :=
  flat_map (fun a => match a with
                     | XAct (ACall c) => [NPlain c]
                     | XAct _ => []
                     | XHandle rounds ending env => [NHandle rounds ending env]
                     end) l.
Definition xholding {S} (bodies : view S -> nat -> nat -> larg -> list (xact S)) (s : slots) : dlisteners S :=
  let run w oid k a := match s oid k with Holds f => ncalls_of (bodies w f oid a) | _ => [] end in
  mkDl (fun w oid hdr seq d => run w oid ForData (GotData hdr seq d))
       (fun w oid => run w oid ForClose Closing)
       (fun w oid d => run w oid ForSend (ToSend d)).

(** Programs with such listeners: any calls of any managers, and calls of
    handleConnections with any callables in any slots, however they end. *)
Inductive xop (S : Type) :=
| XPlain (c : call S)
| XNest (bodies : view S -> nat -> nat -> larg -> list (xact S)) (n : nat) (s : slots)
        (rounds : list (sel_round dgram)) (ending : sel_end) (env : tick_env).
Arguments XPlain {S} _.
Arguments XNest {S} _ _ _ _ _ _.
Definition xop_view {S} (h : heap) (op : xop S) (w : view S) : view S :=
  match op with
  | XPlain c => snd (call_mgr h c w)
  | XNest bodies n s rounds ending env => fst (snd (nest h bodies n rounds ending env (w, (s, []))))
  end.
Fixpoint run_xops {S} (h : heap) (ops : list (nat * xop S)) (w : world S) : world S :=
  match ops with
  | [] => w
  | (i, op) :: r =>
    let '(g, m, s) := xop_view h op (w_g w, w_m w i, w_s w) in run_xops h r (mkWorld g (update (w_m w) i m) s)
  end.
(** The counters and a manager after any such program. *)
Definition nested (S : Type) (g : globals) (m : mgr) : Prop :=
  exists h ops (w : world S) i, new_world w /\ g = w_g (run_xops h ops w) /\ m = w_m (run_xops h ops w) i.
