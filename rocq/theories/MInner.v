(** Listeners that call handleConnections and replace listeners:
    src/ConnectionManager.cpp:207-227, 239-256 and src/IOConnection.cpp:56-142
    again, with callables that may do what those of MSlot.v do and call
    handleConnections of the same manager, as the listeners of MDeep.v. *)
From Verif Require Import Base MBuffer MEip MSocket MConnReq MConn MReent MSlot.
Local Open Scope outcome_scope.

Inductive xact (S : Type) :=
| XAct (a : act S)
| XHandle (rounds : list (sel_round dgram)) (ending : sel_end) (env : tick_env).
Arguments XAct {S} _.
Arguments XHandle {S} _ _ _.
(** A listener of connection [oid] was set. *)
Definition reassigned (oid : nat) (k : lkind) (l : list happening) : bool :=
  existsb (fun e => match e with HSet p j _ => Nat.eqb p oid && lkind_eqb j k | HCall _ _ _ _ => false end) l.

Section Nest.
Context {S : Type} (h : heap) (bodies : view S -> nat -> nat -> larg -> list (xact S)).
(** A call of handleConnections by a listener. *)
Context (inner : list (sel_round dgram) -> sel_end -> tick_env -> st (svw (S := S)) unit).

(** One action of the callable in slot [k] of connection [oid]. During an inner
    call its slot may be assigned to (src/IOConnection.cpp:56-66) and its
    connection may be erased (src/ConnectionManager.cpp:224-226); both destroy it. *)
Definition do_xact (oid : nat) (k : lkind) (gone : bool) (a : xact S) : st svw bool :=
  match a with
  | XAct a => do_act h oid k gone a
  | XHandle rounds ending env => fun w =>
    let '(o, w') := inner rounds ending env w in
    (omap (fun _ => gone || reassigned oid k (skipn (List.length (snd (snd w))) (snd (snd w')))
                    || match lock oid (snd (fst (fst w'))) with Some _ => false | None => true end) o, w')
  end.
Fixpoint xperform (oid : nat) (k : lkind) (gone : bool) (acts : list (xact S)) : st svw unit :=
  match acts with
  | [] => st_ret tt
  | a :: r => st_bind (do_xact oid k gone a) (fun gone => xperform oid k gone r)
  end.
(** The call of a member: src/IOConnection.cpp:89, 103 and 128; see MSlot.fire *)
Definition xfire (oid : nat) (k : lkind) (a : larg) : st svw unit :=
  fun '(w, (s, l)) =>
    match s oid k with
    | Initial => (Ok tt, (w, (s, l)))
    | Empty => (Throw BadCall, (w, (s, l)))
    | Holds f => xperform oid k false (bodies w f oid a) (w, (s, l ++ [HCall oid k f a]))
    end.
(** src/ConnectionManager.cpp:239-256 and src/IOConnection.cpp:68-92 *)
Definition xhear (d : dgram) : st svw unit :=
  fun '(g, m, s, x) =>
    let '(o, m') := on_readable h d m in
    match o, skipn (List.length (m_log m)) (m_log m') with
    | Ok _, [EvData oid hdr seq data] => xfire oid ForData (GotData hdr seq data) (g, m', s, x)
    | _, _ => (o, (g, m', s, x))
    end.
(** src/ConnectionManager.cpp:218-222 with src/IOConnection.cpp:94-142 for one
    entry; see MDeep.dtick_entry: the counters are those from before the send
    listener (109-127), the output data is that from after it (134). *)
Definition xtick_entry (env : tick_env) (k : Z) (c : iocon) : st svw bool :=
  fun '(g, m, s, x) =>
    let oid := io_oid c in
    match tick_begin (t_now env oid) c with
    | (PhWait, c1) => (Ok true, (g, set_map m (map_update k c1 (m_map m)), s, x))
    | (PhClose, c1) =>
      st_bind (xfire oid ForClose Closing) (fun _ '(g, m, s, x) =>
        (match still k oid m with Some _ => Ok false | None => Undef UbDangling end, (g, m, s, x)))
        (g, add_log (set_map m (map_update k c1 (m_map m))) [EvClosed oid], s, x)
    | (PhSend, c1) =>
      st_bind (xfire oid ForSend (ToSend (io_out c1))) (fun _ '(g, m, s, x) =>
        match still k oid m with
        | Some c2 =>
          let '(o, ev) := tick_send (t_send env oid) (io_set_output c1 (io_out c2)) in (o, (g, add_log m ev, s, x))
        | None => (Undef UbDangling, (g, m, s, x))
        end)
        (g, set_map m (map_update k c1 (m_map m)), s, x)
    end.
(** src/ConnectionManager.cpp:218-226; see MReent.tick_loop *)
Fixpoint xtick_loop (env : tick_env) (n : nat) (k : Z) : st svw (list Z) :=
  match n with
  | O => st_ret []
  | Datatypes.S n' => fun w =>
    match find (fun e => k <=? fst e) (m_map (snd (fst (fst w)))) with
    | None => (Ok [], w)
    | Some (k', c) =>
      st_bind (xtick_entry env k' c) (fun alive : bool =>
      st_bind (xtick_loop env n' (k' + 1)) (fun ks =>
      st_ret (if alive then ks else k' :: ks))) w
    end
  end.
Definition xticks (env : tick_env) : st svw unit :=
  st_bind (xtick_loop env (Z.to_nat 65536) 0) (fun ks '(g, m, s, x) =>
    (Ok tt, (g, set_map m (fold_left (fun l k => map_erase k l) ks (m_map m)), s, x))).
(** src/ConnectionManager.cpp:207-227 *)
Definition xhandle (rounds : list (sel_round dgram)) (ending : sel_end) (env : tick_env) : st svw unit :=
  fun w => st_bind (bs_select (fun _ => xhear) (List.length (m_socks (snd (fst (fst w))))) rounds ending)
                   (fun _ => xticks env) w.
End Nest.

(** handleConnections with room for [n] calls on the stack; a call that needs
    more ends the process. *)
Fixpoint nest {S} (h : heap) (bodies : view S -> nat -> nat -> larg -> list (xact S)) (n : nat)
  (rounds : list (sel_round dgram)) (ending : sel_end) (env : tick_env) : st (svw (S := S)) unit :=
  match n with
  | O => fun w => (Abort, w)
  | Datatypes.S n' => xhandle h bodies (nest h bodies n') rounds ending env
  end.
