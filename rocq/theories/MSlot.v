(** Listeners as objects: the std::function members of IOConnection
    (src/IOConnection.h:105-107) can be replaced by listeners, also by the one that
    runs, and are destroyed with their connection. MReent.v models the same
    functions for listeners that stay as they are. *)
From Verif Require Import Base MBuffer MEip MSocket MConnReq MConn MReent.
Local Open Scope outcome_scope.

(** src/IOConnection.cpp:44-46 and 56-66: a member holds what the constructor
    puts in, nothing (an empty std::function), or a callable of the program. *)
Inductive lkind := ForData | ForSend | ForClose.
Definition lkind_eqb (a b : lkind) : bool :=
  match a, b with ForData, ForData | ForSend, ForSend | ForClose, ForClose => true | _, _ => false end.
Inductive slot := Initial | Empty | Holds (f : nat).
Definition slots : Type := nat -> lkind -> slot.
Definition set_slot (s : slots) (oid : nat) (k : lkind) (x : slot) : slots :=
  fun p j => if Nat.eqb p oid && lkind_eqb j k then x else s p j.

(** What a callable does: calls of the library, replacing a listener of a
    connection that still exists, and using its own captures. *)
Inductive act (S : Type) :=
| ACall (c : lcall S)
| ASet (oid : nat) (k : lkind) (x : slot)
| AUse.
Arguments ACall {S} _.
Arguments ASet {S} _ _ _.
Arguments AUse {S}.
(** The arguments of a listener. *)
Inductive larg := GotData (hdr seq : Z) (d : bytes) | ToSend (d : bytes) | Closing.
(** What has happened: a listener was set, a callable was called. *)
Inductive happening := HSet (oid : nat) (k : lkind) (x : slot) | HCall (oid : nat) (k : lkind) (f : nat) (a : larg).

Section Slots.
Context {S : Type}.
(** The program's callables; they may look at everything. *)
Context (h : heap) (bodies : view S -> nat -> nat -> larg -> list (act S)).
Definition svw : Type := view S * (slots * list happening).

(** One action of the callable in slot [k] of connection [oid]; [gone]: it has
    been destroyed (by an assignment to its slot or with its connection). *)
Definition do_act (oid : nat) (k : lkind) (gone : bool) (a : act S) : st svw bool :=
  fun '(w, (s, l)) =>
    match a with
    | ACall c =>
      let '(o, w') := do_call h c w in
      (omap (fun _ => gone || match lock oid (snd (fst w')) with Some _ => false | None => true end) o, (w', (s, l)))
    | ASet p j x =>
      match lock p (snd (fst w)) with
      | Some _ => (Ok (gone || (Nat.eqb p oid && lkind_eqb j k)), (w, (set_slot s p j x, l ++ [HSet p j x])))
      | None => (Ok gone, (w, (s, l)))
      end
    | AUse => (if gone then Undef UbDangling else Ok gone, (w, (s, l)))
    end.
Fixpoint perform (oid : nat) (k : lkind) (gone : bool) (acts : list (act S)) : st svw unit :=
  match acts with
  | [] => st_ret tt
  | a :: r => st_bind (do_act oid k gone a) (fun gone => perform oid k gone r)
  end.
(** The call of a member: src/IOConnection.cpp:89, 103 and 128. Calling an empty
    std::function throws std::bad_function_call. *)
Definition fire (oid : nat) (k : lkind) (a : larg) : st svw unit :=
  fun '(w, (s, l)) =>
    match s oid k with
    | Initial => (Ok tt, (w, (s, l)))
    | Empty => (Throw BadCall, (w, (s, l)))
    | Holds f => perform oid k false (bodies w f oid a) (w, (s, l ++ [HCall oid k f a]))
    end.

(** src/ConnectionManager.cpp:239-256 and src/IOConnection.cpp:68-92 *)
Definition shear (d : dgram) : st svw unit :=
  fun '(g, m, s, x) =>
    let '(o, m') := on_readable h d m in
    match o, skipn (List.length (m_log m)) (m_log m') with
    | Ok _, [EvData oid hdr seq data] => fire oid ForData (GotData hdr seq data) (g, m', s, x)
    | _, _ => (o, (g, m', s, x))
    end.
(** src/ConnectionManager.cpp:218-222 with src/IOConnection.cpp:94-142 for one
    entry; see MReent.tick_entry. *)
Definition stick_entry (env : tick_env) (k : Z) (c : iocon) : st svw bool :=
  fun '(g, m, s, x) =>
    let oid := io_oid c in
    match tick_begin (t_now env oid) c with
    | (PhWait, c1) => (Ok true, (g, set_map m (map_update k c1 (m_map m)), s, x))
    | (PhClose, c1) =>
      st_bind (fire oid ForClose Closing) (fun _ '(g, m, s, x) =>
        (match still k oid m with Some _ => Ok false | None => Undef UbDangling end, (g, m, s, x)))
        (g, add_log (set_map m (map_update k c1 (m_map m))) [EvClosed oid], s, x)
    | (PhSend, c1) =>
      st_bind (fire oid ForSend (ToSend (io_out c1))) (fun _ '(g, m, s, x) =>
        match still k oid m with
        | Some c2 => let '(o, ev) := tick_send (t_send env oid) c2 in (o, (g, add_log m ev, s, x))
        | None => (Undef UbDangling, (g, m, s, x))
        end)
        (g, set_map m (map_update k c1 (m_map m)), s, x)
    end.
(** src/ConnectionManager.cpp:218-226; see MReent.tick_loop *)
Fixpoint stick_loop (env : tick_env) (n : nat) (k : Z) : st svw (list Z) :=
  match n with
  | O => st_ret []
  | Datatypes.S n' => fun w =>
    match find (fun e => k <=? fst e) (m_map (snd (fst (fst w)))) with
    | None => (Ok [], w)
    | Some (k', c) =>
      st_bind (stick_entry env k' c) (fun alive : bool =>
      st_bind (stick_loop env n' (k' + 1)) (fun ks =>
      st_ret (if alive then ks else k' :: ks))) w
    end
  end.
Definition slot_ticks (env : tick_env) : st svw unit :=
  st_bind (stick_loop env (Z.to_nat 65536) 0) (fun ks '(g, m, s, x) =>
    (Ok tt, (g, set_map m (fold_left (fun l k => map_erase k l) ks (m_map m)), s, x))).
(** src/ConnectionManager.cpp:207-227 *)
Definition slot_connections (rounds : list (sel_round dgram)) (ending : sel_end) (env : tick_env) : st svw unit :=
  fun w => st_bind (bs_select (fun _ => shear) (List.length (m_socks (snd (fst (fst w))))) rounds ending)
                   (fun _ => slot_ticks env) w.
End Slots.
