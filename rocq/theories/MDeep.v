(** Listeners that also call handleConnections: src/ConnectionManager.cpp:207-227,
    239-256 and src/IOConnection.cpp:68-142 again, with listeners that may do
    what those of MReent.v do, and call handleConnections of the same manager.
    Listeners that replace listeners: MSlot; both: MInner. *)
From Verif Require Import Base MBuffer MEip MSocket MConnReq MConn MReent.
Local Open Scope outcome_scope.

Inductive ncall (S : Type) :=
| NPlain (c : lcall S)
| NHandle (rounds : list (sel_round dgram)) (ending : sel_end) (env : tick_env).
Arguments NPlain {S} _.
Arguments NHandle {S} _ _ _.
(** The listeners of all connections (src/IOConnection.h:27-29, 105-107). *)
Record dlisteners (S : Type) := mkDl {
  dl_data : view S -> nat -> Z -> Z -> bytes -> list (ncall S);
  dl_close : view S -> nat -> list (ncall S);
  dl_send : view S -> nat -> bytes -> list (ncall S) }.
Arguments mkDl {S} _ _ _.
Arguments dl_data {S} _.
Arguments dl_close {S} _.
Arguments dl_send {S} _.

Section Deep.
Context {S : Type} (h : heap) (L : dlisteners S).
(** A call of handleConnections by a listener. *)
Context (inner : list (sel_round dgram) -> sel_end -> tick_env -> st (view S) unit).

Fixpoint dreact (calls : list (ncall S)) : st (view S) unit :=
  match calls with
  | [] => st_ret tt
  | NPlain c :: r => st_bind (do_call h c) (fun _ => dreact r)
  | NHandle rounds ending env :: r => st_bind (inner rounds ending env) (fun _ => dreact r)
  end.
(** src/ConnectionManager.cpp:239-256 and src/IOConnection.cpp:87-91; see
    MReent.hear. If an inner call removes the connection whose receive listener
    is running, the listener's callable object is destroyed while it runs; that it
    does not use its captures afterwards is assumed here; MInner.v models it. *)
Definition dhear (d : dgram) : st (view S) unit :=
  fun '(g, m, s) =>
    let '(o, m') := on_readable h d m in
    let w := (g, m', s) in
    match o, skipn (List.length (m_log m)) (m_log m') with
    | Ok _, [EvData oid hdr seq data] => dreact (dl_data L w oid hdr seq data) w
    | _, _ => (o, w)
    end.
(** src/ConnectionManager.cpp:218-222 with src/IOConnection.cpp:94-142 for one
    entry; see MReent.tick_entry. What is sent starts with the counters as they
    were before the send listener was called (IOConnection.cpp:109-127) and ends with
    the output data after it (134). *)
Definition dtick_entry (env : tick_env) (k : Z) (c : iocon) : st (view S) bool :=
  fun '(g, m, s) =>
    let oid := io_oid c in
    match tick_begin (t_now env oid) c with
    | (PhWait, c1) => (Ok true, (g, set_map m (map_update k c1 (m_map m)), s))
    | (PhClose, c1) =>
      let w := (g, add_log (set_map m (map_update k c1 (m_map m))) [EvClosed oid], s) in
      st_bind (dreact (dl_close L w oid)) (fun _ '(g, m, s) =>
        (match still k oid m with Some _ => Ok false | None => Undef UbDangling end, (g, m, s))) w
    | (PhSend, c1) =>
      let w := (g, set_map m (map_update k c1 (m_map m)), s) in
      st_bind (dreact (dl_send L w oid (io_out c1))) (fun _ '(g, m, s) =>
        match still k oid m with
        | Some c2 =>
          let '(o, ev) := tick_send (t_send env oid) (io_set_output c1 (io_out c2)) in (o, (g, add_log m ev, s))
        | None => (Undef UbDangling, (g, m, s))
        end) w
    end.
(** src/ConnectionManager.cpp:218-226; see MReent.tick_loop *)
Fixpoint dtick_loop (env : tick_env) (n : nat) (k : Z) : st (view S) (list Z) :=
  match n with
  | O => st_ret []
  | Datatypes.S n' => fun w =>
    match find (fun e => k <=? fst e) (m_map (snd (fst w))) with
    | None => (Ok [], w)
    | Some (k', c) =>
      st_bind (dtick_entry env k' c) (fun alive : bool =>
      st_bind (dtick_loop env n' (k' + 1)) (fun ks =>
      st_ret (if alive then ks else k' :: ks))) w
    end
  end.
Definition dticks (env : tick_env) : st (view S) unit :=
  st_bind (dtick_loop env (Z.to_nat 65536) 0) (fun ks '(g, m, s) =>
    (Ok tt, (g, set_map m (fold_left (fun l k => map_erase k l) ks (m_map m)), s))).
(** src/ConnectionManager.cpp:207-227 *)
Definition dhandle (rounds : list (sel_round dgram)) (ending : sel_end) (env : tick_env) : st (view S) unit :=
  fun w => st_bind (bs_select (fun _ => dhear) (List.length (m_socks (snd (fst w)))) rounds ending) (fun _ => dticks env) w.
End Deep.

(** handleConnections with room for [n] calls on the stack; a call that needs
    more ends the process. *)
Fixpoint deep {S} (h : heap) (L : dlisteners S) (n : nat) (rounds : list (sel_round dgram)) (ending : sel_end) (env : tick_env)
  : st (view S) unit :=
  match n with
  | O => fun w => (Abort, w)
  | Datatypes.S n' => dhandle h L (deep h L n') rounds ending env
  end.
