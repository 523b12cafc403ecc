(** Connections that the application keeps. forwardOpen returns a weak_ptr
    (src/ConnectionManager.cpp:53-54, 167; src/IOConnection.h:31-32); what lock()
    gives is a shared_ptr, and a connection object lives as long as the manager
    (src/ConnectionManager.h:78) or the application has one. Everywhere else
    in this model only the managers have them. *)
From Verif Require Import Base MBuffer MEip MSocket MConnReq MConn.
Local Open Scope outcome_scope.

(** The names of the connections the application has a shared_ptr to (one or
    more, all given up together), and those objects among them that the manager does
    not have any more. Counters of such objects are not used any more
    (notifyTick and notifyReceiveData are private, src/IOConnection.h:67-70). *)
Record keeping := mkKeeping { kp_held : list nat; kp_gone : list iocon }.
Definition kstate (S : Type) : Type := globals * mgr * S * keeping.

(** weak_ptr::lock *)
Definition lock_kept (oid : nat) (m : mgr) (k : keeping) : option iocon :=
  match lock oid m with
  | Some c => Some c
  | None => find (fun c => Nat.eqb (io_oid c) oid) (kp_gone k)
  end.
Definition is_held (oid : nat) (k : keeping) : bool := existsb (Nat.eqb oid) (kp_held k).
(** The kept connections that a call has taken out of the map. *)
Definition taken (m m' : mgr) (k : keeping) : list iocon :=
  filter (fun c => is_held (io_oid c) k && match lock (io_oid c) m' with Some _ => false | None => true end) (map snd (m_map m)).

(** What a program does: calls (see MConn.call_mgr), [p = io.lock()] where [p] stays,
    and the end of that pointer. *)
Inductive kcall (S : Type) :=
| KCall (op : call S)
| KKeep (oid : nat)
| KDrop (oid : nat).
Arguments KCall {S} _.
Arguments KKeep {S} _.
Arguments KDrop {S} _.

(** src/ConnectionManager.cpp:175-205 with the pointer as it is locked there,
    src/IOConnection.cpp:52-54 through a pointer from lock(), and the calls that
    take no connection. *)
Definition call_kept {S} (h : heap) (op : call S) (k : keeping) : st (globals * mgr * S) (option nat) :=
  fun w =>
    match op with
    | CClose use8 si oid =>
      let '(g, m, s) := w in
      let '(o, (m, s)) := forward_close h use8 si (lock_kept oid m k) (m, s) in (omap (fun _ => None) o, (g, m, s))
    | _ => call_mgr h op w
    end.
Definition new_output (oid : nat) (d : bytes) (l : list iocon) : list iocon :=
  map (fun c => if Nat.eqb (io_oid c) oid then io_set_output c d else c) l.
Definition kstep {S} (h : heap) (c : kcall S) : st (kstate S) (option nat) :=
  fun '(g, m, s, k) =>
    match c with
    | KCall op =>
      let '(o, (g', m', s')) := call_kept h op k (g, m, s) in
      let gone := match op with CData oid d => new_output oid d (kp_gone k) | _ => kp_gone k end in
      (o, (g', m', s', mkKeeping (kp_held k) (gone ++ taken m m' k)))
    | KKeep oid =>
      match lock_kept oid m k with
      | Some _ => (Ok (Some oid), (g, m, s, mkKeeping (oid :: kp_held k) (kp_gone k)))
      | None => (Ok None, (g, m, s, k))
      end
    | KDrop oid =>
      (Ok None, (g, m, s, mkKeeping (filter (fun o => negb (Nat.eqb o oid)) (kp_held k))
                            (filter (fun c => negb (Nat.eqb (io_oid c) oid)) (kp_gone k))))
    end.
(** The results of all calls, and the state at the end. *)
Fixpoint krun {S} (h : heap) (cs : list (kcall S)) (x : kstate S) : list (outcome (option nat)) * kstate S :=
  match cs with
  | [] => ([], x)
  | c :: r => let '(o, x) := kstep h c x in let '(os, x) := krun h r x in (o :: os, x)
  end.
(** A new manager; nothing is kept. *)
Definition kstart {S} (g : globals) (inc : Z) (s : S) : kstate S := (g, mgr0 inc, s, mkKeeping [] []).
