(** Model of connection managers that share connections. Connections are objects of
    their own (std::shared_ptr<IOConnection>, src/ConnectionManager.h:78); a weak_ptr
    can be given to any manager. ConnectionManager leaves copying to the compiler: a
    copy has the same pointers to connections and receiving sockets. The handler of a
    receiving socket has captured [this] of the manager that made it
    (src/ConnectionManager.cpp:239). What the calls do is in MConn. *)
From Verif Require Import Base MBuffer MEip MSocket MConnReq MConn.

(** src/ConnectionManager.h:77-82: [_connectionMap] and [_socketMap] with numbers
    for the objects they point to. *)
Record cm := mkCm { cm_inc : Z; cm_map : list (Z * nat); cm_socks : list (endpoint * nat) }.
(** All managers: the connection objects by their names, the managers, for each
    receiving socket the manager that has made it, and what happened by manager. *)
Record many (S : Type) := mkMany {
  q_g : globals; q_con : nat -> iocon; q_mgr : nat -> option cm; q_next : nat; q_made : list nat;
  q_log : nat -> list event; q_s : S }.
Arguments mkMany {S} _ _ _ _ _ _ _.
Arguments q_g {S} _. Arguments q_con {S} _ _. Arguments q_mgr {S} _ _. Arguments q_next {S} _.
Arguments q_made {S} _. Arguments q_log {S} _ _. Arguments q_s {S} _.
Definition io_none : iocon :=
  mkIo 0 0 0 0 0 0 0 false false 0 0 0 0 0 0 false false 0 [] 0 0 [] (mkEP EmptyString 0 (mkAddr 0 0 0)) 0.
Definition many0 {S} (s : S) : many S := mkMany globals0 (fun _ => io_none) (fun _ => None) 0 [] (fun _ => []) s.

(** Manager [i] as MConn has it, and back: its connections are written to their
    objects, its new sockets get numbers. *)
Definition seen {S} (q : many S) (i : nat) (x : cm) : mgr :=
  mkMgr (cm_inc x) (map (fun e => (fst e, q_con q (snd e))) (cm_map x)) (map fst (cm_socks x)) (q_log q i).
Definition stored (l : list (Z * iocon)) (f : nat -> iocon) : nat -> iocon :=
  fold_left (fun f e => update f (io_oid (snd e)) (snd e)) l f.
Definition put {S} (i : nat) (m : mgr) (q : many S) : many S :=
  match q_mgr q i with
  | None => q
  | Some x =>
    let new := skipn (List.length (cm_socks x)) (m_socks m) in
    mkMany (q_g q) (stored (m_map m) (q_con q))
      (update (q_mgr q) i (Some (mkCm (m_inc m) (map (fun e => (fst e, io_oid (snd e))) (m_map m))
         (cm_socks x ++ combine new (seq (List.length (q_made q)) (List.length new))))))
      (q_next q) (q_made q ++ repeat i (List.length new)) (update (q_log q) i (m_log m)) (q_s q)
  end.
Definition with_gs {S} (g : globals) (s : S) (q : many S) : many S :=
  mkMany g (q_con q) (q_mgr q) (q_next q) (q_made q) (q_log q) s.

(** weak_ptr::lock: whether some manager has the connection. *)
Definition has_con (o : nat) (x : cm) : bool := existsb (fun e => Nat.eqb (snd e) o) (cm_map x).
Definition owned_by {S} (q : many S) (o i : nat) : bool := match q_mgr q i with Some x => has_con o x | None => false end.
Definition lock_any {S} (o : nat) (q : many S) : option iocon :=
  if existsb (owned_by q o) (seq 0 (q_next q)) then Some (q_con q o) else None.

(** The handler of socket [k] of those in [socks] (src/ConnectionManager.cpp:239-256):
    it looks into the map of the manager that has made the socket, unless it throws
    before. *)
Definition readable_many {S} (h : heap) (socks : list (endpoint * nat)) (k : nat) (d : dgram) : st (many S) unit :=
  fun q =>
    match nth_error socks k with
    | None => (Ok tt, q)
    | Some (_, n) =>
      let j := nth n (q_made q) 0%nat in
      match q_mgr q j with
      | Some y => let '(o, m) := on_readable h d (seen q j y) in (o, put j m q)
      | None => (match fst (on_readable h d (mgr0 0)) with Ok _ => Undef UbDangling | o => o end, q)
      end
    end.
(** src/ConnectionManager.cpp:217-226 *)
Definition ticks_many {S} (env : tick_env) (i : nat) : st (many S) unit :=
  fun q =>
    match q_mgr q i with
    | None => (Ok tt, q)
    | Some x =>
      let m := seen q i x in
      let '(res, l, ev) := ticks env (m_map m) in
      let q := put i (add_log (set_map m l) ev) q in
      match res with
      | Ok ks =>
        (Ok tt, mkMany (q_g q) (q_con q)
          (update (q_mgr q) i (Some (mkCm (cm_inc x) (filter (fun e => negb (existsb (Z.eqb (fst e)) ks)) (cm_map x)) (cm_socks x))))
          (q_next q) (q_made q) (q_log q) (q_s q))
      | Throw e => (Throw e, q)
      | Undef u => (Undef u, q)
      | Abort => (Abort, q)
      end
    end.

(** What a program does with managers: construct (with the random number drawn),
    copy, assign (the members of [j] to [i]), destroy, and the calls. Calls on
    managers that do not exist are not made. Pointers to connections are kept by the
    managers only (see MKeep). *)
Inductive qcall (S : Type) :=
| QNew (inc : Z)
| QCopy (i : nat)
| QAssign (i j : nat)
| QDestroy (i : nat)
| QOpen (i : nat) (use8 : bool) (si : session_if S) (host : string) (env : fo_env) (large : bool) (c : cparams)
| QClose (i : nat) (use8 : bool) (si : session_if S) (o : nat)
| QHandle (i : nat) (rounds : list (sel_round dgram)) (ending : sel_end) (env : tick_env)
| QData (o : nat) (d : bytes).
Arguments QNew {S} _. Arguments QCopy {S} _. Arguments QAssign {S} _ _. Arguments QDestroy {S} _.
Arguments QOpen {S} _ _ _ _ _ _ _. Arguments QClose {S} _ _ _ _. Arguments QHandle {S} _ _ _ _. Arguments QData {S} _ _.

Definition set_mgr {S} (q : many S) (i : nat) (x : option cm) : many S :=
  mkMany (q_g q) (q_con q) (update (q_mgr q) i x) (q_next q) (q_made q) (q_log q) (q_s q).
Definition new_mgr {S} (q : many S) (x : cm) : many S :=
  mkMany (q_g q) (q_con q) (update (q_mgr q) (q_next q) (Some x)) (Datatypes.S (q_next q)) (q_made q) (q_log q) (q_s q).
Definition qstep {S} (h : heap) (c : qcall S) (q : many S) : outcome (option nat) * many S :=
  match c with
  | QNew inc => (Ok None, new_mgr q (mkCm inc [] []))
  | QCopy i => match q_mgr q i with Some x => (Ok None, new_mgr q x) | None => (Ok None, q) end
  | QAssign i j =>
    match q_mgr q i, q_mgr q j with Some _, Some x => (Ok None, set_mgr q i (Some x)) | _, _ => (Ok None, q) end
  | QDestroy i => (Ok None, set_mgr q i None)
  | QOpen i use8 si host env large c =>
    match q_mgr q i with
    | None => (Ok None, q)
    | Some x =>
      let '(o, (g, m, s)) := forward_open h use8 si host env large c (q_g q, seen q i x, q_s q) in
      (o, with_gs g s (put i m q))
    end
  | QClose i use8 si o =>
    match q_mgr q i with
    | None => (Ok None, q)
    | Some x =>
      let '(r, (m, s)) := forward_close h use8 si (lock_any o q) (seen q i x, q_s q) in
      (omap (fun _ => None) r, with_gs (q_g q) s (put i m q))
    end
  | QHandle i rounds ending env =>
    match q_mgr q i with
    | None => (Ok None, q)
    | Some x =>
      let '(r, q) := st_bind (bs_select (readable_many h (cm_socks x)) (List.length (cm_socks x)) rounds ending)
                             (fun _ => ticks_many env i) q in
      (omap (fun _ => None) r, q)
    end
  | QData o d =>
    match lock_any o q with
    | None => (Ok None, q)
    | Some c => (Ok None, mkMany (q_g q) (update (q_con q) o (io_set_output c d)) (q_mgr q) (q_next q) (q_made q) (q_log q) (q_s q))
    end
  end.
Definition qrun {S} (h : heap) (cs : list (qcall S)) (q : many S) : many S := fold_left (fun q c => snd (qstep h c q)) cs q.
