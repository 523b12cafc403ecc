(** Specification of connections that the application keeps. *)
From Verif Require Import Base MBuffer MEip MSocket MConnReq MConn SConn SLife MKeep.

(** The manager of a state has the connection; its object exists. *)
Definition is_open {S} (oid : nat) (x : kstate S) : Prop := lock oid (snd (fst (fst x))) <> None.
Definition exists_still {S} (oid : nat) (x : kstate S) : Prop := lock_kept oid (snd (fst (fst x))) (snd x) <> None.
(** The connection has been opened some time. *)
Definition was_opened {S} (oid : nat) (x : kstate S) : Prop := (oid < g_oid (fst (fst (fst x))))%nat.

(** The program has got a pointer and has not given it up since. *)
Definition keeps_it {S} (h : heap) (oid : nat) (cs : list (kcall S)) (x : kstate S) : Prop :=
  exists before after, cs = before ++ KKeep oid :: after /\ ~ In (KDrop oid) after /\ exists_still oid (snd (krun h before x)).

(** No connection is closed that is not open but kept. *)
Fixpoint considerate {S} (h : heap) (cs : list (kcall S)) (x : kstate S) : Prop :=
  match cs with
  | [] => True
  | c :: r =>
    match c with KCall (CClose _ _ oid) => exists_still oid x -> is_open oid x | _ => True end
    /\ considerate h r (snd (kstep h c x))
  end.

(** The program without the pointers: its calls, what they return, how they run. *)
Definition calls_of {S} (cs : list (kcall S)) : list (call S) :=
  flat_map (fun c => match c with KCall op => [op] | _ => [] end) cs.
Fixpoint results_of {S} (cs : list (kcall S)) (os : list (outcome (option nat))) : list (outcome (option nat)) :=
  match cs, os with
  | KCall _ :: cs, o :: os => o :: results_of cs os
  | _ :: cs, _ :: os => results_of cs os
  | _, _ => []
  end.
Fixpoint plain_run {S} (h : heap) (ops : list (call S)) (w : globals * mgr * S) : list (outcome (option nat)) * (globals * mgr * S) :=
  match ops with
  | [] => ([], w)
  | op :: r => let '(o, w) := call_mgr h op w in let '(os, w) := plain_run h r w in (o :: os, w)
  end.

(** The same connection: what was agreed on when it was opened. *)
Definition same_con (c c' : iocon) : Prop :=
  io_oid c' = io_oid c /\ io_o2tId c' = io_o2tId c /\ io_t2oId c' = io_t2oId c /\ io_serial c' = io_serial c
  /\ io_vendor c' = io_vendor c /\ io_orig c' = io_orig c /\ io_path c' = io_path c /\ io_dest c' = io_dest c.

(** After any program. *)
Definition kreachable (S : Type) (x : kstate S) : Prop :=
  exists h cs g inc s, x = snd (krun (S := S) h cs (kstart g inc s)).
