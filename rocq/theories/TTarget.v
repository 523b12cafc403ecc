(** Property theorems: the connections of a target and those of the managers. *)
From Verif Require Import Base MBuffer MSocket MConnReq MConn SConn SObj PObj PConnTop PLife STarget PTarget.

(** C79. After any sequence of calls of any managers with a target that answers as it likes within the protocol, each
    connection of a manager is one connection of the target (same name, ids and path), and no two share one. *)
Theorem C79_known h inc ops w : Forall (fun x => to_target (snd x)) ops -> w = run_calls h ops (target_start inc) ->
  forall i oid c, lock oid (w_m w i) = Some c ->
  exists t, In t (at_target w) /\ same_connection c t
    /\ (forall t', In t' (at_target w) -> tc_name t' = tc_name t -> t' = t)
    /\ forall i' oid' c', lock oid' (w_m w i') = Some c' -> same_connection c' t -> i' = i /\ oid' = oid.
Proof. exact (held_once h inc ops w). Qed.
Print Assumptions C79_known.
(** Closing a connection that a manager has removes it at both ends, and nothing else. *)
Theorem C79_closes h inc ops w : Forall (fun x => to_target (snd x)) ops -> w = run_calls h ops (target_start inc) ->
  forall use8 handle pol i oid c, is_u32 handle -> policy_wf pol -> lock oid (w_m w i) = Some c ->
  exists w' t, call_world h i (CClose use8 (served handle (target pol)) oid) w = (Ok None, w')
    /\ same_connection c t /\ In t (at_target w)
    /\ (forall x, In x (at_target w') <-> In x (at_target w) /\ x <> t)
    /\ (forall x, lock x (w_m w' i) = if Nat.eqb x oid then None else lock x (w_m w i)) /\ forall j, j <> i -> w_m w' j = w_m w j.
Proof. exact (close_both h inc ops w). Qed.
Print Assumptions C79_closes.
(** Full claim: after any such sequence, the target's connections are the managers'. Missing below: sequences in which
    an accepted open gave no connection, or receiving lost one ([clean_call]); for those the claim is false. *)
Theorem C79_equal_partial h inc ops w : Forall (fun x => to_target (snd x)) ops -> clean_run h ops (target_start inc) ->
  w = run_calls h ops (target_start inc) ->
  forall t, In t (at_target w) -> exists i oid c, lock oid (w_m w i) = Some c /\ same_connection c t.
Proof. exact (run_clean h inc ops w). Qed.
Print Assumptions C79_equal_partial.
(** An accepted connection whose id agrees modulo 65536 with another's is lost on arrival. *)
Theorem C79_alias_refuted : exists a b oid w2 t, to_target a /\ to_target b
  /\ call_world strict 0 b (run_calls strict [(0%nat, a)] (target_start inc0)) = (Ok (Some oid), w2)
  /\ at_target w2 = at_target (run_calls strict [(0%nat, a)] (target_start inc0)) ++ [t] /\ lock oid (w_m w2 0%nat) = None /\ orphan w2 t.
Proof. exact aliased_orphan. Qed.
Print Assumptions C79_alias_refuted.
(** A connection that times out at the manager is not closed at the target. *)
Theorem C79_timeout_refuted : exists a env w1 w2 t, to_target a
  /\ call_world strict 0 a (target_start inc0) = (Ok (Some 0%nat), w1) /\ lock 0 (w_m w1 0%nat) <> None /\ at_target w1 = [t]
  /\ call_world strict 0 (CHandle [] SelQuiet env) w1 = (Ok None, w2) /\ lock 0 (w_m w2 0%nat) = None /\ orphan w2 t.
Proof. exact silent_orphan. Qed.
Print Assumptions C79_timeout_refuted.
(** An exception thrown after the target has accepted (here: no descriptor for the socket) leaves its connection open. *)
Theorem C79_throw_refuted : exists a e w1 t, to_target a /\ call_world strict 0 a (target_start inc0) = (Throw (SystemError e), w1)
  /\ at_target w1 = [t] /\ orphan w1 t.
Proof. exact thrown_orphan. Qed.
Print Assumptions C79_throw_refuted.
(** These are the only ways. *)
Theorem C79_orphan_comes h inc ops i op t : Forall (fun x => to_target (snd x)) (ops ++ [(i, op)]) ->
  forall w o w', w = run_calls h ops (target_start inc) -> call_world h i op w = (o, w') -> ~ orphan w t -> orphan w' t ->
  (exists use8 si host env large c, op = COpen use8 si host env large c /\ at_target w' = at_target w ++ [t]
       /\ (forall oid, o = Ok (Some oid) -> lock oid (w_m w' i) = None))
  \/ (exists rounds ending env oid c, op = CHandle rounds ending env /\ at_target w' = at_target w
       /\ lock oid (w_m w i) = Some c /\ same_connection c t /\ lock oid (w_m w' i) = None).
Proof. exact (run_comes h inc ops i op t). Qed.
Print Assumptions C79_orphan_comes.
(** The three theorems above show both ways; a history without orphans is in [C79_equal_partial_example]. *)
(** And no later call of any manager removes such a connection. *)
Theorem C79_orphans_stay h inc before after t : Forall (fun x => to_target (snd x)) (before ++ after) ->
  orphan (run_calls h before (target_start inc)) t -> orphan (run_calls h (before ++ after) (target_start inc)) t.
Proof. exact (run_stay h inc before after t). Qed.
Print Assumptions C79_orphans_stay.

(** Two managers, three connections opened, one closed: two are left, at both ends. *)
Example C79_known_example :
  let w := run_calls strict ordinary (target_start inc0) in
  Forall (fun x => to_target (snd x)) ordinary
  /\ map tc_name (at_target w) = [(1, 342, 0x12345678); (3, 342, 0x12345678)] /\ map tc_t2o (at_target w) = [0x10001; 0x10002]
  /\ lock 0 (w_m w 0%nat) <> None /\ lock 1 (w_m w 1%nat) = None /\ lock 2 (w_m w 0%nat) <> None.
Proof. cbv zeta. split; [exact ordinary_to|]. vm_compute. repeat split; discriminate. Qed.
Example C79_closes_example :
  let w := run_calls strict ordinary (target_start inc0) in
  exists w', call_world strict 0 (CClose true (served 77 (target (gives 7))) 2) w = (Ok None, w')
  /\ map tc_name (at_target w') = [(1, 342, 0x12345678)] /\ lock 2 (w_m w' 0%nat) = None.
Proof. cbv zeta. eexists. split; [vm_compute; reflexivity|]. vm_compute. auto. Qed.
Example C79_equal_partial_example : Forall (fun x => to_target (snd x)) ordinary /\ clean_run strict ordinary (target_start inc0).
Proof. split; [exact ordinary_to|exact ordinary_clean]. Qed.
Example C79_orphans_stay_example : Forall (fun x => to_target (snd x)) (silent ++ ordinary)
  /\ orphan (run_calls strict silent (target_start inc0)) (wit 1 0x0A0B0C0D 0x10001)
  /\ map tc_name (at_target (run_calls strict (silent ++ ordinary) (target_start inc0)))
     = [(1, 342, 0x12345678); (2, 342, 0x12345678); (3, 342, 0x12345678); (4, 342, 0x12345678)].
Proof.
  split; [apply Forall_app; split; [exact silent_to|exact ordinary_to]|]. split; [|vm_compute; reflexivity]. orphan_now.
Qed.
