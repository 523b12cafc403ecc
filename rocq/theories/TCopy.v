(** C107: sessions that are copied. *)
From Verif Require Import Base MBuffer PBase MEip SEip MSocket MConn MFd MRes MCopy SRes SCopy PCopy PCopy2 PCopy3.

(** C107. The copies of a session are the same session: they differ in nothing. *)
Theorem C107_equal : forall h cs i j x y, let s := crun h cs cstart in
  cw_obj s i = Some x -> cw_obj s j = Some y -> ob_link x = ob_link y -> x = y.
Proof. exact copies_same. Qed.
Print Assumptions C107_equal.
(** As long as a copy is only destroyed after all others, every object uses its own
    connection and no other one. Full statement: for all programs. *)
Theorem C107_sound_partial : forall h cs, careful h cs -> let s := crun h cs cstart in
  forall i x, cw_obj s i = Some x -> sound h s x.
Proof. exact copies_sound. Qed.
Print Assumptions C107_sound_partial.
(** Then the last one unregisters the session and closes the descriptor; other
    connections and numbers are as before. *)
Theorem C107_last : forall h cs i x, careful h (cs ++ [KDestroy i]) -> let s := crun h cs cstart in
  cw_over s = false -> cw_obj s i = Some x -> let g := ob_link x in
  let '(o, w') := session_destroy (fst (cw_link s g)) (ob_handle x) (snd (cw_link s g)) in
  let s' := crun h (cs ++ [KDestroy i]) cstart in
  cw_link s' g = (fst (cw_link s g), w') /\ (forall g', g' <> g -> cw_link s' g' = cw_link s g') /\ cw_over s' = ends o
  /\ (forall e, o <> Throw e) /\ (o = Ok tt -> cw_tab s' (ob_fd x) = None) /\ (forall n, n <> ob_fd x -> cw_tab s' n = cw_tab s n).
Proof. exact last_closes. Qed.
Print Assumptions C107_last.
(** Programs that copy nothing do what MRes says (C87, C98). *)
Theorem C107_uncopied : forall h cs rs, Forall2 same_call cs rs -> proper h cs ->
  let r := rrun h rs rstart in let s := crun h cs cstart in
  rw_over r = cw_over s
  /\ forall i, match rw_live r i with
     | Some v => cw_obj s i = Some (mkObj (lv_handle v) (lv_fd v) i) /\ cw_link s i = (lv_peer v, lv_net v)
     | None => cw_obj s i = None
     end.
Proof. exact uncopied_same. Qed.
Print Assumptions C107_uncopied.
(** And numbers stand for something if and only if they are those of C87. *)
Theorem C107_held : forall h cs rs, Forall2 same_call cs rs -> proper h cs ->
  let r := rrun h rs rstart in let s := crun h cs cstart in
  cw_over s = false -> forall fd, cw_tab s fd <> None <-> (exists i, open_session r i fd) \/ exists c, In c rs /\ leaks c fd.
Proof. exact uncopied_held. Qed.
Print Assumptions C107_held.

(** Once a copy is destroyed, all others are unusable, as long as the number is not
    given to someone else: every exchange throws, the destructor sends nothing. *)
Theorem C107_stale : forall h before i after x j y q,
  let s := crun h before cstart in let s' := crun h (before ++ KDestroy i :: after) cstart in
  cw_obj s i = Some x -> cw_over s' = false -> unused (ob_fd x) after ->
  cw_obj s' j = Some y -> ob_link y = ob_link x -> zlen (encaps_pack q) < 2 ^ 31 ->
  copy_send h y q s' = (Throw (SystemError 9), s')
  /\ fst (copy_destroy j y s') = Ok tt /\ cw_link (snd (copy_destroy j y s')) = cw_link s'.
Proof. exact copy_stale. Qed.
Print Assumptions C107_stale.
(** When it is given to another session, they talk to its adapter, and unregister
    there and close its descriptor when they are destroyed. *)
Theorem C107_taken : forall h before i after x fd k p w handle w' ev j y q,
  let s := crun h before cstart in let cs := before ++ KDestroy i :: after in let s1 := crun h cs cstart in
  let s2 := crun h (cs ++ [KOpen fd k p w]) cstart in let n := cw_next s1 in
  cw_obj s i = Some x -> cw_over s1 = false -> unused (ob_fd x) after -> fd = ob_fd x ->
  session_open_fd h fd k p w = (Ok handle, w', ev) -> k_socket k = None ->
  cw_obj s1 j = Some y -> ob_link y = ob_link x ->
  cw_obj s2 j = Some y /\ cw_obj s2 n = Some (mkObj handle fd n) /\ cw_link s2 n = (p, w')
  /\ (let r := send_and_receive h p (ob_handle y) q w' in
      fst (copy_send h y q s2) = fst r /\ cw_link (snd (copy_send h y q s2)) n = (p, snd r))
  /\ (let r := session_destroy p (ob_handle y) w' in
      fst (copy_destroy j y s2) = fst r /\ cw_link (snd (copy_destroy j y s2)) n = (p, snd r)
      /\ (fst r = Ok tt -> cw_tab (snd (copy_destroy j y s2)) fd = None)).
Proof. exact copy_wrong. Qed.
Print Assumptions C107_taken.
(** An assignment forgets the session the object had: its descriptor stays open
    and nothing is sent on it any more, also not that it ends. *)
Theorem C107_assigned : forall h before i j after x y, let s := crun h before cstart in
  let cs := before ++ KAssign i j :: after in
  careful h cs -> cw_over s = false -> cw_obj s i = Some x -> cw_obj s j = Some y -> alone s i -> i <> j ->
  let s' := crun h cs cstart in
  cw_tab s' (ob_fd x) = Some (Link (ob_link x)) /\ cw_link s' (ob_link x) = cw_link s (ob_link x)
  /\ forall a z, cw_obj s' a = Some z -> ob_link z <> ob_link x.
Proof. exact assigned_lost. Qed.
Print Assumptions C107_assigned.

(** Two adapters; both give the handle 7, and answer a request with 1 or 2. *)
Definition cp_calls : calls := mkCalls None 0 None None None (1, 0) None 0 None None.
Definition cp_peer (v : Z) : peer := fun log _ =>
  match log with [] => [Data (encaps_pack (packet 101 7 0 [1; 0; 0; 0]))] | _ => [Data (encaps_pack (packet 111 7 0 [v]))] end.
Definition cp_net : net := mkNet [] [] [].
Definition cp_open (fd v : Z) : ccall := KOpen fd cp_calls (cp_peer v) cp_net.
Definition cp_answer (cs : list ccall) (i : nat) (q : encaps) : option (outcome bytes) :=
  let s := crun strict cs cstart in
  match cw_obj s i with
  | Some x => Some (match fst (copy_send strict x q s) with Ok r => Ok (e_data r) | Throw e => Throw e | Undef u => Undef u | Abort => Abort end)
  | None => None
  end.
Definition cp_sent (cs : list ccall) (g : nat) : list bytes := n_sent (snd (cw_link (crun strict cs cstart) g)).
Definition cp_request : encaps := rr_data_packet 7 0 [].

(** Full claim: a copy of a session can be destroyed, and the session is still
    there. It is not. *)
Theorem C107_refuted : exists cs x, let s := crun strict cs cstart in
  cs = [cp_open 3 1; KCopy 0; KDestroy 1] /\ proper strict cs /\ cw_over s = false
  /\ cw_obj s 0%nat = Some x /\ ob_link x = 0%nat /\ fst (copy_send strict x cp_request s) = Throw (SystemError 9)
  /\ cp_sent cs 0 = [encaps_pack register_packet; encaps_pack (unregister_packet 7)].
Proof.
  eexists. exists (mkObj 7 3 0). split; [reflexivity|]. split.
  - intros before fd k p w after E _. destruct before as [|c before]; [reflexivity|]. exfalso. injection E as _ E.
    destruct before as [|c2 [|c3 [|c4 before]]]; try discriminate E. 
  - repeat match goal with |- _ /\ _ => split end; vm_compute; reflexivity.
Qed.
Print Assumptions C107_refuted.
(** Full claim: what an object does concerns its own session. The first session is
    asked and the adapter of the second one answers; the first one is destroyed and
    the second one is unregistered and unusable. *)
Theorem C107_other_refuted : exists cs, cs = [cp_open 3 1; KCopy 0; KDestroy 1; cp_open 3 2]
  /\ proper strict cs
  /\ cp_answer [cp_open 3 1] 0 cp_request = Some (Ok [1]) /\ cp_answer cs 0 cp_request = Some (Ok [2]) /\ cp_answer cs 2 cp_request = Some (Ok [2])
  /\ cp_sent (cs ++ [KDestroy 0]) 2 = [encaps_pack register_packet; encaps_pack (unregister_packet 7)]
  /\ cp_answer (cs ++ [KDestroy 0]) 2 cp_request = Some (Throw (SystemError 9))
  /\ cw_over (crun strict (cs ++ [KDestroy 0; KDestroy 2]) cstart) = false.
Proof.
  eexists. split; [reflexivity|]. split.
  - intros before fd k p w after E _. destruct before as [|c1 [|c2 [|c3 [|c4 [|c5 before]]]]]; try discriminate E; [reflexivity|].
    injection E as <- <- <- <- _ _ _ _. vm_compute. reflexivity.
  - repeat match goal with |- _ /\ _ => split end; vm_compute; reflexivity.
Qed.
Print Assumptions C107_other_refuted.
(** Full claim: when all objects are destroyed all sessions are unregistered and no
    descriptor is left. *)
Theorem C107_assign_refuted : exists cs, let s := crun strict cs cstart in
  cs = [cp_open 3 1; cp_open 4 2; KAssign 0 1; KDestroy 0; KDestroy 1] /\ cw_over s = false
  /\ (forall i, (i < cw_next s)%nat -> cw_obj s i = None) /\ cw_tab s 3 = Some (Link 0) /\ cp_sent cs 0 = [encaps_pack register_packet].
Proof.
  eexists. split; [reflexivity|]. split; [vm_compute; reflexivity|]. split.
  - intros i. change (cw_next _) with 2%nat. intros L. destruct i as [|[|i]]; [vm_compute; reflexivity|vm_compute; reflexivity|lia].
  - split; vm_compute; reflexivity.
Qed.
Print Assumptions C107_assign_refuted.

(** Example: two sessions, a copy of the first one that is used; the second one is
    destroyed. *)
Example C107_example : exists x, careful strict [cp_open 3 1; KCopy 0; cp_open 4 2; KSend 1 cp_request; KDestroy 2]
  /\ cw_obj (crun strict [cp_open 3 1; KCopy 0; cp_open 4 2; KSend 1 cp_request; KDestroy 2] cstart) 0%nat = Some x
  /\ cp_answer [cp_open 3 1; KCopy 0; cp_open 4 2; KSend 1 cp_request; KDestroy 2] 0 cp_request = Some (Ok [1])
  /\ List.length (cp_sent [cp_open 3 1; KCopy 0; cp_open 4 2; KSend 1 cp_request; KDestroy 2] 0) = 2%nat
  /\ cp_sent [cp_open 3 1; KCopy 0; cp_open 4 2; KSend 1 cp_request; KDestroy 2] 2 = [encaps_pack register_packet; encaps_pack (unregister_packet 7)].
Proof.
  exists (mkObj 7 3 0). split.
  - intros before i after E. destruct before as [|c1 [|c2 [|c3 [|c4 [|c5 before]]]]]; try discriminate E; [|destruct before; discriminate E].
    injection E as <- <- <- <- <- _. intros x j y A B Q. destruct j as [|[|[|j]]]; [| |reflexivity|]; vm_compute in A, B; try discriminate B.
    all: injection A as <-; injection B as <-; discriminate Q.
  - repeat match goal with |- _ /\ _ => split end; vm_compute; reflexivity.
Qed.
Example C107_stale_example : exists x, let before := [cp_open 3 1; KCopy 0] in let after := [cp_open 4 2] in
  cw_obj (crun strict before cstart) 1%nat = Some x /\ cw_over (crun strict (before ++ KDestroy 1 :: after) cstart) = false
  /\ unused (ob_fd x) after /\ cw_obj (crun strict (before ++ KDestroy 1 :: after) cstart) 0%nat = Some x
  /\ zlen (encaps_pack cp_request) < 2 ^ 31
  /\ exists w ev, session_open_fd strict 3 cp_calls (cp_peer 2) cp_net = (Ok 7, w, ev).
Proof.
  exists (mkObj 7 3 0). cbv zeta. split; [vm_compute; reflexivity|]. split; [vm_compute; reflexivity|].
  split; [intros k p w [H|[]]; discriminate H|]. split; [vm_compute; reflexivity|]. split; [vm_compute; reflexivity|].
  do 2 eexists. vm_compute. reflexivity.
Qed.
Example C107_assigned_example : let before := [cp_open 3 1; cp_open 4 2] in
  careful strict (before ++ KAssign 0 1 :: [KSend 0 cp_request]) /\ alone (crun strict before cstart) 0
  /\ cw_obj (crun strict before cstart) 0%nat = Some (mkObj 7 3 0) /\ cw_obj (crun strict before cstart) 1%nat = Some (mkObj 7 4 1)
  /\ cw_over (crun strict before cstart) = false.
Proof.
  cbv zeta. split.
  - intros b i a E. destruct b as [|c1 [|c2 [|c3 [|c4 b]]]]; try discriminate E. destruct b; discriminate E.
  - split.
    + intros x j y A B Q. destruct j as [|[|j]]; [reflexivity| |]; vm_compute in A, B; try discriminate B. injection A as <-. injection B as <-. discriminate Q.
    + repeat match goal with |- _ /\ _ => split end; vm_compute; reflexivity.
Qed.
Example C107_uncopied_example : Forall2 same_call [cp_open 3 1; KSend 0 cp_request; KDestroy 0]
    [ROpen 3 cp_calls (cp_peer 1) cp_net; RSend 0 cp_request; RClose 0]
  /\ proper strict [cp_open 3 1; KSend 0 cp_request; KDestroy 0].
Proof.
  split; [repeat constructor|]. intros b fd k p w a E _. destruct b as [|c1 [|c2 [|c3 b]]]; try discriminate E; [reflexivity|]. destruct b; discriminate E.
Qed.
