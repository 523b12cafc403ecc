(** Property of discovery when there is not enough memory: C118. *)
From Verif Require Import Base MBuffer MEip SEip MIdent MSocket SSocket MDisc SDisc PDisc MConn MFd SFd PFd MRes SRes PRes MMem MLow SLow PLow MDiscLow PDiscLow.
Local Open Scope Z_scope.

(** ** C118 discovery when there is not enough memory *)

(** With enough memory nothing is different. *)
Theorem C118_enough : forall h sock option_failed sent broadcast ds fs, enough fs ->
  exists o out ev, discover_fd h sock option_failed sent broadcast ds = (o, out, ev)
  /\ dl_discover h sock option_failed sent broadcast ds fs = (Done o, out, ev).
Proof.
  intros h sock b sent ep ds fs En. rewrite (dl_enough h sock b sent ep ds fs En). destruct (discover_fd h sock b sent ep ds) as [[o out] ev]. now exists o, out, ev.
Qed.
Print Assumptions C118_enough.
(** The call can only end as it does with enough memory, or throw std::bad_alloc. *)
Theorem C118_ends : forall h sock option_failed sent broadcast ds fs o out ev,
  dl_discover h sock option_failed sent broadcast ds fs = (Done o, out, ev) -> discover_fd h sock option_failed sent broadcast ds = (o, out, ev).
Proof. exact dl_done. Qed.
Print Assumptions C118_ends.
(** When it throws std::bad_alloc the descriptor it has got is closed, once, and it is not used after that. Other descriptors are
    left alone. *)
Theorem C118_released : forall h sock option_failed sent broadcast ds fs out ev held, (forall fd, sock = inl fd -> ~ In fd held) ->
  dl_discover h sock option_failed sent broadcast ds fs = (NoMemory, out, ev) -> audit ev held = Held held.
Proof.
  intros h sock b sent ep ds fs out ev held N E. destruct (dl_low _ _ _ _ _ _ _ _ _ E) as [[->|(fd & us & S & U & ->)] _]; [reflexivity|].
  rewrite (audit_once fd us held U). destruct (in_dec Z.eq_dec fd held) as [I|]; [now destruct (N fd S)|reflexivity].
Qed.
Print Assumptions C118_released.
(** The request was sent as it is with enough memory, or not at all. *)
Theorem C118_sent : forall h sock option_failed sent broadcast ds fs out ev o out' ev',
  dl_discover h sock option_failed sent broadcast ds fs = (NoMemory, out, ev) ->
  discover_fd h sock option_failed sent broadcast ds = (o, out', ev') -> out = [] \/ out = out'.
Proof. intros h sock b sent ep ds fs out ev o out' ev' E D. destruct (dl_low _ _ _ _ _ _ _ _ _ E) as [_ X]. now rewrite D in X. Qed.
Print Assumptions C118_sent.
(** An allocation that fails is not passed over: the call has stopped at the first one. *)
Theorem C118_first : forall h fd sent broadcast ds fs, s_count sent = 24 ->
  (dl_discover h (inl fd) None sent broadcast ds (true :: fs) = (NoMemory, [], []))
  /\ (exists ev, dl_discover h (inl fd) None sent broadcast ds (false :: true :: fs) = (NoMemory, [], ev))
  /\ (exists out ev, dl_discover h (inl fd) None sent broadcast ds (false :: false :: true :: fs) = (NoMemory, [out], ev) /\ List.length ev = 6%nat)
  /\ (forall d r, ds = Dgram d :: r -> exists out ev, dl_discover h (inl fd) None sent broadcast ds (false :: false :: false :: true :: fs) = (NoMemory, [out], ev) /\ List.length ev = 7%nat).
Proof.
  intros h fd sent ep ds fs S. split; [reflexivity|]. split; [eexists; reflexivity|].
  assert (C : send_check (zlen (encaps_pack list_identity_packet)) sent = Ok tt) by (unfold send_check; rewrite S; reflexivity).
  unfold dl_discover. cbv zeta. cbn [hd tl]. rewrite C, S. cbn [Z.ltb Z.compare]. split.
  - do 2 eexists. split; [destruct ds; reflexivity|reflexivity].
  - intros d r ->. cbn [dl_loop hd tl]. unfold udp_receive at 1. cbn [fst]. unfold dl_reply. cbn [hd tl]. do 2 eexists. split; reflexivity.
Qed.
Print Assumptions C118_first.

(** Two devices answer; there is no memory to put the second one into the result. *)
Definition two_answers : list dgram := [Dgram (reply [drive]); Dgram (reply [plc])].
Example C118_case : exists es out ev ev', dl_discover strict (inl 5) None (mkSend 24 0) lan two_answers [] = (Done (Ok es), [out], ev) /\ List.length es = 2%nat
  /\ dl_discover strict (inl 5) None (mkSend 24 0) lan two_answers [false; false; false; false; false; false; false; false; false; true] = (NoMemory, [out], ev')
  /\ ev' = [FOpen 5; FUse 5; FUse 5; FUse 5; FUse 5; FUse 5; FUse 5; FClose 5].
Proof. do 4 eexists. split; [vm_compute; reflexivity|]. split; [reflexivity|]. split; vm_compute; reflexivity. Qed.
