(** Proofs about discovery when there is not enough memory. *)
From Verif Require Import Base MBuffer MEip MIdent MSocket MDisc MConn MFd SFd PFd MRes SRes PRes MMem MLow SLow PLow MDiscLow.
Local Open Scope Z_scope.
Ltac inv H := inversion H; subst; clear H.

Lemma dlitems_done h : forall items i acc fs o fs', dl_items h i items acc fs = (Done o, fs') -> disc_items h i items acc = o.
Proof.
  induction items as [|it r IH]; intros i acc fs o fs' E; cbn [dl_items disc_items] in *; [now inv E|].
  destruct (hd false fs); [discriminate|]. destruct (disc_item h i it) as [e|x|u|]; cbn [bind]; [|now inv E..].
  destruct (hd false (tl fs)); [discriminate|]. eauto.
Qed.
Lemma dlitems_enough h : forall items i acc fs, enough fs -> exists fs', enough fs' /\ dl_items h i items acc fs = (Done (disc_items h i items acc), fs').
Proof.
  induction items as [|it r IH]; intros i acc fs En; cbn [dl_items disc_items]; [now exists fs|]. rewrite (enough_hd fs En).
  pose proof (enough_tl fs En) as E1. destruct (disc_item h i it) as [e|x|u|]; cbn [bind]; [|exists (tl fs); now auto..].
  rewrite (enough_hd _ E1). apply IH. now apply enough_tl.
Qed.
Lemma dlreply_done h data acc fs o fs' : dl_reply h data acc fs = (Done o, fs') -> disc_reply h data acc = o.
Proof.
  unfold dl_reply, disc_reply. destruct (hd false fs); [discriminate|]. destruct (finished _) as [items|x|u|]; cbn [bind]; intros E; [|now inv E..].
  eapply dlitems_done; eauto.
Qed.
Lemma dlreply_enough h data acc fs : enough fs -> exists fs', enough fs' /\ dl_reply h data acc fs = (Done (disc_reply h data acc), fs').
Proof.
  intros En. unfold dl_reply, disc_reply. rewrite (enough_hd fs En). pose proof (enough_tl fs En) as E1.
  destruct (finished _) as [items|x|u|]; cbn [bind]; [now apply dlitems_enough|exists (tl fs); now auto..].
Qed.
Lemma catch_undef acc u : disc_catch acc (Undef u) = Undef u. Proof. reflexivity. Qed.
Lemma dlloop_done h fd : forall ds acc fs o ev fs', dl_loop h fd acc ds fs = (Done o, ev, fs') -> disc_loop_fd h fd acc ds = (o, ev).
Proof.
  induction ds as [|d r IH]; intros acc fs o ev fs' E; cbn [dl_loop disc_loop_fd] in *; (destruct (hd false fs); [discriminate|]); [now inv E|].
  destruct (fst (udp_receive EIP_MAX_PACKET_SIZE (d :: r))) as [data|x|u|]; cbn [bind]; [|now inv E..].
  destruct (dl_reply h data acc (tl fs)) as [[o1|] fs1] eqn:E1; [|discriminate]. rewrite (dlreply_done _ _ _ _ _ _ E1).
  destruct o1 as [acc'|x|u|]; [|now inv E..]. destruct (dl_loop h fd acc' r fs1) as [[o2 ev2] fs2] eqn:E2. inv E. now rewrite (IH _ _ _ _ _ E2).
Qed.
Lemma dlloop_enough h fd : forall ds acc fs, enough fs -> exists fs', dl_loop h fd acc ds fs = (Done (fst (disc_loop_fd h fd acc ds)), snd (disc_loop_fd h fd acc ds), fs').
Proof.
  induction ds as [|d r IH]; intros acc fs En; cbn [dl_loop disc_loop_fd]; rewrite (enough_hd fs En); [now eexists|].
  destruct (fst (udp_receive EIP_MAX_PACKET_SIZE (d :: r))) as [data|x|u|]; cbn [bind]; [|now eexists..].
  destruct (dlreply_enough h data acc (tl fs) (enough_tl fs En)) as (f1 & E1 & ->). destruct (disc_reply h data acc) as [acc'|x|u|]; [|now eexists..].
  destruct (IH acc' f1 E1) as (f2 & ->). destruct (disc_loop_fd h fd acc' r). now eexists.
Qed.
Lemma dlloop_uses h fd : forall ds acc fs, uses fd (snd (fst (dl_loop h fd acc ds fs))).
Proof.
  induction ds as [|d r IH]; intros acc fs; cbn [dl_loop]; (destruct (hd false fs); [constructor|]); [repeat constructor|].
  destruct (fst (udp_receive EIP_MAX_PACKET_SIZE (d :: r))) as [data|x|u|]; [|repeat constructor..].
  destruct (dl_reply h data acc (tl fs)) as [[[acc'|x|u|]|] fs1]; [|repeat constructor..]. specialize (IH acc' fs1).
  destruct (dl_loop h fd acc' r fs1) as [[o ev] fs2]. constructor; [reflexivity|exact IH].
Qed.

Lemma dl_done h sock b sent ep ds fs o out ev : dl_discover h sock b sent ep ds fs = (Done o, out, ev) -> discover_fd h sock b sent ep ds = (o, out, ev).
Proof.
  unfold dl_discover, discover_fd. destruct (hd false fs); [discriminate|]. destruct sock as [fd|e]; [|intros E; now inv E].
  destruct b as [e|]; [intros E; now inv E|]. destruct (hd false (tl fs)); [discriminate|]. cbv zeta.
  destruct (send_check _ sent) as [[]|x|u|]; [|intros E; now inv E..].
  destruct (dl_loop h fd [] ds (tl (tl fs))) as [[o1 ev1] fs1] eqn:E1. intros E. inv E. now rewrite (dlloop_done _ _ _ _ _ _ _ _ E1).
Qed.
Lemma dl_enough h sock b sent ep ds fs : enough fs ->
  dl_discover h sock b sent ep ds fs = (Done (fst (fst (discover_fd h sock b sent ep ds))), snd (fst (discover_fd h sock b sent ep ds)), snd (discover_fd h sock b sent ep ds)).
Proof.
  intros En. unfold dl_discover, discover_fd. rewrite (enough_hd fs En). destruct sock as [fd|e]; [|reflexivity]. destruct b as [e|]; [reflexivity|].
  rewrite (enough_hd _ (enough_tl fs En)). cbv zeta. destruct (send_check _ sent) as [[]|x|u|]; [|reflexivity..].
  destruct (dlloop_enough h fd ds [] (tl (tl fs)) (enough_tl _ (enough_tl _ En))) as (f1 & ->). now destruct (disc_loop_fd h fd [] ds).
Qed.
Lemma dl_low h sock b sent ep ds fs out ev : dl_discover h sock b sent ep ds fs = (NoMemory, out, ev) ->
  (ev = [] \/ exists fd us, sock = inl fd /\ uses fd us /\ ev = FOpen fd :: us ++ [FClose fd])
  /\ (out = [] \/ out = snd (fst (discover_fd h sock b sent ep ds))).
Proof.
  unfold dl_discover, discover_fd. destruct (hd false fs); [intros E; inv E; auto|]. destruct sock as [fd|e]; [|discriminate].
  destruct b as [e|]; [discriminate|]. destruct (hd false (tl fs)).
  { intros E; inv E. split; [right|now left]. exists fd, [FUse fd; FUse fd; FUse fd]. split; [reflexivity|]. split; [repeat constructor|reflexivity]. }
  cbv zeta. destruct (send_check _ sent) as [[]|x|u|]; [|discriminate..].
  pose proof (dlloop_uses h fd ds [] (tl (tl fs))) as U. destruct (dl_loop h fd [] ds (tl (tl fs))) as [[o1 ev1] fs1]. intros E. inv E. cbn [fst snd] in U. split.
  - right. exists fd, ([FUse fd; FUse fd; FUse fd] ++ ev1 ++ [FUse fd]). split; [reflexivity|]. split; [|cbn; now rewrite <- app_assoc].
    apply uses_app; [repeat constructor|]. apply uses_app; [exact U|repeat constructor].
  - right. now destruct (disc_loop_fd h fd [] ds).
Qed.
