(** Proofs about requests with Yaskawa paths when there is not enough memory. *)
From Verif Require Import Base MBuffer SBuffer MEip SEip MYaskawa MSocket SSocket PSocket MMem SMem PMem MLow SLow PLow SSessLow PSessLow MYaskLow.
Ltac inv H := inversion H; subst; clear H.

Lemma sim_yrequest info warning h p handle service path data extra :
  @sim net response (ym_request info warning h p handle service path data extra) (ysend_request h (live_session h p handle) service path data extra).
Proof.
  unfold ym_request. apply sim_mskip; [apply sim_mmessage|intros _]. apply sim_mskip; [apply sim_mneed|intros _].
  eapply sim_ext; [apply sim_mbind with (n := fun r => st_lift (reply_response h r)); [apply sim_mexchange|intros r]|].
  - apply sim_mskip; [apply sim_mneed|intros _]. apply sim_mlift.
  - intros w. unfold ysend_request, live_session, st_bind, st_lift. cbn [si_exchange si_handle]. now destruct (send_and_receive _ _ _ _ w) as [[]].
Qed.
Lemma yrequest_takes h p handle service path data extra w r rest : n_results w = [] -> well_formed r ->
  stream (incoming p w (encaps_pack (yrequest_packet handle service path data extra))) = encaps_pack r ++ rest ->
  ending_of (incoming p w (encaps_pack (yrequest_packet handle service path data extra))) = Silent ->
  exists w', ysend_request h (live_session h p handle) service path data extra w = (taken h handle r, w')
    /\ unread w' rest /\ sent_now w w' (yrequest_packet handle service path data extra).
Proof.
  intros R W E S. set (q := yrequest_packet handle service path data extra) in *.
  destruct (sar_good h p handle q r w) with (rest := rest) as (w1 & Es & B1 & B2 & B3 & B4); [unfold sends_all; now rewrite R|exact W|exact E|].
  exists w1. unfold ysend_request, live_session. cbn [si_exchange si_handle]. fold q. rewrite Es. split; [|split].
  - unfold taken. now destruct (verdict handle r).
  - split; [exact B1|now rewrite B2].
  - split; [exact B3|now rewrite B4, R].
Qed.
Lemma yrequest_next info warning h p reply handle service path data extra fs fs' w w' o : answering p reply -> n_results w = [] -> unread w [] ->
  ym_request info warning h p handle service path data extra (fs, w) = (Done o, (fs', w')) -> o <> Abort ->
  let q := yrequest_packet handle service path data extra in
  o = taken h handle (reply (n_sent w) (encaps_pack q)) /\ unread w' [] /\ sent_now w w' q.
Proof.
  intros A R [U1 U2] E N q. destruct (A (n_sent w) (encaps_pack q)) as (W1 & Ea & S).
  destruct (in_drained p w _ q U2 U1) as [I1 I2]. rewrite Ea in I1. rewrite S in I2.
  destruct (yrequest_takes h p handle service path data extra w (reply (n_sent w) (encaps_pack q)) []) as (w1 & E1 & X1 & X2);
    [assumption|assumption|now rewrite app_nil_r|assumption|].
  destruct (sim_yrequest info warning h p handle service path data extra fs w) as [H _]. rewrite (H _ _ _ E N) in E1. inv E1. auto.
Qed.
Lemma yrequest_late info warning h p reply handle service path data extra fs fs' w w' o r0 : answering p reply -> n_results w = [] -> well_formed r0 ->
  unread w (encaps_pack r0) ->
  ym_request info warning h p handle service path data extra (fs, w) = (Done o, (fs', w')) -> o <> Abort ->
  let q := yrequest_packet handle service path data extra in
  o = taken h handle r0 /\ unread w' (encaps_pack (reply (n_sent w) (encaps_pack q))) /\ sent_now w w' q.
Proof.
  intros A R W [U1 U2] E N q. destruct (A (n_sent w) (encaps_pack q)) as (W1 & Ea & S).
  destruct (in_drained p w _ q U2 U1) as [I1 I2]. rewrite Ea in I1. rewrite S in I2.
  destruct (yrequest_takes h p handle service path data extra w r0 (encaps_pack (reply (n_sent w) (encaps_pack q)))) as (w1 & E1 & X1 & X2);
    [assumption..|].
  destruct (sim_yrequest info warning h p handle service path data extra fs w) as [H _]. rewrite (H _ _ _ E N) in E1. inv E1. auto.
Qed.
Lemma yrequest_exact info warning h p handle service path data extra f0 f1 f2 fs w :
  ym_request info warning h p handle service path data extra (f0 :: f1 :: f2 :: fs, w)
  = told info f0 f1 (f2 :: fs) w (fun r => if hd false r then (NoMemory, (tl r, w))
      else answered h (m_exchange warning h p handle (yrequest_packet handle service path data extra) (tl r, w))).
Proof.
  unfold ym_request, told, message, m_bind at 1.
  assert (G : forall r, r <> [] -> m_bind need (fun _ => m_bind (m_exchange warning h p handle (yrequest_packet handle service path data extra)) (fun received =>
      m_bind need (fun _ => m_lift (st_lift (reply_response h received))))) (r, w)
    = if hd false r then (NoMemory, (tl r, w)) else answered h (m_exchange warning h p handle (yrequest_packet handle service path data extra) (tl r, w))).
  { intros r N. unfold m_bind at 1. destruct r as [|[] r]; [contradiction|reflexivity|]. cbn [need tl hd]. unfold m_bind at 1.
    destruct (m_exchange _ _ _ _ _ (r, w)) as [[[a| | |]|] [f w']]; try reflexivity. unfold m_bind. destruct f as [|[] f]; reflexivity. }
  destruct info, f0, f1; cbn [need tl]; try reflexivity; rewrite G by discriminate; reflexivity.
Qed.
