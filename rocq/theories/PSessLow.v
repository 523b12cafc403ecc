(** Proofs: requests over a real session when there is not enough memory. *)
From Verif Require Import Base MBuffer SBuffer PBase MEip SEip MSocket SSocket PSocket MConnReq MConn MMem SMem PMem
  MLow SLow PLow SFileLow SSessLow.

Lemma plenty_enough fs : plenty fs <-> enough fs.
Proof. unfold plenty, enough. rewrite Forall_forall. tauto. Qed.

Lemma sim_mneed : @sim net unit need (st_ret tt).
Proof.
  intros fs w. split.
  - intros o fs' w' E N. destruct fs as [|[|] r]; inv E; reflexivity.
  - intros En. apply plenty_enough in En. rewrite need_plenty by assumption. exists (tl fs). split; [|reflexivity].
    now apply plenty_enough, plenty_tl.
Qed.
Lemma sim_mmessage t s : @sim net unit (message t s) (st_ret tt).
Proof.
  intros fs w. split.
  - intros o fs' w' E N. unfold message in E.
    destruct t, s; destruct fs as [|[|] [|[|] r]]; cbn in E; inv E; try congruence; reflexivity.
  - intros En. apply plenty_enough in En. destruct (message_plenty t s fs w En) as (f & P & ->). exists f. split; [now apply plenty_enough|reflexivity].
Qed.
Lemma sim_mlift {A} (m : st net A) : @sim net A (m_lift m) m.
Proof. exact (sim_lift m). Qed.
Lemma sim_mbind {A B} (L : mst A) M (k : A -> mst B) n : @sim net A L M -> (forall a, @sim net B (k a) (n a)) -> @sim net B (m_bind L k) (st_bind M n).
Proof. exact (sim_bind L M k n). Qed.
Lemma sim_mskip {A} (L : mst unit) (k : unit -> mst A) n : @sim net unit L (st_ret tt) -> (forall a, @sim net A (k a) n) -> @sim net A (m_bind L k) n.
Proof. exact (sim_skip L k n). Qed.

Lemma sim_mreceive warning n : @sim net bytes (m_receive warning n) (net_receive n).
Proof.
  intros fs w. unfold m_receive. cbn [snd]. generalize (recv_ended n (n_in w)). intros ended. revert fs w.
  change (@sim net bytes (m_bind (match n with O => m_ret tt | S _ => need end) (fun _ => m_bind (m_lift (net_receive n))
    (fun d => if ended then m_bind (message true warning) (fun _ => m_ret d) else m_ret d))) (net_receive n)).
  apply sim_mskip; [destruct n; [exact (sim_ret tt)|apply sim_mneed]|intros _].
  eapply sim_ext; [apply sim_mbind with (n := fun d => st_ret d); [apply sim_mlift|intros d; destruct ended]|].
  - apply sim_mskip; [apply sim_mmessage|intros _; exact (sim_ret d)].
  - exact (sim_ret d).
  - intros w. unfold st_bind. now destruct (net_receive n w) as [[]].
Qed.
Lemma sim_mexchange warning h p handle q : @sim net encaps (m_exchange warning h p handle q) (send_and_receive h p handle q).
Proof.
  unfold m_exchange, send_and_receive. apply sim_mskip; [apply sim_mneed|intros _]. apply sim_mbind; [apply sim_mlift|intros _].
  apply sim_mbind; [apply sim_mreceive|intros header]. apply sim_mskip; [apply sim_mneed|intros _]. apply sim_mbind; [apply sim_mlift|intros len].
  apply sim_mbind; [apply sim_mreceive|intros d]. apply sim_mskip; [apply sim_mneed|intros _]. apply sim_mlift.
Qed.
Lemma sim_mrequest info warning h p handle use8 service path data extra :
  @sim net response (m_request info warning h p handle use8 service path data extra) (send_request h (live_session h p handle) use8 service path data extra).
Proof.
  unfold m_request. apply sim_mskip; [apply sim_mmessage|intros _]. apply sim_mskip; [apply sim_mneed|intros _].
  eapply sim_ext; [apply sim_mbind with (n := fun r => st_lift (reply_response h r)); [apply sim_mexchange|intros r]|].
  - apply sim_mskip; [apply sim_mneed|intros _]. apply sim_mlift.
  - intros w. unfold send_request, live_session, st_bind, st_lift. cbn [si_exchange si_handle]. now destruct (send_and_receive _ _ _ _ w) as [[]].
Qed.
Lemma live_asks info warning h p handle use8 :
  asks_as h use8 (live_session h p handle) (fun service path data => m_request info warning h p handle use8 service path data []).
Proof. intros service path data fs s. apply sim_mrequest. Qed.
Lemma live_runs info warning h p handle use8 :
  runs_as h use8 (live_session h p handle) (fun service data => m_request info warning h p handle use8 service CM_PATH data []).
Proof. intros service data fs s. apply sim_mrequest. Qed.

(** ** Which reply a request takes *)
Lemma request_takes h p handle use8 service path data extra w r rest : n_results w = [] -> well_formed r ->
  stream (incoming p w (encaps_pack (request_packet handle use8 service path data extra))) = encaps_pack r ++ rest ->
  ending_of (incoming p w (encaps_pack (request_packet handle use8 service path data extra))) = Silent ->
  exists w', send_request h (live_session h p handle) use8 service path data extra w = (taken h handle r, w')
    /\ unread w' rest /\ sent_now w w' (request_packet handle use8 service path data extra).
Proof.
  intros R W E S. set (q := request_packet handle use8 service path data extra) in *.
  destruct (sar_good h p handle q r w) with (rest := rest) as (w1 & Es & B1 & B2 & B3 & B4); [unfold sends_all; now rewrite R|exact W|exact E|].
  exists w1. unfold send_request, live_session. cbn [si_exchange si_handle]. fold q. rewrite Es. split; [|split].
  - unfold taken. now destruct (verdict handle r).
  - split; [exact B1|now rewrite B2].
  - split; [exact B3|now rewrite B4, R].
Qed.
Lemma request_next info warning h p reply handle use8 service path data extra fs fs' w w' o : answering p reply -> n_results w = [] -> unread w [] ->
  m_request info warning h p handle use8 service path data extra (fs, w) = (Done o, (fs', w')) -> o <> Abort ->
  let q := request_packet handle use8 service path data extra in
  o = taken h handle (reply (n_sent w) (encaps_pack q)) /\ unread w' [] /\ sent_now w w' q.
Proof.
  intros A R [U1 U2] E N q. destruct (A (n_sent w) (encaps_pack q)) as (W1 & Ea & S).
  destruct (in_drained p w _ q U2 U1) as [I1 I2]. rewrite Ea in I1. rewrite S in I2.
  destruct (request_takes h p handle use8 service path data extra w (reply (n_sent w) (encaps_pack q)) []) as (w1 & E1 & X1 & X2);
    [assumption|assumption|now rewrite app_nil_r|assumption|].
  destruct (sim_mrequest info warning h p handle use8 service path data extra fs w) as [H _]. rewrite (H _ _ _ E N) in E1. inv E1. auto.
Qed.
Lemma request_late info warning h p reply handle use8 service path data extra fs fs' w w' o r0 : answering p reply -> n_results w = [] -> well_formed r0 ->
  unread w (encaps_pack r0) ->
  m_request info warning h p handle use8 service path data extra (fs, w) = (Done o, (fs', w')) -> o <> Abort ->
  let q := request_packet handle use8 service path data extra in
  o = taken h handle r0 /\ unread w' (encaps_pack (reply (n_sent w) (encaps_pack q))) /\ sent_now w w' q.
Proof.
  intros A R W [U1 U2] E N q. destruct (A (n_sent w) (encaps_pack q)) as (W1 & Ea & S).
  destruct (in_drained p w _ q U2 U1) as [I1 I2]. rewrite Ea in I1. rewrite S in I2.
  destruct (request_takes h p handle use8 service path data extra w r0 (encaps_pack (reply (n_sent w) (encaps_pack q)))) as (w1 & E1 & X1 & X2);
    [assumption..|].
  destruct (sim_mrequest info warning h p handle use8 service path data extra fs w) as [H _]. rewrite (H _ _ _ E N) in E1. inv E1. auto.
Qed.
