(** A connection and the target at its other end, over time. *)
From Coq Require Import Permutation.
From Verif Require Import Base MBuffer SBuffer PBase PBuffer MEip SEip PEip MSocket SSocket PSocket MConnReq SConnReq MConn SConn PConnOpen PConnMap PIo PConnCall PConnCall2 PConnHist PIo2 PConnTop PIoTop SLife PLife SLoop.
Ltac Zify.zify_post_hook ::= Z.div_mod_to_equations.

(** ** One run *)
Lemma loop_run h lim c xs : forall l, io_run h (lp_ops l) c = (lp_end l, lp_ev l) ->
  io_run h (lp_ops (lp_run h lim xs l)) c = (lp_end (lp_run h lim xs l), lp_ev (lp_run h lim xs l)).
Proof.
  induction xs as [|x xs IH]; intros l E; [exact E|]. cbn [lp_run fold_left]. apply IH.
  destruct x as [t a d|t a hook sr|d]; cbn [lp_step].
  - now destruct (gone _ _ _).
  - destruct (lp_end l) as [c1| |] eqn:L; try (rewrite L; exact E).
    destruct (io_run h _ c1) as [e ev] eqn:R. cbn [lp_ops lp_end lp_ev]. now rewrite run_app, E, R.
  - destruct (lp_end l) as [c1| |] eqn:L; try (rewrite L; exact E).
    cbn [lp_ops lp_end lp_ev]. rewrite run_app, E. cbn [io_run]. now rewrite app_nil_r.
Qed.

(** ** Lists of times *)
Definition covers (l : list Z) (lo hi gap : Z) : Prop := forall x, lo <= x <= hi -> exists q, In q l /\ q <= x <= q + gap.
Lemma covers_one b gap : covers [b] b (b + gap) gap.
Proof. intros x X. exists b. split; [now left|lia]. Qed.
Lemma covers_more l lo hi gap q : covers l lo hi gap -> q <= hi -> covers (l ++ [q]) lo (q + gap) gap.
Proof.
  intros C Q x X. destruct (Z_le_gt_dec x hi) as [L|G].
  - destruct (C x ltac:(lia)) as (y & I & Y). exists y. split; [apply in_or_app; now left|assumption].
  - exists q. split; [apply in_or_app; right; now left|lia].
Qed.

Lemma arrive_perm a d l : Permutation (arrive a d l) (l ++ [(a, d)]).
Proof.
  induction l as [|[a' d'] l IH]; cbn [arrive app]; [reflexivity|].
  destruct (a <? a'); [|now constructor]. change ((a', d') :: l ++ [(a, d)]) with (((a', d') :: l) ++ [(a, d)]). apply Permutation_cons_append.
Qed.
Lemma arrive_in a d l p : In p (arrive a d l) <-> p = (a, d) \/ In p l.
Proof.
  split; intros H.
  - pose proof (Permutation_in _ (arrive_perm a d l) H) as I. apply in_app_or in I. destruct I as [I|[I|[]]]; auto.
  - apply (Permutation_in _ (Permutation_sym (arrive_perm a d l))). apply in_or_app. destruct H as [->|H]; [right; now left|now left].
Qed.
Lemma filter_perm (f : Z * bytes -> bool) g l : (forall p, g p = negb (f p)) -> Permutation (filter f l ++ filter g l) l.
Proof.
  intros G. induction l as [|p l IH]; cbn [filter]; [constructor|]. rewrite (G p). destruct (f p); cbn [negb app].
  - now constructor.
  - rewrite <- Permutation_middle. now constructor.
Qed.

(** ** One call *)
Definition body_of (s : io_spec) (d : bytes) : bytes := skipn (head_of s) d.
Definition data_ev (s : io_spec) (d : bytes) : event :=
  EvData (sp_oid s) (if sp_t2oHead s then le_val (firstn 4 d) else 0)
         (if sp_seq s then le_val (firstn 2 (skipn (if sp_t2oHead s then 4 else 0)%nat d)) else 0) (body_of s d).
Lemma spec_recv s (ds : list (Z * bytes)) r : forall k, Forall (fun p => good_item s (snd p)) ds ->
  spec_run s (map (fun p => Recv 0 (snd p)) ds ++ r) k
  = let '(e, ev) := spec_run s r (match ds with [] => k | _ => mkClock (k_last k) 0 (k_since k) (k_slots k) (k_out k) end) in
    (e, map (fun p => data_ev s (snd p)) ds ++ ev).
Proof.
  induction ds as [|[a d] ds IH]; intros k F; [cbn [map app]; now destruct (spec_run s r k)|].
  inversion F as [|? ? G F']; subst. cbn [map app spec_run fst snd] in *. destruct G as (G1 & G2 & G3).
  change ((if sp_t2oHead s then 4%nat else 0%nat) + (if sp_seq s then 2 else 0))%nat with (head_of s).
  rewrite G3. rewrite IH by assumption. cbn [k_last k_since k_slots k_out].
  replace (match ds with [] => _ | _ :: _ => _ end) with (mkClock (k_last k) 0 (k_since k) (k_slots k) (k_out k)) by now destruct ds.
  destruct (spec_run s r _). reflexivity.
Qed.
Lemma sane_recv s (ds : list (Z * bytes)) r last : Forall (fun p => good_item s (snd p)) ds -> sane s last r ->
  sane s last (map (fun p => Recv 0 (snd p)) ds ++ r).
Proof.
  induction ds as [|[a d] ds IH]; intros F S; [exact S|]. inversion F as [|? ? G F']; subst. cbn [map app sane fst snd] in *.
  destruct G as (G1 & G2 & G3). split; [assumption|]. split; [|now apply IH].
  unfold head_of, zlen in *. destruct (sp_t2oHead s), (sp_seq s); lia.
Qed.
Lemma received_data s (ds : list (Z * bytes)) ev : received (map (fun p => data_ev s (snd p)) ds ++ ev)
  = map (fun p => body_of s (snd p)) ds ++ received ev.
Proof. unfold received. rewrite flat_map_app. f_equal. induction ds as [|p ds IH]; [reflexivity|]. cbn. now rewrite IH. Qed.
Lemma sent_recv s (ds : list (Z * bytes)) ev : sent_data (map (fun p => data_ev s (snd p)) ds ++ ev) = sent_data ev.
Proof. rewrite sent_app. replace (sent_data (map _ ds)) with (@nil bytes); [reflexivity|]. induction ds as [|p ds IH]; [reflexivity|exact IH]. Qed.
Lemma taken_app sr a b : taken sr (a ++ b) = taken sr a || taken sr b.
Proof. apply existsb_app. Qed.
Lemma taken_data sr s (ds : list (Z * bytes)) : taken sr (map (fun p => data_ev s (snd p)) ds) = false.
Proof. induction ds as [|p ds IH]; [reflexivity|exact IH]. Qed.
Lemma numbered_snoc s outs : forall n o, numbered s n (outs ++ [o]) = numbered s n outs ++ [io_packet s (n + zlen outs) o].
Proof.
  induction outs as [|x outs IH]; intros n o; cbn [app numbered].
  - unfold zlen; cbn. now rewrite Z.add_0_r.
  - rewrite IH, zlen_cons. cbn [app]. do 3 f_equal. f_equal. lia.
Qed.

(** ** The invariant *)
Record kept (s : io_spec) (p : pace) (t0 b g : Z) (call send : Z) (items : list bytes) (l : loop) (c : iocon) (k : clock)
    (mark slot : Z) (sends slots : list Z) (outs : list bytes) : Prop := mkKept {
  kp_open : lp_end l = Open c;
  kp_spec : spec_of c = s; kp_wf : io_wf c; kp_clock : clocked c k; kp_out : good_out s (k_out k);
  kp_last : k_last k = call;
  (* originator *)
  kp_idle : 1000000 * k_idle k <= call - mark; kp_mark : t0 <= mark;
  kp_sends : covers sends b (send + p_send p) (p_send p);
  kp_each : forall x, In x sends -> x - p_call p <= mark \/ exists a d, In (a, d) (lp_air l) /\ a <= x + p_delay p;
  kp_sent : forall x, In x sends -> x <= send;
  kp_air : Forall (fun q => good_item s (snd q)) (lp_air l);
  kp_late : Forall (fun q => call <= fst q) (lp_air l);
  (* target *)
  kp_since : p_least p * (call - slot) <= (p_least p + 1) * (1000000 * k_since k);
  kp_slot : t0 <= slot <= call;
  kp_slots : covers slots t0 (slot + g) g;
  kp_hears : forall q, In q slots -> exists y, In y (lp_heard l) /\ q - p_delay p <= y <= q + p_delay p;
  kp_heard : forall y, In y (lp_heard l) -> b <= y;
  (* data *)
  kp_data : Permutation (received (lp_ev l) ++ map (fun q => body_of s (snd q)) (lp_air l)) (map (body_of s) items);
  kp_packets : sent_data (lp_ev l) = numbered s 1 outs; kp_count : k_slots k = zlen outs; kp_outs : Forall (good_out s) outs;
  kp_closed : closings (lp_ev l) = [];
  kp_sane : forall r, sane s call r -> sane s t0 (lp_ops l ++ r) }.

Definition room (s : io_spec) (p : pace) (b t0 lim g : Z) : Prop :=
  1 <= p_least p /\ room_here s p /\ 0 <= sp_api s
  /\ (forall d, p_least p * d <= (p_least p + 1) * (1000 * sp_api s) + p_least p * p_call p -> d <= g)
  /\ g + 2 * p_delay p < lim /\ b <= t0 <= b + p_delay p.

Lemma kept_since_api s p t0 b g call send items l c k mark slot sends slots outs lim : room s p b t0 lim g ->
  kept s p t0 b g call send items l c k mark slot sends slots outs -> call + p_call p - slot <= g.
Proof.
  intros (R1 & R2 & R4 & R5 & R6) K. apply R5.
  pose proof (kp_since _ _ _ _ _ _ _ _ _ _ _ _ _ _ _ _ K) as S.
  pose proof (kp_clock _ _ _ _ _ _ _ _ _ _ _ _ _ _ _ _ K) as (_ & _ & _ & _ & _ & _ & _ & _ & C9 & C10).
  assert (A : io_o2tAPI c = sp_api s) by (rewrite <- (kp_spec _ _ _ _ _ _ _ _ _ _ _ _ _ _ _ _ K); reflexivity).
  rewrite A in C10. assert (1000000 * k_since k <= 1000 * sp_api s) by lia. nia.
Qed.
Lemma kept_there s p t0 b g call send items l c k mark slot sends slots outs lim : room s p b t0 lim g ->
  kept s p t0 b g call send items l c k mark slot sends slots outs ->
  forall t, t <= call + p_call p -> gone lim (lp_heard l) t = false.
Proof.
  intros R K t T. pose proof (kept_since_api _ _ _ _ _ _ _ _ _ _ _ _ _ _ _ _ _ R K) as D.
  destruct R as (R1 & (_ & R2 & R3 & _) & R4 & R5 & R6 & R7).
  destruct (gone lim (lp_heard l) t) eqn:G; [|reflexivity]. exfalso.
  apply existsb_exists in G. destruct G as (x & X & G). apply andb_true_iff in G. destruct G as [G1 G2].
  apply Z.ltb_lt in G1. apply negb_true_iff in G2.
  pose proof (kp_heard _ _ _ _ _ _ _ _ _ _ _ _ _ _ _ _ K x X) as HX.
  pose proof (kp_slot _ _ _ _ _ _ _ _ _ _ _ _ _ _ _ _ K) as SL.
  destruct (kp_slots _ _ _ _ _ _ _ _ _ _ _ _ _ _ _ _ K (x + lim - p_delay p) ltac:(lia)) as (q & Q & HQ).
  destruct (kp_hears _ _ _ _ _ _ _ _ _ _ _ _ _ _ _ _ K q Q) as (y & Y & HY).
  assert (N : existsb (fun y => (x <? y) && (y <=? x + lim)) (lp_heard l) = true).
  { apply existsb_exists. exists y. split; [assumption|]. apply andb_true_iff. split; [apply Z.ltb_lt|apply Z.leb_le]; lia. }
  congruence.
Qed.

Lemma kept_send s p t0 b g call send items l c k mark slot sends slots outs t a d :
  kept s p t0 b g call send items l c k mark slot sends slots outs ->
  call <= t <= a -> send <= t -> t <= send + p_send p -> a <= t + p_delay p -> good_item s d ->
  kept s p t0 b g call t (items ++ [d]) (mkLoop (lp_end l) (lp_ev l) (lp_ops l) (arrive a d (lp_air l)) (lp_heard l)) c k mark slot (sends ++ [t]) slots outs.
Proof.
  intros [] TC T0 T A G. constructor; cbn [lp_end lp_ev lp_ops lp_air lp_heard]; try assumption.
  - eapply covers_more; eauto.
  - intros x I. apply in_app_or in I. destruct I as [I|[<-|[]]].
    + destruct (kp_each0 x I) as [M|(a' & d' & I' & L)]; [now left|]. right. exists a', d'. split; [apply arrive_in; now right|assumption].
    + right. exists a, d. split; [apply arrive_in; now left|assumption].
  - intros x I. apply in_app_or in I. destruct I as [I|[<-|[]]]; [|lia]. pose proof (kp_sent0 x I). lia.
  - apply Forall_forall. intros q I. apply arrive_in in I. destruct I as [->|I]; [assumption|].
    rewrite Forall_forall in kp_air0. auto.
  - apply Forall_forall. intros q I. apply arrive_in in I. destruct I as [->|I]; [cbn [fst]; lia|].
    rewrite Forall_forall in kp_late0. auto.
  - rewrite map_app. cbn [map]. rewrite (Permutation_map (fun q => body_of s (snd q)) (arrive_perm a d (lp_air l))), map_app, app_assoc. cbn [map snd].
    now apply Permutation_app_tail.
Qed.

Lemma kept_set s p t0 b g call send items l c k mark slot sends slots outs d :
  kept s p t0 b g call send items l c k mark slot sends slots outs -> good_out s d ->
  kept s p t0 b g call send items (mkLoop (Open (io_set_output c d)) (lp_ev l) (lp_ops l ++ [SetOut d]) (lp_air l) (lp_heard l))
    (io_set_output c d) (mkClock (k_last k) (k_idle k) (k_since k) (k_slots k) d) mark slot sends slots outs.
Proof.
  intros [] G. constructor; cbn [lp_end lp_ev lp_ops lp_air lp_heard k_last k_idle k_since k_slots k_out]; try assumption; try reflexivity.
  - destruct kp_clock0 as (C1 & C2 & C3 & C4 & C5 & C6 & C7). unfold clocked. cbn [k_last k_idle k_since k_slots k_out io_set_output io_last io_tcount io_o2tTimer io_o2tSeq io_seqCount io_trigger io_out io_mult io_t2oAPI io_o2tAPI].
    repeat match goal with |- _ /\ _ => split end; try assumption; try apply C7; reflexivity.
  - intros r S. rewrite <- app_assoc. apply kp_sane0. cbn [app sane]. split; [apply G|assumption].
Qed.

(** Counting whole milliseconds. *)
Lemma ms_enough m d : 1 <= m -> 1000000 * m <= d -> m * d <= (m + 1) * (1000000 * (d / 1000000)).
Proof. intros M D. assert (m <= d / 1000000) by lia. assert (d = 1000000 * (d / 1000000) + d mod 1000000) by lia. nia. Qed.

Lemma kept_call h s p t0 b g lim call send items l c k mark slot sends slots outs t a hook sr : room s p b t0 lim g ->
  kept s p t0 b g call send items l c k mark slot sends slots outs ->
  call + 1000000 * p_least p <= t -> t <= call + p_call p -> t <= send + p_send p -> send <= t -> t <= a <= t + p_delay p ->
  (forall d, zlen d <= 65000 -> zlen (hook d) <= 65000) ->
  (forall d, fits (sp_o2tSize s) d = true -> fits (sp_o2tSize s) (hook d) = true) -> (forall n, s_count (sr n) = n) ->
  exists c' k' mark' slot' slots' outs',
    kept s p t0 b g t send items (lp_step h lim l (LCall t a hook sr)) c' k' mark' slot' sends slots' outs'
    /\ received (lp_ev (lp_step h lim l (LCall t a hook sr)))
       = received (lp_ev l) ++ map (fun q => body_of s (snd q)) (filter (fun q => fst q <=? t) (lp_air l))
    /\ lp_air (lp_step h lim l (LCall t a hook sr)) = filter (fun q => t <? fst q) (lp_air l).
Proof.
  intros R K T1 T2 T3 T4 TA Hk1 Hk2 Sr.
  pose proof (kept_since_api _ _ _ _ _ _ _ _ _ _ _ _ _ _ _ _ _ R K) as D.
  destruct K. destruct R as (R1 & (R2 & R3 & R6 & R4 & R5) & R7 & R8 & R9 & R10).
  cbn [lp_step]. rewrite kp_open0.
  set (ds := filter (fun q => fst q <=? t) (lp_air l)). set (ops := _ ++ [Tick t hook sr]).
  assert (Fd : Forall (fun q => good_item s (snd q)) ds).
  { apply Forall_forall. intros q I. apply filter_In in I. rewrite Forall_forall in kp_air0. now apply kp_air0. }
  assert (Gap : (t - call) / 1000000 * 1000 + Z.max (sp_limit s) (sp_api s) < 2 ^ 32).
  { assert ((t - call) / 1000000 * 1000 <= p_call p / 1000) by lia. lia. }
  assert (Sa : forall r, sane s t r -> sane s call (ops ++ r)).
  { intros r S. unfold ops. rewrite <- app_assoc. apply sane_recv; [assumption|]. cbn [app sane]. repeat split; auto; lia. }
  pose proof (run_refines h s ops c k kp_spec0 kp_wf0 kp_clock0 (proj1 kp_out0)) as RR. rewrite kp_last0 in RR.
  specialize (RR ltac:(rewrite <- (app_nil_r ops); apply Sa; exact Logic.I)).
  rewrite (spec_recv s ds [Tick t hook sr] k Fd : spec_run s ops k = _) in RR.
  set (k1 := match ds with [] => k | _ => mkClock (k_last k) 0 (k_since k) (k_slots k) (k_out k) end) in RR.
  set (mark1 := match ds with [] => mark | _ => call end).
  assert (K1 : k_last k1 = call /\ k_since k1 = k_since k /\ k_slots k1 = k_slots k /\ k_out k1 = k_out k).
  { unfold k1. destruct ds; cbn [k_last k_since k_slots k_out]; auto. }
  destruct K1 as (K1 & K2 & K3 & K4).
  pose proof kp_clock0 as (_ & _ & _ & _ & _ & _ & I0 & _ & S0 & _).
  assert (I1 : 1000000 * k_idle k1 <= call - mark1 /\ t0 <= mark1).
  { unfold k1, mark1. destruct ds; cbn [k_idle]; lia. }
  assert (Each : forall x, In x sends -> x - p_call p <= mark1 \/ exists a d, In (a, d) (filter (fun q => t <? fst q) (lp_air l)) /\ a <= x + p_delay p).
  { intros x I. destruct (kp_each0 x I) as [M|(a' & d' & I' & L)].
    - left. unfold mark1. destruct ds; lia.
    - destruct (Z.leb_spec a' t) as [Le|Gt].
      + left. assert (In (a', d') ds) by (apply filter_In; split; [assumption|now apply Z.leb_le]).
        unfold mark1. destruct ds as [|e ds']; [contradiction|].
        pose proof (kp_sent0 x I). lia.
      + right. exists a', d'. split; [|assumption]. apply filter_In. split; [assumption|now apply Z.ltb_lt]. }
  assert (NC : 1000 * (k_idle k1 + (t - call) / 1000000) <= sp_limit s).
  { assert (X : t - mark1 <= 1000 * sp_limit s); [|lia].
    destruct (Z_lt_le_dec (t - p_delay p) b) as [?|?]; [lia|].
    destruct (kp_sends0 (t - p_delay p) ltac:(lia)) as (q & Q & HQ).
    destruct (Each q Q) as [M|(a' & d' & I' & L)]; [lia|].
    apply filter_In in I'. destruct I' as [_ I']. apply Z.ltb_lt in I'. cbn [fst] in I'. lia. }
  assert (Air : Forall (fun q => good_item s (snd q)) (filter (fun q => t <? fst q) (lp_air l))).
  { apply Forall_forall. intros q I. apply filter_In in I. rewrite Forall_forall in kp_air0. now apply kp_air0. }
  assert (Late : Forall (fun q => t <= fst q) (filter (fun q => t <? fst q) (lp_air l))).
  { apply Forall_forall. intros q I. apply filter_In in I. destruct I as [_ I]. apply Z.ltb_lt in I. lia. }
  assert (Perm : forall rest, received rest = [] ->
    Permutation (received (lp_ev l ++ map (fun q => data_ev s (snd q)) ds ++ rest) ++ map (fun q => body_of s (snd q)) (filter (fun q => t <? fst q) (lp_air l))) (map (body_of s) items)).
  { intros rest E. unfold received at 1. rewrite flat_map_app. fold (received (lp_ev l)). fold (received (map (fun q => data_ev s (snd q)) ds ++ rest)).
    rewrite received_data, E, app_nil_r, <- app_assoc, <- map_app. rewrite <- kp_data0. apply Permutation_app_head, Permutation_map.
    unfold ds. apply filter_perm. intros q. now rewrite Z.ltb_antisym. }
  assert (Rc : forall rest, received rest = [] -> received (lp_ev l ++ map (fun q => data_ev s (snd q)) ds ++ rest)
    = received (lp_ev l) ++ map (fun q => body_of s (snd q)) ds).
  { intros rest E. unfold received at 1. rewrite flat_map_app. fold (received (lp_ev l)). fold (received (map (fun q => data_ev s (snd q)) ds ++ rest)).
    now rewrite received_data, E, app_nil_r. }
  assert (Since : p_least p * (t - slot) <= (p_least p + 1) * (1000000 * (k_since k + (t - call) / 1000000))).
  { pose proof (ms_enough (p_least p) (t - call) R1 ltac:(lia)). nia. }
  assert (Cl : forall rest, closings rest = [] -> closings (lp_ev l ++ map (fun q => data_ev s (snd q)) ds ++ rest) = []).
  { intros rest E. unfold closings in *. rewrite !flat_map_app, kp_closed0, E, app_nil_r. cbn [app].
    clear. induction ds as [|q ds IH]; [reflexivity|exact IH]. }
  cbn [spec_run] in RR. rewrite K1, K2, K3, K4 in RR.
  destruct (Z.ltb_spec (sp_limit s) (1000 * (k_idle k1 + (t - call) / 1000000))) as [?|_]; [lia|].
  destruct (Z.leb_spec (sp_api s) (1000 * (k_since k + (t - call) / 1000000))) as [Sl|NSl].
  - rewrite Hk2 in RR by apply kp_out0. cbn [app] in RR.
    destruct (io_run h ops c) as [[c'| |] ev] eqn:ER; try (exfalso; exact RR). destruct RR as (Ev & RS & RW & RC & RT).
    exists c', (mkClock t (k_idle k1 + (t - call) / 1000000) 0 (k_slots k + 1) (hook (k_out k))), mark1, t, (slots ++ [t]), (outs ++ [hook (k_out k)]).
    assert (Tk : taken sr ev = true).
    { rewrite Ev, taken_app, taken_data. cbn [taken existsb orb]. now rewrite Sr, Z.eqb_refl. }
    rewrite Tk. split; [|split; [cbn [lp_ev]; rewrite Ev; now apply Rc|reflexivity]]. constructor; cbn [lp_end lp_ev lp_ops lp_air lp_heard k_last k_idle k_since k_slots k_out]; try assumption; try reflexivity.
    + split; [apply Hk1; apply kp_out0|apply Hk2; apply kp_out0].
    + lia.
    + apply I1.
    + rewrite Z.sub_diag. lia.
    + lia.
    + eapply covers_more; [exact kp_slots0|lia].
    + intros q I. apply in_app_or in I. destruct I as [I|[<-|[]]].
      * destruct (kp_hears0 q I) as (y & Y & HY). exists y. split; [apply in_or_app; now left|assumption].
      * exists a. split; [apply in_or_app; right; now left|lia].
    + intros y I. apply in_app_or in I. destruct I as [I|[<-|[]]]; [now apply kp_heard0|lia].
    + rewrite Ev. now apply Perm.
    + rewrite Ev, sent_app, sent_recv, kp_packets0. cbn [sent_data flat_map app]. rewrite numbered_snoc, kp_count0.
      now rewrite (Z.add_comm 1).
    + rewrite zlen_app, kp_count0. reflexivity.
    + apply Forall_app. split; [assumption|]. constructor; [|constructor]. split; [apply Hk1; apply kp_out0|apply Hk2; apply kp_out0].
    + rewrite Ev. now apply Cl.
    + intros r S. rewrite <- app_assoc. apply kp_sane0, Sa, S.
  - destruct (io_run h ops c) as [[c'| |] ev] eqn:ER; try (exfalso; exact RR). destruct RR as (Ev & RS & RW & RC & RT).
    exists c', (mkClock t (k_idle k1 + (t - call) / 1000000) (k_since k + (t - call) / 1000000) (k_slots k) (k_out k)), mark1, slot, slots, outs.
    assert (Tk : taken sr ev = false) by (rewrite Ev, taken_app, taken_data; reflexivity).
    rewrite Tk. split; [|split; [cbn [lp_ev]; rewrite Ev; now apply Rc|reflexivity]]. constructor; cbn [lp_end lp_ev lp_ops lp_air lp_heard k_last k_idle k_since k_slots k_out]; try assumption; try reflexivity.
    + lia.
    + apply I1.
    + lia.
    + rewrite Ev. now apply Perm.
    + rewrite Ev, sent_app, sent_recv, kp_packets0. cbn [sent_data flat_map app]. apply app_nil_r.
    + rewrite Ev. now apply Cl.
    + intros r S. rewrite <- app_assoc. apply kp_sane0, Sa, S.
Qed.

Lemma kept_run h s p t0 b g lim xs : room s p b t0 lim g ->
  forall call send items l c k mark slot sends slots outs,
  kept s p t0 b g call send items l c k mark slot sends slots outs -> paced s p call send xs ->
  exists call' send' c' k' mark' slot' sends' slots' outs',
    kept s p t0 b g call' send' (items ++ items_sent xs) (lp_run h lim xs l) c' k' mark' slot' sends' slots' outs'.
Proof.
  intros R. induction xs as [|[t a d|t a hook sr|d] xs IH]; intros call send items l c k mark slot sends slots outs K P.
  - cbn. rewrite app_nil_r. do 9 eexists. exact K.
  - destruct P as (P1 & P2 & P3 & P4 & P5 & P6 & P7). cbn [lp_run fold_left lp_step items_sent flat_map].
    rewrite (kept_there _ _ _ _ _ _ _ _ _ _ _ _ _ _ _ _ _ R K t ltac:(lia)).
    pose proof (kept_send _ _ _ _ _ _ _ _ _ _ _ _ _ _ _ _ t a d K ltac:(lia) ltac:(lia) ltac:(lia) ltac:(lia) P6) as K'.
    rewrite app_assoc. exact (IH _ _ _ _ _ _ _ _ _ _ _ K' P7).
  - destruct P as (P1 & P2 & P3 & P4 & P5 & P6 & P7 & P8 & P9). cbn [lp_run fold_left items_sent flat_map app].
    destruct (kept_call h _ _ _ _ _ _ _ _ _ _ _ _ _ _ _ _ _ t a hook sr R K P1 P3 P4 P2 P5 P6 P7 P8) as (c' & k' & mark' & slot' & slots' & outs' & K' & _).
    exact (IH _ _ _ _ _ _ _ _ _ _ _ K' P9).
  - destruct P as (P1 & P2). cbn [lp_run fold_left lp_step items_sent flat_map app]. rewrite (kp_open _ _ _ _ _ _ _ _ _ _ _ _ _ _ _ _ K).
    exact (IH _ _ _ _ _ _ _ _ _ _ _ (kept_set _ _ _ _ _ _ _ _ _ _ _ _ _ _ _ _ d K P1) P2).
Qed.

(** ** Data in order *)
Inductive asc (hi : Z) : Z -> list (Z * bytes) -> Prop :=
| asc_nil lo : asc hi lo []
| asc_cons lo a d r : lo <= a <= hi -> asc hi a r -> asc hi lo ((a, d) :: r).
Lemma asc_up hi hi' lo l : hi <= hi' -> asc hi lo l -> asc hi' lo l.
Proof. intros L A. induction A; constructor; [lia|assumption]. Qed.
Lemma asc_lo hi lo lo' l : lo' <= lo -> asc hi lo l -> asc hi lo' l.
Proof. intros L A. destruct A; constructor; [lia|assumption]. Qed.
Lemma asc_arrive hi lo l a d : asc hi lo l -> hi <= a -> lo <= a -> arrive a d l = l ++ [(a, d)] /\ asc a lo (l ++ [(a, d)]).
Proof.
  intros A H L. induction A as [lo|lo a' d' r B A IH]; cbn [arrive app].
  - split; [reflexivity|]. constructor; [lia|constructor].
  - destruct (Z.ltb_spec a a') as [?|_]; [lia|]. destruct IH as [E F]; [lia|]. rewrite E. split; [reflexivity|]. constructor; [lia|exact F].
Qed.
Lemma asc_above hi lo l t : asc hi lo l -> t < lo -> filter (fun q => fst q <=? t) l = [] /\ filter (fun q => t <? fst q) l = l.
Proof.
  intros A L. induction A as [lo|lo a d r B A IH]; cbn [filter fst]; [auto|].
  destruct (Z.leb_spec a t); [lia|]. destruct (Z.ltb_spec t a); [|lia]. destruct IH as [E F]; [lia|]. now rewrite E, F.
Qed.
Lemma asc_split hi lo l t : asc hi lo l -> filter (fun q => fst q <=? t) l ++ filter (fun q => t <? fst q) l = l /\ asc hi lo (filter (fun q => t <? fst q) l).
Proof.
  intros A. induction A as [lo|lo a d r B A IH]; cbn [filter fst app]; [split; [reflexivity|constructor]|].
  destruct (Z.leb_spec a t), (Z.ltb_spec t a); try lia.
  - cbn [app]. destruct IH as [E F]. rewrite E. split; [reflexivity|]. apply (asc_lo hi a); [lia|exact F].
  - destruct (asc_above hi a r t A ltac:(lia)) as [E F]. rewrite E, F. split; [reflexivity|]. constructor; assumption.
Qed.
Lemma ordered_run h s p t0 b g lim xs : room s p b t0 lim g ->
  forall call send items l c k mark slot sends slots outs a0 lo,
  kept s p t0 b g call send items l c k mark slot sends slots outs -> paced s p call send xs -> in_order a0 xs ->
  asc a0 lo (lp_air l) -> lo <= a0 -> received (lp_ev l) ++ map (fun q => body_of s (snd q)) (lp_air l) = map (body_of s) items ->
  received (lp_ev (lp_run h lim xs l)) ++ map (fun q => body_of s (snd q)) (lp_air (lp_run h lim xs l)) = map (body_of s) (items ++ items_sent xs).
Proof.
  intros R. induction xs as [|[t a d|t a hook sr|d] xs IH]; intros call send items l c k mark slot sends slots outs a0 lo K P O A Lo E.
  - cbn. now rewrite app_nil_r.
  - destruct P as (P1 & P2 & P3 & P4 & P5 & P6 & P7). destruct O as [O1 O2]. cbn [lp_run fold_left lp_step items_sent flat_map].
    rewrite (kept_there _ _ _ _ _ _ _ _ _ _ _ _ _ _ _ _ _ R K t ltac:(lia)).
    pose proof (kept_send _ _ _ _ _ _ _ _ _ _ _ _ _ _ _ _ t a d K ltac:(lia) ltac:(lia) ltac:(lia) ltac:(lia) P6) as K'.
    destruct (asc_arrive a0 lo (lp_air l) a d A O1 ltac:(lia)) as [AE AA].
    rewrite app_assoc. refine (IH _ _ _ _ _ _ _ _ _ _ _ a lo K' P7 O2 _ ltac:(lia) _); cbn [lp_air lp_ev]; rewrite AE; [exact AA|].
    rewrite !map_app, app_assoc, E. reflexivity.
  - destruct P as (P1 & P2 & P3 & P4 & P5 & P6 & P7 & P8 & P9). cbn [lp_run fold_left items_sent flat_map app in_order] in *.
    destruct (kept_call h _ _ _ _ _ _ _ _ _ _ _ _ _ _ _ _ _ t a hook sr R K P1 P3 P4 P2 P5 P6 P7 P8) as (c' & k' & mark' & slot' & slots' & outs' & K' & E1 & E2).
    destruct (asc_split a0 lo (lp_air l) t A) as [S1 S2].
    refine (IH _ _ _ _ _ _ _ _ _ _ _ a0 lo K' P9 O _ Lo _); [now rewrite E2|]. rewrite E1, E2, <- app_assoc, <- map_app, S1. exact E.
  - destruct P as (P1 & P2). cbn [lp_run fold_left lp_step items_sent flat_map app in_order] in *. rewrite (kp_open _ _ _ _ _ _ _ _ _ _ _ _ _ _ _ _ K).
    exact (IH _ _ _ _ _ _ _ _ _ _ _ a0 lo (kept_set _ _ _ _ _ _ _ _ _ _ _ _ _ _ _ _ d K P1) P2 O A Lo E).
Qed.

(** ** From the start *)
Lemma kept_new c p b lim : io_wf c -> fresh_io c -> good_out (spec_of c) (io_out c) -> 1 <= p_least p ->
  room_here (spec_of c) p -> room_there (spec_of c) p lim -> b <= io_last c <= b + p_delay p ->
  let g := ((p_least p + 1) * (1000 * sp_api (spec_of c)) + p_least p * p_call p) / p_least p in
  room (spec_of c) p b (io_last c) lim g
  /\ kept (spec_of c) p (io_last c) b g (io_last c) b [] (lp_new c b) c (clock0 c) (io_last c) (io_last c) [b] [io_last c] [].
Proof.
  intros W F G L RH RT B g. set (s := spec_of c) in *.
  assert (A0 : 0 <= sp_api s) by (destruct W as (_ & [W _] & _); exact W).
  assert (RG : forall d, p_least p * d <= (p_least p + 1) * (1000 * sp_api s) + p_least p * p_call p -> d <= g).
  { intros d D. unfold g. apply Z.div_le_lower_bound; lia. }
  split.
  - split; [assumption|]. split; [assumption|]. split; [exact A0|]. split; [exact RG|]. split; [|assumption].
    assert (g < lim - 2 * p_delay p); [|lia]. unfold g. apply Z.div_lt_upper_bound; [lia|]. unfold room_there in RT. lia.
  - constructor; cbn [lp_new lp_end lp_ev lp_ops lp_air lp_heard clock0 k_last k_idle k_since k_slots k_out map app]; try assumption; try reflexivity; try lia.
    + now apply fresh_clocked.
    + apply covers_one.
    + intros x [<-|[]]. left. destruct RH as (_ & _ & ? & _). lia.
    + intros x [<-|[]]. lia.
    + constructor.
    + constructor.
    + apply covers_one.
    + intros q [<-|[]]. exists b. split; [now left|]. lia.
    + intros y [<-|[]]. lia.
    + constructor.
    + auto.
Qed.

(** One [LOut] first. *)
Lemma kept_start h c p b lim xs : io_wf c -> fresh_io c -> has_out c xs -> 1 <= p_least p ->
  room_here (spec_of c) p -> room_there (spec_of c) p lim -> b <= io_last c <= b + p_delay p -> paced (spec_of c) p (io_last c) b xs ->
  let g := ((p_least p + 1) * (1000 * sp_api (spec_of c)) + p_least p * p_call p) / p_least p in
  room (spec_of c) p b (io_last c) lim g
  /\ exists c1 k l ys, kept (spec_of c) p (io_last c) b g (io_last c) b [] l c1 k (io_last c) (io_last c) [b] [io_last c] []
     /\ lp_run h lim xs (lp_new c b) = lp_run h lim ys l /\ paced (spec_of c) p (io_last c) b ys /\ items_sent xs = items_sent ys
     /\ lp_air l = [] /\ lp_ev l = [] /\ (forall a0, in_order a0 xs -> in_order a0 ys).
Proof.
  intros W F G L RH RT B P g.
  destruct xs as [|[t a d|t a hook sr|d] xs].
  1-3: destruct (kept_new c p b lim W F G L RH RT B) as [R K]; split; [exact R|]; eexists _, _, _, _;
       split; [exact K|]; split; [reflexivity|]; split; [exact P|]; auto.
  destruct P as [P1 P2]. destruct (kept_new (io_set_output c d) p b lim W F P1 L RH RT B) as [R K]. split; [exact R|].
  exists (io_set_output c d), (clock0 (io_set_output c d)), (mkLoop (Open (io_set_output c d)) [] [SetOut d] [] [b]), xs.
  split; [|split; [reflexivity|split; [exact P2|auto]]].
  destruct K. constructor; cbn [lp_end lp_ev lp_ops lp_air lp_heard lp_new] in *; try assumption; try reflexivity.
  intros r S. cbn [app sane]. split; [apply P1|exact S].
Qed.

Lemma loop_kept h c lim p b xs : io_wf c -> fresh_io c -> has_out c xs -> 1 <= p_least p ->
  room_here (spec_of c) p -> room_there (spec_of c) p lim -> b <= io_last c <= b + p_delay p ->
  paced (spec_of c) p (io_last c) b xs ->
  let s := spec_of c in let l := lp_run h lim xs (lp_new c b) in
  exists c' outs, lp_end l = Open c' /\ closings (lp_ev l) = []
    /\ (forall t, t <= io_last c' + p_call p -> gone lim (lp_heard l) t = false)
    /\ Permutation (received (lp_ev l) ++ map (fun q => skipn (head_of s) (snd q)) (lp_air l)) (map (skipn (head_of s)) (items_sent xs))
    /\ Forall (fun q => io_last c' <= fst q) (lp_air l)
    /\ sent_data (lp_ev l) = numbered s 1 outs /\ Forall (good_out s) outs
    /\ sane s (io_last c) (lp_ops l).
Proof.
  intros W F G L RH RT B P s l. destruct (kept_start h c p b lim xs W F G L RH RT B P) as (R & c1 & k & l1 & ys & K & E & P' & I & _).
  unfold l. rewrite E, I. clear l E. set (l := lp_run h lim ys l1).
  destruct (kept_run h _ _ _ _ _ lim ys R _ _ _ _ _ _ _ _ _ _ _ K P') as (call' & send' & c' & k' & mark' & slot' & sends' & slots' & outs' & K').
  fold l in K'. fold s in K'. exists c', outs'.
  assert (Ec : io_last c' = call') by (rewrite <- (proj1 (kp_clock _ _ _ _ _ _ _ _ _ _ _ _ _ _ _ _ K')); apply K').
  split; [apply K'|]. split; [apply K'|]. split.
  { intros t T. apply (kept_there _ _ _ _ _ _ _ _ _ _ _ _ _ _ _ _ _ R K'). lia. }
  split; [apply K'|]. split; [rewrite Ec; apply K'|]. split; [apply K'|]. split; [apply K'|].
  rewrite <- (app_nil_r (lp_ops l)). apply (kp_sane _ _ _ _ _ _ _ _ _ _ _ _ _ _ _ _ K'). exact Logic.I.
Qed.

Lemma loop_ordered h c lim p b a0 xs : io_wf c -> fresh_io c -> has_out c xs -> 1 <= p_least p ->
  room_here (spec_of c) p -> room_there (spec_of c) p lim -> b <= io_last c <= b + p_delay p ->
  paced (spec_of c) p (io_last c) b xs -> in_order a0 xs ->
  let s := spec_of c in let l := lp_run h lim xs (lp_new c b) in
  received (lp_ev l) ++ map (fun q => skipn (head_of s) (snd q)) (lp_air l) = map (skipn (head_of s)) (items_sent xs).
Proof.
  intros W F G L RH RT B P O s l. destruct (kept_start h c p b lim xs W F G L RH RT B P) as (R & c1 & k & l1 & ys & K & E & P' & I & A & V & O').
  unfold l. rewrite E, I. 
  apply (ordered_run h _ _ _ _ _ lim ys R _ _ _ _ _ _ _ _ _ _ _ a0 a0 K P' (O' a0 O)); [rewrite A; constructor|lia|now rewrite A, V].
Qed.

(** ** In a history *)
Lemma loop_history {S} i (before after : list (nat * call S)) use8 si host env large cp w0 oid w1 c lim p b :
  new_world w0 -> Forall (fun x => sends_whole (snd x)) (before ++ after) -> Forall (fun x => byte_grams (snd x)) after ->
  call_world strict i (COpen use8 si host env large cp) (run_calls strict before w0) = (Ok (Some oid), w1) ->
  lock oid (w_m w1 i) = Some c ->
  let m' := w_m (run_calls strict after w1) i in
  exists ops, life strict i oid (io_t2oId c) after w1 ops
    /\ forall xs, ops = lp_ops (lp_run strict lim xs (lp_new c b)) -> has_out c xs -> 1 <= p_least p ->
       room_here (spec_of c) p -> room_there (spec_of c) p lim -> b <= io_last c <= b + p_delay p ->
       paced (spec_of c) p (io_last c) b xs ->
       about oid (m_log m') = lp_ev (lp_run strict lim xs (lp_new c b))
       /\ (lock oid m' <> None \/ exists use8 si, In (i, CClose use8 si oid) after).
Proof.
  intros N W B E L m'. pose proof W as W'. apply Forall_app in W' as [W1 _].
  destruct (opened_fresh i before use8 si host env large cp w0 oid w1 c N W1 E L) as (Wf & Fr & Ou).
  destruct (whole_life i before after use8 si host env large cp w0 oid w1 c N W B E L) as (ops & LF & AB & ST & _).
  fold m' in AB, ST. exists ops. split; [exact LF|]. intros xs Eo G Lm RH RT Bb P.
  pose proof (loop_run strict lim c xs (lp_new c b) eq_refl) as R. rewrite <- Eo in R. rewrite R in AB, ST. cbn [fst snd] in AB, ST.
  split; [exact AB|].
  destruct (loop_kept strict c lim p b xs Wf Fr G Lm RH RT Bb P) as (c' & outs & En & _). rewrite En in ST.
  destruct ST as [ST|[_ ST]]; [left; congruence|now right].
Qed.

(** ** Examples and refutations *)
Definition demo_pace : pace := mkPace 18000000 20000000 20 2000000.
Definition loop_steps : list lstep := [LOut [5; 6]; LSend 10000000 12000000 [1; 0; 9]; LCall 20000000 21000000 same_out all_sent].
Lemma demo_item s : sp_t2oHead s = false -> sp_seq s = true -> sp_t2oSize s = None -> good_item s [1; 0; 9].
Proof.
  intros A B C. unfold good_item, head_of. rewrite A, B, C. split; [repeat constructor; cbn; lia|]. split; [cbn; lia|reflexivity].
Qed.
Lemma loop_life_example :
  life strict 0 0 (io_t2oId con1) (firstn 3 life_ops) after1 (lp_ops (lp_run strict 40000000 loop_steps (lp_new con1 0)))
  /\ has_out con1 loop_steps /\ room_here (spec_of con1) demo_pace /\ room_there (spec_of con1) demo_pace 40000000
  /\ paced (spec_of con1) demo_pace (io_last con1) 0 loop_steps
  /\ lp_ev (lp_run strict 40000000 loop_steps (lp_new con1 0)) = [EvData 0 0 1 [9]; EvSent 0 (io_dest con1) (io_packet (spec_of con1) 1 [5; 6])].
Proof.
  split.
  { unfold life_ops. cbn [firstn].
  change (lp_ops _) with ([SetOut [5; 6]] ++ [] ++ (map (Recv 0) [[1; 0; 9]] ++ [Tick 20000000 same_out all_sent]) ++ []).
  destruct (call_world strict 0 (CData 0 [5; 6]) after1) as [o1 w1] eqn:E1.
  assert (A1 : o1 = Ok None /\ lock 0 (w_m w1 0%nat) <> None) by (vm_compute in E1; inv E1; split; [reflexivity|vm_compute; discriminate]). destruct A1 as [-> A1].
  apply (lf_call strict 0 0 (io_t2oId con1) 0 (CData 0 [5; 6]) _ after1 (Ok None) w1 [SetOut [5; 6]]); [vm_compute; discriminate|exact E1|constructor|].
  destruct (call_world strict 1 (open_call 0x10007 10000 10000 (class1 1 0)) w1) as [o2 w2] eqn:E2.
  assert (A2 : lock 0 (w_m w2 0%nat) <> None /\ List.length (m_socks (w_m w2 0%nat)) = 1%nat)
    by (vm_compute in E1; inv E1; vm_compute in E2; inv E2; split; [vm_compute; discriminate|reflexivity]). destruct A2 as [A2 N2].
  apply (lf_call strict 0 0 (io_t2oId con1) 1 _ _ w1 o2 w2 []); [exact A1|exact E2|reflexivity|].
  match goal with |- life _ _ _ _ ((0%nat, ?op) :: _) _ _ => destruct (call_world strict 0 op w2) as [o3 w3] eqn:E3 end.
  assert (A3 : o3 = Ok None) by (vm_compute in E1; inv E1; vm_compute in E2; inv E2; vm_compute in E3; inv E3; reflexivity). subst o3.
  eapply (lf_call strict 0 0 (io_t2oId con1) 0 _ _ w2 (Ok None) w3 (map (Recv 0) [[1; 0; 9]] ++ [Tick 20000000 same_out all_sent]) []); [exact A2|exact E3| |constructor].
  rewrite Nat.eqb_refl, N2. apply (fd_handled 1 0 (io_t2oId con1) _ SelQuiet (at_ms 20)). apply dl_other; [|apply dl_mine; [|constructor]].
  - apply gram_other; [unfold is_u32; lia|repeat constructor; cbn; lia|vm_compute; discriminate|vm_compute; reflexivity].
  - apply gram_brings; [unfold is_u32; lia|repeat constructor; cbn; lia|vm_compute; reflexivity|vm_compute; reflexivity]. }
  change (io_last con1) with 0. change (spec_of con1) with (mkIoSpec 0 (sp_dest (spec_of con1)) 168496141 40000 10000 None None true false false).
  split; [exact Logic.I|]. split; [unfold room_here, demo_pace; cbn; lia|]. split; [unfold room_there, demo_pace; cbn; lia|].
  split; [|vm_compute; reflexivity].
  unfold loop_steps, demo_pace. cbn [paced p_send p_call p_least p_delay]. split; [split; [cbn; lia|reflexivity]|].
  repeat (split; [lia|]). split; [apply demo_item; reflexivity|]. repeat (split; [lia|]). split; [intros d D; exact D|]. split; [intros d D; exact D|]. split; [reflexivity|exact Logic.I].
Qed.

Fixpoint fast (n : nat) (t : Z) : list lstep :=
  match n with
  | O => []
  | Datatypes.S n' => (if Nat.eqb (Nat.modulo n 8) 0 then [LSend t t [1; 0; 9]] else []) ++ LCall (t + 999999) (t + 999999) same_out all_sent :: fast n' (t + 999999)
  end.
Lemma fast_paced s p n : sp_t2oHead s = false -> sp_seq s = true -> sp_t2oSize s = None ->
  p_call p = 999999 -> p_least p = 0 -> p_delay p = 0 -> p_send p = 10000000 ->
  forall t send, send <= t -> t + 999999 * Z.of_nat (Nat.modulo n 8) <= send + 9000000 -> paced s p t send (fast n t).
Proof.
  intros A B C P1 P2 P3 P4. induction n as [|n IH]; intros t send S T; [exact Logic.I|].
  cbn [fast]. assert (M : (Nat.modulo (Datatypes.S n) 8 = 0 /\ Nat.modulo n 8 = 7)%nat \/ (Nat.modulo (Datatypes.S n) 8 = Datatypes.S (Nat.modulo n 8))%nat).
  { pose proof (Nat.div_mod_eq (Datatypes.S n) 8). pose proof (Nat.div_mod_eq n 8). pose proof (Nat.mod_upper_bound n 8 ltac:(lia)). pose proof (Nat.mod_upper_bound (Datatypes.S n) 8 ltac:(lia)). lia. }
  assert (Q : forall send, send <= t -> t + 999999 + 999999 * Z.of_nat (Nat.modulo n 8) <= send + 9000000 ->
    paced s p t send (LCall (t + 999999) (t + 999999) same_out all_sent :: fast n (t + 999999))).
  { intros send' S' T'. cbn [paced]. rewrite P1, P2, P3, P4. repeat (split; [lia|]). split; [intros d D; exact D|]. split; [intros d D; exact D|]. split; [reflexivity|].
    apply IH; lia. }
  destruct M as [[M1 M2]|M].
  - rewrite M1. cbn [Nat.eqb app]. pose proof (Q t ltac:(lia) ltac:(lia)) as Q'. clear Q. set (r := LCall _ _ _ _ :: _) in *. cbn [paced]. repeat (split; [rewrite ?P1, ?P3, ?P4; lia|]). split; [now apply demo_item|]. exact Q'.
  - rewrite M. cbn [Nat.eqb app]. apply Q; [assumption|]. rewrite M in T. lia.
Qed.
Lemma fast_refuted : exists c p lim xs, io_wf c /\ fresh_io c /\ has_out c xs /\ room_here (spec_of c) p
  /\ room_there (spec_of c) (mkPace (p_send p) (p_call p) 1 (p_delay p)) lim
  /\ paced (spec_of c) p (io_last c) 0 xs
  /\ let l := lp_run strict lim xs (lp_new c 0) in
     sent_data (lp_ev l) = [] /\ match lp_end l with Open c' => gone lim (lp_heard l) (io_last c') = true | _ => False end.
Proof.
  exists (demo 1 4 10000 false), (mkPace 10000000 999999 0 0), 40000000, (fast 48 0).
  split; [repeat split; cbn; lia|]. split; [repeat split|]. split; [split; [cbn; lia|reflexivity]|].
  split; [unfold room_here; cbn; lia|]. split; [unfold room_there; cbn; lia|].
  split; [apply fast_paced; try reflexivity; cbn; lia|]. vm_compute. auto.
Qed.
Definition tight_steps : list lstep :=
  [LSend 15000000 15000000 [1; 0; 9]; LCall 15000000 15000000 same_out all_sent; LCall 28000000 28000000 same_out all_sent;
   LCall 41000000 41000000 same_out all_sent].
Lemma tight_closed : let c := demo 1 4 10000 false in let p := mkPace 26000000 15000000 1 0 in
  io_wf c /\ fresh_io c /\ has_out c tight_steps /\ p_send p + p_delay p + p_call p = 1000 * sp_limit (spec_of c) + 1000000
  /\ room_there (spec_of c) p 40000000 /\ paced (spec_of c) p (io_last c) 0 tight_steps
  /\ lp_end (lp_run strict 40000000 tight_steps (lp_new c 0)) = Closed.
Proof.
  intros c p. split; [repeat split; cbn; lia|]. split; [repeat split|]. split; [split; [cbn; lia|reflexivity]|].
  split; [reflexivity|]. split; [unfold room_there; cbn; lia|]. split; [|vm_compute; reflexivity].
  unfold tight_steps, p. cbn [paced p_send p_call p_least p_delay]. change (io_last c) with 0.
  repeat (split; [lia|]). split; [apply demo_item; reflexivity|].
  do 3 (repeat (split; [lia|]); split; [intros d D; exact D|]; split; [intros d D; exact D|]; split; [reflexivity|]). exact Logic.I.
Qed.
Fixpoint slow (n : nat) (t : Z) : list lstep :=
  match n with O => [] | Datatypes.S n' => LCall (t + 1999999) (t + 1999999) same_out all_sent :: slow n' (t + 1999999) end.
Lemma slow_gone : let c := demo 1 4 10000 false in let p := mkPace 25000000 1999999 1 0 in
  io_wf c /\ fresh_io c /\ has_out c (slow 10 0) /\ room_here (spec_of c) p
  /\ 1000 * sp_api (spec_of c) + p_call p + 2 * p_delay p + 7000000 < 19000000
  /\ paced (spec_of c) p (io_last c) 0 (slow 10 0)
  /\ let l := lp_run strict 19000000 (slow 10 0) (lp_new c 0) in gone 19000000 (lp_heard l) 19999990 = true.
Proof.
  intros c p. split; [repeat split; cbn; lia|]. split; [repeat split|]. split; [split; [cbn; lia|reflexivity]|].
  split; [unfold room_here; cbn; lia|]. split; [cbn; lia|]. split; [|vm_compute; reflexivity].
  unfold p. cbn [slow paced p_send p_call p_least p_delay]. change (io_last c) with 0.
  do 10 (repeat (split; [lia|]); split; [intros d D; exact D|]; split; [intros d D; exact D|]; split; [reflexivity|]). exact Logic.I.
Qed.
