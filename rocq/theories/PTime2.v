(** How long exchanges, objects and discovery take. *)
From Verif Require Import Base MBuffer SBuffer PBase PBuffer MEip SEip PEip PRouter MSocket SSocket PSocket SExn PExn MIdent MParam MFile MDisc MTime STime SBound PBound PTime.

Lemma eagain_split n acc a b : recv_loop n acc (a ++ Err 11 :: b) = (Throw (SystemError 11), b) ->
  recv_loop n acc (atoms a ++ [Err 11] ++ atoms b) = (Throw (SystemError 11), atoms b).
Proof. intros E. apply recv_atoms in E. rewrite atoms_app in E. exact E. Qed.

Lemma reply_same h T handle w o w' R : 0 <= T -> reply_timed h T handle w = Some (o, w') ->
  exists s, interrupted (atoms (untimed (tn_in w))) s
  /\ receive_reply h handle (mkNet (tn_sent w) s R) = (o, mkNet (tn_sent w') (atoms (untimed (tn_in w'))) R).
Proof.
  intros P E. apply reply_cases in E as (o1 & c1 & e1 & E1 & E).
  unfold receive_reply, st_bind, net_receive, tcp_receive. cbn [n_in n_sent n_results].
  pose proof (recv_view _ _ _ _ _ _ _ _ E1) as V.
  destruct E as [(e & -> & -> & ->)|(hd & -> & E)]; cbn [tn_sent tn_in].
  - destruct V as [V|(X & a & A & V)].
    + exists (atoms (untimed (tn_in w))). split; [now left|]. rewrite (recv_atoms _ _ _ _ _ V). reflexivity.
    + exists (atoms a ++ [Err 11] ++ atoms (untimed e1)). split; [right; exists (atoms a), (atoms (untimed e1)); rewrite A, atoms_app; auto|].
      rewrite X in V. rewrite (eagain_split _ _ _ _ V). inversion X. reflexivity.
  - destruct V as [V|(X & _)]; [|discriminate]. pose proof (recv_atoms _ _ _ _ _ V) as VA.
    destruct E as [(-> & N & ->)|(len & L & o2 & c2 & e2 & E2 & -> & E)]; cbn [tn_sent tn_in].
    + exists (atoms (untimed (tn_in w))). split; [now left|]. rewrite VA. destruct (length_from_header h hd) as [len|e|u|]; [now elim (N len)|reflexivity..].
    + pose proof (recv_view _ _ _ _ _ _ _ _ E2) as V2. destruct V2 as [V2|(X & a & A & V2)].
      * exists (atoms (untimed (tn_in w))). split; [now left|]. rewrite VA, L. cbn [n_in n_sent n_results]. rewrite (recv_atoms _ _ _ _ _ V2).
        destruct E as [(e & -> & ->)|(d & -> & ->)]; reflexivity.
      * destruct E as [(e & X' & ->)|(d & X' & ->)]; [|congruence].
        assert (e = SystemError 11) as -> by congruence. clear X'.
        destruct (recv_prefix _ _ _ _ _ _ _ _ E1) as [(used & U & K)|(t & r & -> & Le)].
        -- exists (used ++ (atoms a ++ [Err 11] ++ atoms (untimed e2))). split.
           ++ right. exists (used ++ atoms a), (atoms (untimed e2)). rewrite U, A, atoms_app, <- !app_assoc. auto.
           ++ rewrite K, L. cbn [n_in n_sent n_results]. rewrite X in V2. rewrite (eagain_split _ _ _ _ V2). reflexivity.
        -- exfalso. destruct (Z.to_nat len) as [|n] eqn:N; [rewrite recvt_zero in E2; congruence|]. cbn [recv_timed] in E2.
           destruct (meets T c1 t) as [met c'] eqn:M. apply meets_inv in M as [(-> & -> & _)|(_ & _ & _ & F)]; [congruence|lia].
Qed.
Theorem exchange_same h T p handle q w o w' : 0 <= T -> exchange_timed h T p handle q w = Some (o, w') ->
  exists got s, tn_sent w' = tn_sent w ++ [got] /\ interrupted (atoms (untimed (coming p w got))) s
  /\ send_and_receive h (fun _ _ => []) handle q (mkNet (tn_sent w) s (map fst (tn_results w)))
     = (o, mkNet (tn_sent w') (atoms (untimed (tn_in w'))) (map fst (tn_results w'))).
Proof.
  intros P E. apply exchange_cases in E as (got & so & w1 & S & I & C & R & N & E). exists got.
  assert (X : forall w, send_and_receive h (fun _ _ => []) handle q w = st_bind (net_send quiet_peer (encaps_pack q)) (fun _ => receive_reply h handle) w) by reflexivity.
  destruct E as [(e & -> & -> & ->)|[-> E]].
  - exists (atoms (untimed (coming p w got))). split; [exact S|]. split; [now left|]. rewrite X. unfold st_bind. rewrite N, I. reflexivity.
  - assert (Rs : tn_results w' = tn_results w1 /\ tn_sent w' = tn_sent w1).
    { apply reply_cases in E as (o1 & c1 & e1 & _ & [(e & _ & _ & ->)|(hd & _ & [(_ & _ & ->)|(len & _ & o2 & c2 & e2 & _ & -> & _)])]); split; reflexivity. }
    destruct Rs as [Rs Ss]. apply (reply_same _ _ _ _ _ _ (map fst (tn_results w1)) P) in E as (s & Is & E). exists s. split; [congruence|].
    split; [now rewrite <- I|]. rewrite X. unfold st_bind. rewrite N, Rs. exact E.
Qed.

Lemma exchange_returns h T p handle q w : 0 < T -> sends_return w -> exists o w', exchange_timed h T p handle q w = Some (o, w').
Proof.
  intros P F. assert (G : forall w, exists o w', reply_timed h T handle w = Some (o, w')).
  { clear w F. intros w. unfold reply_timed, tm_bind, receive_timed. destruct (recv_returns (tn_in w) T HEADER_SIZE [] (tn_clock w) P) as [[[o1 c1] e1] ->].
    destruct o1 as [hd|e|u|]; try (do 2 eexists; reflexivity). destruct (length_from_header h hd) as [len|e|u|]; try (do 2 eexists; reflexivity).
    cbn [tn_in tn_clock]. destruct (recv_returns e1 T (Z.to_nat len) [] c1 P) as [[[o2 c2] e2] ->]. destruct o2; do 2 eexists; reflexivity. }
  unfold exchange_timed, tm_bind at 1, send_timed. destruct (tn_results w) as [|[r [d|]] rs] eqn:R.
  - destruct (send_check _ _); [apply G|do 2 eexists; reflexivity..].
  - destruct (send_check _ _); [apply G|do 2 eexists; reflexivity..].
  - unfold sends_return in F. rewrite R in F. now apply Forall_inv in F.
Qed.

Lemma signals_nonneg evs : 0 <= signals evs.
Proof.
  induction evs as [|[t e] r IH]; [reflexivity|]. assert (D : e = Err 4 \/ e <> Err 4).
  { destruct e as [l|e|]; try (right; discriminate). destruct (Z.eq_dec e 4) as [->|N]; [now left|right; congruence]. }
  destruct D as [->|D]; [cbn [signals]; lia|now rewrite signals_other].
Qed.
Lemma signals_app a b : signals (a ++ b) = signals a + signals b.
Proof.
  induction a as [|[t e] r IH]; [reflexivity|]. assert (D : e = Err 4 \/ e <> Err 4).
  { destruct e as [l|e|]; try (right; discriminate). destruct (Z.eq_dec e 4) as [->|N]; [now left|right; congruence]. }
  cbn [app]. destruct D as [->|D]; [cbn [signals]; lia|rewrite !signals_other by assumption; exact IH].
Qed.
Lemma reply_takes h T handle w o w' : 0 < T -> reply_timed h T handle w = Some (o, w') ->
  tn_clock w <= tn_clock w' /\ tn_clock w' + T * signals (tn_in w') <= tn_clock w + T * signals (tn_in w) + T * 65559.
Proof.
  intros P E. apply reply_cases in E as (o1 & c1 & e1 & E1 & E). assert (P' : 0 <= T) by lia.
  pose proof (recv_later _ _ _ _ _ _ _ _ P' E1) as L1. pose proof (recv_takes _ _ _ _ _ _ _ _ P E1) as T1. change (Z.of_nat HEADER_SIZE) with 24 in T1.
  destruct E as [(e & _ & _ & ->)|(hd & _ & [(_ & _ & ->)|(len & L & o2 & c2 & e2 & E2 & -> & _)])]; cbn [tn_clock tn_in].
  - split; [exact L1|nia].
  - split; [exact L1|nia].
  - apply header_u16 in L. pose proof (recv_later _ _ _ _ _ _ _ _ P' E2) as L2. pose proof (recv_takes _ _ _ _ _ _ _ _ P E2) as T2.
    rewrite Z2Nat.id in T2 by lia. split; [lia|nia].
Qed.
Theorem exchange_takes h T p handle q w o w' : 0 < T -> exchange_timed h T p handle q w = Some (o, w') ->
  exists got, tn_sent w' = tn_sent w ++ [got]
  /\ tn_clock w <= tn_clock w'
  /\ tn_clock w' + T * signals (tn_in w') <= tn_clock w + send_time w + T * signals (coming p w got) + T * 65559.
Proof.
  intros P E. destruct (exchange_same h T p handle q w o w' ltac:(lia) E) as (got & _ & S & _). exists got. split; [exact S|].
  apply exchange_cases in E as (got' & so & w1 & S1 & I & C & R & _ & E).
  assert (0 <= send_time w) by (unfold send_time; destruct (tn_results w) as [|[? [?|]] ?]; lia).
  destruct E as [(e & _ & _ & ->)|[_ E]].
  - assert (got' = got) as -> by (rewrite S in S1; now apply app_inj_tail in S1). rewrite I, C. split; lia.
  - pose proof (reply_takes _ _ _ _ _ _ P E) as [A B].
    assert (X : tn_sent w' = tn_sent w1) by (apply reply_cases in E as (o1 & c1 & e1 & _ & [(e & _ & _ & ->)|(hd & _ & [(_ & _ & ->)|(len & _ & o2 & c2 & e2 & _ & -> & _)])]); reflexivity).
    assert (got' = got) as -> by (rewrite S, S1 in X; now apply app_inj_tail in X). rewrite I, C in *. split; lia.
Qed.

Lemma reply_prompt h T handle w o w' lim : 0 <= T -> there_by lim (tn_in w) -> reply_timed h T handle w = Some (o, w') ->
  there_by lim (tn_in w') /\ (tn_clock w' <= Z.max (tn_clock w) lim \/ o = Throw (SystemError 11) /\ tn_clock w' <= Z.max (tn_clock w) lim + T).
Proof.
  intros P B E. apply reply_cases in E as (o1 & c1 & e1 & E1 & E). destruct (recv_prompt _ _ _ _ _ _ _ _ lim P B E1) as [B1 X].
  destruct E as [(e & -> & -> & ->)|(hd & -> & [(_ & _ & ->)|(len & L & o2 & c2 & e2 & E2 & -> & E)])]; cbn [tn_clock tn_in].
  - split; [exact B1|]. destruct X as [X|[X Y]]; [now left|right]. split; [congruence|exact Y].
  - split; [exact B1|]. destruct X as [X|[X _]]; [now left|discriminate].
  - destruct X as [X|[X _]]; [|discriminate]. destruct (recv_prompt _ _ _ _ _ _ _ _ lim P B1 E2) as [B2 Y]. split; [exact B2|].
    destruct Y as [Y|[Y Z]]; [left; lia|right]. split; [|lia]. destruct E as [(e & -> & ->)|(d & -> & ->)]; congruence.
Qed.
Theorem exchange_prompt h T p handle q w o w' lim : 0 <= T -> tn_clock w + send_time w <= lim ->
  (forall got, there_by lim (coming p w got)) -> exchange_timed h T p handle q w = Some (o, w') ->
  there_by lim (tn_in w') /\ (tn_clock w' <= lim \/ o = Throw (SystemError 11) /\ tn_clock w' <= lim + T).
Proof.
  intros P L B E. apply exchange_cases in E as (got & so & w1 & S1 & I & C & R & _ & E). destruct E as [(e & _ & _ & ->)|[_ E]].
  - rewrite I, C. split; [apply B|left; lia].
  - apply (reply_prompt _ _ _ _ _ _ lim) in E; [|exact P|rewrite I; apply B]. rewrite C in E. rewrite Z.max_r in E by lia. exact E.
Qed.

(** ** Sessions *)
Lemma byte_atoms segs : Forall byte_seg segs -> Forall byte_seg (atoms segs).
Proof.
  induction 1 as [|[l|e|] segs B _ IH]; cbn [atoms]; try (constructor; assumption). apply Forall_app. split; [|exact IH].
  cbn [byte_seg] in B. clear IH. induction l as [|x l IHl]; [constructor|]. cbn [map]. constructor; [|apply IHl; now apply Forall_inv_tail in B].
  constructor; [now apply Forall_inv in B|constructor].
Qed.
Lemma byte_untimed evs : byte_times evs -> Forall byte_seg (untimed evs).
Proof. unfold byte_times, untimed. intros B. apply Forall_map. exact B. Qed.
Lemma byte_interrupted segs s : Forall byte_seg segs -> interrupted segs s -> Forall byte_seg s.
Proof.
  intros B [->|(a & b & -> & ->)]; [exact B|]. apply Forall_app in B as [A B]. apply Forall_app. split; [exact A|]. constructor; [exact Logic.I|exact B].
Qed.
Lemma exchange_bytes h T p handle q w o w' : byte_tpeer p -> byte_tnet w -> exchange_timed h T p handle q w = Some (o, w') -> byte_tnet w'.
Proof.
  intros P B E. apply exchange_cases in E as (got & so & w1 & S & I & C & R & N & E).
  assert (B1 : byte_tnet w1) by (unfold byte_tnet; rewrite I; apply Forall_app; split; [exact B|apply P]).
  destruct E as [(e & _ & _ & ->)|[_ E]]; [exact B1|]. unfold byte_tnet in *.
  apply reply_cases in E as (o1 & c1 & e1 & E1 & E). pose proof (byte_recv _ _ _ _ _ _ _ _ B1 E1) as B2.
  destruct E as [(e & _ & _ & ->)|(hd & _ & [(_ & _ & ->)|(len & _ & o2 & c2 & e2 & E2 & -> & _)])]; try exact B2.
  exact (byte_recv _ _ _ _ _ _ _ _ B2 E2).
Qed.
Lemma timed_decent h T p handle : 0 <= T -> byte_tpeer p ->
  decent byte_tnet (timed_session h T p handle) /\ modest byte_tnet (timed_session h T p handle).
Proof.
  intros Ht P. assert (G : forall q w o w', byte_tnet w -> si_exchange (timed_session h T p handle) q w = (o, w') ->
    byte_tnet w' /\ (o = Abort \/ exists s s', byte_net s /\ send_and_receive h (fun _ _ => []) handle q s = (o, s'))).
  { intros q w o w' B E. cbn [timed_session si_exchange] in E. destruct (exchange_timed h T p handle q w) as [[o1 w1]|] eqn:X.
    - assert (Y : o1 = o /\ w1 = w') by (split; congruence). destruct Y as [-> ->]. split; [exact (exchange_bytes _ _ _ _ _ _ _ _ P B X)|].
      right. apply exchange_same in X as (got & s & _ & Is & X); [|exact Ht]. do 2 eexists. split; [|exact X]. unfold byte_net. cbn [n_in].
      apply (byte_interrupted (atoms (untimed (coming p w got)))); [|exact Is]. apply byte_atoms, byte_untimed, Forall_app. split; [exact B|apply P].
    - assert (Y : o = Abort /\ w' = w) by (split; congruence). destruct Y as [-> ->]. split; [exact B|now left]. }
  assert (Q : byte_peer (fun _ _ => [])) by (intros sent data; constructor).
  split; intros q w o w' B E; destruct (G _ _ _ _ B E) as [B' [->|(s & s' & Bs & X)]]; (split; [exact B'|]).
  - exact Logic.I.
  - exact (proj2 (live_decent h (fun _ _ => []) handle Q q s o s' Bs X)).
  - intros r X. discriminate.
  - exact (proj2 (live_modest h (fun _ _ => []) handle Q q s o s' Bs X)).
Qed.

(** ** Objects *)
Lemma within_refl T w : within T 0 w w.
Proof. unfold within. split; lia. Qed.
Lemma within_trans T a b w1 w2 w3 : within T a w1 w2 -> within T b w2 w3 -> within T (a + b) w1 w3.
Proof. unfold within. intros [A B] [C D]. split; nia. Qed.
Lemma within_mono T a b w w' : 0 <= T -> a <= b -> within T a w w' -> within T b w w'.
Proof. unfold within. intros P L [A B]. split; [exact A|nia]. Qed.

(** Calls that take at most [n] exchanges. *)
Definition bounded {A} (T n : Z) (m : st tnet A) : Prop := forall w o w', sends_return w -> m w = (o, w') -> sends_return w' /\ within T n w w'.
Section Objects.
Context (h : heap) (T : Z) (p : tpeer) (handle : Z) (use8 : bool) (HT : 0 < T) (HP : unsignalled p).
Let si := timed_session h T p handle.

Lemma pending_step w : pending w = send_time w + pending (mkTnet 0 [] [] (tl (tn_results w))).
Proof. unfold pending, send_time. destruct (tn_results w) as [|[r [d|]] rs]; cbn [tl fold_right snd tn_results]; lia. Qed.
Lemma exchange_bounded q : bounded T 1 (si_exchange si q).
Proof.
  intros w o w' F E. cbn [si timed_session si_exchange] in E. destruct (exchange_returns h T p handle q w HT F) as (o1 & w1 & X). rewrite X in E.
  assert (Y : o1 = o /\ w1 = w') by (split; congruence). destruct Y as [-> ->].
  destruct (exchange_takes h T p handle q w o w' HT X) as (got & _ & L & B).
  assert (R : tn_results w' = tl (tn_results w)).
  { apply exchange_cases in X as (g & so & w1 & _ & _ & _ & R & _ & [(e & _ & _ & ->)|[_ X]]); [exact R|].
    apply reply_cases in X as (o2 & c1 & e1 & _ & [(e & _ & _ & ->)|(hd & _ & [(_ & _ & ->)|(len & _ & o3 & c2 & e2 & _ & -> & _)])]); exact R. }
  split.
  - unfold sends_return in *. rewrite R. destruct (tn_results w); [constructor|]. exact (Forall_inv_tail F).
  - unfold within. split; [exact L|]. unfold due. rewrite (pending_step w). assert (pending w' = pending (mkTnet 0 [] [] (tl (tn_results w)))) as -> by (unfold pending; cbn [tn_results]; now rewrite R).
    unfold coming in B. rewrite signals_app, HP in B. lia.
Qed.
Lemma request_bounded service path data extra : bounded T 1 (send_request h si use8 service path data extra).
Proof.
  intros w o w' F E. unfold send_request in E. destruct (si_exchange si _ w) as [o1 w1] eqn:X. apply exchange_bounded in X; [|exact F].
  assert (w1 = w') as -> by (destruct o1; congruence). exact X.
Qed.
Lemma bounded_bind {A B} a b (m : st tnet A) (k : A -> st tnet B) : 0 <= b -> bounded T a m -> (forall x, bounded T b (k x)) -> bounded T (a + b) (st_bind m k).
Proof.
  intros P M K w o w' F E. unfold st_bind in E. destruct (m w) as [o1 w1] eqn:X. apply M in X as [F1 X]; [|exact F]. destruct o1 as [x|e|u|].
  - apply K in E as [F2 Y]; [|exact F1]. split; [exact F2|]. exact (within_trans _ _ _ _ _ _ X Y).
  - assert (w1 = w') as -> by congruence. split; [exact F1|]. apply (within_mono T a); [lia..|exact X].
  - assert (w1 = w') as -> by congruence. split; [exact F1|]. apply (within_mono T a); [lia..|exact X].
  - assert (w1 = w') as -> by congruence. split; [exact F1|]. apply (within_mono T a); [lia..|exact X].
Qed.
Lemma bounded_lift {A} (o : outcome A) : bounded T 0 (st_lift o).
Proof. intros w o' w' F E. unfold st_lift in E. assert (w' = w) as -> by congruence. split; [exact F|apply within_refl]. Qed.
Lemma bounded_ret {A} (x : A) : bounded T 0 (st_ret x).
Proof. intros w o' w' F E. unfold st_ret in E. assert (w' = w) as -> by congruence. split; [exact F|apply within_refl]. Qed.
Lemma bounded_mono {A} a b (m : st tnet A) : a <= b -> bounded T a m -> bounded T b m.
Proof. intros L M w o w' F E. apply M in E as [F' X]; [|exact F]. split; [exact F'|]. apply (within_mono T a); [lia..|exact X]. Qed.
Lemma ask_bounded service path : bounded T 1 (ask h use8 si service path).
Proof.
  intros w o w' F E. unfold ask in E. destruct (send_request h si use8 service path [] [] w) as [o1 w1] eqn:X.
  assert (w1 = w') as -> by congruence. now apply request_bounded in X.
Qed.
Lemma scaling_bounded id n : forall first, bounded T (Z.of_nat n) (ask_scaling h use8 si id first n).
Proof.
  induction n as [|n IH]; intros first; cbn [ask_scaling]; [apply (bounded_ret [])|]. replace (Z.of_nat (S n)) with (1 + (Z.of_nat n + 0)) by lia.
  apply bounded_bind; [lia|apply ask_bounded|]. intros d. apply bounded_bind; [lia|apply IH|]. intros r. apply (bounded_ret (d ++ r)).
Qed.
Lemma param_bounded id full : bounded T 6 (param_read h use8 si id full).
Proof.
  unfold param_read. change 6 with (1 + (0 + (1 + (0 + (4 + 0))))). apply bounded_bind; [lia|apply ask_bounded|]. intros d.
  apply bounded_bind; [lia|apply bounded_lift|]. intros size. apply bounded_bind; [lia|apply ask_bounded|]. intros d2.
  apply bounded_bind; [lia|apply bounded_lift|]. intros q. destruct (full && pa_scalable q).
  - apply bounded_bind; [lia|apply (scaling_bounded id 4)|]. intros x. apply bounded_lift.
  - apply (bounded_mono 0); [lia|apply bounded_ret].
Qed.
Lemma identity_bounded n : bounded T 1 (identity_read h use8 si n).
Proof.
  intros w o w' F E. unfold identity_read in E. destruct (send_request h si use8 _ _ _ _ w) as [o1 w1] eqn:X.
  assert (w1 = w') as -> by congruence. now apply request_bounded in X.
Qed.
Lemma file_bounded id : bounded T 1 (file_open h use8 si id).
Proof.
  intros w o w' F E. unfold file_open in E. destruct (send_request h si use8 _ _ _ _ w) as [o1 w1] eqn:X.
  assert (w1 = w') as -> by congruence. now apply request_bounded in X.
Qed.
Lemma update_bounded q w o q' w' : sends_return w -> update_value h use8 si (q, w) = (o, (q', w')) -> sends_return w' /\ within T 1 w w'.
Proof.
  intros F E. unfold update_value in E. destruct (pa_router q).
  - destruct (ask h use8 si _ _ w) as [o1 w1] eqn:X. apply ask_bounded in X; [|exact F].
    assert (w1 = w') as -> by (destruct (bind o1 _) as [[v b]| | |]; congruence). exact X.
  - assert (w' = w) as -> by congruence. split; [exact F|]. apply (within_mono T 0); [lia..|apply within_refl].
Qed.
Lemma begin_bounded hid f w o f' w' : sends_return w -> begin_upload h use8 si hid (f, w) = (o, (f', w')) -> sends_return w' /\ within T 1 w w'.
Proof.
  intros F E. unfold begin_upload in E. destruct (fo_state f).
  all: try (assert (w' = w) as -> by congruence; split; [exact F|]; apply (within_mono T 0); [lia..|apply within_refl]).
  destruct (send_request h si use8 _ _ _ _ w) as [o1 w1] eqn:X. apply request_bounded in X; [|exact F].
  assert (w1 = w') as -> by (destruct (bind o1 _); congruence). exact X.
Qed.
Lemma transfer_bounded f w o f' w' : sends_return w -> handle_transfers h use8 si (f, w) = (o, (f', w')) -> sends_return w' /\ within T 1 w w'.
Proof.
  intros F E. unfold handle_transfers in E. destruct (fo_state f).
  all: try (assert (w' = w) as -> by congruence; split; [exact F|]; apply (within_mono T 0); [lia..|apply within_refl]).
  destruct (send_request h si use8 _ _ _ _ w) as [o1 w1] eqn:X. apply request_bounded in X; [|exact F].
  assert (w1 = w') as -> by (destruct (bind o1 _) as [[? ?]| | |]; congruence). exact X.
Qed.
End Objects.

(** ** Discovery *)
Lemma disc_heard h T ds : 0 < T -> forall acc c, exists c', disc_timed h T acc c ds = Some (disc_loop h acc (heard T c ds), c')
  /\ c <= c' <= heard_until T c ds + T.
Proof.
  intros P. induction ds as [|[t d] r IH]; intros acc c; cbn [disc_timed heard heard_until].
  - destruct (Z.eqb_spec T 0); [lia|]. exists (c + T). split; [reflexivity|lia].
  - unfold meets. destruct (Z.eqb_spec T 0); [lia|]. cbn [orb]. destruct (Z.leb_spec t (c + T)) as [L|L].
    + cbn [disc_loop]. change (udp_receive EIP_MAX_PACKET_SIZE (d :: heard T (Z.max c t) r)) with (udp_receive EIP_MAX_PACKET_SIZE ([d] ++ heard T (Z.max c t) r)).
      assert (U : fst (udp_receive EIP_MAX_PACKET_SIZE ([d] ++ heard T (Z.max c t) r)) = fst (udp_receive EIP_MAX_PACKET_SIZE [d])) by (destruct d; reflexivity).
      rewrite U. assert (M : Z.max c t <= heard_until T (Z.max c t) r + T) by (destruct (IH acc (Z.max c t)) as (c' & _ & ?); lia).
      destruct (bind _ _) as [acc'|e|u|]; [destruct (IH acc' (Z.max c t)) as (c' & E & B); exists c'; split; [exact E|lia]|exists (Z.max c t); split; [reflexivity|lia]..].
    + exists (c + T). split; [reflexivity|lia].
Qed.
Lemma heard_bound T ds : 0 <= T -> forall c, heard_until T c ds <= c + T * zlen ds.
Proof.
  intros P. induction ds as [|[t d] r IH]; intros c; cbn [heard_until]; [unfold zlen; cbn [List.length]; lia|].
  assert (zlen ((t, d) :: r) = 1 + zlen r) as -> by (unfold zlen; cbn [List.length]; lia). pose proof (zlen_nonneg r).
  destruct (Z.leb_spec t (c + T)); [|nia]. specialize (IH (Z.max c t)). nia.
Qed.
Lemma heard_there T ds lim : Forall (fun e => fst e <= lim) ds -> forall c, heard_until T c ds <= Z.max c lim.
Proof.
  induction 1 as [|[t d] r B _ IH]; intros c; cbn [heard_until]; [lia|]. cbn [fst] in B. destruct (t <=? c + T); [|lia]. specialize (IH (Z.max c t)). lia.
Qed.

(** ** Slow peers *)
Lemma reply_drip h T handle r c sent R rest : 0 < T -> well_formed r ->
  reply_timed h T handle (mkTnet c sent (drip T c (encaps_pack r) ++ rest) R)
  = Some (verdict handle r, mkTnet (c + T * zlen (encaps_pack r)) sent rest R).
Proof.
  intros P [W El]. destruct (header_bytes r W) as (hd & Ep & Lh & Bh & Vl).
  assert (LZ : Z.to_nat (e_length r) = List.length (e_data r)) by (rewrite El; unfold zlen; apply Nat2Z.id).
  unfold reply_timed, tm_bind at 1, receive_timed at 1. cbn [tn_clock tn_in tn_sent tn_results].
  rewrite recv_drip; [|exact P|rewrite Ep, app_length, Lh; unfold HEADER_SIZE; lia]. unfold HEADER_SIZE. cbn [app].
  assert (F : firstn 24 (encaps_pack r) = hd /\ skipn 24 (encaps_pack r) = e_data r) by (rewrite Ep, <- Lh, firstn_app_exact, skipn_app_exact; split; reflexivity).
  destruct F as [-> ->]. unfold tm_bind at 1. rewrite length_from_header_ok by (assumption || lia). rewrite Vl, LZ.
  unfold tm_bind, receive_timed. cbn [tn_clock tn_in tn_sent tn_results]. rewrite recv_drip; [|exact P|lia]. rewrite firstn_all, skipn_all. cbn [app drip].
  unfold finish. rewrite <- Ep. destruct (encaps_roundtrip h encaps0 r W El eq_refl) as (_ & _ & ->). cbn [finished bind]. rewrite check_verdict.
  assert (X : c + T * Z.of_nat 24 + T * Z.of_nat (List.length (e_data r)) = c + T * zlen (encaps_pack r)) by (rewrite Ep; unfold zlen; rewrite app_length, Lh; lia).
  rewrite X. reflexivity.
Qed.
Lemma send_whole p data c sent evs : send_timed p data (mkTnet c sent evs []) = Some (Ok tt, mkTnet c (sent ++ [data]) (evs ++ p sent data c) []).
Proof.
  unfold send_timed. cbn [tn_results tn_clock tn_sent tn_in tl s_count]. unfold send_check. cbn [s_count s_errno].
  assert (X : Z.to_nat (zlen data) = List.length data) by (unfold zlen; apply Nat2Z.id). rewrite X, firstn_all. pose proof (zlen_nonneg data).
  destruct (Z.ltb_spec (zlen data) 0); [lia|]. rewrite Z.ltb_irrefl. rewrite Z.max_l, Z.add_0_r by lia. reflexivity.
Qed.
Lemma exchange_sent h T p handle q c sent : exchange_timed h T p handle q (mkTnet c sent [] [])
  = reply_timed h T handle (mkTnet c (sent ++ [encaps_pack q]) (p sent (encaps_pack q) c) []).
Proof. unfold exchange_timed, tm_bind at 1. rewrite send_whole. reflexivity. Qed.

Lemma exchange_drip h T handle q c sent r : 0 < T -> well_formed r ->
  exchange_timed h T (fun _ _ c => drip T c (encaps_pack r)) handle q (mkTnet c sent [] [])
  = Some (verdict handle r, mkTnet (c + T * zlen (encaps_pack r)) (sent ++ [encaps_pack q]) [] []).
Proof. intros P W. rewrite exchange_sent. rewrite <- (app_nil_r (drip T c (encaps_pack r))). now apply reply_drip. Qed.
Lemma exchange_silent h T handle q c sent : 0 < T ->
  exchange_timed h T (fun _ _ _ => []) handle q (mkTnet c sent [] []) = Some (Throw (SystemError 11), mkTnet (c + T) (sent ++ [encaps_pack q]) [] []).
Proof.
  intros P. rewrite exchange_sent. unfold reply_timed, tm_bind at 1, receive_timed at 1. cbn [tn_clock tn_in tn_sent tn_results HEADER_SIZE recv_timed].
  destruct (Z.eqb_spec T 0); [lia|reflexivity].
Qed.
Lemma exchange_hangs h handle q c sent : exchange_timed h 0 (fun _ _ _ => []) handle q (mkTnet c sent [] []) = None.
Proof. rewrite exchange_sent. reflexivity. Qed.

Lemma disc_trickle h T d n : 0 < T -> forall acc c, (forall acc, bind (fst (udp_receive EIP_MAX_PACKET_SIZE [d])) (fun data => disc_reply h data acc) = Ok acc) ->
  disc_timed h T acc c (trickle T c d n) = Some (Ok acc, c + T * (Z.of_nat n + 1)).
Proof.
  intros P. induction n as [|n IH]; intros acc c D; cbn [trickle disc_timed].
  - destruct (Z.eqb_spec T 0); [lia|]. cbn [disc_catch]. f_equal. f_equal. lia.
  - unfold meets. destruct (Z.eqb_spec T 0); [lia|]. cbn [orb]. rewrite Z.leb_refl, Z.max_r by lia. rewrite D, IH by exact D. f_equal. f_equal. lia.
Qed.
Lemma disc_hangs h ds : (forall t d acc, In (t, d) ds -> exists acc', bind (fst (udp_receive EIP_MAX_PACKET_SIZE [d])) (fun data => disc_reply h data acc) = Ok acc') ->
  forall acc c, disc_timed h 0 acc c ds = None.
Proof.
  induction ds as [|[t d] r IH]; intros D acc c; cbn [disc_timed]; [reflexivity|]. change (meets 0 c t) with (true, Z.max c t). cbv iota beta zeta.
  destruct (D t d acc (or_introl eq_refl)) as [acc' ->]. apply IH. intros t' d' a X. apply (D t' d' a). now right.
Qed.

(** ** Opening a session *)
Lemma wait_nonneg ms : 0 <= wait_of ms.
Proof. rewrite wait_ms. lia. Qed.
Lemma open_takes h timeout k waited p w : 0 < timeout -> unsignalled p -> sends_return w ->
  exists o w', open_timed h timeout k waited p w = Some (o, w')
  /\ tn_clock w <= tn_clock w' /\ due timeout w' <= due timeout w + timeout + timeout * 65559.
Proof.
  intros P U F. unfold open_timed. rewrite wait_ms, Z.max_r by lia.
  set (took := match k_connect k with Some e => _ | None => 0 end). assert (B : 0 <= took <= timeout) by (unfold took; destruct (k_connect k); [destruct (_ =? _)|]; lia).
  set (w1 := mkTnet _ _ _ _). assert (D : due timeout w1 = due timeout w + took /\ tn_clock w1 = tn_clock w + took) by (unfold due, w1, pending; cbn [tn_clock tn_in tn_results]; split; lia).
  destruct D as [D1 D2]. assert (F1 : sends_return w1) by exact F.
  destruct (fst (tcp_connect k)); try (do 2 eexists; split; [reflexivity|]; split; [lia|nia]).
  destruct (exchange_returns h timeout p 0 register_packet w1 P F1) as (o1 & w2 & X).
  pose proof (exchange_bounded h timeout p 0 P U register_packet w1 o1 w2 F1) as Y. cbn [timed_session si_exchange] in Y. rewrite X in Y. destruct (Y eq_refl) as [_ [Y1 Y2]].
  unfold tm_bind. rewrite X. destruct o1 as [r|e|u'|]; (do 2 eexists; split; [reflexivity|]; split; [lia|nia]).
Qed.
Lemma connect_kind k : fst (tcp_connect k) = Ok tt \/ exists e, fst (tcp_connect k) = Throw e.
Proof.
  unfold tcp_connect, tcp_connect_try, tcp_connect_wait, sys. destruct (k_select k) as [res err].
  repeat match goal with |- context [match ?x with Some _ => _ | None => _ end] => destruct x end;
  repeat match goal with |- context [if ?x then _ else _] => destruct x end; cbn [bind fst];
  repeat match goal with |- context [match ?x with Some _ => _ | None => _ end] => destruct x; cbn [bind fst] end;
  repeat match goal with |- context [if ?x then _ else _] => destruct x; cbn [bind fst] end;
  (now left) || (right; eexists; reflexivity).
Qed.
Lemma open_same h timeout k waited p w o w' : open_timed h timeout k waited p w = Some (o, w') ->
  match fst (tcp_connect k) with
  | Throw e => o = Throw e /\ tn_sent w' = tn_sent w /\ tn_in w' = tn_in w /\ tn_results w' = tn_results w
  | _ => exists got s w1, tn_clock w <= tn_clock w1 /\ tn_sent w1 = tn_sent w /\ tn_in w1 = tn_in w /\ tn_results w1 = tn_results w
         /\ tn_sent w' = tn_sent w ++ [got] /\ interrupted (atoms (untimed (coming p w1 got))) s
         /\ session_register h (fun _ _ => []) (mkNet (tn_sent w) s (map fst (tn_results w)))
            = (o, mkNet (tn_sent w') (atoms (untimed (tn_in w'))) (map fst (tn_results w')))
  end.
Proof.
  unfold open_timed. set (took := match k_connect k with Some e => _ | None => 0 end). pose proof (wait_nonneg timeout) as P.
  assert (B : 0 <= took) by (unfold took; destruct (k_connect k); [destruct (_ =? _)|]; lia). set (w1 := mkTnet _ _ _ _).
  intros E. destruct (connect_kind k) as [K|[e K]]; rewrite K in *.
  - unfold tm_bind in E. destruct (exchange_timed h (wait_of timeout) p 0 register_packet w1) as [[o1 w2]|] eqn:X; [|discriminate].
    apply exchange_same in X as (got & s & S & Is & X); [|exact P]. exists got, s, w1. cbn [w1 tn_clock tn_sent tn_in tn_results].
    split; [lia|]. do 3 (split; [reflexivity|]). assert (w2 = w') as -> by (destruct o1; congruence). split; [exact S|]. split; [exact Is|].
    unfold session_register, st_bind. cbn [w1 tn_sent tn_results] in X. match goal with |- context [send_and_receive ?a ?b ?c ?d ?e] => replace (send_and_receive a b c d e) with (o1, mkNet (tn_sent w') (atoms (untimed (tn_in w'))) (map fst (tn_results w'))) by (symmetry; exact X) end.
    destruct o1 as [r|e|u|]; f_equal; congruence.
  - repeat split; try congruence; (assert (w' = w1) as -> by congruence); reflexivity.
Qed.

Definition longest (handle : Z) : encaps := mkEncaps 111 65535 handle 0 (zeros 8) 0 (zeros (Z.to_nat 65535)).
Lemma zeros_bytes n : is_bytes (zeros n).
Proof. unfold zeros. induction n as [|n IH]; [constructor|constructor; [unfold is_u8; lia|exact IH]]. Qed.
Lemma longest_formed handle : is_u32 handle -> well_formed (longest handle) /\ is_bytes (encaps_pack (longest handle)) /\ zlen (encaps_pack (longest handle)) = 65559.
Proof.
  intros H. assert (L : zlen (zeros (Z.to_nat 65535)) = 65535) by (unfold zlen, zeros; rewrite repeat_length; apply Z2Nat.id; lia).
  assert (W : encaps_wf (longest handle)).
  { unfold encaps_wf, longest. cbn [e_command e_length e_handle e_status e_context e_options e_data].
    unfold is_u16, is_u32 in *. repeat split; try lia; try apply zeros_bytes. }
  destruct (header_bytes (longest handle) W) as (hd & E & Lh & Bh & _). rewrite E. split; [split; [exact W|]|].
  - unfold longest. cbn [e_length e_data]. now rewrite L.
  - unfold longest. cbn [e_data]. split; [apply is_bytes_app; split; [exact Bh|apply zeros_bytes]|]. unfold zlen in *. rewrite app_length, Lh. lia.
Qed.
Lemma drip_quiet T l : forall c, signals (drip T c l) = 0.
Proof. induction l as [|x l IH]; intros c; [reflexivity|]. cbn [drip signals]. apply IH. Qed.
Lemma drip_bytes T l : is_bytes l -> forall c, byte_times (drip T c l).
Proof. induction 1 as [|x l B _ IH]; intros c; cbn [drip]; constructor; [constructor; [exact B|constructor]|apply IH]. Qed.
Lemma exchange_longest h T handle q : 0 < T -> is_u32 handle -> exists p w r w',
  byte_tpeer p /\ unsignalled p /\ pending w = 0 /\ tn_in w = []
  /\ exchange_timed h T p handle q w = Some (Ok r, w') /\ tn_clock w' = tn_clock w + 65559 * T.
Proof.
  intros P H. destruct (longest_formed handle H) as (W & B & L). exists (fun _ _ c => drip T c (encaps_pack (longest handle))), (mkTnet 0 [] [] []), (longest handle).
  eexists. split; [intros sent data c; now apply drip_bytes|]. split; [intros sent data c; apply drip_quiet|]. split; [reflexivity|]. split; [reflexivity|]. split.
  - rewrite (exchange_drip h T handle q 0 [] (longest handle) P W). unfold verdict, acceptable. cbn [longest e_status e_handle].
    rewrite (Z.eqb_refl handle), orb_true_r. reflexivity.
  - cbn [tn_clock]. rewrite L. lia.
Qed.
