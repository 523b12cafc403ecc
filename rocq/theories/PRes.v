(** Proofs: the descriptors of sessions and discovery. *)
From Verif Require Import Base MBuffer SBuffer PBase MEip SEip MIdent MSocket PSocket MDisc MConn MFd SFd PFd MRes SRes.
Ltac Zify.zify_post_hook ::= Z.div_mod_to_equations.

(** ** The same results *)
Lemma disc_loop_same h fd : forall ds acc, fst (disc_loop_fd h fd acc ds) = disc_loop h acc ds.
Proof.
  induction ds as [|d r IH]; intros acc; cbn [disc_loop_fd disc_loop]; [reflexivity|].
  destruct (bind _ _) as [acc'|?|?|]; [|reflexivity..]. rewrite <- IH. now destruct (disc_loop_fd h fd acc' r).
Qed.
Definition sock_errno (sock : Z + Z) : failing := match sock with inl _ => None | inr e => Some e end.
Lemma discover_same h sock b sent ep ds :
  fst (discover_fd h sock b sent ep ds) = discover h (mkDK (sock_errno sock) b sent) ep ds.
Proof.
  unfold discover_fd, discover, sock_errno; cbn [dk_socket dk_broadcast dk_send]. destruct sock as [fd|e]; [|reflexivity].
  destruct b as [e|]; [reflexivity|]. destruct (send_check _ sent) as [[]|?|?|]; cbn [bind]; [|reflexivity..].
  rewrite <- disc_loop_same with (fd := fd). now destruct (disc_loop_fd h fd [] ds).
Qed.
Lemma open_same h fd k p w : fd < 1024 ->
  fst (session_open_fd h fd k p w) = (fst (session_open h k p) w).
Proof.
  intros H. unfold session_open_fd, session_open. rewrite connect_small by assumption.
  destruct (tcp_connect k) as [[[]|?|?|] d]; cbn [fst]; [|reflexivity..]. now destruct (session_register h p w).
Qed.

(** ** What happens to the descriptor *)
Definition uses (fd : Z) (ev : list fdev) : Prop := Forall (eq (FUse fd)) ev.
Lemma uses_app fd a b : uses fd a -> uses fd b -> uses fd (a ++ b).
Proof. intros A B. now apply Forall_app. Qed.
Lemma audit_used fd ev l : uses fd ev -> In fd l -> audit ev l = Held l.
Proof.
  intros U I. induction U as [|e ev <- U IH]; [reflexivity|]. cbn [audit]. destruct (in_dec Z.eq_dec fd l); [assumption|contradiction].
Qed.
Lemma remove_absent x l : ~ In x l -> List.remove Z.eq_dec x l = l.
Proof. apply notin_remove. Qed.
Lemma audit_opened fd ev l : uses fd ev -> audit (FOpen fd :: ev) l = (if in_dec Z.eq_dec fd l then Reused else Held (fd :: l)).
Proof. intros U. cbn [audit]. destruct (in_dec Z.eq_dec fd l); [reflexivity|]. apply audit_used with fd; [assumption|now left]. Qed.
Lemma audit_once fd ev l : uses fd ev -> audit (FOpen fd :: ev ++ [FClose fd]) l = (if in_dec Z.eq_dec fd l then Reused else Held l).
Proof.
  intros U. change (FOpen fd :: ev ++ [FClose fd]) with ((FOpen fd :: ev) ++ [FClose fd]). rewrite audit_app, audit_opened by assumption.
  destruct (in_dec Z.eq_dec fd l) as [|N]; [reflexivity|]. cbn [audit]. destruct (in_dec Z.eq_dec fd (fd :: l)) as [_|N']; [|exfalso; apply N'; now left].
  cbn [List.remove]. destruct (Z.eq_dec fd fd); [|congruence]. now rewrite remove_absent.
Qed.
Lemma loop_uses h fd : forall ds acc, uses fd (snd (disc_loop_fd h fd acc ds)).
Proof.
  induction ds as [|d r IH]; intros acc; cbn [disc_loop_fd]; [repeat constructor|].
  destruct (bind _ _) as [acc'|?|?|]; [|repeat constructor..]. specialize (IH acc'). destruct (disc_loop_fd h fd acc' r).
  constructor; [reflexivity|assumption].
Qed.
Lemma exchange_uses h p fd q w : uses fd (exchange_events h p fd q w).
Proof.
  unfold exchange_events. destruct (net_send _ _ _) as [[[]|?|?|] w1]; [|repeat constructor..].
  constructor; [reflexivity|]. destruct (net_receive _ _) as [[hd|?|?|] w2]; [|repeat constructor..].
  constructor; [reflexivity|]. destruct (length_from_header _ _) as [len|?|?|]; [|repeat constructor..]. destruct (len =? 0); repeat constructor.
Qed.
Lemma destroy_uses fd ev : uses fd ev -> exists ev', uses fd ev' /\ ev ++ fd_destroy fd = ev' ++ [FClose fd].
Proof.
  intros U. exists (ev ++ [FUse fd]). split; [apply uses_app; [assumption|repeat constructor]|]. unfold fd_destroy. now rewrite <- app_assoc.
Qed.
Lemma discover_shape h sock b sent ep ds o out ev : discover_fd h sock b sent ep ds = (o, out, ev) ->
  (ev = [] /\ ends o = false)
  \/ exists fd us, sock = inl fd /\ uses fd us
     /\ (ev = FOpen fd :: us ++ [FClose fd] /\ ends o = false \/ ev = FOpen fd :: us /\ ends o = true).
Proof.
  unfold discover_fd. destruct sock as [fd|e]; [|intros E; inv E; left; now split].
  assert (U3 : uses fd [FUse fd; FUse fd; FUse fd]) by (repeat constructor).
  assert (U2 : uses fd [FUse fd; FUse fd]) by (repeat constructor).
  destruct b as [e|].
  { intros E. injection E as <- <- <-. right. destruct (destroy_uses _ _ U2) as (us & U & D).
    exists fd, us. split; [reflexivity|]. split; [assumption|]. left. split; [|reflexivity]. now rewrite <- D. }
  set (data := encaps_pack _). destruct (send_check _ sent) as [[]|x|x|].
  - pose proof (loop_uses h fd ds []) as L. destruct (disc_loop_fd h fd [] ds) as [o1 ev1]. intros E. injection E as <- _ <-.
    right. cbn [snd] in L. pose proof (uses_app _ _ _ U3 L) as U4. destruct o1 as [es|x|x|]; cbn [leave_scope ends].
    1,2: destruct (destroy_uses _ _ U4) as (us & U & D); exists fd, us; split; [reflexivity|]; split; [assumption|];
         left; split; [|reflexivity]; rewrite <- D; reflexivity.
    all: exists fd, ([FUse fd; FUse fd; FUse fd] ++ ev1); split; [reflexivity|]; split; [assumption|]; right; split; [|reflexivity];
         now rewrite app_nil_r.
  - intros E. injection E as <- _ <-. right. destruct (destroy_uses _ _ U3) as (us & U & D).
    exists fd, us. split; [reflexivity|]. split; [assumption|]. left. split; [|reflexivity]. now rewrite <- D.
  - intros E. injection E as <- _ <-. right. exists fd, [FUse fd; FUse fd; FUse fd]. split; [reflexivity|]. split; [assumption|]. right. now split.
  - intros E. injection E as <- _ <-. right. exists fd, [FUse fd; FUse fd; FUse fd]. split; [reflexivity|]. split; [assumption|]. right. now split.
Qed.
Lemma wait_uses fd k : uses fd (wait_events fd k).
Proof. unfold wait_events. destruct (k_connect k); [destruct (_ =? _); [destruct (0 <? _)|]|]; repeat constructor. Qed.
Lemma blocking_uses fd k : uses fd (blocking_events fd k).
Proof. unfold blocking_events. destruct (k_getfl2 k); repeat constructor. Qed.
Definition leaky (k : calls) : Prop := k_socket k = None /\ (k_getfl1 k <> None \/ k_setfl1 k <> None).
Lemma connect_shape fd k o d : tcp_connect_fd fd k = (o, d) ->
  (connect_events fd k = [] /\ ~ leaky k /\ exists e, o = Throw e)
  \/ exists us, uses fd us /\
     (connect_events fd k = FOpen fd :: us /\ leaky k /\ (exists e, o = Throw e)
      \/ connect_events fd k = FOpen fd :: us /\ ~ leaky k /\ (o = Ok tt \/ ends o = true)
      \/ connect_events fd k = FOpen fd :: us ++ [FClose fd] /\ ~ leaky k /\ exists e, o = Throw e).
Proof.
  intros E. unfold connect_events, leaky. destruct (k_socket k) as [e|] eqn:Ks.
  { left. split; [reflexivity|]. split; [intros [H _]; discriminate H|]. unfold tcp_connect_fd, tcp_connect in E. rewrite Ks in E.
    injection E as <- <-. now eexists. }
  right. destruct (k_getfl1 k) as [e|] eqn:K1.
  { exists [FUse fd]. split; [repeat constructor|]. left. split; [reflexivity|]. split; [split; [reflexivity|left; discriminate]|].
    unfold tcp_connect_fd, tcp_connect in E. rewrite Ks, K1 in E. injection E as <- <-. now eexists. }
  destruct (k_setfl1 k) as [e|] eqn:K2.
  { exists [FUse fd; FUse fd]. split; [repeat constructor|]. left. split; [reflexivity|]. split; [split; [reflexivity|right; discriminate]|].
    unfold tcp_connect_fd, tcp_connect in E. rewrite Ks, K1, K2 in E. injection E as <- <-. now eexists. }
  assert (NL : ~ ((None : failing) = None /\ ((None : failing) <> None \/ (None : failing) <> None))) by (intros [_ [H|H]]; now apply H).
  set (us := [FUse fd; FUse fd] ++ wait_events fd k ++ match tcp_connect_wait k with Ok _ => blocking_events fd k | _ => [] end).
  assert (U : uses fd us).
  { unfold us. apply uses_app; [repeat constructor|]. apply uses_app; [apply wait_uses|]. destruct (tcp_connect_wait k); [apply blocking_uses|constructor..]. }
  exists us. split; [assumption|]. right. rewrite E.
  destruct o as [[]|e|u|].
  - left. split; [|split; [assumption|now left]]. unfold us. now rewrite app_nil_r.
  - right. split; [|split; [assumption|now eexists]]. unfold us. rewrite <- !app_assoc. reflexivity.
  - left. split; [|split; [assumption|now right]]. unfold us. now rewrite app_nil_r.
  - left. split; [|split; [assumption|now right]]. unfold us. now rewrite app_nil_r.
Qed.
Lemma open_shape h fd k p w o w' ev : session_open_fd h fd k p w = (o, w', ev) ->
  (ev = [] /\ ~ leaky k /\ exists e, o = Throw e)
  \/ exists us, uses fd us /\
     (ev = FOpen fd :: us /\ (leaky k /\ (exists e, o = Throw e) \/ ~ leaky k /\ ((exists n, o = Ok n) \/ ends o = true))
      \/ ev = FOpen fd :: us ++ [FClose fd] /\ ~ leaky k /\ exists e, o = Throw e).
Proof.
  unfold session_open_fd. destruct (tcp_connect_fd fd k) as [o1 d] eqn:C. apply connect_shape in C. intros E.
  destruct C as [(C & N & e & ->)|(us & U & [(C & L & e & ->)|[(C & N & O)|(C & N & e & ->)]])]; rewrite C in E.
  - injection E as <- <- <-. left. split; [reflexivity|]. split; [assumption|now eexists].
  - injection E as <- <- <-. right. exists us. split; [assumption|]. left. split; [reflexivity|]. left. split; [assumption|now eexists].
  - destruct o1 as [[]|e|u|].
    + destruct (session_register h p w) as [o2 w2]. injection E as <- <- <-. right.
      pose proof (uses_app _ _ _ U (uses_app fd [FUse fd] _ (Forall_cons _ eq_refl (Forall_nil _)) (exchange_uses h p fd register_packet w))) as U2.
      destruct o2 as [n|e|u|].
      * exists (us ++ [FUse fd] ++ exchange_events h p fd register_packet w). split; [assumption|]. left. split; [now rewrite app_nil_r|].
        right. split; [assumption|]. left. now eexists.
      * destruct (destroy_uses _ _ U2) as (vs & V & D). exists vs. split; [assumption|]. right. split; [|split; [assumption|now eexists]].
        rewrite <- D. cbn [app]. f_equal. rewrite <- !app_assoc. reflexivity.
      * exists (us ++ [FUse fd] ++ exchange_events h p fd register_packet w). split; [assumption|]. left. split; [now rewrite app_nil_r|].
        right. split; [assumption|]. now right.
      * exists (us ++ [FUse fd] ++ exchange_events h p fd register_packet w). split; [assumption|]. left. split; [now rewrite app_nil_r|].
        right. split; [assumption|]. now right.
    + destruct O as [O|O]; discriminate O.
    + injection E as <- <- <-. right. exists us. split; [assumption|]. left. split; [reflexivity|]. right. split; [assumption|]. now right.
    + injection E as <- <- <-. right. exists us. split; [assumption|]. left. split; [reflexivity|]. right. split; [assumption|]. now right.
  - injection E as <- <- <-. right. exists us. split; [assumption|]. right. split; [reflexivity|]. split; [assumption|now eexists].
Qed.

(** ** Programs *)
Definition exact (s : rworld) (lost : Z -> Prop) (l : list Z) : Prop :=
  NoDup l /\ (forall fd, In fd l <-> (exists i, open_session s i fd) \/ lost fd)
  /\ (forall i j fd, open_session s i fd -> open_session s j fd -> i = j)
  /\ (forall i fd, open_session s i fd -> ~ lost fd)
  /\ (forall i, (rw_next s <= i)%nat -> rw_live s i = None).
Definition fine_r (s : rworld) (lost : Z -> Prop) : Prop :=
  audit (rw_ev s) [] <> Fault
  /\ (rw_over s = false -> audit (rw_ev s) [] = Reused \/ exists l, audit (rw_ev s) [] = Held l /\ exact s lost l).
Lemma exact_ext s lost lost' l : (forall fd, lost fd <-> lost' fd) -> exact s lost l -> exact s lost' l.
Proof.
  intros H (A & B & C & D & E). split; [assumption|]. split; [intros fd; now rewrite B, H|]. split; [assumption|]. split; [|assumption].
  intros i fd O. rewrite <- H. now apply D with i.
Qed.
Lemma fine_ext s lost lost' : (forall fd, lost fd <-> lost' fd) -> fine_r s lost -> fine_r s lost'.
Proof.
  intros H (A & B). split; [assumption|]. intros O. destruct (B O) as [R|(l & L & X)]; [now left|right]. exists l. split; [assumption|].
  now apply exact_ext with lost.
Qed.
Lemma not_over s lost : fine_r s lost -> rw_over s = false ->
  audit (rw_ev s) [] = Reused \/ exists l, audit (rw_ev s) [] = Held l /\ exact s lost l.
Proof. intros [_ H]. exact H. Qed.
Lemma held_session s lost l i v : exact s lost l -> rw_live s i = Some v -> In (lv_fd v) l.
Proof. intros (_ & B & _) E. apply B. left. exists i, v. now split. Qed.
Lemma step_fine_r h c s lost : fine_r s lost -> rw_over s = false -> fine_r (rstep h c s) (fun fd => lost fd \/ leaks c fd).
Proof.
  intros F O. destruct (not_over _ _ F O) as [R|(l & L & X)].
  { assert (R' : audit (rw_ev (rstep h c s)) [] = Reused).
    { destruct c as [fd k p w|i q|i|sock b sent ep ds]; cbn [rstep].
      - destruct (session_open_fd h fd k p w) as [[o w'] ev]. cbn [rw_ev]. now rewrite audit_app, R.
      - destruct (rw_live s i); [|assumption]. destruct (send_and_receive _ _ _ _ _). cbn [rw_ev]. now rewrite audit_app, R.
      - destruct (rw_live s i); [|assumption]. destruct (session_close_fd _ _ _ _). cbn [rw_ev]. now rewrite audit_app, R.
      - destruct (discover_fd h sock b sent ep ds) as [[o w'] ev]. cbn [rw_ev]. now rewrite audit_app, R. }
    split; [rewrite R'; discriminate|]. intros _. now left. }
  pose proof X as (ND & B & U & NL & Nx).
  destruct c as [fd k p w|i q|i|sock b sent ep ds]; cbn [rstep].
  - destruct (session_open_fd h fd k p w) as [[o w'] ev] eqn:E. apply open_shape in E.
    assert (Old : forall o', (exists e, o' = Throw e) \/ (ends o' = true) -> forall ev0 ov,
              exact (mkRw (S (rw_next s)) (match o' with Ok handle => update (rw_live s) (rw_next s) (Some (mkLive handle fd p w')) | _ => rw_live s end) ev0 ov) lost l).
    { intros o' H ev0 ov. assert (Q : match o' with Ok handle => update (rw_live s) (rw_next s) (Some (mkLive handle fd p w')) | _ => rw_live s end = rw_live s).
      { destruct H as [[e ->]|H]; [reflexivity|]. destruct o'; try discriminate H; reflexivity. }
      rewrite Q. split; [assumption|]. split; [assumption|]. split; [assumption|]. split; [assumption|]. intros j J. apply Nx. cbn [rw_next] in J. lia. }
    destruct E as [(-> & NLk & e & ->)|(us & Us & [(-> & C)|(-> & NLk & e & ->)])].
    + split; cbn [rw_ev rw_over ends]; rewrite app_nil_r, L; [discriminate|]. intros _. right. exists l. split; [reflexivity|].
      apply exact_ext with lost; [|apply (Old (Throw e)); left; now eexists]. intros fd0. cbn [leaks]. unfold leaky in NLk. intuition congruence.
    + split; cbn [rw_ev rw_over]; rewrite audit_app, L, audit_opened by assumption; destruct (in_dec Z.eq_dec fd l) as [I|NI]; try discriminate.
      { now left. }
      intros EO. right. exists (fd :: l). split; [reflexivity|]. destruct C as [(Lk & e & ->)|(NLk & [(n & ->)|Q])]; [| |congruence].
      * split; [now constructor|]. split; [|split; [exact U|split; [|intros j J; apply Nx; cbn [rw_next] in J; lia]]].
        -- intros fd0. cbn [In]. rewrite B. unfold open_session; cbn [rw_live leaks]. unfold leaky in Lk. intuition.
        -- intros j fd0 Oj. change (open_session s j fd0) in Oj. cbn [leaks]. intros [Q|(<- & _)]; [exact (NL _ _ Oj Q)|].
           apply NI, B. left. now exists j.
      * assert (OS : forall j fd0, open_session (mkRw (S (rw_next s)) (update (rw_live s) (rw_next s) (Some (mkLive n fd p w'))) (rw_ev s ++ FOpen fd :: us) (ends (Ok n))) j fd0
                     <-> (j = rw_next s /\ fd0 = fd) \/ open_session s j fd0).
        { intros j fd0. unfold open_session; cbn [rw_live]. unfold update. destruct (Nat.eqb_spec j (rw_next s)) as [->|Nj].
          - rewrite Nx by lia. split; [intros (v & V & F'); inv V; left; now split|]. intros [[_ ->]|(v & V & _)]; [now eexists|discriminate V].
          - split; [intros Q; now right|]. intros [[Q _]|Q]; [congruence|assumption]. }
        split; [now constructor|]. split; [|split; [|split]].
        -- intros fd0. cbn [In]. rewrite B. unfold leaky in NLk. split.
           ++ intros [<-|[(j & Oj)|Q]].
              ** left. exists (rw_next s). apply OS. left. now split.
              ** left. exists j. apply OS. now right.
              ** right. now left.
           ++ intros [(j & Oj)|[Q|Q]].
              ** apply OS in Oj. destruct Oj as [[_ ->]|Oj]; [now left|]. right. left. now exists j.
              ** right. now right.
              ** cbn [leaks] in Q. destruct Q as (_ & Q). contradiction.
        -- intros i j fd0 Oi Oj. apply OS in Oi. apply OS in Oj. destruct Oi as [[-> ->]|Oi], Oj as [[-> E2]|Oj]; try reflexivity.
           ++ exfalso. apply NI, B. left. now exists j.
           ++ subst fd0. exfalso. apply NI, B. left. now exists i.
           ++ now apply U with fd0.
        -- intros j fd0 Oj. apply OS in Oj. unfold leaky in NLk. intros [Q|Q]; [|cbn [leaks] in Q; destruct Q as (_ & Q); contradiction].
           destruct Oj as [[_ ->]|Oj]; [apply NI, B; now right|exact (NL _ _ Oj Q)].
        -- intros j J. cbn [rw_next] in J. cbn [rw_live]. unfold update. destruct (Nat.eqb_spec j (rw_next s)); [lia|]. apply Nx. lia.
    + split; cbn [rw_ev rw_over ends]; rewrite audit_app, L, audit_once by assumption; destruct (in_dec Z.eq_dec fd l) as [I|NI]; try discriminate.
      { intros _. now left. }
      intros _. right. exists l. split; [reflexivity|].
      apply exact_ext with lost; [|apply (Old (Throw e)); left; now eexists]. intros fd0. cbn [leaks]. unfold leaky in NLk. intuition congruence.
  - assert (LX : forall fd, lost fd <-> lost fd \/ leaks (RSend i q) fd) by (intros fd; cbn [leaks]; tauto).
    destruct (rw_live s i) as [v|] eqn:V; [|apply fine_ext with lost; assumption].
    destruct (send_and_receive _ _ _ _ _) as [o w']. apply fine_ext with lost; [assumption|].
    pose proof (audit_used (lv_fd v) _ l (exchange_uses h (lv_peer v) (lv_fd v) q (lv_net v)) (held_session _ _ _ _ _ X V)) as A.
    split; cbn [rw_ev rw_over]; rewrite audit_app, L, A; [discriminate|]. intros _. right. exists l. split; [reflexivity|].
    assert (OS : forall j fd0 ev ov, open_session (mkRw (rw_next s) (update (rw_live s) i (Some (mkLive (lv_handle v) (lv_fd v) (lv_peer v) w'))) ev ov) j fd0 <-> open_session s j fd0).
    { intros j fd0 ev ov. unfold open_session; cbn [rw_live]. unfold update. destruct (Nat.eqb_spec j i) as [->|Nj]; [|reflexivity].
      rewrite V. split; intros (v' & V' & F'); inv V'; now eexists. }
    split; [assumption|]. split; [|split; [|split]].
    + intros fd0. rewrite B. split; (intros [(j & Oj)|Q]; [left; exists j; now apply OS|now right]) || (intros [(j & Oj)|Q]; [left; exists j; now apply OS in Oj|now right]).
    + intros i0 j fd0 Oi Oj. apply OS in Oi. apply OS in Oj. now apply U with fd0.
    + intros j fd0 Oj. apply OS in Oj. now apply NL with j.
    + intros j J. cbn [rw_next rw_live] in *. unfold update. destruct (Nat.eqb_spec j i) as [->|]; [rewrite Nx in V by assumption; discriminate V|now apply Nx].
  - assert (LX : forall fd, lost fd <-> lost fd \/ leaks (RClose i) fd) by (intros fd; cbn [leaks]; tauto).
    destruct (rw_live s i) as [v|] eqn:V; [|apply fine_ext with lost; assumption].
    unfold session_close_fd. set (o := fst _). apply fine_ext with lost; [assumption|].
    pose proof (held_session _ _ _ _ _ X V) as I.
    split; cbn [rw_ev rw_over]; rewrite audit_app, L; cbn [audit]; (destruct (in_dec Z.eq_dec (lv_fd v) l) as [_|N]; [|contradiction]).
    + destruct o; cbn [leave_scope]; rewrite ?audit_destroy by assumption; discriminate.
    + intros EO. right. exists (List.remove Z.eq_dec (lv_fd v) l).
      split; [destruct o; cbn [leave_scope ends] in *; try discriminate EO; now apply audit_destroy|].
      assert (OS : forall j fd0 ev ov, open_session (mkRw (rw_next s) (update (rw_live s) i None) ev ov) j fd0 <-> j <> i /\ open_session s j fd0).
      { intros j fd0 ev ov. unfold open_session; cbn [rw_live]. unfold update. destruct (Nat.eqb_spec j i) as [->|Nj].
        - split; [intros (v' & V' & _); discriminate V'|tauto].
        - tauto. }
      split; [now apply remove_nodup|]. split; [|split; [|split]].
      * intros fd0. rewrite remove_iff, B. split.
        -- intros [[(j & Oj)|Q] Nf]; [|now right]. left. exists j. apply OS. split; [|assumption]. intros ->.
           destruct Oj as (v' & V' & F'). rewrite V in V'. inv V'. congruence.
        -- intros [(j & Oj)|Q].
           ++ apply OS in Oj. destruct Oj as [Nj Oj]. split; [left; now exists j|]. intros ->. apply Nj. apply (U j i (lv_fd v)); [assumption|now exists v].
           ++ split; [now right|]. intros ->. apply (NL i (lv_fd v)); [now exists v|assumption].
      * intros i0 j fd0 Oi Oj. apply OS in Oi. apply OS in Oj. apply U with fd0; tauto.
      * intros j fd0 Oj. apply OS in Oj. apply NL with j. tauto.
      * intros j J. cbn [rw_next rw_live] in *. unfold update. destruct (Nat.eqb_spec j i); [reflexivity|now apply Nx].
  - assert (LX : forall fd, lost fd <-> lost fd \/ leaks (RDiscover sock b sent ep ds) fd) by (intros fd; cbn [leaks]; tauto).
    destruct (discover_fd h sock b sent ep ds) as [[o w'] ev] eqn:E. apply discover_shape in E. apply fine_ext with lost; [assumption|].
    destruct E as [(-> & EO)|(fd & us & _ & Us & [(-> & EO)|(-> & EO)])].
    + split; cbn [rw_ev rw_over]; rewrite app_nil_r, L; [discriminate|]. intros _. right. now exists l.
    + split; cbn [rw_ev rw_over]; rewrite audit_app, L, audit_once by assumption; destruct (in_dec Z.eq_dec fd l); try discriminate; intros _; [now left|].
      right. now exists l.
    + split; cbn [rw_ev rw_over]; rewrite audit_app, L, audit_opened by assumption; destruct (in_dec Z.eq_dec fd l); try discriminate; congruence.
Qed.
Lemma rrun_over h cs s : rw_over s = true -> rrun h cs s = s.
Proof. destruct cs; cbn [rrun]; [reflexivity|]. now intros ->. Qed.
Lemma run_fine_r h : forall cs s lost, fine_r s lost -> fine_r (rrun h cs s) (fun fd => lost fd \/ exists c, In c cs /\ leaks c fd).
Proof.
  induction cs as [|c cs IH]; intros s lost F; cbn [rrun].
  - apply fine_ext with lost; [|assumption]. intros fd. cbn [In]. split; [now left|]. intros [H|(c & [] & _)]. assumption.
  - destruct (rw_over s) eqn:O.
    + destruct F as [A _]. split; [assumption|]. rewrite O. discriminate.
    + apply fine_ext with (fun fd => (lost fd \/ leaks c fd) \/ exists c', In c' cs /\ leaks c' fd); [|now apply IH, step_fine_r].
      intros fd. cbn [In]. split.
      * intros [[H|H]|(c' & I & H)]; [now left|right; exists c; tauto|right; exists c'; tauto].
      * intros [H|(c' & [<-|I] & H)]; [tauto|tauto|right; now exists c'].
Qed.
Lemma start_fine_r : fine_r rstart (fun _ => False).
Proof.
  split; [discriminate|]. intros _. right. exists []. split; [reflexivity|]. split; [constructor|]. split; [|split; [|split]].
  - intros fd. cbn [In]. split; [tauto|]. intros [(i & v & V & _)|[]]. discriminate V.
  - intros i j fd (v & V & _). discriminate V.
  - intros i fd (v & V & _). discriminate V.
  - reflexivity.
Qed.
Lemma sessions_audit h cs : let s := rrun h cs rstart in
  audit (rw_ev s) [] <> Fault
  /\ (rw_over s = false ->
      audit (rw_ev s) [] = Reused
      \/ exists l, audit (rw_ev s) [] = Held l /\ NoDup l
         /\ (forall fd, In fd l <-> (exists i, open_session s i fd) \/ exists c, In c cs /\ leaks c fd)
         /\ (forall i j fd, open_session s i fd -> open_session s j fd -> i = j)).
Proof.
  cbv zeta. pose proof (run_fine_r h cs rstart _ start_fine_r) as [A H]. split; [assumption|]. intros O. destruct (H O) as [R|(l & L & N & B & U & _)]; [now left|right].
  exists l. split; [assumption|]. split; [assumption|]. split; [|assumption]. intros fd. rewrite B. tauto.
Qed.

(** ** Everything closed *)
Lemma rrun_app h a : forall b s, rrun h (a ++ b) s = rrun h b (rrun h a s).
Proof.
  induction a as [|c a IH]; intros b s; cbn [app rrun]; [reflexivity|]. destruct (rw_over s) eqn:O; [now rewrite rrun_over|apply IH].
Qed.
Lemma step_next h c s : (rw_next (rstep h c s) <= match c with ROpen _ _ _ _ => S (rw_next s) | _ => rw_next s end)%nat.
Proof.
  destruct c as [fd k p w|i q|i|sock b sent ep ds]; cbn [rstep].
  - destruct (session_open_fd h fd k p w) as [[o w'] ev]. cbn [rw_next]. lia.
  - destruct (rw_live s i); [|lia]. destruct (send_and_receive _ _ _ _ _). cbn [rw_next]. lia.
  - destruct (rw_live s i); [|lia]. destruct (session_close_fd _ _ _ _). cbn [rw_next]. lia.
  - destruct (discover_fd h sock b sent ep ds) as [[o w'] ev]. cbn [rw_next]. lia.
Qed.
Lemma run_next h : forall cs s, (rw_next (rrun h cs s) <= rw_next s + List.length cs)%nat.
Proof.
  induction cs as [|c cs IH]; intros s; cbn [rrun List.length]; [lia|]. destruct (rw_over s); [lia|].
  specialize (IH (rstep h c s)). pose proof (step_next h c s). destruct c; lia.
Qed.
Lemma close_live h i s j : rw_live (rstep h (RClose i) s) j = if Nat.eqb j i then None else rw_live s j.
Proof.
  cbn [rstep]. destruct (rw_live s i) as [v|] eqn:V.
  - destruct (session_close_fd _ _ _ _). cbn [rw_live]. reflexivity.
  - destruct (Nat.eqb_spec j i) as [->|]; [assumption|reflexivity].
Qed.
Lemma closes_live h : forall ids s j, rw_over (rrun h (map RClose ids) s) = false ->
  rw_live s j = None \/ In j ids -> rw_live (rrun h (map RClose ids) s) j = None.
Proof.
  induction ids as [|i ids IH]; intros s j O H; cbn [map rrun] in *; [destruct H as [H|[]]; assumption|].
  destruct (rw_over s) eqn:Os; [congruence|]. apply IH; [assumption|]. rewrite close_live. cbn [In] in H.
  destruct (Nat.eqb_spec j i) as [->|N]; [now left|]. destruct H as [H|[H|H]]; [now left|congruence|now right].
Qed.
Lemma next_fresh h : forall cs s, (forall i, (rw_next s <= i)%nat -> rw_live s i = None) -> forall i, (rw_next (rrun h cs s) <= i)%nat -> rw_live (rrun h cs s) i = None.
Proof.
  induction cs as [|c cs IH]; intros s F i H; cbn [rrun] in *; [now apply F|]. destruct (rw_over s); [now apply F|].
  apply IH; [|assumption]. clear i H IH. intros i. destruct c as [fd k p w|j q|j|sock b sent ep ds]; cbn [rstep].
  - destruct (session_open_fd h fd k p w) as [[o w'] ev]. cbn [rw_next rw_live]. intros H.
    destruct o; try (apply F; lia). unfold update. destruct (Nat.eqb_spec i (rw_next s)); [lia|apply F; lia].
  - destruct (rw_live s j) as [v|] eqn:V; [|apply F]. destruct (send_and_receive _ _ _ _ _). cbn [rw_next rw_live]. intros H.
    unfold update. destruct (Nat.eqb_spec i j) as [->|]; [rewrite F in V by assumption; discriminate V|now apply F].
  - destruct (rw_live s j) as [v|] eqn:V; [|apply F]. destruct (session_close_fd _ _ _ _). cbn [rw_next rw_live]. intros H.
    unfold update. destruct (Nat.eqb_spec i j) as [->|]; [reflexivity|now apply F].
  - destruct (discover_fd h sock b sent ep ds) as [[o w'] ev]. cbn [rw_next rw_live]. apply F.
Qed.
Lemma sessions_released h cs n : (List.length cs <= n)%nat -> let s := rrun h (cs ++ map RClose (seq 0 n)) rstart in
  rw_over s = false -> audit (rw_ev s) [] = Reused
  \/ exists l, audit (rw_ev s) [] = Held l /\ NoDup l /\ forall fd, In fd l <-> exists c, In c cs /\ leaks c fd.
Proof.
  intros Hn. cbv zeta. intros O. destruct (sessions_audit h (cs ++ map RClose (seq 0 n))) as [_ H]. destruct (H O) as [R|(l & L & N & B & _)]; [now left|right].
  exists l. split; [assumption|]. split; [assumption|]. intros fd. rewrite B. split.
  - intros [(i & v & V & _)|(c & I & Lk)].
    + exfalso. rewrite rrun_app in V, O. rewrite closes_live in V; [discriminate V|assumption|].
      destruct (Nat.ltb_spec i n) as [Li|Li]; [right; apply in_seq; lia|left]. apply next_fresh; [reflexivity|].
      pose proof (run_next h cs rstart) as Q. cbn [rstart rw_next] in Q. lia.
    + exists c. split; [|assumption]. apply in_app_or in I. destruct I as [I|I]; [assumption|]. apply in_map_iff in I as (x & <- & _). destruct Lk.
  - intros (c & I & Lk). right. exists c. split; [apply in_or_app; now left|assumption].
Qed.

(** ** Several parts of a program *)
Lemma audit_merge : forall a b c, merge a b c -> forall la lb l, (forall fd, In fd l <-> In fd la \/ In fd lb) -> (forall fd, In fd la -> ~ In fd lb) -> NoDup l ->
  audit a la <> Fault -> audit b lb <> Fault ->
  audit c l = Reused \/ exists la' lb' l', audit a la = Held la' /\ audit b lb = Held lb' /\ audit c l = Held l'
    /\ (forall fd, In fd l' <-> In fd la' \/ In fd lb') /\ (forall fd, In fd la' -> ~ In fd lb') /\ NoDup l'.
Proof.
  induction 1 as [|x a b c M IH|x a b c M IH]; intros la lb l E D N Fa Fb.
  - right. exists la, lb, l. cbn [audit]. repeat split; try apply E; auto.
  - destruct x as [fd|fd|fd]; cbn [audit] in Fa |- *.
    + destruct (in_dec Z.eq_dec fd l) as [I|I]; [now left|]. destruct (in_dec Z.eq_dec fd la) as [J|J]; [exfalso; apply I, E; now left|].
      apply IH; try assumption.
      * intros fd'. cbn [In]. rewrite E. tauto.
      * intros fd' [<-|K]; [intros K; apply I, E; now right|now apply D].
      * now constructor.
    + destruct (in_dec Z.eq_dec fd la) as [J|J]; [|congruence]. destruct (in_dec Z.eq_dec fd l) as [I|I]; [|exfalso; apply I, E; now left]. now apply IH.
    + destruct (in_dec Z.eq_dec fd la) as [J|J]; [|congruence]. destruct (in_dec Z.eq_dec fd l) as [I|I]; [|exfalso; apply I, E; now left].
      apply IH; try assumption.
      * intros fd'. rewrite !remove_iff, E. split; [tauto|]. intros [K|K]; [tauto|]. split; [now right|]. intros ->. exact (D _ J K).
      * intros fd' K. apply remove_iff in K. now apply D.
      * now apply remove_nodup.
  - destruct x as [fd|fd|fd]; cbn [audit] in Fb |- *.
    + destruct (in_dec Z.eq_dec fd l) as [I|I]; [now left|]. destruct (in_dec Z.eq_dec fd lb) as [J|J]; [exfalso; apply I, E; now right|].
      apply IH; try assumption.
      * intros fd'. cbn [In]. rewrite E. tauto.
      * intros fd' K [<-|K']; [apply I, E; now left|exact (D _ K K')].
      * now constructor.
    + destruct (in_dec Z.eq_dec fd lb) as [J|J]; [|congruence]. destruct (in_dec Z.eq_dec fd l) as [I|I]; [|exfalso; apply I, E; now right]. now apply IH.
    + destruct (in_dec Z.eq_dec fd lb) as [J|J]; [|congruence]. destruct (in_dec Z.eq_dec fd l) as [I|I]; [|exfalso; apply I, E; now right].
      apply IH; try assumption.
      * intros fd'. rewrite !remove_iff, E. split; [tauto|]. intros [K|K]; [|tauto]. split; [now left|]. intros ->. exact (D _ K J).
      * intros fd' K K'. apply remove_iff in K'. exact (D _ K (proj1 K')).
      * now apply remove_nodup.
Qed.
Lemma together {S} h (ops : list (nat * fcall S)) inc (x : S) cs ev :
  let w := run_fw h ops (start_fw inc x) in
  let s := rrun h cs rstart in
  merge (v_ev w) (rw_ev s) ev ->
  audit ev [] <> Fault
  /\ (rw_over s = false -> audit ev [] = Reused
      \/ exists l, audit ev [] = Held l /\ NoDup l
         /\ forall fd, In fd l <-> (exists i y, holds (v_f w i) y fd) \/ (exists i, open_session s i fd) \/ exists c, In c cs /\ leaks c fd).
Proof.
  cbv zeta. intros M. pose proof (audit_history h ops inc x) as A. cbv zeta in A. pose proof (sessions_audit h cs) as (F & B). cbv zeta in F, B.
  assert (Fa : audit (v_ev (run_fw h ops (start_fw inc x))) [] <> Fault) by (destruct A as [A|(l & A & _)]; rewrite A; discriminate).
  pose proof (audit_merge _ _ _ M [] [] [] ltac:(cbn; tauto) ltac:(cbn; tauto) ltac:(constructor) Fa F) as [R|(la & lb & l & Ea & Eb & Ec & E & _ & N)].
  { rewrite R. split; [discriminate|]. intros _. now left. }
  rewrite Ec. split; [discriminate|]. intros O. right. exists l. split; [reflexivity|]. split; [assumption|]. intros fd. rewrite E.
  destruct A as [A|(l1 & A & _ & A1 & _)]; [congruence|]. destruct (B O) as [B0|(l2 & B0 & _ & B1 & _)]; [congruence|].
  assert (la = l1) by congruence. assert (lb = l2) by congruence. subst. rewrite A1, B1. reflexivity.
Qed.
(** A session is not disturbed by the rest of the program. *)
Lemma step_next_eq h c s : rw_next (rstep h c s) = (opened_in [c] + rw_next s)%nat.
Proof.
  destruct c as [fd k p w|i q|i|sock b sent ep ds]; cbn [rstep].
  - destruct (session_open_fd h fd k p w) as [[o w'] ev]. reflexivity.
  - destruct (rw_live s i); [|reflexivity]. destruct (send_and_receive _ _ _ _ _). reflexivity.
  - destruct (rw_live s i); [|reflexivity]. destruct (session_close_fd _ _ _ _). reflexivity.
  - destruct (discover_fd h sock b sent ep ds) as [[o w'] ev]. reflexivity.
Qed.
Lemma opened_cons c cs : opened_in (c :: cs) = (opened_in [c] + opened_in cs)%nat.
Proof. unfold opened_in. cbn [filter]. destruct c; reflexivity. Qed.
Lemma run_next_eq h : forall cs s, rw_over (rrun h cs s) = false -> rw_next (rrun h cs s) = (opened_in cs + rw_next s)%nat.
Proof.
  induction cs as [|c cs IH]; intros s O; [reflexivity|]. rewrite opened_cons. cbn [rrun] in *. destruct (rw_over s) eqn:Os; [congruence|].
  rewrite IH by assumption. rewrite step_next_eq. lia.
Qed.
Lemma run_alone h i fd p handle : forall cs s w, rw_over (rrun h cs s) = false -> ~ In (RClose i) cs -> (i < rw_next s)%nat ->
  rw_live s i = Some (mkLive handle fd p w) ->
  rw_live (rrun h cs s) i
  = Some (mkLive handle fd p (fold_left (fun w q => snd (send_and_receive h p handle q w)) (packets_of i cs) w)).
Proof.
  induction cs as [|c cs IH]; intros s w O N Hi L; [exact L|]. cbn [rrun] in *. destruct (rw_over s) eqn:Os; [congruence|].
  assert (N' : ~ In (RClose i) cs) by (intros X; apply N; now right).
  assert (Hi' : (i < rw_next (rstep h c s))%nat) by (rewrite step_next_eq; lia).
  unfold packets_of. cbn [flat_map]. rewrite fold_left_app. fold (packets_of i cs). apply IH; try assumption.
  destruct c as [fd' k p' w'|j q|j|sock b sent ep ds]; cbn [rstep].
  - destruct (session_open_fd h fd' k p' w') as [[o w''] ev]. cbn [rw_live fold_left]. destruct o; try assumption.
    unfold update. destruct (Nat.eqb_spec i (rw_next s)); [lia|assumption].
  - destruct (Nat.eqb_spec j i) as [->|D].
    + rewrite L. cbn [lv_handle lv_fd lv_peer lv_net fold_left]. destruct (send_and_receive h p handle q w) as [o w'].
      cbn [rw_live snd]. unfold update. now rewrite Nat.eqb_refl.
    + cbn [fold_left]. destruct (rw_live s j) as [v|]; [|assumption]. destruct (send_and_receive _ _ _ _ _) as [o w'].
      cbn [rw_live]. unfold update. destruct (Nat.eqb_spec i j); [congruence|assumption].
  - cbn [fold_left]. change (rw_live (rstep h (RClose j) s) i = Some (mkLive handle fd p w)). rewrite close_live.
    destruct (Nat.eqb_spec i j) as [->|]; [|assumption]. exfalso. apply N. now left.
  - destruct (discover_fd h sock b sent ep ds) as [[o w'] ev]. assumption.
Qed.
Lemma session_alone h before after fd k p w handle w' ev :
  session_open_fd h fd k p w = (Ok handle, w', ev) ->
  let s := rrun h (before ++ ROpen fd k p w :: after) rstart in let i := opened_in before in
  rw_over s = false -> ~ In (RClose i) after ->
  rw_live s i = Some (mkLive handle fd p (fold_left (fun w q => snd (send_and_receive h p handle q w)) (packets_of i after) w')).
Proof.
  intros E s i O N. subst s. rewrite rrun_app in *. cbn [rrun] in *. destruct (rw_over (rrun h before rstart)) eqn:Ob; [congruence|].
  assert (Nx : rw_next (rrun h before rstart) = i) by (rewrite run_next_eq by assumption; cbn [rw_next rstart]; subst i; lia).
  apply run_alone; try assumption.
  - rewrite step_next_eq, Nx. unfold opened_in. cbn [filter List.length]. lia.
  - cbn [rstep]. rewrite E, Nx. cbn [rw_live]. unfold update. now rewrite Nat.eqb_refl.
Qed.
