(** Proofs about whole programs. *)
From Verif Require Import Base MBuffer SBuffer PBase PBuffer MEip SEip PPath PPathT PEip PRouter PConnOpen SObj PObj MSocket SSocket PSocket
  MFile SFile PFile MIdent MParam MFault MYaskawa MExample SExample PExample SHost PHost PObjLog2 MConnReq MConn MMain SMain.
Local Open Scope Z_scope.

Lemma get_word h d x b : get_u16 h d = Ok (x, b) -> is_u16 x.
Proof.
  unfold get_u16. destruct (fetch h d) as [[v1 b1]| | |]; try discriminate. cbn [bind]. destruct (fetch h b1) as [[v2 b2]| | |]; try discriminate. cbn [bind].
  intros [= <- _]. apply u16_range.
Qed.
Lemma class_word {W} h (si : session_if W) a w n w' : class_attribute h si a w = (Ok n, w') -> match n with Some n => is_u16 n | None => True end.
Proof.
  unfold class_attribute, st_bind. destruct (send_request _ _ _ _ _ _ _ w) as [[r| | |] w1]; try discriminate.
  destruct (_ =? _); [|intros [= <- _]; exact I]. unfold st_lift. destruct (get_u16 h _) as [[x b]| | |] eqn:E; try discriminate.
  intros [= <- _]. eapply get_word. exact E.
Qed.
Lemma param_keeps_id {W} h use8 (si : session_if W) id full w x w' : param_read h use8 si id full w = (Ok x, w') -> pa_id x = id.
Proof.
  unfold param_read, st_bind, st_lift. destruct (ask _ _ _ _ _ w) as [[d1| | |] w1]; try discriminate.
  destruct (omap fst _) as [size| | |]; try discriminate. destruct (ask _ _ _ _ _ w1) as [[d2| | |] w2]; try discriminate.
  destruct (param_attributes _ _ _ _ _) as [q| | |] eqn:PA; try discriminate. apply attributes_id in PA.
  destruct (full && pa_scalable q); [|intros [= <- _]; exact PA].
  destruct (ask_scaling _ _ _ _ _ _ w2) as [[d3| | |] w3]; try discriminate. intros E. injection E as E _. revert E. unfold param_scaling.
  destruct (get_u16 h _) as [[v1 b1]| | |]; try discriminate. cbn [bind].
  destruct (get_u16 h _) as [[v2 b2]| | |]; try discriminate. cbn [bind].
  destruct (get_u16 h _) as [[v3 b3]| | |]; try discriminate. cbn [bind].
  destruct (get_s16 h _) as [[v4 b4]| | |]; try discriminate. cbn [bind]. intros [= <-]. exact PA.
Qed.
Lemma read_ids {W} h (si : session_if W) full n : forall i w l w', read_from h si full i n w = (Ok l, w') ->
  0 <= i -> i + Z.of_nat n <= 65536 -> Forall (fun x => is_u16 (pa_id x)) l.
Proof.
  induction n as [|n IH]; intros i w l w' E I1 I2; cbn [read_from] in E; [injection E as <- _; constructor|].
  unfold st_bind in E. destruct (param_read _ _ _ _ _ w) as [[x| | |] w1] eqn:X; try discriminate.
  destruct (read_from h si full (i + 1) n w1) as [[r| | |] w2] eqn:R; try discriminate. injection E as <- _.
  constructor; [|eapply IH; [exact R|..]; lia]. apply param_keeps_id in X. rewrite X. unfold is_u16; lia.
Qed.

Section Like.
Context {D : Type}.
Variables (p : peer) (handle : Z) (dev : device D) (d : D).
Hypothesis HP : hosts p handle dev d.
Hypothesis HD : device_wf dev.
Hypothesis HH : is_u32 handle.
Variable h : heap.
Notation live := (live_session h p handle).
Notation direct := (served handle dev).
Notation like := (like handle dev d).

Definition replied {S} (x : outcome encaps * S) : outcome response * S :=
  match x with
  | (Ok received, s') => (reply_response h received, s')
  | (Throw e, s') => (Throw e, s')
  | (Undef u, s') => (Undef u, s')
  | (Abort, s') => (Abort, s')
  end.
Lemma asked_in_asked wire q : asked_in handle wire = Some q -> asked wire = Some q.
Proof. unfold asked_in. destruct (parse_rr wire) as [[hd t items]|]; [|discriminate]. destruct (_ =? _); [auto|discriminate]. Qed.
Lemma like_packet pk q : asked_in handle (encaps_pack pk) = Some q -> 0 <= q_service q < 128 ->
  like (fun w => replied (si_exchange live pk w)) (fun w => replied (si_exchange direct pk w)).
Proof.
  intros Q S w (NR & DR1 & DR2). destruct (HP (n_sent w) _ _ Q) as [P1 P2].
  unfold same_run. set (s := played handle dev d (n_sent w)) in *.
  destruct (dev (fst s) q) as [a d'] eqn:E. cbn [fst] in P1.
  pose proof (HD (fst s) q) as Wa. rewrite E in Wa. cbn [fst] in Wa.
  destruct (stream_app (n_in w) (p (n_sent w) (encaps_pack pk)) DR2) as (T1 & T2 & _).
  destruct (sar_good h p handle pk (reply_packet handle (q_service q) a) w) with (rest := @nil Z)
    as (w' & X1 & X2 & X3 & X4 & X5).
  - unfold sends_all. rewrite NR. exact Logic.I.
  - now apply reply_packet_wf.
  - unfold incoming. rewrite T1, DR1, P1, app_nil_r. reflexivity.
  - exists w'. destruct s as [ds tr] eqn:Es. cbn [fst] in E.
    unfold served, live_session; cbn [si_exchange]. rewrite (asked_in_asked _ _ Q), E. cbn [replied fst snd]. split; [|split].
    + rewrite X1. replace (verdict handle (reply_packet handle (q_service q) a)) with (Ok (reply_packet handle (q_service q) a)); [reflexivity|].
      unfold verdict, acceptable, reply_packet, packet; cbn [e_status e_handle]. rewrite !Z.eqb_refl, orb_true_r. reflexivity.
    + split; [split; [rewrite X5, NR; reflexivity|]; split; [exact X2|]; rewrite X3; unfold incoming; rewrite T2; exact P2|].
      exists [encaps_pack pk]. split; [exact X4|]. constructor; [rewrite Q; discriminate|constructor].
    + rewrite X4, played_snoc. fold s. unfold serves. rewrite Q. subst s. rewrite Es. cbn [fst snd]. rewrite E. reflexivity.
Qed.
Lemma yasked_in service c n at_ data :
  is_u8 service -> is_u8 c -> is_u8 n -> is_u8 at_ -> is_bytes data -> zlen data <= 60000 ->
  asked_in handle (encaps_pack (yrequest_packet handle service (ypath3 c n at_) data []))
  = Some (mkReq service [(KClass, c); (KInst, n); (KAttr, at_)] data).
Proof.
  intros S C N A B L. pose proof (yasked service c n at_ data handle HH S C N A B L) as Y.
  assert (R : exists x, parse_rr (encaps_pack (yrequest_packet handle service (ypath3 c n at_) data [])) = Some (mkRR handle 0 x)).
  { destruct (yrequest_on_wire service (Ids3 c n at_) data [] handle) as [E1 E2]; try assumption; try discriminate; [..|eexists; exact E1].
    - unfold ids_small; cbn [ids_list]. do 3 (apply Forall_cons; [assumption|]). apply Forall_nil.
    - constructor.
    - pose proof (request_items_len true service (Ids3 c n at_) data) as R.
      rewrite (proj1 (request_recover true service (Ids3 c n at_) data ltac:(discriminate))) in R.
      unfold request_bytes in R. rewrite !zlen_app in R. pose proof (path_len true (Ids3 c n at_)) as P.
      rewrite !zlen_cons, !zlen_nil in R. lia. }
  destruct R as (x & R). unfold asked_in. rewrite R, Z.eqb_refl. exact Y.
Qed.
Lemma like_ysend service c n at_ data :
  0 <= service < 128 -> is_u8 c -> is_u8 n -> is_u8 at_ -> is_bytes data -> zlen data <= 60000 ->
  like (ysend_request h live service (ypath3 c n at_) data []) (ysend_request h direct service (ypath3 c n at_) data []).
Proof.
  intros S C N A B L. apply (like_packet _ (mkReq service [(KClass, c); (KInst, n); (KAttr, at_)] data)); [|exact S].
  apply yasked_in; try assumption. unfold is_u8; lia.
Qed.

(** ** The programs *)
Lemma like_class a : 0 <= a < 256 -> like (class_attribute h live a) (class_attribute h direct a).
Proof.
  intros A. unfold class_attribute. apply like_bind.
  - apply like3; try assumption; try (unfold GET_ATTRIBUTE_SINGLE, PARAMETER_CLASS_ID; lia).
    + split; [unfold is_u16; lia|discriminate].
    + constructor.
    + unfold zlen; cbn; lia.
  - intros r. destruct (_ =? _); apply like_pure.
Qed.
Lemma like_reading full n : forall i, 0 <= i -> i + Z.of_nat n <= 65536 -> like (read_from h live full i n) (read_from h direct full i n).
Proof.
  induction n as [|n IH]; intros i I1 I2; cbn [read_from]; [apply like_pure|].
  apply like_bind; [apply like_param; try assumption; split; [unfold is_u16; lia|discriminate]|]. intros x.
  apply like_bind; [apply IH; lia|]. intros r. apply like_pure.
Qed.
Lemma like_bind_when {A B} (m : st net A) m' (k : A -> st net B) k' (P : A -> Prop) :
  like m m' -> (forall s a s', m' s = (Ok a, s') -> P a) -> (forall a, P a -> like (k a) (k' a)) -> like (st_bind m k) (st_bind m' k').
Proof.
  intros M R K w I. destruct (M w I) as (w' & E1 & I1 & P1). unfold same_run, st_bind. rewrite E1.
  destruct (m' (played handle dev d (n_sent w))) as [[a|e|u|] s'] eqn:E; cbn [fst snd] in *;
    try (exists w'; split; [reflexivity|split; [exact I1|exact P1]]).
  destruct (K a (R _ _ _ E) w' (proj1 I1)) as (w2 & E2 & I2 & P2). rewrite P1 in E2, P2. exists w2. split; [exact E2|].
  split; [eapply wo_trans; eassumption|exact P2].
Qed.
Lemma like_use l : Forall (fun x => is_u16 (pa_id x)) l -> like (use_first h live l) (use_first h direct l).
Proof.
  intros F. destruct l as [|x r]; cbn [use_first]; [apply like_pure|]. inv F.
  apply like_bind; [apply like_pure|]. intros v. apply like_bind; [apply like_pure|]. intros y.
  intros w I. destruct (like_update p handle dev d HP HD HH h false x w) as (w' & E & I' & P'); [split; [assumption|discriminate]|assumption|].
  unfold same_run. rewrite E. destruct (update_value h false direct (x, played handle dev d (n_sent w))) as [o [p' s']].
  cbn [fst snd] in *. subst s'. destruct o; cbn [fst snd]; eauto.
Qed.
Lemma like_parameters : like (parameter_example h live) (parameter_example h direct).
Proof.
  unfold parameter_example. apply (like_bind_when _ _ _ _ (fun n => match n with Some n => is_u16 n | None => True end)).
  - apply like_class. lia.
  - intros s n s' E. eapply class_word. exact E.
  - intros [n|] N; [|apply like_pure]. apply like_bind; [apply like_class; lia|]. intros [x|]; [|apply like_pure].
    apply (like_bind_when _ _ _ _ (Forall (fun x => is_u16 (pa_id x)))).
    + apply like_reading; unfold is_u16 in *; lia.
    + intros s l s' E. eapply read_ids; [exact E|..]; unfold is_u16 in *; lia.
    + intros l F. apply like_bind; [now apply like_use|]. intros r. apply like_pure.
Qed.
Lemma like_explicit : like (explicit_example h live) (explicit_example h direct).
Proof.
  unfold explicit_example. apply like_bind; [|intros r; apply like_bind; [|intros v; apply like_bind; [|intros r2; apply like_pure]]].
  - apply like3; try assumption; try (unfold GET_ATTRIBUTE_SINGLE; lia); [split; [unfold is_u16; lia|discriminate]|constructor|unfold zlen; cbn; lia].
  - destruct (_ =? _); apply like_pure.
  - apply like3; try assumption; try (unfold SET_ATTRIBUTE_SINGLE; lia).
    + split; [unfold is_u16; lia|discriminate].
    + repeat (apply Forall_cons; [unfold is_u8; lia|]). constructor.
    + vm_compute. discriminate.
Qed.
Lemma like_file n : like (file_example h live n) (file_example h direct n).
Proof.
  assert (S : sendable false 200) by (split; [unfold is_u16; lia|discriminate]).
  unfold file_example. apply (like_bind_when _ _ _ _ (file_ok false)).
  - now apply like_file_open.
  - intros s f s' E. eapply file_open_ok; eassumption.
  - intros f K w I. destruct (like_upload p handle dev d HP HD HH h false 0 n f w K I) as ((w' & E & I' & P') & _).
    unfold same_run. rewrite E. destruct (upload h false direct 0 n (f, played handle dev d (n_sent w))) as [o [f' s']].
    cbn [fst snd] in *. subst s'. eauto.
Qed.
Lemma like_identity_program : like (identity_example h live) (identity_example h direct).
Proof. unfold identity_example. apply like_bind; [now apply like_identity|]. intros o. apply like_pure. Qed.
Lemma like_assembly n : is_u8 n -> like (read_assembly h live n) (read_assembly h direct n).
Proof.
  intros N. unfold read_assembly. apply like_bind.
  - apply like_ysend; try assumption; try (unfold is_u8, GET_ATTRIBUTE_SINGLE; lia); [constructor|unfold zlen; cbn; lia].
  - intros r. destruct (_ =? _); apply like_pure.
Qed.
Lemma like_yaskawa : like (yaskawa_example h live) (yaskawa_example h direct).
Proof.
  unfold yaskawa_example. apply like_bind; [apply like_assembly; unfold is_u8; lia|]. intros a.
  apply like_bind; [apply like_assembly; unfold is_u8; lia|]. intros b.
  apply like_bind; [|intros ok; apply like_pure]. unfold write_assembly. apply like_bind; [|intros r; apply like_pure].
  apply like_ysend; try (unfold is_u8, SET_ATTRIBUTE_SINGLE; lia).
  - rewrite fill_spec by lia. cbn [Z.to_nat repeat]. rewrite firstn_nil. apply repeat_bytes. unfold is_u8; lia.
  - rewrite fill_spec by lia. cbn [Z.to_nat repeat]. rewrite firstn_nil. unfold zlen. rewrite app_length, repeat_length. cbn; lia.
Qed.
End Like.

(** ** The whole *)
Lemma played_carries {D} handle (dev : device D) new : forall s, Forall (fun wire => asked_in handle wire <> None) new ->
  exists tr, snd (fold_left (serves handle dev) new s) = snd s ++ tr /\ carries handle new tr.
Proof.
  unfold carries. induction new as [|x new IH]; intros s F; cbn [fold_left map].
  - exists []. now rewrite app_nil_r.
  - inv F. destruct (asked_in handle x) as [q|] eqn:Q; [|congruence].
    assert (Sv : serves handle dev s x = (snd (dev (fst s) q), snd s ++ [(q, fst (dev (fst s) q))])).
    { unfold serves. rewrite Q. now destruct (dev (fst s) q). }
    destruct (IH (serves handle dev s x) H2) as (tr & E & M). rewrite Sv in E |- *. cbn [snd] in E.
    exists ((q, fst (dev (fst s) q)) :: tr). rewrite E, <- app_assoc. split; [reflexivity|]. cbn [map fst]. now rewrite M.
Qed.
Lemma unregister_unasked handle x : asked_in handle (unregister_bytes x) = None.
Proof. reflexivity. Qed.
Lemma main_whole {D A} p handle (dev : device D) d h k (body : session_if net -> st net A) (direct : st (D * trace) A) :
  is_u32 handle -> registers p handle -> fst (tcp_connect k) = Ok tt ->
  like handle dev d (body (live_session h p handle)) direct ->
  whole handle dev d (session_main h k p body) direct.
Proof.
  intros H R C L. unfold whole, session_main, session_open. destruct (tcp_connect k) as [oc fd]. cbn [fst] in C. subst oc. cbn [fst].
  destruct (register_idle h p handle dev d (mkNet [] [] []) H R) as (w1 & E1 & I1 & S1 & P1); [split; [reflexivity|split; reflexivity]|].
  destruct (L w1 I1) as (w2 & E2 & (I2 & new & S2 & F2) & P2).
  unfold st_bind at 1. rewrite E1. unfold st_bind at 1. rewrite E2. cbn [app n_sent] in S1, P1. rewrite P1 in P2 |- *.
  change (played handle dev d []) with (d, @nil (request * answer)) in *.
  destruct (played_carries handle dev new (d, []) F2) as (tr & T1 & T2). cbn [snd app] in T1.
  assert (PN : played handle dev d (n_sent w2) = fold_left (serves handle dev) new (d, [])).
  { rewrite S2, S1. unfold played. cbn [app fold_left]. unfold serves at 2. rewrite register_unasked. reflexivity. }
  destruct (direct (d, [])) as [o [d' tr']] eqn:E. cbn [fst snd] in *. rewrite PN in P2. rewrite P2 in T1. cbn [snd] in T1. subst tr'.
  assert (R1 : encaps_pack register_packet = register_bytes) by reflexivity.
  destruct o as [a|e|u|]; cbn [uncaught].
  - destruct (destroy_ok p handle w2) as (w3 & E3 & S3).
    { unfold sends_all. rewrite (proj1 I2). exact Logic.I. }
    unfold st_bind. rewrite E3. cbn [st_ret]. exists (Ok a), tr, w3. fold (unregister_bytes handle) in S3.
    split; [|split; [reflexivity|]].
    + rewrite S3, played_snoc. unfold serves. rewrite unregister_unasked, PN, P2. reflexivity.
    + exists new. split; [exact T2|]. rewrite S3, S2, S1, R1. reflexivity.
  - exists (Throw e), tr, w2. rewrite PN, P2. split; [reflexivity|]. split; [reflexivity|]. exists new. split; [exact T2|]. rewrite S2, S1, R1, app_nil_r. reflexivity.
  - exists (Undef u), tr, w2. rewrite PN, P2. split; [reflexivity|]. split; [reflexivity|]. exists new. split; [exact T2|]. rewrite S2, S1, R1, app_nil_r. reflexivity.
  - exists Abort, tr, w2. rewrite PN, P2. split; [reflexivity|]. split; [reflexivity|]. exists new. split; [exact T2|]. rewrite S2, S1, R1, app_nil_r. reflexivity.
Qed.
