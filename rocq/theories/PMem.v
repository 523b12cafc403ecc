(** Proofs about sessions when there is not enough memory. *)
From Verif Require Import Base MBuffer SBuffer PBase MEip SEip PEip MSocket SSocket PSocket PRouter MMem SMem.

Lemma ended_not segs : forall n, (n <= List.length (stream segs))%nat -> recv_ended n segs = false.
Proof.
  induction segs as [|[l|e|] r IH]; intros [|n] L; try reflexivity; cbn [recv_ended].
  - cbn [stream] in L. rewrite app_length in L. destruct (Nat.leb_spec (List.length l) (S n)); [|reflexivity]. apply IH. lia.
  - destruct (err_cases e) as [->|[N H]].
    + cbn [stream EINTR] in *. rewrite Z.eqb_refl. now apply IH.
    + destruct (H r) as (X & _). rewrite X in L. cbn in L. lia.
  - cbn in L. lia.
Qed.

Lemma plenty_tl fs : plenty fs -> plenty (tl fs).
Proof. intros H. destruct H; [constructor|assumption]. Qed.
Lemma need_plenty fs w : plenty fs -> need (fs, w) = (Done (Ok tt), (tl fs, w)).
Proof. intros H. destruct H as [|x l E]; [reflexivity|]. subst. reflexivity. Qed.
Lemma need_cases fs w : need (fs, w) = (NoMemory, (tl fs, w)) \/ need (fs, w) = (Done (Ok tt), (tl fs, w)).
Proof. destruct fs as [|[] r]; cbn; auto. Qed.
Lemma message_plenty t s fs w : plenty fs -> exists fs', plenty fs' /\ message t s (fs, w) = (Done (Ok tt), (fs', w)).
Proof.
  intros H. unfold message. destruct t; [rewrite need_plenty by assumption; apply plenty_tl in H|].
  - destruct s; [|now exists (tl fs)]. rewrite need_plenty by assumption. apply plenty_tl in H. eauto.
  - destruct s; [|now exists fs]. rewrite need_plenty by assumption. apply plenty_tl in H. eauto.
Qed.

(** As in the rest of the model. *)
Definition agrees {A} (m : mst A) (n : st net A) : Prop :=
  forall fs w, plenty fs -> exists fs', plenty fs' /\ m (fs, w) = (Done (fst (n w)), (fs', snd (n w))).
Lemma agrees_bind {A B} (m : mst A) n (k : A -> mst B) k' : agrees m n -> (forall a, agrees (k a) (k' a)) -> agrees (m_bind m k) (st_bind n k').
Proof.
  intros H K fs w P. destruct (H fs w P) as (f1 & P1 & E). unfold m_bind, st_bind. rewrite E. destruct (n w) as [[a|e|u|] w']; cbn [fst snd].
  - apply K. exact P1.
  - eauto.
  - eauto.
  - eauto.
Qed.
Lemma agrees_need {A} (k : unit -> mst A) n : agrees (k tt) n -> agrees (m_bind need k) n.
Proof. intros H fs w P. unfold m_bind. rewrite need_plenty by assumption. apply H. now apply plenty_tl. Qed.
Lemma agrees_message {A} t s (k : unit -> mst A) n : agrees (k tt) n -> agrees (m_bind (message t s) k) n.
Proof. intros H fs w P. unfold m_bind. destruct (message_plenty t s fs w P) as (f & P1 & ->). now apply H. Qed.
Lemma agrees_lift {A} (m : st net A) : agrees (m_lift m) m.
Proof. intros fs w P. exists fs. split; [assumption|]. cbn. now destruct (m w). Qed.
Lemma agrees_ret {A} (a : A) : agrees (m_ret a) (st_ret a).
Proof. intros fs w P. exists fs. split; [assumption|reflexivity]. Qed.
Lemma agrees_receive warning n : agrees (m_receive warning n) (net_receive n).
Proof.
  intros fs w P. unfold m_receive. cbn [snd]. generalize (recv_ended n (n_in w)). intros ended. revert fs w P.
  change (agrees (m_bind (match n with O => m_ret tt | S _ => need end) (fun _ => m_bind (m_lift (net_receive n)) (fun d => if ended then m_bind (message true warning) (fun _ => m_ret d) else m_ret d))) (net_receive n)).
  assert (X : agrees (m_bind (m_lift (net_receive n)) (fun d => if ended then m_bind (message true warning) (fun _ => m_ret d) else m_ret d)) (net_receive n)).
  { intros fs w P. destruct (agrees_bind (m_lift (net_receive n)) (net_receive n) (fun d => if ended then m_bind (message true warning) (fun _ => m_ret d) else m_ret d) (fun d => st_ret d)
      (agrees_lift _) ltac:(intros d; destruct ended; [apply agrees_message|]; apply agrees_ret) fs w P) as (f & P1 & E).
    exists f. split; [assumption|]. rewrite E. unfold st_bind. destruct (net_receive n w) as [[]]; reflexivity. }
  destruct n; [exact X|]. apply agrees_need. exact X.
Qed.
Lemma agrees_exchange warning h p handle q : agrees (m_exchange warning h p handle q) (send_and_receive h p handle q).
Proof.
  unfold m_exchange, send_and_receive. apply agrees_need. apply agrees_bind; [apply agrees_lift|intros _].
  apply agrees_bind; [apply agrees_receive|intros header]. apply agrees_need. apply agrees_bind; [apply agrees_lift|intros len].
  apply agrees_bind; [apply agrees_receive|intros d]. apply agrees_need. apply agrees_lift.
Qed.
Lemma agrees_eq {A} (m : mst A) n n' : (forall w, n w = n' w) -> agrees m n -> agrees m n'.
Proof. intros E H fs w P. rewrite <- E. now apply H. Qed.
Lemma agrees_request info warning h p handle use8 service path data extra :
  agrees (m_request info warning h p handle use8 service path data extra) (send_request h (live_session h p handle) use8 service path data extra).
Proof.
  unfold m_request. apply agrees_message, agrees_need.
  apply (agrees_eq _ (st_bind (send_and_receive h p handle (request_packet handle use8 service path data extra)) (fun r => st_lift (reply_response h r)))).
  { intros w. unfold send_request, live_session, st_bind, st_lift. cbn [si_exchange si_handle]. now destruct (send_and_receive _ _ _ _ w) as [[]]. }
  apply agrees_bind; [apply agrees_exchange|intros r]. apply agrees_need, agrees_lift.
Qed.
Lemma agrees_register info warning h p : agrees (m_register info warning h p) (session_register h p).
Proof.
  unfold m_register, session_register. apply agrees_need. apply agrees_bind; [apply agrees_exchange|intros r].
  destruct (negb _); [apply agrees_lift|]. apply agrees_message. apply agrees_ret.
Qed.
Lemma agrees_destroy info p handle : agrees (m_destroy info p handle) (session_destroy p handle).
Proof.
  intros fs w P. unfold m_destroy, session_destroy.
  assert (X : agrees (m_bind need (fun _ => m_bind (m_lift (net_send p (encaps_pack (unregister_packet handle)))) (fun _ => message false info)))
                (net_send p (encaps_pack (unregister_packet handle)))).
  { apply agrees_need. apply (agrees_eq _ (st_bind (net_send p (encaps_pack (unregister_packet handle))) (fun _ => st_ret tt))).
    { intros v. unfold st_bind, st_ret. now destruct (net_send p _ v) as [[[]| | |] ?]. }
    apply agrees_bind; [apply agrees_lift|intros _]. intros f v Q. destruct (message_plenty false info f v Q) as (f' & Q' & ->). exists f'. now split. }
  destruct (X fs w P) as (f & Q & ->). destruct (net_send p _ w) as [[]]; cbn [fst snd]; eauto.
Qed.

(** ** What is left unread *)
Lemma receive_mem warning n fs w : (n <= List.length (stream (n_in w)))%nat ->
  m_receive warning n (fs, w) = (NoMemory, (tl fs, w))
  \/ exists fs' segs, m_receive warning n (fs, w) = (Done (Ok (firstn n (stream (n_in w)))), (fs', mkNet (n_sent w) segs (n_results w)))
     /\ stream segs = skipn n (stream (n_in w)) /\ ending_of segs = ending_of (n_in w).
Proof.
  intros L. destruct (receive_enough n (n_in w) L) as (segs & E & A & B & _). unfold m_receive. cbn [snd].
  rewrite (ended_not _ _ L). unfold m_bind. destruct n as [|n].
  - right. exists fs, segs. unfold m_ret at 1. cbn [m_lift]. unfold net_receive. rewrite E. auto.
  - destruct (need_cases fs w) as [-> | ->]; [now left|]. right. exists (tl fs), segs. cbn [m_lift]. unfold net_receive. rewrite E. auto.
Qed.
Lemma net_send_free p data w : n_results w = [] ->
  net_send p data w = (Ok tt, mkNet (n_sent w ++ [data]) (incoming p w data) []).
Proof. intros R. rewrite net_send_all by (unfold sends_all; now rewrite R). now rewrite R. Qed.

(** An exchange that reads the packet [r], which is there or comes now. *)
Lemma exchange_mem warning h p handle q r rest fs w : n_results w = [] -> well_formed r ->
  stream (incoming p w (encaps_pack q)) = encaps_pack r ++ rest -> ending_of (incoming p w (encaps_pack q)) = Silent ->
  exists o fs' w', m_exchange warning h p handle q (fs, w) = (o, (fs', w'))
    /\ (o = NoMemory /\ w' = w
        \/ sent_now w w' q /\ (o = Done (verdict handle r) /\ unread w' rest
            \/ o = NoMemory /\ (unread w' (encaps_pack r ++ rest) \/ unread w' (e_data r ++ rest) \/ unread w' rest))).
Proof.
  intros R [W El] E S. destruct (header_bytes r W) as (hd & Ep & Lh & Bh & Vl).
  unfold m_exchange, m_bind at 1. destruct (need_cases fs w) as [-> | ->]; [do 3 eexists; split; [reflexivity|now left]|].
  unfold m_bind at 1. cbn [m_lift]. rewrite net_send_free by assumption.
  set (w1 := mkNet (n_sent w ++ [encaps_pack q]) (incoming p w (encaps_pack q)) []).
  assert (I1 : stream (n_in w1) = hd ++ e_data r ++ rest) by (cbn [w1 n_in]; rewrite E, Ep, <- app_assoc; reflexivity).
  unfold m_bind at 1. destruct (receive_mem warning HEADER_SIZE (tl fs) w1) as [-> | (f2 & s2 & -> & A2 & B2)].
  { rewrite I1, app_length, Lh. unfold HEADER_SIZE. lia. }
  { do 3 eexists. split; [reflexivity|]. right. split; [split; reflexivity|]. right. split; [reflexivity|]. left. split; [|exact S]. rewrite I1, Ep, <- app_assoc. reflexivity. }
  rewrite I1 in A2 |- *. unfold HEADER_SIZE in A2 |- *. rewrite <- Lh in A2 |- *. rewrite firstn_app_exact. rewrite skipn_app_exact in A2.
  assert (U2 : unread (mkNet (n_sent w1) s2 (n_results w1)) (e_data r ++ rest)) by (split; [exact A2|cbn [n_in]; rewrite B2; exact S]).
  unfold m_bind at 1. set (w2 := mkNet (n_sent w1) s2 (n_results w1)) in *.
  destruct (need_cases f2 w2) as [-> | ->].
  { do 3 eexists. split; [reflexivity|]. right. split; [split; reflexivity|]. right. split; [reflexivity|]. now right; left. }
  unfold m_bind at 1. cbn [m_lift st_lift]. rewrite length_from_header_ok by (assumption || lia). rewrite Vl.
  assert (LZ : Z.to_nat (e_length r) = List.length (e_data r)) by (rewrite El; unfold zlen; apply Nat2Z.id).
  unfold m_bind at 1. destruct (receive_mem warning (Z.to_nat (e_length r)) (tl f2) w2) as [-> | (f3 & s3 & -> & A3 & B3)].
  { cbn [w2 n_in]. rewrite A2, app_length. lia. }
  { do 3 eexists. split; [reflexivity|]. right. split; [split; reflexivity|]. right. split; [reflexivity|]. now right; left. }
  cbn [w2 n_in] in A3, B3 |- *. rewrite A2 in A3 |- *. rewrite LZ in A3 |- *. rewrite firstn_app_exact. rewrite skipn_app_exact in A3.
  match goal with |- context [m_bind need _ (f3, ?w3')] => set (w3 := w3') end.
  assert (U3 : unread w3 rest) by (split; [exact A3|cbn [w3 n_in]; rewrite B3, B2; exact S]).
  unfold m_bind. destruct (need_cases f3 w3) as [-> | ->].
  { do 3 eexists. split; [reflexivity|]. right. split; [split; reflexivity|]. right. split; [reflexivity|]. now right; right. }
  cbn [m_lift st_lift]. rewrite <- Ep. destruct (encaps_roundtrip h encaps0 r W El eq_refl) as (_ & _ & ->).
  cbn [finished bind]. rewrite check_verdict. do 3 eexists. split; [reflexivity|]. right. split; [split; reflexivity|]. left. now split.
Qed.

Lemma in_drained p w l q : ending_of (n_in w) = Silent -> stream (n_in w) = l ->
  stream (incoming p w (encaps_pack q)) = l ++ stream (p (n_sent w) (encaps_pack q))
  /\ ending_of (incoming p w (encaps_pack q)) = ending_of (p (n_sent w) (encaps_pack q)).
Proof. intros S E. unfold incoming. destruct (stream_app (n_in w) (p (n_sent w) (encaps_pack q)) S) as (-> & -> & _). now rewrite E. Qed.

Lemma where_left warning h p reply handle q fs w : answering p reply -> n_results w = [] -> unread w [] ->
  let r := reply (n_sent w) (encaps_pack q) in
  exists o fs' w', m_exchange warning h p handle q (fs, w) = (o, (fs', w'))
    /\ (o = NoMemory /\ w' = w
        \/ sent_now w w' q /\ (o = Done (verdict handle r) /\ unread w' []
            \/ o = NoMemory /\ (unread w' (encaps_pack r) \/ unread w' (e_data r) \/ unread w' []))).
Proof.
  intros A R [U1 U2] r. destruct (A (n_sent w) (encaps_pack q)) as (W & E & S). destruct (in_drained p w [] q U2 U1) as [I1 I2].
  rewrite E in I1. rewrite S in I2. cbn [app] in I1.
  destruct (exchange_mem warning h p handle q r [] fs w R W) as (o & fs' & w' & X & Y); [now rewrite app_nil_r|exact I2|].
  rewrite !app_nil_r in Y. eauto.
Qed.

(** Exactly which of these. *)
Lemma where_exact warning h p reply handle q f0 f1 f2 f3 f4 fs w : answering p reply -> n_results w = [] -> unread w [] ->
  let r := reply (n_sent w) (encaps_pack q) in e_data r <> [] ->
  exists w1 w2 w3, (sent_now w w1 q /\ unread w1 (encaps_pack r)) /\ (sent_now w w2 q /\ unread w2 (e_data r)) /\ (sent_now w w3 q /\ unread w3 [])
    /\ m_exchange warning h p handle q (f0 :: f1 :: f2 :: f3 :: f4 :: fs, w)
       = (if f0 then (NoMemory, (f1 :: f2 :: f3 :: f4 :: fs, w))
          else if f1 then (NoMemory, (f2 :: f3 :: f4 :: fs, w1))
          else if f2 then (NoMemory, (f3 :: f4 :: fs, w2))
          else if f3 then (NoMemory, (f4 :: fs, w2))
          else if f4 then (NoMemory, (fs, w3))
          else (Done (verdict handle r), (fs, w3))).
Proof.
  intros A R [U1 U2] r ND. destruct (A (n_sent w) (encaps_pack q)) as ([W El] & E & Sl). fold r in W, El, E. destruct (in_drained p w [] q U2 U1) as [I1 I2].
  rewrite E in I1. rewrite Sl in I2. cbn [app] in I1. destruct (header_bytes r W) as (hd & Ep & Lh & Bh & Vl).
  set (w1 := mkNet (n_sent w ++ [encaps_pack q]) (incoming p w (encaps_pack q)) []).
  assert (J1 : stream (n_in w1) = hd ++ e_data r) by (cbn [w1 n_in]; rewrite I1; exact Ep).
  destruct (receive_enough HEADER_SIZE (n_in w1)) as (s2 & E2 & A2 & B2 & _); [rewrite J1, app_length, Lh; unfold HEADER_SIZE; lia|].
  rewrite J1 in E2, A2. unfold HEADER_SIZE in E2, A2. rewrite <- Lh in E2, A2. rewrite firstn_app_exact in E2. rewrite skipn_app_exact in A2.
  set (w2 := mkNet (n_sent w1) s2 (n_results w1)).
  assert (LZ : Z.to_nat (e_length r) = List.length (e_data r)) by (rewrite El; unfold zlen; apply Nat2Z.id).
  destruct (receive_enough (Z.to_nat (e_length r)) (n_in w2)) as (s3 & E3 & A3 & B3 & _); [cbn [w2 n_in]; rewrite A2; lia|].
  cbn [w2 n_in] in E3, A3, B3. rewrite A2, LZ in E3, A3. rewrite firstn_all in E3. rewrite skipn_all in A3.
  set (w3 := mkNet (n_sent w1) s3 (n_results w1)).
  exists w1, w2, w3. split; [|split; [|split]].
  - split; [split; reflexivity|]. split; [exact I1|exact I2].
  - split; [split; reflexivity|]. split; [exact A2|]. cbn [w2 n_in]. rewrite B2. exact I2.
  - split; [split; reflexivity|]. split; [exact A3|]. cbn [w3 n_in]. rewrite B3, B2. exact I2.
  - unfold m_exchange, m_bind at 1. destruct f0; cbn [need tl]; [reflexivity|].
    unfold m_bind at 1. cbn [m_lift]. rewrite net_send_free by assumption. fold w1.
    unfold m_bind at 1, m_receive at 1. cbn [snd]. rewrite ended_not by (rewrite J1, app_length, Lh; unfold HEADER_SIZE; lia).
    unfold m_bind at 1, HEADER_SIZE at 1. destruct f1; cbn [need tl]; [reflexivity|].
    unfold m_bind at 1. cbn [m_lift]. unfold net_receive at 1, HEADER_SIZE. rewrite <- Lh, E2. cbn [m_ret]. unfold m_ret. fold w2.
    unfold m_bind at 1. destruct f2; cbn [need tl]; [reflexivity|].
    unfold m_bind at 1. cbn [m_lift st_lift]. rewrite length_from_header_ok by (assumption || lia). rewrite Vl.
    unfold m_bind at 1, m_receive at 1. cbn [snd]. rewrite ended_not by (cbn [w2 n_in]; rewrite A2; lia).
    rewrite LZ. destruct (e_data r) as [|d0 dr] eqn:Ed; [contradiction|]. unfold m_bind at 1. cbn [List.length]. destruct f3; cbn [need tl]; [reflexivity|].
    unfold m_bind at 1. cbn [m_lift]. unfold net_receive at 1. change (Datatypes.S (List.length dr)) with (List.length (d0 :: dr)).
    cbn [w2 n_in]. rewrite E3. cbn [n_sent n_results]. unfold m_ret. change (mkNet (n_sent w1) s3 (n_results w1)) with w3.
    unfold m_bind. destruct f4; cbn [need tl]; [reflexivity|]. rewrite <- Ed in El.
    cbn [m_lift st_lift]. rewrite <- Ep. destruct (encaps_roundtrip h encaps0 r W El eq_refl) as (_ & _ & ->).
    cbn [finished bind]. now rewrite check_verdict.
Qed.

Lemma in_step_right warning h p reply handle qs : answering p reply -> forall x, n_results (snd x) = [] -> unread (snd x) [] ->
  in_step warning h p handle qs x -> right_answers warning h p reply handle qs x.
Proof.
  intros A. induction qs as [|q qs IH]; intros [fs w] R U I; cbn [right_answers in_step] in *; [exact Logic.I|]. cbn [snd] in *.
  destruct (where_left warning h p reply handle q fs w A R U) as (o & fs' & w' & X & Y). rewrite X in I |- *. cbn [snd] in I. destruct I as [I1 I2]. split.
  - destruct Y as [[-> _]|(_ & [[-> _]|[-> _]])]; auto.
  - apply IH; [|exact I1|exact I2]. destruct Y as [[_ ->]|([_ Y] & _)]; assumption.
Qed.

Lemma last_cons {A} l : forall (a d : A), last (a :: l) d = last l a.
Proof. induction l as [|b l IH]; intros a d; [reflexivity|]. change (last (b :: l) d = last (b :: l) a). now rewrite !IH. Qed.
Lemma shifted warning h p reply handle qs : answering p reply -> forall fs w r0, plenty fs -> n_results w = [] -> well_formed r0 -> unread w (encaps_pack r0) ->
  exists fs' w', m_exchanges warning h p handle qs (fs, w)
    = (map (fun r => Done (verdict handle r)) (firstn (List.length qs) (r0 :: replies reply (n_sent w) qs)), (fs', w'))
    /\ unread w' (encaps_pack (last (replies reply (n_sent w) qs) r0)).
Proof.
  intros A. induction qs as [|q qs IH]; intros fs w r0 P R W [U1 U2]; [exists fs, w; now repeat split|].
  cbn [m_exchanges replies List.length firstn map]. destruct (A (n_sent w) (encaps_pack q)) as (W1 & E & S).
  destruct (in_drained p w _ q U2 U1) as [I1 I2]. rewrite E in I1. rewrite S in I2.
  destruct (agrees_exchange warning h p handle q fs w P) as (f1 & P1 & ->).
  destruct (sar_good h p handle q r0 w) with (rest := encaps_pack (reply (n_sent w) (encaps_pack q))) as (w1 & Es & B1 & B2 & B3 & B4);
    [unfold sends_all; now rewrite R|exact W|exact I1|].
  rewrite Es. cbn [fst snd]. destruct (IH f1 w1 (reply (n_sent w) (encaps_pack q)) P1) as (f2 & w2 & E2 & U); [now rewrite B4, R|exact W1|split; [exact B1|now rewrite B2]|].
  rewrite E2, B3. exists f2, w2. split; [reflexivity|]. rewrite last_cons. rewrite <- B3. exact U.
Qed.

(** ** Requests, construction and destruction *)
Lemma message_cases t s fs w : exists fs', 
  message t s (fs, w) = (Done (Ok tt), (fs', w)) \/ message t s (fs, w) = (NoMemory, (fs', w)) /\ t = true
  \/ message t s (fs, w) = (Done Abort, (fs', w)) /\ s = true.
Proof.
  unfold message. destruct t.
  - destruct (need_cases fs w) as [-> | ->]; (destruct s; [destruct (need_cases (tl fs) w) as [-> | ->]|]); eexists; auto.
  - destruct s; [destruct (need_cases fs w) as [-> | ->]|]; eexists; auto.
Qed.
Lemma request_cases info warning h p handle use8 service path data extra fs w :
  exists o fs' w', m_request info warning h p handle use8 service path data extra (fs, w) = (o, (fs', w'))
    /\ (w' = w /\ (o = NoMemory \/ o = Done Abort /\ info = true)
        \/ (exists fs1 o1, m_exchange warning h p handle (request_packet handle use8 service path data extra) (fs1, w) = (o1, (fs', w'))
           /\ ends_like o1 o)
        \/ exists fs1 fs2 r, m_exchange warning h p handle (request_packet handle use8 service path data extra) (fs1, w) = (Done (Ok r), (fs2, w'))
           /\ (o = NoMemory \/ o = Done (reply_response h r))).
Proof.
  unfold m_request, m_bind at 1. destruct (message_cases true info fs w) as (f1 & [E|[[E _]|[E I]]]); rewrite E.
  - unfold m_bind at 1. destruct (need_cases f1 w) as [-> | ->]; [do 3 eexists; split; [reflexivity|]; left; auto|].
    unfold m_bind at 1. destruct (m_exchange _ _ _ _ _ (tl f1, w)) as [o1 [f2 w2]] eqn:X. destruct o1 as [[r|e|u|]|].
    + unfold m_bind. destruct (need_cases f2 w2) as [-> | ->]; (do 3 eexists; split; [reflexivity|]; right; right; exists (tl f1), f2, r; auto).
    + do 3 eexists. split; [reflexivity|]. right. left. eexists _, _. split; [exact X|reflexivity].
    + do 3 eexists. split; [reflexivity|]. right. left. eexists _, _. split; [exact X|reflexivity].
    + do 3 eexists. split; [reflexivity|]. right. left. eexists _, _. split; [exact X|reflexivity].
    + do 3 eexists. split; [reflexivity|]. right. left. eexists _, _. split; [exact X|reflexivity].
  - do 3 eexists. split; [reflexivity|]. left. auto.
  - do 3 eexists. split; [reflexivity|]. left. auto.
Qed.
Lemma destroy_cases info p handle fs w : n_results w = [] ->
  exists o fs' w', m_destroy info p handle (fs, w) = (Done o, (fs', w'))
    /\ (o = Abort /\ w' = w /\ hd false fs = true
        \/ n_sent w' = n_sent w ++ [encaps_pack (unregister_packet handle)] /\ hd false fs = false
           /\ o = (if info && hd false (tl fs) then Abort else Ok tt)).
Proof.
  intros R. unfold m_destroy, m_bind. destruct fs as [|[] r]; cbn [need hd tl].
  - cbn [m_lift]. rewrite net_send_free by assumption. unfold message. destruct info; cbn; do 3 eexists; (split; [reflexivity|]); right; auto.
  - do 3 eexists. split; [reflexivity|]. left. auto.
  - cbn [m_lift]. rewrite net_send_free by assumption. unfold message. destruct info; [destruct r as [|[] r]|]; cbn; do 3 eexists; (split; [reflexivity|]); right; auto.
Qed.
Lemma register_cases info warning h p reply fs w : answering p reply -> n_results w = [] -> unread w [] ->
  let r := reply (n_sent w) (encaps_pack register_packet) in
  exists o fs' w', m_register info warning h p (fs, w) = (o, (fs', w'))
    /\ (o = NoMemory /\ (w' = w \/ sent_now w w' register_packet)
        \/ sent_now w w' register_packet /\ unread w' [] /\ (o = Done (if e_status r =? 0 then Ok (e_handle r) else Throw (RuntimeError RtSessionStatus)) \/ o = Done Abort /\ info = true /\ e_status r = 0)).
Proof.
  intros A R U r. unfold m_register, m_bind at 1. destruct (need_cases fs w) as [-> | ->]; [do 3 eexists; split; [reflexivity|]; left; auto|].
  unfold m_bind at 1. destruct (where_left warning h p reply 0 register_packet (tl fs) w A R U) as (o & f1 & w1 & -> & [[-> ->]|[Sn Y]]).
  { do 3 eexists. split; [reflexivity|]. left; auto. }
  destruct Y as [[-> U1]|[-> _]]; [|do 3 eexists; split; [reflexivity|]; left; auto]. fold r. unfold verdict, acceptable.
  destruct (e_status r =? 0) eqn:Es; cbn [andb orb Z.eqb].
  - unfold ENCAPS_SUCCESS. rewrite Es. cbn [negb]. unfold m_bind. destruct (message_cases false info f1 w1) as (f2 & [E|[[E X]|[E X]]]); rewrite E; [|discriminate|].
    + do 3 eexists. split; [reflexivity|]. right. split; [assumption|]. split; [assumption|]. now left.
    + do 3 eexists. split; [reflexivity|]. right. split; [assumption|]. split; [assumption|]. right. apply Z.eqb_eq in Es. auto.
  - do 3 eexists. split; [reflexivity|]. right. split; [assumption|]. split; [assumption|]. now left.
Qed.

Lemma request_exact info warning h p handle use8 service path data extra f0 f1 f2 fs w :
  m_request info warning h p handle use8 service path data extra (f0 :: f1 :: f2 :: fs, w)
  = told info f0 f1 (f2 :: fs) w (fun r => if hd false r then (NoMemory, (tl r, w))
      else answered h (m_exchange warning h p handle (request_packet handle use8 service path data extra) (tl r, w))).
Proof.
  unfold m_request, told, message, m_bind at 1. 
  assert (G : forall r, r <> [] -> m_bind need (fun _ => m_bind (m_exchange warning h p handle (request_packet handle use8 service path data extra)) (fun received =>
      m_bind need (fun _ => m_lift (st_lift (reply_response h received))))) (r, w)
    = if hd false r then (NoMemory, (tl r, w)) else answered h (m_exchange warning h p handle (request_packet handle use8 service path data extra) (tl r, w))).
  { intros r N. unfold m_bind at 1. destruct r as [|[] r]; [contradiction|reflexivity|]. cbn [need tl hd]. unfold m_bind at 1.
    destruct (m_exchange _ _ _ _ _ (r, w)) as [[[a| | |]|] [f w']]; try reflexivity. unfold m_bind. destruct f as [|[] f]; reflexivity. }
  destruct info, f0, f1; cbn [need tl]; try reflexivity; rewrite G by discriminate; reflexivity.
Qed.
Lemma register_exact info warning h p fs w :
  m_register info warning h p (fs, w)
  = (if hd false fs then (NoMemory, (tl fs, w))
     else match m_exchange warning h p 0 register_packet (tl fs, w) with
          | (Done (Ok r), (f, w')) =>
            if e_status r =? 0 then (if info && hd false f then (Done Abort, (tl f, w')) else (Done (Ok (e_handle r)), (if info then tl f else f, w')))
            else (Done (Throw (RuntimeError RtSessionRegister)), (f, w'))
          | (Done (Throw e), x) => (Done (Throw e), x)
          | (Done (Undef u), x) => (Done (Undef u), x)
          | (Done Abort, x) => (Done Abort, x)
          | (NoMemory, x) => (NoMemory, x)
          end).
Proof.
  unfold m_register, m_bind at 1. destruct fs as [|[] fs]; [|reflexivity|]; cbn [need tl hd]; unfold m_bind at 1;
    (destruct (m_exchange _ _ _ _ _ _) as [[[r| | |]|] [f w']]; try reflexivity; unfold ENCAPS_SUCCESS; destruct (e_status r =? 0); [|reflexivity];
     cbn [negb]; unfold m_bind, message, m_ret; destruct info; [destruct f as [|[] f]|]; reflexivity).
Qed.
(** The peer may also close the connection. *)
Lemma receive_ended warning n f0 f1 f2 fs w : (0 < n)%nat -> recv_ended n (n_in w) = true ->
  m_receive warning n (f0 :: f1 :: f2 :: fs, w)
  = (if f0 then (NoMemory, (f1 :: f2 :: fs, w))
     else let '(o, w') := net_receive n w in
          match o with
          | Ok d => told warning f1 f2 fs w' (fun r => (Done (Ok d), (r, w')))
          | Throw e => (Done (Throw e), (f1 :: f2 :: fs, w'))
          | Undef u => (Done (Undef u), (f1 :: f2 :: fs, w'))
          | Abort => (Done Abort, (f1 :: f2 :: fs, w'))
          end).
Proof.
  intros N E. unfold m_receive. cbn [snd]. rewrite E. destruct n as [|n]; [lia|]. unfold m_bind at 1. destruct f0; [reflexivity|]. cbn [need tl].
  unfold m_bind at 1. cbn [m_lift]. destruct (net_receive (S n) w) as [[d| | |] w']; try reflexivity. unfold m_bind, message, told, m_ret.
  destruct warning, f1, f2; reflexivity.
Qed.

Lemma ended_closed segs : forall n, (List.length (stream segs) < n)%nat -> ending_of segs = Closed -> recv_ended n segs = true.
Proof.
  induction segs as [|[l|e|] r IH]; intros [|n] L E; try lia; cbn [recv_ended]; [discriminate|..].
  - cbn [stream] in L. rewrite app_length in L. destruct (Nat.leb_spec (List.length l) (S n)); [apply IH; [lia|exact E]|lia].
  - destruct (err_cases e) as [->|[N H]].
    + cbn [stream ending_of] in *. change (4 =? EINTR) with true. now apply IH.
    + destruct (H r) as (_ & X & _). rewrite X in E. discriminate.
  - reflexivity.
Qed.
Lemma closed_ended segs : forall n, ending_of segs <> Closed -> recv_ended n segs = false.
Proof.
  induction segs as [|[l|e|] r IH]; intros [|n] E; try reflexivity; cbn [recv_ended].
  - destruct (Nat.leb_spec (List.length l) (S n)); [|reflexivity]. now apply IH.
  - destruct (err_cases e) as [->|[N H]].
    + cbn [stream ending_of] in *. change (4 =? EINTR) with true. now apply IH.
    + destruct (Z.eqb_spec e EINTR); [contradiction|reflexivity].
  - now destruct E.
Qed.
Lemma receive_quiet warning n f0 fs w : (0 < n)%nat -> ending_of (n_in w) <> Closed ->
  m_receive warning n (f0 :: fs, w) = (if f0 then (NoMemory, (fs, w)) else let '(o, w') := net_receive n w in (Done o, (fs, w'))).
Proof.
  intros N E. unfold m_receive. cbn [snd]. rewrite (closed_ended _ n E). destruct n as [|n]; [lia|]. unfold m_bind at 1. destruct f0; [reflexivity|]. cbn [need tl].
  unfold m_bind. cbn [m_lift]. now destruct (net_receive (S n) w) as [[d| | |] w'].
Qed.
