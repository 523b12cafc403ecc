(** Proofs for C110. *)
From Verif Require Import Base MBuffer SBuffer PBase PBuffer MEip SEip PEip
  MSocket SSocket PSocket MConnReq SConnReq PConnReq MConn SConn PConnOpen PConnMap PIo PConnCall PConnCall2 PConnHist PIo2 PConnTop PIoTop SLife PLife
  MReent SReent PReent MDeep SDeep PDeep MSlot SSlot PSlot MInner SInner.
Local Open Scope outcome_scope.

Lemma xhear_case {S} h bodies inner d g m (s : S) x :
  let '(o, m') := on_readable h d m in
  (xhear h bodies inner d (g, m, s, x) = (o, (g, m', s, x)) /\ m_log m' = m_log m)
  \/ (exists oid hdr seq data, m_log m' = m_log m ++ [EvData oid hdr seq data] /\ lock oid m' <> None
      /\ xhear h bodies inner d (g, m, s, x) = xfire h bodies inner oid ForData (GotData hdr seq data) (g, m', s, x)).
Proof.
  pose proof (readable_log h d m) as R. unfold xhear. destruct (on_readable h d m) as [o m'].
  destruct R as [R|(-> & oid & hdr & seq & data & R & L)].
  - left. split; [|assumption]. rewrite R, skipn_all. now destruct o.
  - right. exists oid, hdr, seq, data. split; [assumption|]. split; [assumption|]. rewrite R, skipn_app, skipn_all, Nat.sub_diag. reflexivity.
Qed.
Lemma xfire_case {S A} (h : heap) bodies inner oid k a (kk : unit -> st (svw (S := S)) A) w :
  (exists w', xfire h bodies inner oid k a w = (Ok tt, w') /\ st_bind (xfire h bodies inner oid k a) kk w = kk tt w')
  \/ (exists (o : outcome unit) (o' : outcome A) w', xfire h bodies inner oid k a w = (o, w') /\ o <> Ok tt /\ st_bind (xfire h bodies inner oid k a) kk w = (o', w')
      /\ (forall b, o' <> Ok b) /\ omap (fun _ => tt) o' = o).
Proof.
  unfold st_bind. destruct (xfire h bodies inner oid k a w) as [[[]|e|u|] w'].
  - left. eauto.
  - right. exists (Throw e), (Throw e), w'. repeat split; discriminate.
  - right. exists (Undef u), (Undef u), w'. repeat split; discriminate.
  - right. exists Abort, Abort, w'. repeat split; discriminate.
Qed.

(** ** A rule for nested runs *)
Section Rule.
Context {S : Type} (h : heap) (bodies : view S -> nat -> nat -> larg -> list (xact S)).
Context (Inv : svw (S := S) -> Prop) (R : svw (S := S) -> svw (S := S) -> Prop) (Q : outcome unit -> Prop).
Definition fine (o : outcome unit) (w w' : svw (S := S)) : Prop := Inv w' /\ R w w' /\ (o <> Ok tt -> Q o).
Definition sound (inner : list (sel_round dgram) -> sel_end -> tick_env -> st (svw (S := S)) unit) : Prop :=
  forall rounds ending env w o w', Inv w -> inner rounds ending env w = (o, w') -> fine o w w'.
Context (Rrefl : forall w, R w w) (Rtrans : forall a b c, R a b -> R b c -> R a c).
Context (Hhear : forall inner, sound inner -> forall d w o w', Inv w -> xhear h bodies inner d w = (o, w') -> fine o w w').
Context (Hentry : forall inner, sound inner -> forall env j k c w o w', Inv w -> find (fun e => j <=? fst e) (m_map (snd (fst (fst w)))) = Some (k, c) ->
  xtick_entry h bodies inner env k c w = (o, w') -> Inv w' /\ R w w' /\ ((forall b, o <> Ok b) -> Q (omap (fun _ => tt) o))).
Context (Herase : forall ks g m s x, Inv (g, m, s, x) ->
  let w' := (g, set_map m (fold_left (fun l k => map_erase k l) ks (m_map m)), s, x) in Inv w' /\ R (g, m, s, x) w').
Context (Qfail : forall e, Q (Throw (SystemError e))) (Qend : Q (Undef UbDerefEnd)) (Qabort : Q Abort).

Section One.
Context (inner : list (sel_round dgram) -> sel_end -> tick_env -> st (svw (S := S)) unit) (IH0 : sound inner).
Lemma xrule_loop env n : forall j w o w', Inv w -> xtick_loop h bodies inner env n j w = (o, w') ->
  Inv w' /\ R w w' /\ ((forall ks, o <> Ok ks) -> Q (omap (fun _ => tt) o)).
Proof.
  induction n as [|n IH]; intros j w o w' I E; cbn [xtick_loop] in E.
  - unfold st_ret in E. inv E. split; [assumption|]. split; [apply Rrefl|]. intros X. now destruct (X []).
  - destruct (find _ _) as [[k c]|] eqn:F; [|inv E; split; [assumption|]; split; [apply Rrefl|]; intros X; now destruct (X [])].
    unfold st_bind at 1 in E. destruct (xtick_entry h bodies inner env k c w) as [o1 w1] eqn:T.
    destruct (Hentry inner IH0 _ _ _ _ _ _ _ I F T) as (I1 & R1 & Q1).
    destruct o1 as [b|e|u|].
    2-4: inv E; split; [assumption|]; split; [assumption|]; intros _; apply Q1; discriminate.
    unfold st_bind in E. destruct (xtick_loop h bodies inner env n (k + 1) w1) as [o2 w2] eqn:T2.
    destruct (IH _ _ _ _ I1 T2) as (I2 & R2 & Q2).
    destruct o2 as [ks|e|u|].
    { unfold st_ret in E. inv E. split; [assumption|]. split; [eapply Rtrans; eassumption|]. intros X. now destruct (X (if b then ks else k :: ks)). }
    all: inv E; split; [assumption|]; split; [eapply Rtrans; eassumption|]; intros _; apply Q2; discriminate.
Qed.
Definition xticks_with env (n : nat) : st svw unit :=
  st_bind (xtick_loop h bodies inner env n 0) (fun ks '(g, m, s, x) =>
    (Ok tt, (g, set_map m (fold_left (fun l k => map_erase k l) ks (m_map m)), s, x))).
Lemma xslots_with env n : Z.of_nat n = 65536 -> xticks h bodies inner env = xticks_with env n.
Proof. intros E. unfold xticks, xticks_with. f_equal. f_equal. rewrite <- E. apply Nat2Z.id. Qed.
Lemma xrule_ticks env w o w' : Inv w -> xticks h bodies inner env w = (o, w') -> fine o w w'.
Proof.
  destruct a_fuel as [n F]. rewrite (xslots_with env n F). clear F. intros I E. unfold xticks_with, st_bind in E.
  destruct (xtick_loop h bodies inner env n 0 w) as [o1 w1] eqn:T. destruct (xrule_loop _ _ _ _ _ _ I T) as (I1 & R1 & Q1).
  destruct o1 as [ks|e|u|].
  - destruct w1 as [[[g m] s] x]. inv E. destruct (Herase ks _ _ _ _ I1) as [I2 R2]. split; [assumption|]. split; [eapply Rtrans; eassumption|]. congruence.
  - inv E. split; [assumption|]. split; [assumption|]. intros _. apply Q1. discriminate.
  - inv E. split; [assumption|]. split; [assumption|]. intros _. apply Q1. discriminate.
  - inv E. split; [assumption|]. split; [assumption|]. intros _. apply Q1. discriminate.
Qed.
Lemma xrule_dispatch ready : forall i n w o w', Inv w -> dispatch (fun _ => xhear h bodies inner) i n ready w = (o, w') -> fine o w w'.
Proof.
  induction ready as [|[d|] r IH]; intros i n w o w' I E; destruct n; cbn [dispatch] in E;
    try (unfold st_ret in E; inv E; split; [assumption|]; split; [apply Rrefl|congruence]).
  - unfold st_bind in E. destruct (xhear h bodies inner d w) as [o1 w1] eqn:T. destruct (Hhear inner IH0 _ _ _ _ I T) as (I1 & R1 & Q1).
    destruct o1 as [[]|e|u|]; [|inv E; split; [assumption|]; split; [assumption|]; intros _; apply Q1; discriminate..].
    destruct (IH _ _ _ _ _ I1 E) as (I2 & R2 & Q2). split; [assumption|]. split; [eapply Rtrans; eassumption|assumption].
  - exact (IH _ _ _ _ _ I E).
Qed.
Lemma xrule_select n rounds ending : forall w o w', Inv w -> bs_select (fun _ => xhear h bodies inner) n rounds ending w = (o, w') -> fine o w w'.
Proof.
  unfold fine, bs_select. destruct n as [|n]; [intros w o w' I E; inv E; auto|].
  induction rounds as [|r rs IH]; intros w o w' I E; cbn [select_rounds] in E.
  - destruct ending; unfold st_ret in E; inv E; split; auto; split; auto; congruence.
  - unfold st_bind in E. destruct (dispatch _ _ _ _ w) as [o1 w1] eqn:T. destruct (xrule_dispatch _ _ _ _ _ _ I T) as (I1 & R1 & Q1).
    destruct o1 as [[]|e|u|]; [|inv E; split; [assumption|]; split; [assumption|]; intros _; apply Q1; discriminate..].
    destruct (IH _ _ _ I1 E) as (I2 & R2 & Q2). split; [assumption|]. split; [eapply Rtrans; eassumption|assumption].
Qed.
Lemma xrule_handle : sound (xhandle h bodies inner).
Proof.
  intros rounds ending env w o w' I E. unfold xhandle in E. unfold st_bind in E.
  destruct (bs_select _ _ _ _ w) as [o1 w1] eqn:T. destruct (xrule_select _ _ _ _ _ _ I T) as (I1 & R1 & Q1).
  destruct o1 as [[]|e|u|]; [|inv E; split; [assumption|]; split; [assumption|]; intros _; apply Q1; discriminate..].
  destruct (xrule_ticks _ _ _ _ I1 E) as (I2 & R2 & Q2). split; [assumption|]. split; [eapply Rtrans; eassumption|assumption].
Qed.
End One.
Theorem xrule n : sound (nest h bodies n).
Proof.
  induction n as [|n IH]; [|exact (xrule_handle _ IH)].
  intros rounds ending env w o w' I E. cbn [nest] in E. inv E. split; [assumption|]. split; auto.
Qed.
End Rule.

(** ** Invariants, counters and what has happened *)
Definition xrel {S} (w w' : svw (S := S)) : Prop := krel w w' /\ exists hs, snd (snd w') = snd (snd w) ++ hs.
Lemma xrel_refl {S} (w : svw (S := S)) : xrel w w.
Proof. split; [destruct w as [[[g m] s] x]; cbn; lia|]. exists []. now rewrite app_nil_r. Qed.
Lemma xrel_trans {S} (a b c : svw (S := S)) : xrel a b -> xrel b c -> xrel a c.
Proof.
  intros [A [h1 A1]] [B [h2 B1]]. split.
  - destruct a as [[[g m] s] x], b as [[[g1 m1] s1] x1], c as [[[g2 m2] s2] x2]. cbn in *. lia.
  - exists (h1 ++ h2). rewrite B1, A1. now rewrite app_assoc.
Qed.
Section Keeps.
Context {S : Type} (h : heap) (bodies : view S -> nat -> nat -> larg -> list (xact S)).
Context (inner : list (sel_round dgram) -> sel_end -> tick_env -> st (svw (S := S)) unit).
Context (IH0 : sound sinv xrel (fun _ => True) inner).
Lemma do_act_keeps oid k gone (a : act S) w o w' : sinv w -> do_act h oid k gone a w = (o, w') -> sinv w' /\ xrel w w'.
Proof.
  destruct w as [[[g m] s] [sl l]]. intros I D. cbn in I. unfold do_act in D. destruct a as [c|p j x|].
  - destruct (do_call h c (g, m, s)) as [o2 [[g2 m2] s2]] eqn:C. inv D. destruct (do_inv h c g m s _ _ _ _ I C). split; [assumption|].
    split; [assumption|]. exists []. now rewrite app_nil_r.
  - destruct (lock p _); inv D; (split; [assumption|]); [|apply xrel_refl]. split; [cbn; lia|]. eexists. reflexivity.
  - assert (X : w' = (g, m, s, (sl, l))) by (destruct gone; now inv D). subst. split; [assumption|]. apply xrel_refl.
Qed.
Lemma xperform_keeps oid k (acts : list (xact S)) : forall gone w o w', sinv w ->
  xperform h inner oid k gone acts w = (o, w') -> sinv w' /\ xrel w w'.
Proof.
  induction acts as [|a r IH]; intros gone w o w' I E; cbn [xperform] in E; [unfold st_ret in E; inv E; split; [assumption|apply xrel_refl]|].
  unfold st_bind in E. destruct (do_xact h inner oid k gone a w) as [o1 w1] eqn:D.
  assert (X : sinv w1 /\ xrel w w1).
  { destruct a as [a|r1 e1 v1]; cbn [do_xact] in D; [eapply do_act_keeps; eassumption|].
    destruct (inner r1 e1 v1 w) as [o2 w2] eqn:N. inv D. destruct (IH0 _ _ _ _ _ _ I N) as (A & B & _). auto. }
  destruct X as [I1 R1]. destruct o1 as [b| | |]; [|inv E; auto..].
  destruct (IH _ _ _ _ I1 E) as [I2 R2]. split; [assumption|]. eapply xrel_trans; eassumption.
Qed.
Lemma xfire_keeps p k a w o w' : sinv w -> xfire h bodies inner p k a w = (o, w') -> sinv w' /\ xrel w w'.
Proof.
  destruct w as [v [s l]]. intros I E. unfold xfire in E.
  destruct (s p k) as [| |f] eqn:X; [inv E; split; [assumption|apply xrel_refl]..|].
  destruct v as [[g m] x]. destruct (xperform_keeps p k _ _ (g, m, x, (s, l ++ [HCall p k f a])) _ _ I E) as [I1 R1]. split; [assumption|].
  eapply xrel_trans; [|exact R1]. split; [cbn; lia|]. eexists. reflexivity.
Qed.
End Keeps.
Theorem nest_keeps {S} h (bodies : view S -> nat -> nat -> larg -> list (xact S)) n : sound sinv xrel (fun _ => True) (nest h bodies n).
Proof.
  apply xrule; auto using xrel_refl.
  - intros a b c. apply xrel_trans.
  - intros inner IH0 d [[[g m] s] x] o1 w1 I E1. enough (sinv w1 /\ xrel (g, m, s, x) w1) by (unfold fine; tauto).
    pose proof (xhear_case h bodies inner d g m s x) as C. cbn in I.
    pose proof (readable_quiet g h d m m I (quiet_refl m)) as (Q & _).
    destruct (on_readable h d m) as [o2 m2]. cbn [snd] in Q. pose proof (statics_inv g m m2 I Q) as I2.
    destruct C as [[C L]|(p & hdr & seq & data & _ & L & C)]; apply (eq_trans (eq_sym C)) in E1.
    + inv E1. split; [assumption|]. exact (xrel_refl (g, m, s, x)).
    + apply (xfire_keeps h bodies inner IH0) in E1; [|exact I2]. destruct w1 as [[[g3 m3] s3] x3]. exact E1.
  - intros inner IH0 env j k c [[[g m] s] x] o1 w1 I F E1. enough (sinv w1 /\ xrel (g, m, s, x) w1) by tauto. cbn in I.
    cbn [fst snd] in F. destruct (find_ge j _ k c (mi_sorted g m I) F) as (_ & G & _). clear F.
    unfold xtick_entry in E1. pose proof (begin_static (t_now env (io_oid c)) c) as St. destruct (tick_begin _ c) as [[] c1]; cbn [snd] in St.
    + match type of E1 with st_bind (xfire _ _ _ _ _ _) ?kk ?w = _ => destruct (xfire_case h bodies inner (io_oid c) ForClose Closing kk w)
        as [([[[g2 m2] s2] x2] & R & E2)|(o2 & o3 & [[[g2 m2] s2] x2] & R & _ & E2 & _)] end; rewrite E2 in E1; inv E1;
      (apply (xfire_keeps h bodies inner IH0) in R; [|exact (set_ok_inv g m k c c1 _ I G St)]); exact R.
    + match type of E1 with st_bind (xfire _ _ _ _ _ ?a) ?kk ?w = _ => destruct (xfire_case h bodies inner (io_oid c) ForSend a kk w)
        as [([[[g2 m2] s2] x2] & R & E2)|(o2 & o3 & [[[g2 m2] s2] x2] & R & _ & E2 & _)] end; rewrite E2 in E1;
      (apply (xfire_keeps h bodies inner IH0) in R; [|exact (inv_update g m k c c1 I G (static_oid _ _ St) (static_t2o _ _ St))]).
      * destruct (still k _ m2) as [c2|]; [destruct (tick_send _ _)|]; inv E1; [|exact R]. destruct R as [R1 R2].
        split; [now apply log_inv|exact R2].
      * inv E1. exact R.
    + inv E1. split; [exact (inv_update g m k c c1 I G (static_oid _ _ St) (static_t2o _ _ St))|]. exact (xrel_refl (g, m, s, x)).
  - intros ks g m s x I. split; [now apply fold_erase_inv|]. exact (xrel_refl (g, m, s, x)).
Qed.
Lemma xops_inv {S} h (ops : list (nat * xop S)) : forall w, (forall j, mgr_inv (w_g w) (w_m w j)) ->
  forall j, mgr_inv (w_g (run_xops h ops w)) (w_m (run_xops h ops w) j).
Proof.
  induction ops as [|[i op] ops IH]; intros w I j; cbn [run_xops]; [apply I|].
  destruct (xop_view h op (w_g w, w_m w i, w_s w)) as [[g' m'] s'] eqn:E. apply IH. intros k. cbn [w_m w_g].
  assert (X : mgr_inv g' m' /\ (g_oid (w_g w) <= g_oid g')%nat).
  { destruct op as [c|bodies n s rounds ending env]; cbn [xop_view] in E.
    - destruct (call_mgr h c _) as [o v] eqn:F. cbn [snd] in E. subst v. exact (call_inv h c _ _ _ _ _ _ _ (I i) F).
    - destruct (nest h bodies n rounds ending env _) as [o [v x]] eqn:F. cbn [fst snd] in E. subst v.
      destruct (nest_keeps h bodies n rounds ending env (w_g w, w_m w i, w_s w, (s, [])) o (g', m', s', x) (I i) F) as (A & [B _] & _). auto. }
  destruct X as [I' Le]. unfold update. destruct (Nat.eqb k i); [assumption|]. eapply inv_later; eauto.
Qed.
Lemma nested_inv S g m : nested S g m -> mgr_inv g m.
Proof. intros (h & ops & w & i & N & -> & ->). apply xops_inv. intros j. destruct (N j) as [inc ->]. apply inv_new. Qed.
Lemma xplain_run {S} h (ops : list (nat * call S)) : forall w, run_xops h (map (fun x => (fst x, XPlain (snd x))) ops) w = run_calls h ops w.
Proof.
  induction ops as [|[i op] ops IH]; intros w; cbn [map run_xops run_calls fst snd xop_view]; [reflexivity|].
  unfold call_world. destruct (call_mgr h op (w_g w, w_m w i, w_s w)) as [o [[g m] s]]. cbn [snd]. apply IH.
Qed.
Lemma reachable_nested S g m : reachable S g m -> nested S g m.
Proof.
  intros (h & ops & w & i & N & -> & ->). exists h, (map (fun x => (fst x, XPlain (snd x))) ops), w, i.
  rewrite xplain_run. auto.
Qed.
