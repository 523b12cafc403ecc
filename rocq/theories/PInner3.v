(** Proofs for C110: which calls are made, and how the call ends. *)
From Verif Require Import Base MBuffer SBuffer PBase PBuffer MEip SEip PEip
  MSocket SSocket PSocket MConnReq SConnReq PConnReq MConn SConn PConnOpen PConnMap PIo PConnCall PConnCall2 PConnHist PIo2 PConnTop PIoTop SLife PLife
  MReent SReent PReent MDeep SDeep PDeep MSlot SSlot PSlot MInner SInner PInner PInner2.
Local Open Scope outcome_scope.

(** ** The calls made *)
Section Made.
Context {S : Type} (h : heap) (bodies : view S -> nat -> nat -> larg -> list (xact S)) (oid : nat) (Fi : xfills bodies oid).
Context (inner : list (sel_round dgram) -> sel_end -> tick_env -> st (svw (S := S)) unit).
Context (IH0 : sound (minv oid) (mrel oid) (fun _ => True) inner).
Lemma xperform_made p k (acts : list (xact S)) : (forall j x, In (XAct (ASet oid j x)) acts -> exists f, x = Holds f) ->
  forall gone w o w', minv oid w -> xperform h inner p k gone acts w = (o, w') -> minv oid w' /\ mrel oid w w'.
Proof.
  induction acts as [|a r IH]; intros Al gone w o w' I E; cbn [xperform] in E; [unfold st_ret in E; inv E; split; [assumption|apply mrel_refl]|].
  unfold st_bind in E. destruct (do_xact h inner p k gone a w) as [o1 w1] eqn:D.
  assert (X : minv oid w1 /\ mrel oid w w1).
  { destruct a as [a|r1 e1 v1]; cbn [do_xact] in D.
    - apply perform_one in D. destruct w as [[[g m] s] [sl l]], w1 as [[[g1 m1] s1] [sl1 l1]]. destruct I as [I H].
      destruct (perform_facts h p k _ _ _ _ _ _ _ _ _ _ _ _ _ I D) as (I1 & L1 & (hs & -> & M) & _ & H1).
      split; [split; [assumption|]|].
      + apply H1; [|assumption]. intros j x [->|[]]. eapply Al. now left.
      + exists [], hs. rewrite app_nil_r. split; [assumption|]. split; [reflexivity|]. now rewrite M.
    - destruct (inner r1 e1 v1 w) as [o2 w2] eqn:N. inv D. destruct (IH0 _ _ _ _ _ _ I N) as (A & B & _). auto. }
  destruct X as [I1 R1]. destruct o1 as [b| | |]; [|inv E; auto..].
  destruct (IH (fun j x J => Al j x (or_intror J)) _ _ _ _ I1 E) as [I2 R2]. split; [assumption|]. eapply mrel_trans; eassumption.
Qed.
Lemma xfire_made p k a g m s sl l o g' m' s' sl' l' : k = kind_of a -> minv oid (g, m, s, (sl, l)) ->
  xfire h bodies inner p k a (g, m, s, (sl, l)) = (o, (g', m', s', (sl', l'))) ->
  minv oid (g', m', s', (sl', l'))
  /\ exists ev hs, m_log m' = m_log m ++ ev /\ l' = l ++ hs
     /\ calls_for oid (made_calls hs) = match k with ForSend => [] | _ => calls_for oid [(p, a)] end ++ calls_for oid (announced_calls ev).
Proof.
  intros Kk [I H] E. unfold xfire in E.
  assert (N : p <> oid -> match k with ForSend => [] | _ => calls_for oid [(p, a)] end = []).
  { intros N. cbn [calls_for filter fst]. destruct (Nat.eqb_spec p oid); [contradiction|]. now destruct k. }
  destruct (sl p k) as [| |f] eqn:X.
  1-2: inv E; split; [now split|]; exists [], []; rewrite !app_nil_r; split; [reflexivity|]; split; [reflexivity|]; rewrite N; [reflexivity|];
    intros ->; destruct (H (kind_of a)) as [f Y]; congruence.
  destruct (xperform_made p k (bodies (g, m, s) f p a) (fun j x J => Fi _ _ _ _ _ _ J) false (g, m, s, (sl, l ++ [HCall p k f a])) _ _ (conj I H) E)
    as (I1 & ev & hs & L1 & -> & M).
  split; [assumption|]. exists ev, (HCall p k f a :: hs). split; [assumption|]. split; [now rewrite <- app_assoc|].
  change (HCall p k f a :: hs) with ([HCall p k f a] ++ hs). rewrite made_app, for_app, M. now destruct k.
Qed.
End Made.
Theorem nest_made {S} h (bodies : view S -> nat -> nat -> larg -> list (xact S)) oid n : xfills bodies oid ->
  sound (minv oid) (mrel oid) (fun _ => True) (nest h bodies n).
Proof.
  intros Fi. apply xrule; auto using mrel_refl.
  - intros a b c. apply mrel_trans.
  - intros inner IH0 d [[[g m] s] [sl l]] o1 [[[g1 m1] s1] [sl1 l1]] [I H] E1.
    enough (minv oid (g1, m1, s1, (sl1, l1)) /\ mrel oid (g, m, s, (sl, l)) (g1, m1, s1, (sl1, l1))) by (unfold fine; tauto).
    pose proof (xhear_case h bodies inner d g m s (sl, l)) as C.
    pose proof (readable_quiet g h d m m I (quiet_refl m)) as (Q & _).
    destruct (on_readable h d m) as [o2 m2]. cbn [snd] in Q. pose proof (statics_inv g m m2 I Q) as I2.
    destruct C as [[C L]|(p & hdr & seq & data & L & _ & C)]; apply (eq_trans (eq_sym C)) in E1.
    + inv E1. split; [now split|]. exists [], []. now rewrite !app_nil_r.
    + apply (xfire_made h bodies oid Fi inner IH0) in E1; [|reflexivity|now split]. destruct E1 as (M & ev & hs & L1 & -> & X). split; [assumption|].
      exists (EvData p hdr seq data :: ev), hs. split; [rewrite L1, L, <- app_assoc; reflexivity|]. split; [reflexivity|].
      change (EvData p hdr seq data :: ev) with ([EvData p hdr seq data] ++ ev). rewrite announced_app, for_app. exact X.
  - intros inner IH0 env j k c [[[g m] s] [sl l]] o1 [[[g1 m1] s1] [sl1 l1]] [I H] F E1.
    enough (minv oid (g1, m1, s1, (sl1, l1)) /\ mrel oid (g, m, s, (sl, l)) (g1, m1, s1, (sl1, l1))) by tauto.
    cbn [fst snd] in F. destruct (find_ge j _ k c (mi_sorted g m I) F) as (_ & G & _). clear F.
    unfold xtick_entry in E1. pose proof (begin_static (t_now env (io_oid c)) c) as St. destruct (tick_begin _ c) as [[] c1]; cbn [snd] in St.
    + match type of E1 with st_bind (xfire _ _ _ _ _ _) ?kk ?w = _ => destruct (xfire_case h bodies inner (io_oid c) ForClose Closing kk w)
        as [([[[g2 m2] s2] [sl2 l2]] & R & E2)|(o2 & o3 & [[[g2 m2] s2] [sl2 l2]] & R & _ & E2 & _)] end; rewrite E2 in E1; inv E1;
      (apply (xfire_made h bodies oid Fi inner IH0) in R; [|reflexivity|split; [now apply (set_ok_inv g m k c c1)|assumption]];
       destruct R as (M & ev & hs & L1 & -> & X);
       split; [assumption|]; exists (EvClosed (io_oid c) :: ev), hs; cbn [m_log add_log set_map] in L1;
       split; [rewrite L1, <- app_assoc; reflexivity|]; split; [reflexivity|];
       change (EvClosed (io_oid c) :: ev) with ([EvClosed (io_oid c)] ++ ev); rewrite announced_app, for_app; exact X).
    + match type of E1 with st_bind (xfire _ _ _ _ _ ?a) ?kk ?w = _ => destruct (xfire_case h bodies inner (io_oid c) ForSend a kk w)
        as [([[[g2 m2] s2] [sl2 l2]] & R & E2)|(o2 & o3 & [[[g2 m2] s2] [sl2 l2]] & R & _ & E2 & _)] end; rewrite E2 in E1.
      all: apply (xfire_made h bodies oid Fi inner IH0) in R; [|reflexivity|split; [exact (inv_update g m k c c1 I G (static_oid _ _ St) (static_t2o _ _ St))|assumption]];
        destruct R as (M & ev & hs & L1 & -> & X); cbn [m_log set_map] in L1.
      * destruct (still k _ m2) as [c2|]; [|inv E1; split; [assumption|]; exists ev, hs; auto].
        destruct (tick_send _ _) as [o3 ev2] eqn:T. inv E1. destruct M as [M1 M2]. split; [split; [now apply log_inv|assumption]|].
        exists (ev ++ ev2), hs. split; [cbn [m_log add_log]; rewrite L1, app_assoc; reflexivity|]. split; [reflexivity|]. rewrite X, announced_app, for_app.
        assert (Z : announced_calls ev2 = []) by (unfold tick_send in T; destruct (_ && _); inv T; reflexivity). rewrite Z. symmetry. apply app_nil_r.
      * inv E1. split; [assumption|]. exists ev, hs. auto.
    + inv E1. split; [split; [exact (inv_update g1 m k c c1 I G (static_oid _ _ St) (static_t2o _ _ St))|assumption]|].
      exists [], []. now rewrite !app_nil_r.
  - intros ks g m s [sl l] [I H]. split; [split; [now apply fold_erase_inv|assumption]|]. exists [], []. now rewrite !app_nil_r.
Qed.

(** ** Destroyed callables *)
Lemma only_acts {S} (l : list (xact S)) : (forall r e v, ~ In (XHandle r e v) l) -> exists acts, l = map XAct acts.
Proof.
  induction l as [|[b|r0 e0 v0] r IH]; intros N; [now exists []| |now destruct (N r0 e0 v0 (or_introl eq_refl))].
  destruct IH as [acts ->]; [intros r0 e0 v0 J; apply (N r0 e0 v0); now right|]. now exists (b :: acts).
Qed.
Section Safe.
Context {S : Type} (h : heap) (bodies : view S -> nat -> nat -> larg -> list (xact S)).
Definition xsqual (o : outcome unit) : Prop := o = Undef UbDangling -> xcall_ends h bodies (Undef UbDangling).
Context (inner : list (sel_round dgram) -> sel_end -> tick_env -> st (svw (S := S)) unit).
Context (IH0 : sound sinv (fun _ _ => True) xsqual inner).
Lemma xperform_safe oid k (acts : list (xact S)) : forall gone g m s sl l o w, mgr_inv g m ->
  (gone = true -> ~ In (XAct AUse) acts) -> (gone = false -> lock oid m <> None) ->
  (forall before after d, acts = before ++ XAct AUse :: after -> In (XAct d) before -> ~ destroys oid k d) ->
  (forall before after r e v, acts = before ++ XAct AUse :: after -> ~ In (XHandle r e v) before) ->
  (forall c, In (XAct (ACall c)) acts -> exists v0 f p a, In (XAct (ACall c)) (bodies v0 f p a)) ->
  xperform h inner oid k gone acts (g, m, s, (sl, l)) = (o, w) -> sinv w /\ xsqual o.
Proof.
  induction acts as [|a r IH]; intros gone g m s sl l o w I G1 G2 Ca Pr Ib E; cbn [xperform] in E.
  { unfold st_ret in E. inv E. split; [assumption|]. intros X. discriminate. }
  assert (Ca' : forall before after d, r = before ++ XAct AUse :: after -> In (XAct d) before -> ~ destroys oid k d).
  { intros before after d -> J. apply (Ca (a :: before) after); [reflexivity|now right]. }
  assert (Pr' : forall before after r0 e v, r = before ++ XAct AUse :: after -> ~ In (XHandle r0 e v) before).
  { intros before after r0 e v -> J. apply (Pr (a :: before) after r0 e v); [reflexivity|now right]. }
  assert (Ib' : forall c, In (XAct (ACall c)) r -> exists v0 f p a, In (XAct (ACall c)) (bodies v0 f p a)) by (intros c J; apply Ib; now right).
  unfold st_bind in E. destruct a as [a|r1 e1 v1]; cbn [do_xact] in E.
  - assert (No : destroys oid k a -> ~ In (XAct AUse) r).
    { intros D J. apply in_split in J as (b & af & ->). exact (Ca (XAct a :: b) af a eq_refl (or_introl eq_refl) D). }
    destruct a as [c|p j x|]; cbn [do_act] in E.
    + destruct (do_call h c (g, m, s)) as [o2 [[g2 m2] s2]] eqn:C. destruct (lcall_log h c g m s _ _ _ _ I C) as [I2 _].
      destruct o2 as [q|e|u|]; cbn [omap] in E; [|inv E; split; [exact I2|intros X; discriminate]| |inv E; split; [exact I2|intros X; discriminate]].
      * refine (IH _ _ _ _ _ _ _ _ I2 _ _ Ca' Pr' Ib' E); cbn [fst snd].
        -- intros Y. destruct gone; [intros J; apply (G1 eq_refl); now right|]. cbn [orb] in Y. destruct (lock oid m2) eqn:Lk; [discriminate|].
           destruct (lock oid m) as [c0|] eqn:L0; [|now destruct (G2 eq_refl)]. apply No. right.
           assert (D : (exists u si, c = LClose u si oid) \/ forall u si, c <> LClose u si oid).
           { destruct c as [? ? ? ? ? ?|use8 si p|? ?|?]; try (right; intros; discriminate).
             destruct (Nat.eq_dec p oid) as [->|N]; [left; eauto|right; intros u si' H; inv H; now apply N]. }
           destruct D as [(u & si & ->)|D]; [eauto|].
           destruct (call_keeps h c g m s oid c0 _ _ _ _ I L0 D C) as (_ & _ & d & K). congruence.
        -- intros Y. destruct gone; [discriminate|]. cbn [orb] in Y. now destruct (lock oid m2).
      * inv E. split; [exact I2|]. intros Y. inv Y. destruct (Ib c (or_introl eq_refl)) as (v0 & f & p & a & J). unfold xcall_ends. eauto 10.
    + cbn [fst snd] in E. destruct (lock p m) as [cp|] eqn:Lp.
      * refine (IH _ _ _ _ _ _ _ _ I _ _ Ca' Pr' Ib' E).
        -- intros Y. destruct gone; [intros J; apply (G1 eq_refl); now right|]. cbn [orb] in Y. apply andb_prop in Y as [Y1 Y2].
           apply Nat.eqb_eq in Y1 as ->. apply lkind_eqb_iff in Y2 as ->. apply No. left. eauto.
        -- intros Y. destruct gone; [discriminate|]. auto.
      * refine (IH _ _ _ _ _ _ _ _ I _ _ Ca' Pr' Ib' E); [|assumption]. intros Y J. apply (G1 Y). now right.
    + destruct gone; [exfalso; apply (G1 eq_refl); now left|]. refine (IH _ _ _ _ _ _ _ _ I _ _ Ca' Pr' Ib' E); [discriminate|auto].
  - destruct (inner r1 e1 v1 (g, m, s, (sl, l))) as [o2 [[[g2 m2] s2] [sl2 l2]]] eqn:N.
    destruct (IH0 _ _ _ (g, m, s, (sl, l)) _ _ I N) as (I2 & _ & Q2).
    destruct o2 as [[]|e|u|]; cbn [omap] in E; [|inv E; split; [exact I2|apply Q2; discriminate]..].
    refine (IH _ _ _ _ _ _ _ _ I2 _ _ Ca' Pr' Ib' E); cbn [fst snd].
    + intros _ J. apply in_split in J as (b & af & ->). exact (Pr (XHandle r1 e1 v1 :: b) af r1 e1 v1 eq_refl (or_introl eq_refl)).
    + intros Y. apply orb_false_iff in Y as [_ Y]. now destruct (lock oid m2).
Qed.
Lemma xfire_safe p k a g m s sl l o g' m' s' x' : xcareful bodies -> prudent bodies -> k = kind_of a -> mgr_inv g m -> lock p m <> None ->
  xfire h bodies inner p k a (g, m, s, (sl, l)) = (o, (g', m', s', x')) ->
  mgr_inv g' m' /\ xsqual o
  /\ (xcalm bodies -> xcourteous bodies -> k <> ForData -> forall c, lock p m = Some c -> exists d, lock p m' = Some (io_set_output c d)).
Proof.
  intros Ca Pr Kk I Lp E. unfold xfire in E. destruct (sl p k) as [| |f] eqn:X.
  1-2: inv E; split; [assumption|]; split; [intros Y; discriminate|]; intros _ _ _ c Y; exists (io_out c); now rewrite output_same.
  destruct x' as [sl' l']. subst k.
  assert (Ib : forall c, In (XAct (ACall c)) (bodies (g, m, s) f p a) -> exists v0 f p a, In (XAct (ACall c)) (bodies v0 f p a)) by eauto 10.
  destruct (xperform_safe p (kind_of a) _ false g m s sl _ o _ I ltac:(discriminate) (fun _ => Lp)
      (fun b af d Q => Ca _ _ _ _ b af d Q) (fun b af r0 e v Q => Pr _ _ _ _ b af r0 e v Q) Ib E) as [I1 Q1].
  split; [exact I1|]. split; [exact Q1|].
  intros Cm Co Nk c.
  destruct (only_acts (bodies (g, m, s) f p a) (fun r0 e0 v0 => Cm (g, m, s) f p a r0 e0 v0 Nk)) as [acts Fl].
rewrite Fl, xperform_flat in E.
  destruct (perform_facts h p _ _ _ _ _ _ _ _ _ _ _ _ _ _ I E) as (_ & _ & _ & K & _). apply K.
  intros u si J. apply (Co (g, m, s) f p a u si Nk). rewrite Fl. now apply (in_map XAct).
Qed.
End Safe.
Theorem nest_safe {S} h (bodies : view S -> nat -> nat -> larg -> list (xact S)) n :
  xcareful bodies -> prudent bodies -> xcalm bodies -> xcourteous bodies -> sound sinv (fun _ _ => True) (xsqual h bodies) (nest h bodies n).
Proof.
  intros Ca Pr Cm Co. apply xrule; auto; try (intros; discriminate).
  - intros inner IH0 d [[[g m] s] [sl l]] o1 [[[g1 m1] s1] [sl1 l1]] I E1.
    pose proof (xhear_case h bodies inner d g m s (sl, l)) as C. cbn in I.
    pose proof (readable_quiet g h d m m I (quiet_refl m)) as (Q & _). pose proof (readable_firm h d m) as [F _].
    destruct (on_readable h d m) as [o2 m2]. cbn [snd] in Q. cbn [fst] in F. pose proof (statics_inv g m m2 I Q) as I2.
    destruct C as [[C L]|(p & hdr & seq & data & _ & L & C)]; apply (eq_trans (eq_sym C)) in E1.
    + inv E1. split; [assumption|]. split; [exact Logic.I|]. intros _ Y. contradiction.
    + apply (xfire_safe h bodies inner IH0) in E1; try assumption; [|reflexivity]. destruct E1 as (I3 & Q3 & _). split; [exact I3|]. auto.
  - intros inner IH0 env j k c [[[g m] s] [sl l]] o1 [[[g1 m1] s1] [sl1 l1]] I F E1. cbn in I.
    cbn [fst snd] in F. destruct (find_ge j _ k c (mi_sorted g m I) F) as (_ & G & _). clear F.
    pose proof (mi_key g m I k c (find_in _ _ _ G)) as Kc.
    unfold xtick_entry in E1. pose proof (begin_static (t_now env (io_oid c)) c) as St. destruct (tick_begin _ c) as [[] c1]; cbn [snd] in St.
    + pose proof (set_ok_inv g m k c c1 [EvClosed (io_oid c)] I G St) as I1.
      pose proof (update_lock g m k c c1 (io_oid c) I G St [EvClosed (io_oid c)]) as Lk. rewrite Nat.eqb_refl in Lk.
      match type of E1 with st_bind (xfire _ _ _ _ _ _) ?kk ?w = _ => destruct (xfire_case h bodies inner (io_oid c) ForClose Closing kk w)
        as [([[[g2 m2] s2] x2] & R & E2)|(o2 & o3 & [[[g2 m2] s2] x2] & R & _ & E2 & _ & <-)] end; rewrite E2 in E1;
      (apply (xfire_safe h bodies inner IH0) in R; [|assumption|assumption|reflexivity|assumption|congruence]); destruct R as (I3 & Q3 & K).
      * destruct (K Cm Co ltac:(discriminate) c1 Lk) as [d K2]. rewrite (still_after g2 m2 k (io_oid c) c c1 d I3 Kc St K2) in E1. inv E1.
        split; [assumption|]. split; [exact Logic.I|]. intros Y. now destruct (Y false).
      * inv E1. split; [assumption|]. split; [exact Logic.I|]. intros _. exact Q3.
    + pose proof (inv_update g m k c c1 I G (static_oid _ _ St) (static_t2o _ _ St)) as I1.
      pose proof (update_lock g m k c c1 (io_oid c) I G St []) as Lk. rewrite Nat.eqb_refl in Lk.
      change (lock (io_oid c) (set_map m (map_update k c1 (m_map m))) = Some c1) in Lk.
      match type of E1 with st_bind (xfire _ _ _ _ _ ?a) ?kk ?w = _ => destruct (xfire_case h bodies inner (io_oid c) ForSend a kk w)
        as [([[[g2 m2] s2] x2] & R & E2)|(o2 & o3 & [[[g2 m2] s2] x2] & R & _ & E2 & _ & <-)] end; rewrite E2 in E1;
      (apply (xfire_safe h bodies inner IH0) in R; [|assumption|assumption|reflexivity|assumption|congruence]); destruct R as (I3 & Q3 & K).
      * destruct (K Cm Co ltac:(discriminate) c1 Lk) as [d K2]. rewrite (still_after g2 m2 k (io_oid c) c c1 d I3 Kc St K2) in E1.
        match type of E1 with (let '(_, _) := tick_send ?a ?b in _) = _ => pose proof (send_firm a b) as [F _] end.
        destruct (tick_send _ _) as [o3 ev]. inv E1.
        split; [now apply log_inv|]. split; [exact Logic.I|]. intros _ Y. cbn [fst] in F. destruct o1; inv Y. now destruct F.
      * inv E1. split; [assumption|]. split; [exact Logic.I|]. intros _. exact Q3.
    + inv E1. split; [exact (inv_update g1 m _ c c1 I G (static_oid _ _ St) (static_t2o _ _ St))|]. split; [exact Logic.I|]. intros Y. now destruct (Y true).
  - intros ks g m s [sl l] I. split; [now apply fold_erase_inv|exact Logic.I].
Qed.

(** ** Empty listeners *)
Section Called.
Context {S : Type} (h : heap) (bodies : view S -> nat -> nat -> larg -> list (xact S)) (Ne : xnever_empties bodies).
Definition xcqual (o : outcome unit) : Prop := o = Throw BadCall -> xcall_ends h bodies (Throw BadCall).
Context (inner : list (sel_round dgram) -> sel_end -> tick_env -> st (svw (S := S)) unit).
Context (IH0 : sound cinv (fun _ _ => True) xcqual inner).
Lemma xperform_called oid k (acts : list (xact S)) : (forall p j, ~ In (XAct (ASet p j Empty)) acts) ->
  (forall c, In (XAct (ACall c)) acts -> exists v0 f p a, In (XAct (ACall c)) (bodies v0 f p a)) ->
  forall gone w o w', cinv w -> xperform h inner oid k gone acts w = (o, w') -> cinv w' /\ xcqual o.
Proof.
  induction acts as [|a r IH]; intros N Ib gone w o w' I E; cbn [xperform] in E.
  { unfold st_ret in E. inv E. split; [assumption|]. intros X. discriminate. }
  unfold st_bind in E. destruct (do_xact h inner oid k gone a w) as [o1 w1] eqn:D.
  assert (X : cinv w1 /\ xcqual (omap (fun _ => tt) o1)).
  { destruct a as [a|r1 e1 v1]; cbn [do_xact] in D.
    - apply perform_one in D. apply perform_called in D; [|intros p j [->|[]]; apply (N p j); now left|assumption].
      destruct D as [A B]. split; [assumption|]. intros Y. destruct (B Y) as (c & v & v' & [->|[]] & C).
      destruct (Ib c (or_introl eq_refl)) as (v0 & f & p & b & J). unfold xcall_ends. eauto 10.
    - destruct (inner r1 e1 v1 w) as [o2 w2] eqn:M. inv D. destruct (IH0 _ _ _ _ _ _ I M) as (A & _ & B). split; [assumption|].
      intros Y. apply B; destruct o2; inv Y; congruence. }
  destruct X as [I1 X]. destruct o1 as [b|e|u|].
  - apply (IH (fun p j J => N p j (or_intror J)) (fun c J => Ib c (or_intror J)) _ _ _ _ I1 E).
  - inv E. auto.
  - inv E. auto.
  - inv E. auto.
Qed.
Lemma xfire_called p k a w o w' : cinv w -> xfire h bodies inner p k a w = (o, w') -> cinv w' /\ xcqual o.
Proof.
  destruct w as [v [s l]]. intros I E. unfold xfire in E. destruct (s p k) as [| |f] eqn:X.
  - inv E. split; [assumption|]. intros Y. discriminate.
  - now destruct (I p k).
  - refine (xperform_called p k _ (fun q j => Ne v f p a q j) _ false (v, (s, l ++ [HCall p k f a])) _ _ I E). eauto 10.
Qed.
End Called.
Theorem nest_called {S} h (bodies : view S -> nat -> nat -> larg -> list (xact S)) n : xnever_empties bodies ->
  sound cinv (fun _ _ => True) (xcqual h bodies) (nest h bodies n).
Proof.
  intros Ne. apply xrule; auto; try (intros; discriminate).
  - intros inner IH0 d [[[g m] s] x] o1 w1 I E1. pose proof (xhear_case h bodies inner d g m s x) as C. pose proof (readable_firm h d m) as [_ F].
    destruct (on_readable h d m) as [o2 m2]. cbn [fst] in F.
    destruct C as [[C L]|(p & hdr & seq & data & _ & L & C)]; apply (eq_trans (eq_sym C)) in E1.
    + inv E1. split; [exact I|]. split; [exact Logic.I|]. intros _ Y. contradiction.
    + apply (xfire_called h bodies Ne inner IH0) in E1; [|exact I]. destruct E1. split; auto.
  - intros inner IH0 env j k c [[[g m] s] x] o1 w1 I _ E1. unfold xtick_entry in E1. destruct (tick_begin _ c) as [[] c1].
    + match type of E1 with st_bind (xfire _ _ _ _ _ _) ?kk ?w = _ => destruct (xfire_case h bodies inner (io_oid c) ForClose Closing kk w)
        as [([[[g2 m2] s2] x2] & R & E2)|(o2 & o3 & w2 & R & _ & E2 & _ & <-)] end; rewrite E2 in E1;
      (apply (xfire_called h bodies Ne inner IH0) in R; [|exact I]); destruct R as (I3 & Q3).
      * inv E1. split; [exact I3|]. split; [exact Logic.I|]. destruct (still k _ m2); intros _ Y; discriminate.
      * inv E1. auto.
    + match type of E1 with st_bind (xfire _ _ _ _ _ ?a) ?kk ?w = _ => destruct (xfire_case h bodies inner (io_oid c) ForSend a kk w)
        as [([[[g2 m2] s2] x2] & R & E2)|(o2 & o3 & w2 & R & _ & E2 & _ & <-)] end; rewrite E2 in E1;
      (apply (xfire_called h bodies Ne inner IH0) in R; [|exact I]); destruct R as (I3 & Q3).
      * destruct (still k _ m2) as [c2|]; [|inv E1; split; [exact I3|]; split; [exact Logic.I|]; intros _ Y; discriminate].
        match type of E1 with (let '(_, _) := tick_send ?a ?b in _) = _ => pose proof (send_firm a b) as [_ F] end.
        destruct (tick_send _ _) as [o3 ev]. inv E1.
        split; [exact I3|]. split; [exact Logic.I|]. intros _ Y. cbn [fst] in F. destruct o1; inv Y. now destruct F.
      * inv E1. auto.
    + inv E1. split; [exact I|]. split; [exact Logic.I|]. intros Y. now destruct (Y true).
Qed.
