(** Proofs for C102. *)
From Verif Require Import Base MBuffer SBuffer PBase PBuffer MEip SEip PEip
  MSocket SSocket PSocket MConnReq SConnReq PConnReq MConn SConn PConnOpen PConnMap PIo PConnCall PConnCall2 PConnHist PIo2 PConnTop PIoTop SLife PLife
  MReent SReent PReent MSlot SSlot.
Local Open Scope outcome_scope.

Lemma lkind_eqb_iff a b : lkind_eqb a b = true <-> a = b.
Proof. destruct a, b; cbn; split; congruence. Qed.

(** ** What on_readable announces *)
Lemma readable_log h d m : let '(o, m') := on_readable h d m in
  m_log m' = m_log m
  \/ (o = Ok tt /\ exists oid hdr seq data, m_log m' = m_log m ++ [EvData oid hdr seq data] /\ lock oid m' <> None).
Proof.
  unfold on_readable. destruct (fst _) as [data|e|u|]; [|now left..].
  match goal with |- context [match ?x with Ok _ => _ | Throw _ => _ | Undef _ => _ | Abort => _ end] => destruct x as [m1|e|u|] eqn:E end; [|now left..].
  apply bind_Ok in E as (items & _ & E). destruct (nth_error items 0) as [i0|]; [|discriminate].
  apply bind_Ok in E as ([id b] & _ & E). cbv zeta in E. destruct (map_find _ _) as [c|] eqn:F; [|inv E; now left].
  destruct (nth_error items 1) as [i1|]; [|discriminate]. apply bind_Ok in E as ([c' ev] & R & E). inv E. cbn [m_log add_log set_map].
  unfold io_receive in R. apply bind_Ok in R as ([hdr b1] & _ & R). apply bind_Ok in R as ([seq b2] & _ & R). cbv zeta in R.
  destruct (negb (buf_valid b2)); [discriminate|]. destruct (_ && _); inv R; [left; apply app_nil_r|].
  right. split; [reflexivity|]. do 4 eexists. split; [reflexivity|].
  unfold lock. cbn [m_map add_log set_map]. intros X. 
  match type of X with option_map _ ?f = None => destruct f eqn:Y; [discriminate|] end.
  apply find_in in F. apply (List.find_none _ _) with (x := (u16 id, io_set_tcount c 0)) in Y.
  - cbn [snd io_oid io_set_tcount] in Y. now rewrite Nat.eqb_refl in Y.
  - unfold map_update. apply in_map_iff. exists (u16 id, c). cbn [fst snd]. rewrite Z.eqb_refl. auto.
Qed.
Lemma shear_case {S} h bodies d g m (s : S) x :
  let '(o, m') := on_readable h d m in
  (shear h bodies d (g, m, s, x) = (o, (g, m', s, x)) /\ m_log m' = m_log m)
  \/ (exists oid hdr seq data, m_log m' = m_log m ++ [EvData oid hdr seq data] /\ lock oid m' <> None
      /\ shear h bodies d (g, m, s, x) = fire h bodies oid ForData (GotData hdr seq data) (g, m', s, x)).
Proof.
  pose proof (readable_log h d m) as R. unfold shear. destruct (on_readable h d m) as [o m'].
  destruct R as [R|(-> & oid & hdr & seq & data & R & L)].
  - left. split; [|assumption]. rewrite R, skipn_all. now destruct o.
  - right. exists oid, hdr, seq, data. split; [assumption|]. split; [assumption|]. rewrite R, skipn_app, skipn_all, Nat.sub_diag. reflexivity.
Qed.

(** ** A rule for the whole run *)
Section Rule.
Context {S : Type} (h : heap) (bodies : view S -> nat -> nat -> larg -> list (act S)) (env : tick_env).
Context (Inv : svw (S := S) -> Prop) (R : svw (S := S) -> svw (S := S) -> Prop) (Q : outcome unit -> Prop).
Context (Rrefl : forall w, R w w) (Rtrans : forall a b c, R a b -> R b c -> R a c).
Context (Hshear : forall d w o w', Inv w -> shear h bodies d w = (o, w') -> Inv w' /\ R w w' /\ (o <> Ok tt -> Q o)).
Context (Hentry : forall j k c w o w', Inv w -> find (fun e => j <=? fst e) (m_map (snd (fst (fst w)))) = Some (k, c) ->
  stick_entry h bodies env k c w = (o, w') -> Inv w' /\ R w w' /\ ((forall b, o <> Ok b) -> Q (omap (fun _ => tt) o))).
Context (Herase : forall ks g m s x, Inv (g, m, s, x) ->
  let w' := (g, set_map m (fold_left (fun l k => map_erase k l) ks (m_map m)), s, x) in Inv w' /\ R (g, m, s, x) w').
Context (Qfail : forall e, Q (Throw (SystemError e))) (Qend : Q (Undef UbDerefEnd)).

Lemma rule_loop n : forall j w o w', Inv w -> stick_loop h bodies env n j w = (o, w') ->
  Inv w' /\ R w w' /\ ((forall ks, o <> Ok ks) -> Q (omap (fun _ => tt) o)).
Proof.
  induction n as [|n IH]; intros j w o w' I E; cbn [stick_loop] in E.
  - unfold st_ret in E. inv E. split; [assumption|]. split; [apply Rrefl|]. intros X. now destruct (X []).
  - destruct (find _ _) as [[k c]|] eqn:F; [|inv E; split; [assumption|]; split; [apply Rrefl|]; intros X; now destruct (X [])].
    unfold st_bind at 1 in E. destruct (stick_entry h bodies env k c w) as [o1 w1] eqn:T.
    destruct (Hentry _ _ _ _ _ _ I F T) as (I1 & R1 & Q1).
    destruct o1 as [b|e|u|].
    2-4: inv E; split; [assumption|]; split; [assumption|]; intros _; apply Q1; discriminate.
    unfold st_bind in E. destruct (stick_loop h bodies env n (k + 1) w1) as [o2 w2] eqn:T2.
    destruct (IH _ _ _ _ I1 T2) as (I2 & R2 & Q2).
    destruct o2 as [ks|e|u|].
    { unfold st_ret in E. inv E. split; [assumption|]. split; [eapply Rtrans; eassumption|]. intros X. now destruct (X (if b then ks else k :: ks)). }
    all: inv E; split; [assumption|]; split; [eapply Rtrans; eassumption|]; intros _; apply Q2; discriminate.
Qed.
Definition sticks_with (n : nat) : st svw unit :=
  st_bind (stick_loop h bodies env n 0) (fun ks '(g, m, s, x) =>
    (Ok tt, (g, set_map m (fold_left (fun l k => map_erase k l) ks (m_map m)), s, x))).
Lemma slots_with n : Z.of_nat n = 65536 -> slot_ticks h bodies env = sticks_with n.
Proof. intros E. unfold slot_ticks, sticks_with. f_equal. f_equal. rewrite <- E. apply Nat2Z.id. Qed.
Lemma rule_ticks w o w' : Inv w -> slot_ticks h bodies env w = (o, w') -> Inv w' /\ R w w' /\ (o <> Ok tt -> Q o).
Proof.
  destruct a_fuel as [n F]. rewrite (slots_with n F). clear F. intros I E. unfold sticks_with, st_bind in E.
  destruct (stick_loop h bodies env n 0 w) as [o1 w1] eqn:T. destruct (rule_loop _ _ _ _ _ I T) as (I1 & R1 & Q1).
  destruct o1 as [ks|e|u|].
  - destruct w1 as [[[g m] s] x]. inv E. destruct (Herase ks _ _ _ _ I1) as [I2 R2]. split; [assumption|]. split; [eapply Rtrans; eassumption|]. congruence.
  - inv E. split; [assumption|]. split; [assumption|]. intros _. apply Q1. discriminate.
  - inv E. split; [assumption|]. split; [assumption|]. intros _. apply Q1. discriminate.
  - inv E. split; [assumption|]. split; [assumption|]. intros _. apply Q1. discriminate.
Qed.
Lemma rule_dispatch ready : forall i n w o w', Inv w -> dispatch (fun _ => shear h bodies) i n ready w = (o, w') ->
  Inv w' /\ R w w' /\ (o <> Ok tt -> Q o).
Proof.
  induction ready as [|[d|] r IH]; intros i n w o w' I E; destruct n; cbn [dispatch] in E;
    try (unfold st_ret in E; inv E; split; [assumption|]; split; [apply Rrefl|congruence]).
  - unfold st_bind in E. destruct (shear h bodies d w) as [o1 w1] eqn:T. destruct (Hshear _ _ _ _ I T) as (I1 & R1 & Q1).
    destruct o1 as [[]|e|u|]; [|inv E; split; [assumption|]; split; [assumption|]; intros _; apply Q1; discriminate..].
    destruct (IH _ _ _ _ _ I1 E) as (I2 & R2 & Q2). split; [assumption|]. split; [eapply Rtrans; eassumption|assumption].
  - exact (IH _ _ _ _ _ I E).
Qed.
Lemma rule_select n rounds ending : forall w o w', Inv w -> bs_select (fun _ => shear h bodies) n rounds ending w = (o, w') ->
  Inv w' /\ R w w' /\ (o <> Ok tt -> Q o).
Proof.
  unfold bs_select. destruct n as [|n]; [intros w o w' I E; inv E; auto|].
  induction rounds as [|r rs IH]; intros w o w' I E; cbn [select_rounds] in E.
  - destruct ending; unfold st_ret in E; inv E; split; auto; split; auto; congruence.
  - unfold st_bind in E. destruct (dispatch _ _ _ _ w) as [o1 w1] eqn:T. destruct (rule_dispatch _ _ _ _ _ _ I T) as (I1 & R1 & Q1).
    destruct o1 as [[]|e|u|]; [|inv E; split; [assumption|]; split; [assumption|]; intros _; apply Q1; discriminate..].
    destruct (IH _ _ _ I1 E) as (I2 & R2 & Q2). split; [assumption|]. split; [eapply Rtrans; eassumption|assumption].
Qed.
Theorem rule rounds ending w o w' : Inv w -> slot_connections h bodies rounds ending env w = (o, w') ->
  Inv w' /\ R w w' /\ (o <> Ok tt -> Q o).
Proof.
  intros I E. unfold slot_connections in E. unfold st_bind in E.
  destruct (bs_select _ _ _ _ w) as [o1 w1] eqn:T. destruct (rule_select _ _ _ _ _ _ I T) as (I1 & R1 & Q1).
  destruct o1 as [[]|e|u|]; [|inv E; split; [assumption|]; split; [assumption|]; intros _; apply Q1; discriminate..].
  destruct (rule_ticks _ _ _ I1 E) as (I2 & R2 & Q2). split; [assumption|]. split; [eapply Rtrans; eassumption|assumption].
Qed.
End Rule.

(** ** One entry *)
Lemma fire_case {S A} (h : heap) bodies oid k a (kk : unit -> st (svw (S := S)) A) w :
  (exists w', fire h bodies oid k a w = (Ok tt, w') /\ st_bind (fire h bodies oid k a) kk w = kk tt w')
  \/ (exists (o : outcome unit) (o' : outcome A) w', fire h bodies oid k a w = (o, w') /\ o <> Ok tt /\ st_bind (fire h bodies oid k a) kk w = (o', w')
      /\ (forall b, o' <> Ok b) /\ omap (fun _ => tt) o' = o).
Proof.
  unfold st_bind. destruct (fire h bodies oid k a w) as [[[]|e|u|] w'].
  - left. eauto.
  - right. exists (Throw e), (Throw e), w'. repeat split; discriminate.
  - right. exists (Undef u), (Undef u), w'. repeat split; discriminate.
  - right. exists Abort, Abort, w'. repeat split; discriminate.
Qed.

(** ** The callable assigned last *)
Lemma assigned_other s0 oid k l e : (forall x, e <> HSet oid k x) -> assigned s0 oid k (l ++ [e]) = assigned s0 oid k l.
Proof.
  intros N. unfold assigned. rewrite rev_app_distr. cbn [rev app find].
  destruct e as [p j x|]; [|reflexivity]. destruct (Nat.eqb_spec p oid) as [->|]; [|reflexivity].
  destruct (lkind_eqb j k) eqn:Y; [|reflexivity]. apply lkind_eqb_iff in Y as ->. now destruct (N x).
Qed.
Lemma assigned_self s0 oid k l x : assigned s0 oid k (l ++ [HSet oid k x]) = x.
Proof.
  unfold assigned. rewrite rev_app_distr. cbn [rev app find]. rewrite Nat.eqb_refl.
  now replace (lkind_eqb k k) with true by (symmetry; now apply lkind_eqb_iff).
Qed.
Lemma latest_snoc s0 l e : latest s0 l -> (forall oid k f a, e = HCall oid k f a -> assigned s0 oid k l = Holds f) -> latest s0 (l ++ [e]).
Proof.
  intros L X before oid k f a after E.
  destruct after as [|y after] using rev_ind.
  - apply app_inj_tail in E as [-> ->]. eapply X. reflexivity.
  - clear IHafter. rewrite app_comm_cons, app_assoc in E. apply app_inj_tail in E as [-> _]. eapply L. reflexivity.
Qed.
Definition up_to_date {S} (s0 : slots) (w : svw (S := S)) : Prop :=
  let '(_, (s, l)) := w in latest s0 l /\ forall oid k, s oid k = assigned s0 oid k l.
Section Latest.
Context {S : Type} (h : heap) (bodies : view S -> nat -> nat -> larg -> list (act S)) (env : tick_env) (s0 : slots).
Lemma perform_latest oid k (acts : list (act S)) : forall gone (w : svw (S := S)) o w', up_to_date s0 w -> perform h oid k gone acts w = (o, w') -> up_to_date s0 w'.
Proof.
  induction acts as [|a r IH]; intros gone w o w' U E; cbn [perform] in E; [unfold st_ret in E; now inv E|].
  unfold st_bind in E. destruct (do_act h oid k gone a w) as [o1 w1] eqn:D.
  assert (U1 : up_to_date s0 w1).
  { destruct w as [v [s l]]. unfold do_act in D. destruct a as [c|p j x|].
    - destruct (do_call h c v) as [o2 v2]. inv D. exact U.
    - destruct (lock p _); inv D; [|exact U]. destruct U as [L A]. split.
      + apply latest_snoc; [assumption|discriminate].
      + intros q i1. unfold set_slot. destruct (Nat.eqb_spec q p) as [->|N].
        * destruct (lkind_eqb i1 j) eqn:Y; cbn [andb].
          -- apply lkind_eqb_iff in Y as ->. symmetry. apply assigned_self.
          -- rewrite A. symmetry. apply assigned_other. intros z X. inv X. rewrite (proj2 (lkind_eqb_iff _ _) eq_refl) in Y. discriminate.
        * cbn [andb]. rewrite A. symmetry. apply assigned_other. intros z X. inv X. now destruct N.
    - destruct gone; inv D; exact U. }
  destruct o1 as [b| | |]; [eapply IH; eassumption|now inv E..].
Qed.
Lemma fire_latest oid k a w o w' : up_to_date s0 w -> fire h bodies oid k a w = (o, w') -> up_to_date s0 w'.
Proof.
  destruct w as [v [s l]]. intros U E. unfold fire in E. destruct (s oid k) as [| |f] eqn:X; [now inv E..|].
  refine (perform_latest _ _ _ _ _ _ _ _ E). destruct U as [L A]. split.
  - apply latest_snoc; [assumption|]. intros p j g b Y. inv Y. now rewrite <- A.
  - intros p j. rewrite A. symmetry. apply assigned_other. discriminate.
Qed.
Theorem slot_latest rounds ending w o w' : up_to_date s0 w -> slot_connections h bodies rounds ending env w = (o, w') -> up_to_date s0 w'.
Proof.
  intros U E. refine (proj1 (rule h bodies env (up_to_date s0) (fun _ _ => True) (fun _ => True) _ _ _ _ _ _ _ rounds ending w o w' U E)); auto.
  - intros d [[[g m] s] x] o1 w1 U1 E1. split; [|auto]. pose proof (shear_case h bodies d g m s x) as C.
    destruct (on_readable h d m) as [o2 m2]. destruct C as [[C _]|(oid & hdr & seq & data & _ & _ & C)]; apply (eq_trans (eq_sym C)) in E1.
    + inv E1. exact U1.
    + eapply fire_latest; [|exact E1]. exact U1.
  - intros j k c [[[g m] s] x] o1 w1 U1 _ E1. split; [|auto]. unfold stick_entry in E1.
    destruct (tick_begin _ c) as [[] c1].
    + match type of E1 with st_bind (fire _ _ _ _ _) ?kk ?w = _ => destruct (fire_case h bodies (io_oid c) ForClose Closing kk w)
        as [([[[g2 m2] s2] x2] & R & E2)|(o2 & o3 & w2 & R & _ & E2 & _)] end; rewrite E2 in E1; inv E1; eapply fire_latest; [|exact R| |exact R]; exact U1.
    + match type of E1 with st_bind (fire _ _ _ _ ?a) ?kk ?w = _ => destruct (fire_case h bodies (io_oid c) ForSend a kk w)
        as [([[[g2 m2] s2] x2] & R & E2)|(o2 & o3 & w2 & R & _ & E2 & _)] end; rewrite E2 in E1.
      * assert (X : up_to_date s0 (g2, m2, s2, x2)) by (eapply fire_latest; [|exact R]; exact U1).
        destruct (still k _ m2) as [c2|]; [destruct (tick_send _ c2)|]; inv E1; exact X.
      * inv E1. eapply fire_latest; [|exact R]. exact U1.
    + inv E1. exact U1.
Qed.
End Latest.

(** ** Listeners that stay as they are *)
Section Same.
Context {S : Type} (h : heap) (bodies : view S -> nat -> nat -> larg -> list (act S)) (env : tick_env) (s : slots).
Context (St : steadfast bodies) (Ne : forall oid k, s oid k <> Empty).
Let L := holding bodies s.
(** the same run, whatever has happened before *)
Definition follows {A} (f : st (svw (S := S)) A) (g : st (view S) A) : Prop :=
  forall v l, exists l', f (v, (s, l)) = (fst (g v), (snd (g v), (s, l'))).
Lemma follows_bind {A B} (f : st svw A) (g : st (view S) A) (k : A -> st svw B) (k' : A -> st (view S) B) :
  follows f g -> (forall a, follows (k a) (k' a)) -> follows (st_bind f k) (st_bind g k').
Proof.
  intros F K v l. destruct (F v l) as [l1 E]. unfold st_bind. rewrite E. destruct (g v) as [[a|e|u|] v1]; cbn [fst snd]; [apply K|eauto..].
Qed.
Lemma follows_ret {A} (a : A) : follows (st_ret a) (st_ret a).
Proof. intros v l. exists l. reflexivity. Qed.
Lemma follows_perform oid k (acts : list (act S)) : (forall d, In d acts -> exists c, d = ACall c) -> forall gone,
  follows (perform h oid k gone acts) (react h (calls_of acts)).
Proof.
  induction acts as [|a r IH]; intros Al gone; [apply follows_ret|].
  destruct (Al a (or_introl eq_refl)) as [c ->]. cbn [perform calls_of flat_map app react].
  intros v l. unfold st_bind, do_act. destruct (do_call h c v) as [[p|e|u|] v1]; cbn [omap fst snd]; [|exists l; reflexivity..].
  apply IH. intros d J. apply Al. now right.
Qed.
Lemma follows_fire oid k a :
  follows (fire h bodies oid k a) (fun v => react h (match s oid k with Holds f => calls_of (bodies v f oid a) | _ => [] end) v).
Proof.
  intros v l. unfold fire. pose proof (Ne oid k) as X. destruct (s oid k) as [| |f]; [exists l; reflexivity|contradiction|].
  apply follows_perform. apply St.
Qed.
Lemma follows_shear d : follows (shear h bodies d) (hear h L d).
Proof.
  intros [[g m] x] l. unfold shear, hear. destruct (on_readable h d m) as [o m']. destruct o as [u|e|u|]; [|exists l; reflexivity..].
  destruct (skipn _ _) as [|[p hdr sq dt|p|p e dt] [|? ?]]; try (exists l; reflexivity).
  destruct (follows_fire p ForData (GotData hdr sq dt) (g, m', x) l) as [l' E]. exists l'. exact E.
Qed.
Lemma follows_entry k c : follows (stick_entry h bodies env k c) (tick_entry h L env k c).
Proof.
  intros [[g m] x] l. unfold stick_entry, tick_entry. destruct (tick_begin _ c) as [[] c1].
  - refine (follows_bind _ _ _ _ (follows_fire (io_oid c) ForClose Closing) _ _ l).
    intros _ [[g2 m2] x2] l2. exists l2. reflexivity.
  - refine (follows_bind _ _ _ _ (follows_fire (io_oid c) ForSend (ToSend (io_out c1))) _ _ l).
    intros _ [[g2 m2] x2] l2. exists l2. destruct (still k _ m2) as [c2|]; [destruct (tick_send _ c2)|]; reflexivity.
  - exists l. reflexivity.
Qed.
Lemma follows_loop n : forall j, follows (stick_loop h bodies env n j) (tick_loop h L env n j).
Proof.
  induction n as [|n IH]; intros j; [apply follows_ret|]. intros v l. cbn [stick_loop tick_loop fst].
  destruct (find _ _) as [[k c]|]; [|exists l; reflexivity].
  refine (follows_bind _ _ _ _ (follows_entry k c) _ v l). intros b. apply follows_bind; [apply IH|]. intros ks. apply follows_ret.
Qed.
Lemma follows_ticks : follows (slot_ticks h bodies env) (listen_ticks h L env).
Proof.
  destruct a_fuel as [n F]. rewrite (slots_with h bodies env n F), (listen_with h L env n F).
  apply follows_bind; [apply follows_loop|]. intros ks [[g m] x] l. exists l. reflexivity.
Qed.
Lemma follows_dispatch ready : forall i n, follows (dispatch (fun _ => shear h bodies) i n ready) (dispatch (fun _ => hear h L) i n ready).
Proof.
  induction ready as [|[d|] r IH]; intros i n; destruct n; cbn [dispatch]; try apply follows_ret.
  - apply follows_bind; [apply follows_shear|]. intros _. apply IH.
  - apply IH.
Qed.
Lemma follows_select n rounds ending : follows (bs_select (fun _ => shear h bodies) n rounds ending) (bs_select (fun _ => hear h L) n rounds ending).
Proof.
  unfold bs_select. destruct n as [|n]; [intros v l; exists l; reflexivity|].
  induction rounds as [|r rs IH]; cbn [select_rounds].
  - destruct ending; intros v l; exists l; reflexivity.
  - apply follows_bind; [apply follows_dispatch|]. intros _. exact IH.
Qed.
Theorem slot_same rounds ending : follows (slot_connections h bodies rounds ending env) (listen_connections h L rounds ending env).
Proof.
  intros v l. unfold slot_connections, listen_connections. cbn [fst].
  refine (follows_bind _ _ _ _ (follows_select _ rounds ending) _ v l). intros _. apply follows_ticks.
Qed.
End Same.

(** ** What a callable leaves alone *)
Lemma perform_facts {S} h oid k (acts : list (act S)) : forall gone g m s sl l o g' m' s' sl' l', mgr_inv g m ->
  perform h oid k gone acts (g, m, s, (sl, l)) = (o, (g', m', s', (sl', l'))) ->
  mgr_inv g' m' /\ m_log m' = m_log m
  /\ (exists hs, l' = l ++ hs /\ made_calls hs = [])
  /\ (forall p c, (forall use8 si, ~ In (ACall (LClose use8 si p)) acts) -> lock p m = Some c -> exists d, lock p m' = Some (io_set_output c d))
  /\ (forall p, (forall j x, In (ASet p j x) acts -> exists f, x = Holds f) -> (forall j, exists f, sl p j = Holds f) -> forall j, exists f, sl' p j = Holds f).
Proof.
  induction acts as [|a r IH]; intros gone g m s sl l o g' m' s' sl' l' I E; cbn [perform] in E.
  { unfold st_ret in E. inv E. split; [assumption|]. split; [reflexivity|]. split; [exists []; now rewrite app_nil_r|].
    split; [intros p c _ Lk; exists (io_out c); now rewrite output_same|auto]. }
  unfold st_bind in E. destruct (do_act h oid k gone a (g, m, s, (sl, l))) as [o1 [[[g1 m1] s1] [sl1 l1]]] eqn:D.
  assert (X : mgr_inv g1 m1 /\ m_log m1 = m_log m /\ (exists hs, l1 = l ++ hs /\ made_calls hs = [])
    /\ (forall p c, (forall use8 si, a <> ACall (LClose use8 si p)) -> lock p m = Some c -> exists d, lock p m1 = Some (io_set_output c d))
    /\ (forall p, (forall j x, a = ASet p j x -> exists f, x = Holds f) -> (forall j, exists f, sl p j = Holds f) -> forall j, exists f, sl1 p j = Holds f)).
  { unfold do_act in D. destruct a as [c|p j x|].
    - destruct (do_call h c (g, m, s)) as [o2 [[g2 m2] s2]] eqn:C. inv D.
      destruct (lcall_log h c g m s _ _ _ _ I C) as [I1 L1]. split; [assumption|]. split; [assumption|].
      split; [exists []; now rewrite app_nil_r|]. split; [|auto]. intros p c0 N Lk.
      assert (N' : forall u si, c <> LClose u si p) by (intros u si Y; apply (N u si); now rewrite Y).
      destruct (call_keeps h c g m s p c0 _ _ _ _ I Lk N' C) as (_ & _ & K). exact K.
    - assert (K : forall p c, lock p m = Some c -> exists d, lock p m = Some (io_set_output c d)).
      { intros p' c Lk. exists (io_out c). now rewrite output_same. }
      cbn [fst snd] in D. destruct (lock p m); inv D.
      + split; [assumption|]. split; [reflexivity|]. split; [eexists; split; reflexivity|]. split; [auto|].
        intros q N H j'. unfold set_slot. destruct (Nat.eqb_spec q p) as [->|]; [|apply H]. destruct (lkind_eqb j' j); [|apply H]. eapply N. reflexivity.
      + split; [assumption|]. split; [reflexivity|]. split; [exists []; now rewrite app_nil_r|]. split; auto.
    - assert (K : (o1 = if gone then Undef UbDangling else Ok gone) /\ g1 = g /\ m1 = m /\ sl1 = sl /\ l1 = l).
      { inv D. auto. }
      destruct K as (_ & -> & -> & -> & ->). split; [assumption|]. split; [reflexivity|]. split; [exists []; now rewrite app_nil_r|].
      split; [|auto]. intros p' c _ Lk. exists (io_out c). now rewrite output_same. }
  destruct X as (I1 & L1 & (hs1 & -> & M1) & K1 & H1).
  assert (Z : o1 = Ok true \/ o1 = Ok false \/ (g', m', sl', l') = (g1, m1, sl1, l ++ hs1)).
  { destruct o1 as [[]| | |]; [now left|now (right; left)|right; right; now inv E..]. }
  assert (Y : (exists b, perform h oid k b r (g1, m1, s1, (sl1, l ++ hs1)) = (o, (g', m', s', (sl', l'))))
              \/ (g', m', sl', l') = (g1, m1, sl1, l ++ hs1)).
  { destruct Z as [->|[->|Z]]; [left; eauto..|now right]. }
  clear E Z. destruct Y as [[b E]|Y].
  - destruct (IH _ _ _ _ _ _ _ _ _ _ _ _ I1 E) as (I2 & L2 & (hs2 & -> & M2) & K2 & H2).
    split; [assumption|]. split; [congruence|]. split.
    { exists (hs1 ++ hs2). split; [now rewrite app_assoc|]. unfold made_calls in *. rewrite flat_map_app. now rewrite M1, M2. }
    split.
    + intros p c N Lk. destruct (K1 p c) as [d1 Lk1]; [intros u si ->; apply (N u si); now left|assumption|].
      destruct (K2 p _ (fun u si J => N u si (or_intror J)) Lk1) as [d2 Lk2]. exists d2. exact Lk2.
    + intros p N H. apply H2; [intros j x J; eapply N; right; exact J|]. apply H1; [|assumption]. intros j x ->. eapply N. left. reflexivity.
  - inv Y. split; [assumption|]. split; [assumption|]. split; [eexists; split; [reflexivity|assumption]|]. split.
    + intros p c N. apply K1. intros u si ->. apply (N u si). now left.
    + intros p N. apply H1. intros j x ->. eapply N. left. reflexivity.
Qed.
Lemma set_ok_inv g m k c c1 ev : mgr_inv g m -> map_find k (m_map m) = Some c -> io_static c1 = io_static c ->
  mgr_inv g (add_log (set_map m (map_update k c1 (m_map m))) ev).
Proof. intros I F St. destruct (inv_update g m k c c1 I F (static_oid _ _ St) (static_t2o _ _ St)). now constructor. Qed.
Lemma log_inv g m ev : mgr_inv g m -> mgr_inv g (add_log m ev).
Proof. intros []. now constructor. Qed.
Lemma made_app a b : made_calls (a ++ b) = made_calls a ++ made_calls b.
Proof. apply flat_map_app. Qed.
Lemma announced_app a b : announced_calls (a ++ b) = announced_calls a ++ announced_calls b.
Proof. apply flat_map_app. Qed.
Lemma for_app oid a b : calls_for oid (a ++ b) = calls_for oid a ++ calls_for oid b.
Proof. apply filter_app. Qed.

Section Made.
Context {S : Type} (h : heap) (bodies : view S -> nat -> nat -> larg -> list (act S)) (env : tick_env) (oid : nat) (Fi : fills bodies oid).
Definition minv (w : svw (S := S)) : Prop :=
  let '(g, m, _, (s, _)) := w in mgr_inv g m /\ forall k, exists f, s oid k = Holds f.
Definition mrel (w w' : svw (S := S)) : Prop :=
  let '(_, m, _, (_, l)) := w in let '(_, m', _, (_, l')) := w' in
  exists ev hs, m_log m' = m_log m ++ ev /\ l' = l ++ hs /\ calls_for oid (made_calls hs) = calls_for oid (announced_calls ev).
Lemma mrel_refl w : mrel w w.
Proof. destruct w as [[[g m] s] [sl l]]. exists [], []. now rewrite !app_nil_r. Qed.
Lemma mrel_trans a b c : mrel a b -> mrel b c -> mrel a c.
Proof.
  destruct a as [[[g m] s] [sl l]], b as [[[g1 m1] s1] [sl1 l1]], c as [[[g2 m2] s2] [sl2 l2]].
  intros (e1 & h1 & A1 & -> & C1) (e2 & h2 & A2 & -> & C2). exists (e1 ++ e2), (h1 ++ h2).
  split; [now rewrite A2, A1, app_assoc|]. split; [now rewrite app_assoc|].
  rewrite made_app, announced_app, !for_app. now rewrite C1, C2.
Qed.
Lemma fire_made p k a g m s sl l o g' m' s' sl' l' : k = kind_of a -> minv (g, m, s, (sl, l)) ->
  fire h bodies p k a (g, m, s, (sl, l)) = (o, (g', m', s', (sl', l'))) ->
  minv (g', m', s', (sl', l')) /\ m_log m' = m_log m
  /\ exists hs, l' = l ++ hs /\ calls_for oid (made_calls hs) = match k with ForSend => [] | _ => calls_for oid [(p, a)] end.
Proof.
  intros Kk [I H] E. unfold fire in E.
  assert (N : p <> oid -> match k with ForSend => [] | _ => calls_for oid [(p, a)] end = []).
  { intros N. cbn [calls_for filter fst]. destruct (Nat.eqb_spec p oid); [contradiction|]. now destruct k. }
  destruct (sl p k) as [| |f] eqn:X.
  1-2: inv E; split; [now split|]; split; [reflexivity|]; exists []; rewrite app_nil_r; split; [reflexivity|]; rewrite N; [reflexivity|];
    intros ->; destruct (H (kind_of a)) as [f Y]; congruence.
  destruct (perform_facts h p k _ _ _ _ _ _ _ _ _ _ _ _ _ I E) as (I1 & L1 & (hs & -> & M) & _ & H1).
  split; [split; [assumption|]; apply H1; [intros j x J; eapply Fi; exact J|assumption]|]. split; [assumption|].
  exists (HCall p k f a :: hs). split; [now rewrite <- app_assoc|].
  change (HCall p k f a :: hs) with ([HCall p k f a] ++ hs). rewrite made_app, M, app_nil_r. now destruct k.
Qed.
Theorem slot_made rounds ending w o w' : minv w -> slot_connections h bodies rounds ending env w = (o, w') -> minv w' /\ mrel w w'.
Proof.
  intros U E.
  enough (X : minv w' /\ mrel w w' /\ (o <> Ok tt -> True)) by tauto.
  refine (rule h bodies env minv mrel (fun _ => True) mrel_refl mrel_trans _ _ _ _ _ rounds ending w o w' U E); auto.
  - intros d [[[g m] s] [sl l]] o1 [[[g1 m1] s1] [sl1 l1]] U1 E1. enough (minv (g1, m1, s1, (sl1, l1)) /\ mrel (g, m, s, (sl, l)) (g1, m1, s1, (sl1, l1))) by tauto.
    pose proof (shear_case h bodies d g m s (sl, l)) as C. destruct U1 as [I H].
    pose proof (readable_quiet g h d m m I (quiet_refl m)) as (Q & _).
    destruct (on_readable h d m) as [o2 m2]. cbn [snd] in Q. pose proof (statics_inv g m m2 I Q) as I2.
    destruct C as [[C L]|(p & hdr & seq & data & L & _ & C)]; apply (eq_trans (eq_sym C)) in E1.
    + inv E1. split; [now split|]. exists [], []. now rewrite !app_nil_r.
    + apply fire_made in E1; [|reflexivity|now split]. destruct E1 as (M & L1 & hs & -> & X). split; [assumption|].
      exists [EvData p hdr seq data], hs. split; [congruence|]. split; [reflexivity|]. exact X.
  - intros j k c [[[g m] s] [sl l]] o1 [[[g1 m1] s1] [sl1 l1]] [I H] F E1.
    enough (minv (g1, m1, s1, (sl1, l1)) /\ mrel (g, m, s, (sl, l)) (g1, m1, s1, (sl1, l1))) by tauto.
    cbn [fst snd] in F. destruct (find_ge j _ k c (mi_sorted g m I) F) as (_ & G & _). clear F.
    unfold stick_entry in E1. pose proof (begin_static (t_now env (io_oid c)) c) as St. destruct (tick_begin _ c) as [[] c1]; cbn [snd] in St.
    + match type of E1 with st_bind (fire _ _ _ _ _) ?kk ?w = _ => destruct (fire_case h bodies (io_oid c) ForClose Closing kk w)
        as [([[[g2 m2] s2] [sl2 l2]] & R & E2)|(o2 & o3 & [[[g2 m2] s2] [sl2 l2]] & R & _ & E2 & _)] end; rewrite E2 in E1; inv E1;
      (apply fire_made in R; [|reflexivity|split; [now apply (set_ok_inv g m k c c1)|assumption]]; destruct R as (M & L1 & hs & -> & X);
       split; [assumption|]; exists [EvClosed (io_oid c)], hs; split; [assumption|]; split; [reflexivity|]; exact X).
    + match type of E1 with st_bind (fire _ _ _ _ ?a) ?kk ?w = _ => destruct (fire_case h bodies (io_oid c) ForSend a kk w)
        as [([[[g2 m2] s2] [sl2 l2]] & R & E2)|(o2 & o3 & [[[g2 m2] s2] [sl2 l2]] & R & _ & E2 & _)] end; rewrite E2 in E1.
      all: apply fire_made in R; [|reflexivity|split; [exact (inv_update g m k c c1 I G (static_oid _ _ St) (static_t2o _ _ St))|assumption]];
        destruct R as (M & L1 & hs & -> & X); cbn [m_log set_map] in L1.
      * destruct (still k _ m2) as [c2|]; [|inv E1; split; [assumption|]; exists [], hs; rewrite app_nil_r; auto].
        destruct (tick_send _ c2) as [o3 ev] eqn:T. inv E1. destruct M as [M1 M2]. split; [split; [now apply log_inv|assumption]|].
        exists ev, hs. split; [cbn [m_log add_log]; congruence|]. split; [reflexivity|]. rewrite X.
        unfold tick_send in T. destruct (_ && _); inv T; reflexivity.
      * inv E1. split; [assumption|]. exists [], hs. rewrite app_nil_r. auto.
    + inv E1. split; [split; [exact (inv_update g1 m k c c1 I G (static_oid _ _ St) (static_t2o _ _ St))|assumption]|].
      exists [], []. now rewrite !app_nil_r.
  - intros ks g m s [sl l] [I H]. split; [split; [now apply fold_erase_inv|assumption]|]. exists [], []. now rewrite !app_nil_r.
Qed.
End Made.

(** ** Nothing dangles *)
Definition firm {A} (o : outcome A) : Prop := o <> Undef UbDangling /\ o <> Throw BadCall.
Lemma firm_ok {A} (a : A) : firm (Ok a).
Proof. split; discriminate. Qed.
Lemma firm_bind {A B} (o : outcome A) (k : A -> outcome B) : firm o -> (forall a, firm (k a)) -> firm (bind o k).
Proof. intros [N1 N2] K. destruct o; cbn [bind]; [apply K|split; congruence..]. Qed.
Lemma firm_fetch h b : firm (fetch h b).
Proof. unfold fetch. cbv zeta. destruct (nth_error _ _); [apply firm_ok|]. destruct (h _ _); split; discriminate. Qed.
Ltac firm_tac := repeat (first [apply firm_ok | apply firm_fetch | (apply firm_bind; [|intros [? ?]])]; cbv zeta).
Lemma firm_u16 h b : firm (get_u16 h b).
Proof. unfold get_u16. firm_tac. Qed.
Lemma firm_u32 h b : firm (get_u32 h b).
Proof. unfold get_u32. firm_tac. Qed.
Lemma firm_bytes h n : forall b, firm (get_bytes h n b).
Proof.
  induction n as [|n IH]; intros b; cbn [get_bytes]; [apply firm_ok|].
  apply firm_bind; [apply firm_fetch|]. intros [x b1]. apply firm_bind; [apply IH|]. intros [xs b2]. apply firm_ok.
Qed.
Lemma firm_cp h n : forall b acc, firm (snd (cp_loop h n b acc)).
Proof.
  induction n as [|n IH]; intros b acc; cbn [cp_loop]; [apply firm_ok|]. destruct (buf_empty b); [apply firm_ok|].
  match goal with |- context [match ?x with Ok _ => _ | Throw _ => _ | Undef _ => _ | Abort => _ end] => assert (F : firm x) end.
  { apply firm_bind; [apply firm_u16|]. intros [ty b1]. apply firm_bind; [apply firm_u16|]. intros [len b2].
    apply firm_bind; [apply firm_bytes|]. intros [d b3]. destruct (negb _); split; discriminate. }
  match goal with |- context [match ?x with Ok _ => _ | Throw _ => _ | Undef _ => _ | Abort => _ end] => destruct x as [[i b']|e|u|] end.
  - apply IH.
  - cbn [snd]. destruct F. split; congruence.
  - cbn [snd]. destruct F. split; congruence.
  - split; discriminate.
Qed.
Lemma readable_firm h d m : firm (fst (on_readable h d m)).
Proof.
  unfold on_readable. destruct d as [l|e]; cbn [udp_receive fst]; [|split; discriminate].
  match goal with |- context [match ?x with Ok _ => _ | Throw _ => _ | Undef _ => _ | Abort => _ end] => assert (F : firm x) end.
  { apply firm_bind.
    - unfold cp_expand. pose proof (firm_u16 h (buf_of (firstn (Z.to_nat 8192) l ++ zeros (Z.to_nat 8192 - Datatypes.length l)))) as [X Y].
      destruct (get_u16 h _) as [[count b]|e|u|].
      + pose proof (firm_cp h (Z.to_nat count) b []) as [P Q]. destruct (cp_loop _ _ _ _) as [a [w|e|u|]]; cbn [snd] in *; split; cbn [finished]; congruence.
      + split; cbn [finished]; congruence.
      + split; cbn [finished]; congruence.
      + split; discriminate.
    - intros items. destruct (nth_error items 0) as [i0|]; [|split; discriminate]. apply firm_bind; [apply firm_u32|]. intros [id b]. cbv zeta.
      destruct (map_find _ _) as [c|]; [|apply firm_ok]. destruct (nth_error items 1) as [i1|]; [|split; discriminate].
      apply firm_bind; [|intros [c' ev]; apply firm_ok]. unfold io_receive. cbv zeta. apply firm_bind.
      { destruct (io_t2oRTF c); [apply firm_u32|apply firm_ok]. }
      intros [hdr b1]. apply firm_bind. { destruct (has_seq _); [apply firm_u16|apply firm_ok]. }
      intros [seq b2]. destruct (negb _); [split; discriminate|]. destruct (_ && _); apply firm_ok. }
  match goal with |- context [match ?x with Ok _ => _ | Throw _ => _ | Undef _ => _ | Abort => _ end] => destruct x as [m1|e|u|] end; cbn [fst].
  - apply firm_ok.
  - destruct F. split; congruence.
  - destruct F. split; congruence.
  - split; discriminate.
Qed.
Lemma send_firm sr c : firm (fst (tick_send sr c)).
Proof.
  split; [apply send_ub|]. unfold tick_send. destruct (_ && _); [discriminate|]. cbn [fst]. unfold send_check.
  destruct (sr _); repeat match goal with |- context [if ?b then _ else _] => destruct b end; cbn; discriminate.
Qed.

Section Safe.
Context {S : Type} (h : heap) (bodies : view S -> nat -> nat -> larg -> list (act S)) (env : tick_env).
Lemma perform_safe oid k (acts : list (act S)) : forall gone g m s sl l o w, mgr_inv g m ->
  (gone = true -> ~ In AUse acts) -> (gone = false -> lock oid m <> None) ->
  (forall before after d, acts = before ++ AUse :: after -> In d before -> ~ destroys oid k d) ->
  perform h oid k gone acts (g, m, s, (sl, l)) = (o, w) -> o = Undef UbDangling ->
  exists c v v', In (ACall c) acts /\ do_call h c v = (Undef UbDangling, v').
Proof.
  induction acts as [|a r IH]; intros gone g m s sl l o w I G1 G2 Ca E X; cbn [perform] in E.
  { unfold st_ret in E. inv E. discriminate. }
  assert (More : (exists c v v', In (ACall c) r /\ do_call h c v = (Undef UbDangling, v'))
    -> exists c v v', In (ACall c) (a :: r) /\ do_call h c v = (Undef UbDangling, v')).
  { intros (c & v & v' & J & D). exists c, v, v'. split; [now right|assumption]. }
  assert (Ca' : forall before after d, r = before ++ AUse :: after -> In d before -> ~ destroys oid k d).
  { intros before after d -> J. apply (Ca (a :: before) after); [reflexivity|now right]. }
  assert (No : destroys oid k a -> ~ In AUse r).
  { intros D J. apply in_split in J as (b & af & ->). exact (Ca (a :: b) af a eq_refl (or_introl eq_refl) D). }
  unfold st_bind in E. destruct a as [c|p j x|]; cbn [do_act] in E.
  - destruct (do_call h c (g, m, s)) as [o2 [[g2 m2] s2]] eqn:C. destruct (lcall_log h c g m s _ _ _ _ I C) as [I2 _].
    destruct o2 as [q|e|u|]; cbn [omap] in E; [|inv E; discriminate| |inv E; discriminate].
    + apply More. refine (IH _ _ _ _ _ _ _ _ I2 _ _ Ca' E X); cbn [fst snd].
      * intros Y. destruct gone; [intros J; apply (G1 eq_refl); now right|]. cbn [orb] in Y. destruct (lock oid m2) eqn:Lk; [discriminate|].
        destruct (lock oid m) as [c0|] eqn:L0; [|now destruct (G2 eq_refl)]. apply No. right.
        assert (D : (exists u si, c = LClose u si oid) \/ forall u si, c <> LClose u si oid).
        { destruct c as [? ? ? ? ? ?|use8 si p|? ?|?]; try (right; intros; discriminate).
          destruct (Nat.eq_dec p oid) as [->|N]; [left; eauto|right; intros u si' H; inv H; now apply N]. }
        destruct D as [(u & si & ->)|D]; [eauto|].
        destruct (call_keeps h c g m s oid c0 _ _ _ _ I L0 D C) as (_ & _ & d & K). congruence.
      * intros Y. destruct gone; [discriminate|]. cbn [orb] in Y. now destruct (lock oid m2).
    + inv E. inv H0. exists c, (g, m, s), (g2, m2, s2). split; [now left|assumption].
  - cbn [fst snd] in E. destruct (lock p m) as [cp|] eqn:Lp.
    + apply More. refine (IH _ _ _ _ _ _ _ _ I _ _ Ca' E X).
      * intros Y. destruct gone; [intros J; apply (G1 eq_refl); now right|]. cbn [orb] in Y. apply andb_prop in Y as [Y1 Y2].
        apply Nat.eqb_eq in Y1 as ->. apply lkind_eqb_iff in Y2 as ->. apply No. left. eauto.
      * intros Y. destruct gone; [discriminate|]. auto.
    + apply More. refine (IH _ _ _ _ _ _ _ _ I _ _ Ca' E X); [|assumption]. intros Y J. apply (G1 Y). now right.
  - destruct gone; [exfalso; apply (G1 eq_refl); now left|]. apply More. refine (IH _ _ _ _ _ _ _ _ I _ _ Ca' E X); [discriminate|auto].
Qed.
Definition sinv (w : svw (S := S)) : Prop := let '(g, m, _, _) := w in mgr_inv g m.
Definition squal (o : outcome unit) : Prop := o = Undef UbDangling -> call_ends h bodies (Undef UbDangling).
Lemma fire_safe p k a g m s sl l o g' m' s' x' : careful bodies -> k = kind_of a -> mgr_inv g m -> lock p m <> None ->
  fire h bodies p k a (g, m, s, (sl, l)) = (o, (g', m', s', x')) ->
  mgr_inv g' m' /\ squal o
  /\ (courteous bodies -> k <> ForData -> forall c, lock p m = Some c -> exists d, lock p m' = Some (io_set_output c d)).
Proof.
  intros Ca Kk I Lp E. unfold fire in E. destruct (sl p k) as [| |f] eqn:X.
  1-2: inv E; split; [assumption|]; split; [intros Y; discriminate|]; intros _ _ c Y; exists (io_out c); now rewrite output_same.
  destruct x' as [sl' l']. destruct (perform_facts h p k _ _ _ _ _ _ _ _ _ _ _ _ _ I E) as (I1 & _ & _ & K & _). split; [assumption|]. split.
  - intros Y. subst k. destruct (perform_safe p (kind_of a) _ false g m s sl _ o _ I ltac:(discriminate) (fun _ => Lp)
      (fun b af d Q => Ca _ _ _ _ b af d Q) E Y) as (c & v & v' & J & D). unfold call_ends. eauto 10.
  - intros Co Nk c. apply K. intros u si J. subst k. exact (Co _ _ _ _ u si Nk J).
Qed.
Theorem slot_safe rounds ending w o w' : careful bodies -> courteous bodies -> sinv w ->
  slot_connections h bodies rounds ending env w = (o, w') -> sinv w' /\ squal o.
Proof.
  intros Ca Co U E.
  enough (X : sinv w' /\ True /\ (o <> Ok tt -> squal o)).
  { destruct X as (A & _ & B). split; [assumption|]. intros Y. apply B; [congruence|assumption]. }
  refine (rule h bodies env sinv (fun _ _ => True) squal _ _ _ _ _ _ _ rounds ending w o w' U E); auto; try discriminate.
  - intros d [[[g m] s] [sl l]] o1 [[[g1 m1] s1] [sl1 l1]] I E1.
    pose proof (shear_case h bodies d g m s (sl, l)) as C. cbn in I.
    pose proof (readable_quiet g h d m m I (quiet_refl m)) as (Q & _). pose proof (readable_firm h d m) as [F _].
    destruct (on_readable h d m) as [o2 m2]. cbn [snd] in Q. cbn [fst] in F. pose proof (statics_inv g m m2 I Q) as I2.
    destruct C as [[C L]|(p & hdr & seq & data & _ & L & C)]; apply (eq_trans (eq_sym C)) in E1.
    + inv E1. split; [assumption|]. split; [exact Logic.I|]. intros _ Y. contradiction.
    + apply fire_safe in E1; try assumption; [|reflexivity]. destruct E1 as (I3 & Q3 & _). auto.
  - intros j k c [[[g m] s] [sl l]] o1 [[[g1 m1] s1] [sl1 l1]] I F E1. cbn in I.
    cbn [fst snd] in F. destruct (find_ge j _ k c (mi_sorted g m I) F) as (_ & G & _). clear F.
    pose proof (mi_key g m I k c (find_in _ _ _ G)) as Kc.
    unfold stick_entry in E1. pose proof (begin_static (t_now env (io_oid c)) c) as St. destruct (tick_begin _ c) as [[] c1]; cbn [snd] in St.
    + pose proof (set_ok_inv g m k c c1 [EvClosed (io_oid c)] I G St) as I1.
      pose proof (update_lock g m k c c1 (io_oid c) I G St [EvClosed (io_oid c)]) as Lk. rewrite Nat.eqb_refl in Lk.
      match type of E1 with st_bind (fire _ _ _ _ _) ?kk ?w = _ => destruct (fire_case h bodies (io_oid c) ForClose Closing kk w)
        as [([[[g2 m2] s2] x2] & R & E2)|(o2 & o3 & [[[g2 m2] s2] x2] & R & _ & E2 & _ & <-)] end; rewrite E2 in E1;
      (apply fire_safe in R; [|assumption|reflexivity|assumption|congruence]); destruct R as (I3 & Q3 & K).
      * destruct (K Co ltac:(discriminate) c1 Lk) as [d K2]. rewrite (still_after g2 m2 k (io_oid c) c c1 d I3 Kc St K2) in E1. inv E1.
        split; [assumption|]. split; [exact Logic.I|]. intros Y. now destruct (Y false).
      * inv E1. split; [assumption|]. split; [exact Logic.I|]. intros _. exact Q3.
    + pose proof (inv_update g m k c c1 I G (static_oid _ _ St) (static_t2o _ _ St)) as I1.
      pose proof (update_lock g m k c c1 (io_oid c) I G St []) as Lk. rewrite Nat.eqb_refl in Lk.
      change (lock (io_oid c) (set_map m (map_update k c1 (m_map m))) = Some c1) in Lk.
      match type of E1 with st_bind (fire _ _ _ _ ?a) ?kk ?w = _ => destruct (fire_case h bodies (io_oid c) ForSend a kk w)
        as [([[[g2 m2] s2] x2] & R & E2)|(o2 & o3 & [[[g2 m2] s2] x2] & R & _ & E2 & _ & <-)] end; rewrite E2 in E1;
      (apply fire_safe in R; [|assumption|reflexivity|assumption|congruence]); destruct R as (I3 & Q3 & K).
      * destruct (K Co ltac:(discriminate) c1 Lk) as [d K2]. rewrite (still_after g2 m2 k (io_oid c) c c1 d I3 Kc St K2) in E1.
        pose proof (send_firm (t_send env (io_oid c)) (io_set_output c1 d)) as [F _]. destruct (tick_send _ _) as [o3 ev]. inv E1.
        split; [now apply log_inv|]. split; [exact Logic.I|]. intros _ Y. cbn [fst] in F. destruct o1; inv Y. now destruct F.
      * inv E1. split; [assumption|]. split; [exact Logic.I|]. intros _. exact Q3.
    + inv E1. split; [exact (inv_update g1 m _ c c1 I G (static_oid _ _ St) (static_t2o _ _ St))|]. split; [exact Logic.I|]. intros Y. now destruct (Y true).
  - intros ks g m s [sl l] I. split; [now apply fold_erase_inv|exact Logic.I].
Qed.
End Safe.

(** ** Only an empty listener cannot be called *)
Section Called.
Context {S : Type} (h : heap) (bodies : view S -> nat -> nat -> larg -> list (act S)) (env : tick_env) (Ne : never_empties bodies).
Definition cinv (w : svw (S := S)) : Prop := let '(_, (s, _)) := w in forall oid k, s oid k <> Empty.
Definition cqual (o : outcome unit) : Prop := o = Throw BadCall -> call_ends h bodies (Throw BadCall).
Lemma perform_called oid k (acts : list (act S)) : (forall p j, ~ In (ASet p j Empty) acts) -> forall gone w o w', cinv w ->
  perform h oid k gone acts w = (o, w') ->
  cinv w' /\ (o = Throw BadCall -> exists c v v', In (ACall c) acts /\ do_call h c v = (Throw BadCall, v')).
Proof.
  induction acts as [|a r IH]; intros N gone w o w' I E; cbn [perform] in E.
  { unfold st_ret in E. inv E. split; [assumption|discriminate]. }
  unfold st_bind in E. destruct (do_act h oid k gone a w) as [o1 w1] eqn:D.
  assert (X : cinv w1 /\ (forall e, o1 = Throw e -> exists c v v', a = ACall c /\ do_call h c v = (Throw e, v'))).
  { destruct w as [v [s l]]. unfold do_act in D. destruct a as [c|p j x|].
    - destruct (do_call h c v) as [o2 v2] eqn:C. inv D. split; [exact I|]. intros e Y. destruct o2; inv Y. eauto.
    - destruct (lock p _); inv D; (split; [|discriminate]); [|exact I]. intros q i1. unfold set_slot.
      match goal with |- context [if ?b then _ else _] => destruct b end; [|apply I]. intros ->. apply (N p j). now left.
    - destruct gone; inv D; (split; [exact I|discriminate]). }
  destruct X as [I1 X].
  assert (More : (exists c v v', In (ACall c) r /\ do_call h c v = (Throw BadCall, v'))
    -> exists c v v', In (ACall c) (a :: r) /\ do_call h c v = (Throw BadCall, v')).
  { intros (c & v & v' & J & D'). exists c, v, v'. split; [now right|assumption]. }
  destruct o1 as [b|e|u|].
  - destruct (IH (fun p j J => N p j (or_intror J)) _ _ _ _ I1 E) as [I2 Q]. split; [assumption|]. intros Y. apply More, Q, Y.
  - inv E. split; [assumption|]. intros Y. inv Y. destruct (X _ eq_refl) as (c & v & v' & -> & D'). exists c, v, v'. split; [now left|assumption].
  - inv E. split; [assumption|discriminate].
  - inv E. split; [assumption|discriminate].
Qed.
Lemma fire_called p k a w o w' : cinv w -> fire h bodies p k a w = (o, w') -> cinv w' /\ cqual o.
Proof.
  destruct w as [v [s l]]. intros I E. unfold fire in E. destruct (s p k) as [| |f] eqn:X.
  - inv E. split; [assumption|]. intros Y. discriminate.
  - now destruct (I p k).
  - destruct (perform_called p k _ (fun q j => Ne v f p a q j) false (v, (s, l ++ [HCall p k f a])) _ _ I E) as [I1 Q]. split; [assumption|].
    intros Y. destruct (Q Y) as (c & v1 & v' & J & D). unfold call_ends. eauto 10.
Qed.
Theorem slot_called rounds ending w o w' : cinv w ->
  slot_connections h bodies rounds ending env w = (o, w') -> cinv w' /\ cqual o.
Proof.
  intros U E.
  enough (X : cinv w' /\ True /\ (o <> Ok tt -> cqual o)).
  { destruct X as (A & _ & B). split; [assumption|]. intros Y. apply B; [congruence|assumption]. }
  refine (rule h bodies env cinv (fun _ _ => True) cqual _ _ _ _ _ _ _ rounds ending w o w' U E); auto; try discriminate.
  - intros d [[[g m] s] x] o1 w1 I E1. pose proof (shear_case h bodies d g m s x) as C. pose proof (readable_firm h d m) as [_ F].
    destruct (on_readable h d m) as [o2 m2]. cbn [fst] in F.
    destruct C as [[C L]|(p & hdr & seq & data & _ & L & C)]; apply (eq_trans (eq_sym C)) in E1.
    + inv E1. split; [exact I|]. split; [exact Logic.I|]. intros _ Y. contradiction.
    + apply fire_called in E1; [|exact I]. destruct E1. auto.
  - intros j k c [[[g m] s] x] o1 w1 I _ E1. unfold stick_entry in E1. destruct (tick_begin _ c) as [[] c1].
    + match type of E1 with st_bind (fire _ _ _ _ _) ?kk ?w = _ => destruct (fire_case h bodies (io_oid c) ForClose Closing kk w)
        as [([[[g2 m2] s2] x2] & R & E2)|(o2 & o3 & w2 & R & _ & E2 & _ & <-)] end; rewrite E2 in E1;
      (apply fire_called in R; [|exact I]); destruct R as (I3 & Q3).
      * inv E1. split; [exact I3|]. split; [exact Logic.I|]. destruct (still k _ m2); intros _ Y; discriminate.
      * inv E1. auto.
    + match type of E1 with st_bind (fire _ _ _ _ ?a) ?kk ?w = _ => destruct (fire_case h bodies (io_oid c) ForSend a kk w)
        as [([[[g2 m2] s2] x2] & R & E2)|(o2 & o3 & w2 & R & _ & E2 & _ & <-)] end; rewrite E2 in E1;
      (apply fire_called in R; [|exact I]); destruct R as (I3 & Q3).
      * destruct (still k _ m2) as [c2|]; [|inv E1; split; [exact I3|]; split; [exact Logic.I|]; intros _ Y; discriminate].
        pose proof (send_firm (t_send env (io_oid c)) c2) as [_ F]. destruct (tick_send _ _) as [o3 ev]. inv E1.
        split; [exact I3|]. split; [exact Logic.I|]. intros _ Y. cbn [fst] in F. destruct o1; inv Y. now destruct F.
      * inv E1. auto.
    + inv E1. split; [exact I|]. split; [exact Logic.I|]. intros Y. now destruct (Y true).
Qed.
End Called.

(** ** Any program *)
Section Keeps.
Context {S : Type} (h : heap) (bodies : view S -> nat -> nat -> larg -> list (act S)) (env : tick_env).
Definition krel (w w' : svw (S := S)) : Prop :=
  let '(g, _, _, _) := w in let '(g', _, _, _) := w' in (g_oid g <= g_oid g')%nat.
Lemma perform_keeps oid k (acts : list (act S)) : forall gone w o w', sinv w ->
  perform h oid k gone acts w = (o, w') -> sinv w' /\ krel w w'.
Proof.
  assert (Rf : forall w, krel w w) by (intros [[[g m] s] x]; cbn; lia).
  induction acts as [|a r IH]; intros gone w o w' I E; cbn [perform] in E; [unfold st_ret in E; inv E; auto|].
  unfold st_bind in E. destruct (do_act h oid k gone a w) as [o1 w1] eqn:D.
  assert (X : sinv w1 /\ krel w w1).
  { destruct w as [[[g m] s] [sl l]]. cbn in I. unfold do_act in D. destruct a as [c|p j x|].
    - destruct (do_call h c (g, m, s)) as [o2 [[g2 m2] s2]] eqn:C. inv D. exact (do_inv h c g m s _ _ _ _ I C).
    - destruct (lock p _); inv D; cbn; auto.
    - destruct gone; inv D; cbn; auto. }
  destruct X as [I1 R1]. destruct o1 as [b| | |]; [|inv E; auto..].
  destruct (IH _ _ _ _ I1 E) as [I2 R2]. split; [assumption|].
  destruct w as [[[g m] s] x], w1 as [[[g1 m1] s1] x1], w' as [[[g2 m2] s2] x2]. cbn in *. lia.
Qed.
Lemma fire_keeps p k a w o w' : sinv w -> fire h bodies p k a w = (o, w') -> sinv w' /\ krel w w'.
Proof.
  destruct w as [v [s l]]. intros I E. unfold fire in E.
  assert (Rf : krel (v, (s, l)) (v, (s, l))) by (destruct v as [[g m] x]; cbn; lia).
  destruct (s p k) as [| |f] eqn:X; [inv E; auto..|].
  destruct v as [[g m] x]. exact (perform_keeps p k _ _ (g, m, x, (s, l ++ [HCall p k f a])) _ _ I E).
Qed.
Theorem slot_keeps rounds ending w o w' : sinv w ->
  slot_connections h bodies rounds ending env w = (o, w') -> sinv w' /\ krel w w'.
Proof.
  assert (Rf : forall w : svw (S := S), krel w w) by (intros [[[g m] s] x]; cbn; lia).
  assert (Rt : forall a b c : svw (S := S), krel a b -> krel b c -> krel a c).
  { intros [[[g m] s] x] [[[g1 m1] s1] x1] [[[g2 m2] s2] x2]. cbn. lia. }
  intros U E. enough (X : sinv w' /\ krel w w' /\ (o <> Ok tt -> True)) by tauto.
  refine (rule h bodies env sinv krel (fun _ => True) Rf Rt _ _ _ _ _ rounds ending w o w' U E); auto.
  - intros d [[[g m] s] x] o1 w1 I E1. enough (sinv w1 /\ krel (g, m, s, x) w1) by tauto.
    pose proof (shear_case h bodies d g m s x) as C. cbn in I.
    pose proof (readable_quiet g h d m m I (quiet_refl m)) as (Q & _).
    destruct (on_readable h d m) as [o2 m2]. cbn [snd] in Q. pose proof (statics_inv g m m2 I Q) as I2.
    destruct C as [[C L]|(p & hdr & seq & data & _ & L & C)]; apply (eq_trans (eq_sym C)) in E1.
    + inv E1. cbn. auto.
    + apply fire_keeps in E1; [|exact I2]. destruct w1 as [[[g3 m3] s3] x3]. exact E1.
  - intros j k c [[[g m] s] x] o1 w1 I F E1. enough (sinv w1 /\ krel (g, m, s, x) w1) by tauto. cbn in I.
    cbn [fst snd] in F. destruct (find_ge j _ k c (mi_sorted g m I) F) as (_ & G & _). clear F.
    unfold stick_entry in E1. pose proof (begin_static (t_now env (io_oid c)) c) as St. destruct (tick_begin _ c) as [[] c1]; cbn [snd] in St.
    + match type of E1 with st_bind (fire _ _ _ _ _) ?kk ?w = _ => destruct (fire_case h bodies (io_oid c) ForClose Closing kk w)
        as [([[[g2 m2] s2] x2] & R & E2)|(o2 & o3 & [[[g2 m2] s2] x2] & R & _ & E2 & _)] end; rewrite E2 in E1; inv E1;
      (apply fire_keeps in R; [|exact (set_ok_inv g m k c c1 _ I G St)]); exact R.
    + match type of E1 with st_bind (fire _ _ _ _ ?a) ?kk ?w = _ => destruct (fire_case h bodies (io_oid c) ForSend a kk w)
        as [([[[g2 m2] s2] x2] & R & E2)|(o2 & o3 & [[[g2 m2] s2] x2] & R & _ & E2 & _)] end; rewrite E2 in E1;
      (apply fire_keeps in R; [|exact (inv_update g m k c c1 I G (static_oid _ _ St) (static_t2o _ _ St))]).
      * destruct (still k _ m2) as [c2|]; [destruct (tick_send _ c2)|]; inv E1; [|exact R]. destruct R as [R1 R2].
        split; [now apply log_inv|exact R2].
      * inv E1. exact R.
    + inv E1. split; [exact (inv_update g m k c c1 I G (static_oid _ _ St) (static_t2o _ _ St))|]. cbn. lia.
  - intros ks g m s x I. split; [now apply fold_erase_inv|]. cbn. lia.
Qed.
End Keeps.
Lemma sops_inv {S} h (ops : list (nat * sop S)) : forall w, (forall j, mgr_inv (w_g w) (w_m w j)) ->
  forall j, mgr_inv (w_g (run_sops h ops w)) (w_m (run_sops h ops w) j).
Proof.
  induction ops as [|[i op] ops IH]; intros w I j; cbn [run_sops]; [apply I|].
  destruct (sop_view h op (w_g w, w_m w i, w_s w)) as [[g' m'] s'] eqn:E. apply IH. intros k. cbn [w_m w_g].
  assert (X : mgr_inv g' m' /\ (g_oid (w_g w) <= g_oid g')%nat).
  { destruct op as [c|bodies s rounds ending env]; cbn [sop_view] in E.
    - destruct (call_mgr h c _) as [o v] eqn:F. cbn [snd] in E. subst v. exact (call_inv h c _ _ _ _ _ _ _ (I i) F).
    - destruct (slot_connections h bodies rounds ending env _) as [o [v x]] eqn:F. cbn [fst snd] in E. subst v.
      exact (slot_keeps h bodies env rounds ending (w_g w, w_m w i, w_s w, (s, [])) o (g', m', s', x) (I i) F). }
  destruct X as [I' Le]. unfold update. destruct (Nat.eqb k i); [assumption|]. eapply inv_later; eauto.
Qed.
Lemma slotted_inv S g m : slotted S g m -> mgr_inv g m.
Proof. intros (h & ops & w & i & N & -> & ->). apply sops_inv. intros j. destruct (N j) as [inc ->]. apply inv_new. Qed.
Lemma splain_run {S} h (ops : list (nat * call S)) : forall w, run_sops h (map (fun x => (fst x, SPlain (snd x))) ops) w = run_calls h ops w.
Proof.
  induction ops as [|[i op] ops IH]; intros w; cbn [map run_sops run_calls fst snd sop_view]; [reflexivity|].
  unfold call_world. destruct (call_mgr h op (w_g w, w_m w i, w_s w)) as [o [[g m] s]]. cbn [snd]. apply IH.
Qed.
Lemma reachable_slotted S g m : reachable S g m -> slotted S g m.
Proof.
  intros (h & ops & w & i & N & -> & ->). exists h, (map (fun x => (fst x, SPlain (snd x))) ops), w, i.
  rewrite splain_run. auto.
Qed.

(** ** Programs *)
Lemma slot_fuel {S} h (bodies : view S -> nat -> nat -> larg -> list (act S)) env : exists n, forall rounds ending w,
  slot_connections h bodies rounds ending env w
  = st_bind (bs_select (fun _ => shear h bodies) (List.length (m_socks (snd (fst (fst w))))) rounds ending)
            (fun _ => sticks_with h bodies env (Datatypes.S (Datatypes.S (Datatypes.S n)))) w.
Proof.
  destruct a_fuel as [k F]. assert (K : exists n, k = Datatypes.S (Datatypes.S (Datatypes.S n))).
  { destruct k as [|[|[|n]]]; [lia..|eauto]. }
  destruct K as [n ->]. exists n. intros rounds ending w. unfold slot_connections. now rewrite (slots_with h bodies env _ F).
Qed.
(** Callable 0 is a receive listener that hands over to callable 1 and then
    uses its captures; 1 only uses its captures; 2 hands over to 1 and is done;
    3 closes its connection and then uses its captures; 4 empties its slot. *)
Definition handover (w : view (list encaps)) (f oid : nat) (a : larg) : list (act (list encaps)) :=
  match f with
  | 0%nat => [ASet oid ForData (Holds 1); AUse]
  | 1%nat => [AUse]
  | 2%nat => [AUse; ASet oid ForData (Holds 1)]
  | 3%nat => [ACall (lclose oid); AUse]
  | 4%nat => [ASet oid ForData Empty]
  | _ => []
  end.
(** A receive listener; the others are as the constructor leaves them. *)
Definition receiving (f : nat) : slots := fun oid k => match oid, k with 0%nat, ForData => Holds f | _, _ => Initial end.
Definition two_grams : list (sel_round dgram) :=
  [mkRound [Some (Dgram (gram 0x10007 [1; 0; 9]))] 0; mkRound [Some (Dgram (gram 0x10007 [2; 0; 8]))] 0].
Definition view_1 : view (list encaps) := (w_g after1, w_m after1 0%nat, w_s after1).
Lemma replaces_itself : exists w, slot_connections strict handover two_grams SelQuiet (at_ms 5) (view_1, (receiving 0, [])) = (Undef UbDangling, w).
Proof. destruct (slot_fuel strict handover (at_ms 5)) as [n F]. rewrite F. clear F. eexists. vm_compute. reflexivity. Qed.
Lemma closes_itself : exists w, slot_connections strict handover two_grams SelQuiet (at_ms 5) (view_1, (receiving 3, [])) = (Undef UbDangling, w).
Proof. destruct (slot_fuel strict handover (at_ms 5)) as [n F]. rewrite F. clear F. eexists. vm_compute. reflexivity. Qed.
Lemma empties_itself : exists w, slot_connections strict handover two_grams SelQuiet (at_ms 5) (view_1, (receiving 4, [])) = (Throw BadCall, w).
Proof. destruct (slot_fuel strict handover (at_ms 5)) as [n F]. rewrite F. clear F. eexists. vm_compute. reflexivity. Qed.
Lemma hands_over : exists v s, slot_connections strict handover two_grams SelQuiet (at_ms 5) (view_1, (receiving 2, []))
  = (Ok tt, (v, (s, [HCall 0 ForData 2 (GotData 0 1 [9]); HSet 0 ForData (Holds 1); HCall 0 ForData 1 (GotData 0 2 [8])]))).
Proof. destruct (slot_fuel strict handover (at_ms 5)) as [n F]. rewrite F. clear F. do 2 eexists. vm_compute. reflexivity. Qed.

(** ** Replacing takes effect; what has happened stays *)
Section Grows.
Context {S : Type} (h : heap) (bodies : view S -> nat -> nat -> larg -> list (act S)) (env : tick_env).
Definition grows (w w' : svw (S := S)) : Prop := exists hs, snd (snd w') = snd (snd w) ++ hs.
Lemma grows_same w w' : snd w = snd w' -> grows w w'.
Proof. intros E. exists []. now rewrite app_nil_r, E. Qed.
Lemma grows_refl w : grows w w.
Proof. now apply grows_same. Qed.
Lemma grows_trans a b c : grows a b -> grows b c -> grows a c.
Proof. intros [x X] [y Y]. exists (x ++ y). now rewrite Y, X, app_assoc. Qed.
Lemma perform_grows oid k (acts : list (act S)) : forall gone w o w', perform h oid k gone acts w = (o, w') -> grows w w'.
Proof.
  induction acts as [|a r IH]; intros gone w o w' E; cbn [perform] in E; [unfold st_ret in E; inv E; now apply grows_same|].
  unfold st_bind in E. destruct (do_act h oid k gone a w) as [o1 w1] eqn:D.
  assert (G : grows w w1).
  { destruct w as [v [s l]]. unfold do_act in D. destruct a as [c|p j x|].
    - destruct (do_call h c v) as [o2 v2]. inv D. now apply grows_same.
    - destruct (lock p _); inv D; [eexists; reflexivity|now apply grows_same].
    - destruct gone; inv D; now apply grows_same. }
  destruct o1 as [b| | |]; [|inv E; exact G..]. eapply grows_trans; [exact G|]. eapply IH. exact E.
Qed.
Lemma fire_grows p k a w o w' : fire h bodies p k a w = (o, w') -> grows w w'.
Proof.
  destruct w as [v [s l]]. intros E. unfold fire in E. destruct (s p k); [inv E; now apply grows_same..|].
  apply perform_grows in E. eapply grows_trans; [|exact E]. eexists. reflexivity.
Qed.
Theorem slot_grows rounds ending w o w' : slot_connections h bodies rounds ending env w = (o, w') -> grows w w'.
Proof.
  intros E. refine (proj1 (proj2 (rule h bodies env (fun _ => True) grows (fun _ => True) grows_refl grows_trans _ _ _ _ _ rounds ending w o w' Logic.I E))); auto.
  - intros d [[[g m] s] x] o1 w1 _ E1. enough (grows (g, m, s, x) w1) by tauto. pose proof (shear_case h bodies d g m s x) as C.
    destruct (on_readable h d m) as [o2 m2]. destruct C as [[C _]|(oid & hdr & seq & data & _ & _ & C)]; apply (eq_trans (eq_sym C)) in E1.
    + inv E1. now apply grows_same.
    + exact (fire_grows _ _ _ _ _ _ E1).
  - intros j k c [[[g m] s] x] o1 w1 _ _ E1. enough (grows (g, m, s, x) w1) by tauto. unfold stick_entry in E1.
    destruct (tick_begin _ c) as [[] c1].
    + match type of E1 with st_bind (fire _ _ _ _ _) ?kk ?w = _ => destruct (fire_case h bodies (io_oid c) ForClose Closing kk w)
        as [([[[g2 m2] s2] x2] & R & E2)|(o2 & o3 & w2 & R & _ & E2 & _)] end; rewrite E2 in E1; inv E1; exact (fire_grows _ _ _ _ _ _ R).
    + match type of E1 with st_bind (fire _ _ _ _ ?a) ?kk ?w = _ => destruct (fire_case h bodies (io_oid c) ForSend a kk w)
        as [([[[g2 m2] s2] x2] & R & E2)|(o2 & o3 & w2 & R & _ & E2 & _)] end; rewrite E2 in E1; apply fire_grows in R.
      * destruct (still k _ m2) as [c2|]; [destruct (tick_send _ c2)|]; inv E1; exact R.
      * inv E1. exact R.
    + inv E1. now apply grows_same.
  - intros ks g m s x _. split; [exact Logic.I|]. now apply grows_same.
Qed.
End Grows.

Definition last_set {S} (p : nat) (j : lkind) (x0 : slot) (acts : list (act S)) : slot :=
  fold_left (fun cur a => match a with ASet q i x => if Nat.eqb p q && lkind_eqb j i then x else cur | _ => cur end) acts x0.
Lemma perform_sets {S} h oid k p j (acts : list (act S)) : (forall use8 si, ~ In (ACall (LClose use8 si p)) acts) ->
  forall gone g m s sl l g' m' s' sl' l', mgr_inv g m -> lock p m <> None ->
  perform h oid k gone acts (g, m, s, (sl, l)) = (Ok tt, (g', m', s', (sl', l'))) -> sl' p j = last_set p j (sl p j) acts.
Proof.
  induction acts as [|a r IH]; intros N gone g m s sl l g' m' s' sl' l' I Lp E; cbn [perform] in E; [unfold st_ret in E; now inv E|].
  unfold st_bind in E. cbn [last_set fold_left]. fold (last_set (S := S) p j).
  assert (N' : forall use8 si, ~ In (ACall (LClose use8 si p)) r) by (intros u si J; apply (N u si); now right).
  destruct a as [c|q i x|]; cbn [do_act] in E.
  - destruct (do_call h c (g, m, s)) as [o2 [[g2 m2] s2]] eqn:C. destruct o2 as [b| | |]; cbn [omap] in E; [|discriminate..].
    destruct (lock p m) as [c0|] eqn:L0; [|now destruct Lp].
    assert (D : forall u si, c <> LClose u si p) by (intros u si ->; apply (N u si); now left).
    destruct (call_keeps h c g m s p c0 _ _ _ _ I L0 D C) as (I2 & _ & d & K).
    refine (IH N' _ _ _ _ _ _ _ _ _ _ _ I2 _ E). congruence.
  - cbn [fst snd] in E. destruct (lock q m) as [cq|] eqn:Lq.
    + rewrite (IH N' _ _ _ _ _ _ _ _ _ _ _ I Lp E). reflexivity.
    + rewrite (IH N' _ _ _ _ _ _ _ _ _ _ _ I Lp E). destruct (Nat.eqb_spec p q) as [->|]; [now destruct Lp|]. reflexivity.
  - destruct gone; [discriminate|]. exact (IH N' _ _ _ _ _ _ _ _ _ _ _ I Lp E).
Qed.
Lemma last_none {S} p j x0 (acts : list (act S)) : (forall y, ~ In (ASet p j y) acts) -> last_set p j x0 acts = x0.
Proof.
  revert x0. induction acts as [|a r IH]; intros x0 N; [reflexivity|]. cbn [last_set fold_left]. fold (last_set (S := S) p j).
  assert (N' : forall y, ~ In (ASet p j y) r) by (intros y J; apply (N y); now right).
  destruct a as [c|q i x|]; [now apply IH| |now apply IH].
  destruct (Nat.eqb_spec p q) as [->|]; [|now apply IH]. destruct (lkind_eqb j i) eqn:Y; [|now apply IH].
  apply lkind_eqb_iff in Y as ->. destruct (N x). now left.
Qed.
Lemma last_some {S} p j x0 x (before after : list (act S)) : (forall y, ~ In (ASet p j y) after) -> last_set p j x0 (before ++ ASet p j x :: after) = x.
Proof.
  intros N. unfold last_set. rewrite fold_left_app. cbn [fold_left]. rewrite Nat.eqb_refl, (proj2 (lkind_eqb_iff j j) eq_refl). cbn [andb].
  exact (last_none p j x after N).
Qed.
Theorem fire_sets {S} h (bodies : view S -> nat -> nat -> larg -> list (act S)) oid k a f p j g m s sl l g' m' s' sl' l' : mgr_inv g m ->
  sl oid k = Holds f -> lock p m <> None ->
  (forall use8 si, ~ In (ACall (LClose use8 si p)) (bodies (g, m, s) f oid a)) ->
  fire h bodies oid k a (g, m, s, (sl, l)) = (Ok tt, (g', m', s', (sl', l'))) ->
  (forall before x after, bodies (g, m, s) f oid a = before ++ ASet p j x :: after -> (forall y, ~ In (ASet p j y) after) -> sl' p j = x)
  /\ ((forall y, ~ In (ASet p j y) (bodies (g, m, s) f oid a)) -> sl' p j = sl p j).
Proof.
  intros I Hf Lp N E. unfold fire in E. rewrite Hf in E.
  pose proof (perform_sets h oid k p j _ N _ _ _ _ _ _ _ _ _ _ _ I Lp E) as X. rewrite X. split.
  - intros before x after -> Na. now apply last_some.
  - apply last_none.
Qed.
