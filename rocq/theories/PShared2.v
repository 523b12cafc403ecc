(** Proofs about sessions used by several threads: the replies go to the calls
    in the order in which these begin to read. *)
From Verif Require Import Base MBuffer SBuffer PBase MEip SEip PEip PRouter MSocket SSocket PSocket SSession PSession SExn MShared SShared PShared.
Ltac Zify.zify_post_hook ::= Z.div_mod_to_equations.
Local Open Scope outcome_scope.

Lemma turn_stream n got segs : ending_of segs = Silent -> (List.length got < n)%nat ->
  exists l segs', receive_turn n got segs
      = (if Nat.leb n (List.length (got ++ l)) then Full (got ++ l) else Again (got ++ l), segs')
    /\ stream segs = l ++ stream segs' /\ ending_of segs' = Silent /\ (List.length (got ++ l) <= n)%nat.
Proof.
  intros E L. unfold receive_turn, recv_once.
  assert (NIL : forall (d : turn), (List.length got < n)%nat ->
     (if Nat.leb n (List.length (got ++ [])) then Full (got ++ []) else Again (got ++ [])) = Again got).
  { intros _ K. rewrite app_nil_r. destruct (Nat.leb_spec n (List.length got)); [lia|reflexivity]. }
  destruct segs as [|[l|e|] segs].
  - exists [], []. rewrite NIL by (exact (Again got) || exact L). rewrite (app_nil_r got). repeat split. lia.
  - destruct (Nat.leb_spec (List.length l) (n - List.length got)) as [A|A].
    + exists l, segs. cbn [stream ending_of] in *. repeat split; [exact E|]. rewrite app_length. lia.
    + exists (firstn (n - List.length got) l), (Data (skipn (n - List.length got) l) :: segs).
      cbn [stream ending_of] in *. rewrite app_assoc, firstn_skipn. repeat split; [exact E|]. rewrite app_length, firstn_length. lia.
  - destruct (err_cases e) as [->|[N H]].
    + exists [], segs. cbn [stream ending_of EINTR] in *. rewrite NIL by (exact (Again got) || exact L). rewrite (app_nil_r got). repeat split; [exact E|lia].
    + destruct (H segs) as (_ & X & _). congruence.
  - discriminate.
Qed.

Lemma answers_snoc p qs q : forall log rs, answers p log (qs ++ [q]) rs ->
  exists rs' r, rs = rs' ++ [r] /\ answers p log qs rs' /\ well_formed r
    /\ stream (p (log ++ map encaps_pack qs) (encaps_pack q)) = encaps_pack r
    /\ ending_of (p (log ++ map encaps_pack qs) (encaps_pack q)) = Silent.
Proof.
  induction qs as [|q0 qs IH]; intros log rs A; cbn [app] in A; inversion A as [|log' q' qs' r rs0 W S E A']; subst.
  - inversion A'; subst. exists [], r. cbn [map]. rewrite app_nil_r. repeat split; try apply W; auto. constructor.
  - apply IH in A' as (rs' & r' & -> & A' & W' & S' & E'). exists (r :: rs'), r'. split; [reflexivity|].
    split; [constructor; assumption|]. cbn [map]. rewrite <- app_assoc in S', E'. auto.
Qed.

Definition packs (rs : list encaps) : bytes := List.concat (map encaps_pack rs).

(** What a thread that has part of reply [r] still has to receive. *)
Definition due (pl : place) (r : encaps) (rest : bytes) : Prop :=
  match pl with
  | Outside => False
  | InHeader got => got <> [] /\ (List.length got < HEADER_SIZE)%nat /\ got ++ rest = encaps_pack r
  | InData header n got => List.length header = HEADER_SIZE /\ n = List.length (e_data r)
      /\ (List.length got < n)%nat /\ header ++ got ++ rest = encaps_pack r
  end.

Lemma app_same_length {A} (a b c d : list A) : a ++ b = c ++ d -> List.length a = List.length c -> a = c /\ b = d.
Proof.
  revert c. induction a as [|x a IH]; intros [|y c] E L; try discriminate; [auto|].
  cbn [app] in E. injection E as -> E. injection L as L. destruct (IH c E L) as [-> ->]. auto.
Qed.

Lemma pack_long r : well_formed r -> List.length (encaps_pack r) = (24 + List.length (e_data r))%nat.
Proof. intros [W L]. now apply (encaps_roundtrip strict encaps0 r W L eq_refl). Qed.

(** A thread that has the whole header of reply [r]. *)
Lemma header_got h handle r header rest : well_formed r -> List.length header = HEADER_SIZE -> header ++ rest = encaps_pack r ->
  (header_there h handle header = inr (verdict handle r) /\ rest = [])
  \/ (header_there h handle header = inl (InData header (List.length (e_data r)) []) /\ due (InData header (List.length (e_data r)) []) r rest).
Proof.
  intros [W El] Lh E. destruct (header_bytes r W) as (hd & Ep & Lhd & Bh & Vl).
  assert (X : header = hd /\ rest = e_data r).
  { apply app_same_length; [congruence|]. rewrite Lh, Lhd. reflexivity. }
  destruct X as [-> ->]. unfold header_there. rewrite length_from_header_ok by (assumption || lia). rewrite Vl.
  assert (LZ : Z.to_nat (e_length r) = List.length (e_data r)) by (rewrite El; unfold zlen; apply Nat2Z.id). rewrite LZ.
  destruct (Nat.eqb_spec (List.length (e_data r)) 0) as [Z0|N].
  - left. apply length_zero_iff_nil in Z0. split; [|exact Z0]. f_equal. unfold conclude. rewrite app_nil_r.
    rewrite Z0, app_nil_r in Ep. rewrite <- Ep. destruct (encaps_roundtrip h encaps0 r W El eq_refl) as (_ & _ & ->).
    cbn [finished bind]. apply check_verdict.
  - right. split; [reflexivity|]. cbn [due List.length]. repeat split; [exact Lh|lia|exact E].
Qed.

(** The state after reception: the calls that began to read, in their order,
    have got or are getting the replies in their order. *)
Definition served_in_order (h : heap) (p : peer) (handle : Z) (w0 : net) (rs : list encaps) (s : shared) : Prop :=
  let ns := ts_notes s in
  n_results (ts_net s) = [] /\ n_sent (ts_net s) = n_sent w0 ++ map encaps_pack (requests ns)
  /\ ending_of (n_in (ts_net s)) = Silent /\ Forall well_formed rs
  /\ ((exists a b, (forall t, ~ reading s t) /\ rs = a ++ b /\ List.length (readers ns) = List.length a
        /\ returns ns = combine (readers ns) (map (verdict handle) a) /\ stream (n_in (ts_net s)) = packs b)
      \/ (exists t rd a r b rest, (forall i, i <> t -> ~ reading s i) /\ rs = a ++ r :: b
        /\ readers ns = rd ++ [t] /\ List.length rd = List.length a
        /\ returns ns = combine rd (map (verdict handle) a)
        /\ due (th_place (ts_threads s t)) r rest /\ stream (n_in (ts_net s)) = rest ++ packs b)).

Lemma due_reading s t r rest : due (th_place (ts_threads s t)) r rest -> reading s t.
Proof.
  unfold due, reading. destruct (th_place (ts_threads s t)) as [|[|x got]|]; auto. intros [N _]. now apply N.
Qed.
Lemma not_reading_at s t w qs pl ns : (forall i, i <> t -> ~ reading s i) -> pl = Outside \/ pl = InHeader [] ->
  forall i, ~ reading (at_place s t w qs pl ns) i.
Proof.
  intros N P i. unfold reading. destruct (Nat.eq_dec i t) as [->|D].
  - rewrite at_place_same. cbn [th_place]. destruct P as [-> | ->]; auto.
  - rewrite at_place_other by exact D. now apply N.
Qed.
Lemma others_reading_at s t w qs pl ns i : i <> t -> reading (at_place s t w qs pl ns) i -> reading s i.
Proof. intros D. unfold reading. now rewrite at_place_other by exact D. Qed.

(** A thread takes [l], the next bytes of reply [r]. *)
Lemma header_step h p handle t s got : th_place (ts_threads s t) = InHeader got -> (List.length got < HEADER_SIZE)%nat ->
  ending_of (n_in (ts_net s)) = Silent ->
  exists l segs, stream (n_in (ts_net s)) = l ++ stream segs /\ ending_of segs = Silent
    /\ (List.length (got ++ l) <= HEADER_SIZE)%nat
    /\ let w' := mkNet (n_sent (ts_net s)) segs (n_results (ts_net s)) in
       let c := th_calls (ts_threads s t) in
       let ns := match got, l with [], _ :: _ => [Began t] | _, _ => [] end in
       ((List.length (got ++ l) < HEADER_SIZE)%nat /\ go h p handle t s = at_place s t w' c (InHeader (got ++ l)) ns)
       \/ (List.length (got ++ l) = HEADER_SIZE
           /\ go h p handle t s = match header_there h handle (got ++ l) with
                                  | inl pl => at_place s t w' c pl ns
                                  | inr o => at_place s t w' c Outside (ns ++ [Returned t o])
                                  end).
Proof.
  intros P L E. destruct (turn_stream HEADER_SIZE got (n_in (ts_net s)) E L) as (l & segs & T & S & E' & K).
  exists l, segs. split; [exact S|]. split; [exact E'|]. split; [exact K|]. cbv zeta. unfold go. rewrite P, T.
  destruct (Nat.leb_spec HEADER_SIZE (List.length (got ++ l))) as [A|A].
  - right. split; [lia|]. unfold first_bytes. destruct got as [|x got]; [|reflexivity].
    destruct l as [|y l]; [cbn [app List.length] in A; unfold HEADER_SIZE in A; lia|reflexivity].
  - left. split; [exact A|]. unfold first_bytes. destruct got as [|x got]; [|reflexivity]. destruct l; reflexivity.
Qed.

Lemma app_prefix {A} (l m a b : list A) : l ++ m = a ++ b -> (List.length l <= List.length a)%nat ->
  exists rest, l ++ rest = a /\ m = rest ++ b.
Proof.
  revert a. induction l as [|x l IH]; intros a E L; [exists a; auto|].
  destruct a as [|y a]; [cbn [List.length] in L; lia|]. cbn [app] in E. injection E as -> E.
  destruct (IH a E) as (rest & R & M); [cbn [List.length] in L; lia|]. exists rest. cbn [app]. now rewrite R.
Qed.

Lemma take_header h p handle w0 rs s s' t d segs a r b rest rd c ns :
  Forall well_formed rs -> rs = a ++ r :: b -> List.length rd = List.length a ->
  returns (ts_notes s) = combine rd (map (verdict handle) a) -> (forall i, i <> t -> ~ reading s i) ->
  n_results (ts_net s) = [] -> n_sent (ts_net s) = n_sent w0 ++ map encaps_pack (requests (ts_notes s)) ->
  ending_of segs = Silent -> stream segs = rest ++ packs b -> d ++ rest = encaps_pack r -> d <> [] ->
  readers (ts_notes s ++ ns) = rd ++ [t] -> returns ns = [] -> requests ns = [] ->
  let w' := mkNet (n_sent (ts_net s)) segs (n_results (ts_net s)) in
  ((List.length d < HEADER_SIZE)%nat /\ s' = at_place s t w' c (InHeader d) ns)
  \/ (List.length d = HEADER_SIZE
      /\ s' = match header_there h handle d with
              | inl pl => at_place s t w' c pl ns
              | inr o => at_place s t w' c Outside (ns ++ [Returned t o])
              end) ->
  served_in_order h p handle w0 rs s'.
Proof.
  intros Wf Ers Lrd Ret Oth Nr Ns En St Ed Nd Rd Rt Rq w' H.
  assert (Wr : well_formed r). { rewrite Ers in Wf. apply Forall_app in Wf as [_ Wf]. now inversion Wf. }
  assert (B : forall pl, due pl r rest -> served_in_order h p handle w0 rs (at_place s t w' c pl ns)).
  { intros pl D. unfold served_in_order. cbv zeta. cbn [at_place ts_net ts_notes w' n_results n_sent n_in].
    change (mkShared (mkNet (n_sent (ts_net s)) segs (n_results (ts_net s))) _ _) with (at_place s t w' c pl ns).
    rewrite requests_app, returns_app, Rt, Rq, !app_nil_r.
    split; [exact Nr|]. split; [exact Ns|]. split; [exact En|]. split; [exact Wf|]. right.
    exists t, rd, a, r, b, rest. split; [intros i D' X; eapply Oth, others_reading_at, X; exact D'|].
    split; [exact Ers|]. split; [exact Rd|]. split; [exact Lrd|]. split; [exact Ret|].
    change (set_thread (ts_threads s) t (mkThread c pl) t) with (ts_threads (at_place s t w' c pl ns) t).
    rewrite at_place_same. split; [exact D|exact St]. }
  destruct H as [[L ->]|[L ->]].
  - apply B. cbn [due]. auto.
  - destruct (header_got h handle r d rest Wr L Ed) as [[-> ->]|[-> D]]; [|now apply B].
    unfold served_in_order. cbv zeta. cbn [at_place ts_net ts_notes w' n_results n_sent n_in].
    rewrite app_assoc, requests_app, (requests_app (ts_notes s)), returns_app, (returns_app (ts_notes s)), (readers_app (ts_notes s ++ ns)), Rt, Rq, Rd.
    cbn [requests readers returns]. rewrite !app_nil_r.
    split; [exact Nr|]. split; [exact Ns|]. split; [exact En|]. split; [exact Wf|]. left.
    exists (a ++ [r]), b. split; [|split; [now rewrite <- app_assoc|]].
    + intros i. apply (not_reading_at s t w' c Outside (ns ++ [Returned t (verdict handle r)]) Oth); auto.
    + rewrite !app_length, Lrd. split; [reflexivity|]. rewrite map_app. cbn [map].
      rewrite combine_snoc by (rewrite map_length; exact Lrd). rewrite Ret. split; [reflexivity|exact St].
Qed.

Lemma order_step h p handle w0 s t rs' : proper s ->
  let s' := step h p handle s (Go t) in
  (readers (ts_notes s') <> readers (ts_notes s) -> forall i, ~ reading s i) ->
  answers p (n_sent w0) (requests (ts_notes s')) rs' ->
  (forall rs, answers p (n_sent w0) (requests (ts_notes s)) rs -> served_in_order h p handle w0 rs s) ->
  served_in_order h p handle w0 rs' s'.
Proof.
  intros P s' Ap An IH. subst s'. cbn [step] in *.
  destruct (th_place (ts_threads s t)) as [|got|header n got] eqn:Pl.
  - (* sends *)
    destruct (th_calls (ts_threads s t)) as [|q qs] eqn:C.
    { pose proof (go_outside h p handle t s Pl) as H. rewrite C in H. rewrite H in *. now apply IH. }
    assert (Gs : go h p handle t s = at_place s t (snd (net_send p (encaps_pack q) (ts_net s))) qs (InHeader []) [Handed t q]
                 \/ requests (ts_notes (go h p handle t s)) = requests (ts_notes s) ++ [q]).
    { pose proof (go_outside h p handle t s Pl) as H. rewrite C in H. destruct H as (w' & [[-> X]|(e & -> & X)]).
      - left. now rewrite X.
      - right. cbn [at_place ts_notes]. now rewrite requests_app. }
    assert (Rq : requests (ts_notes (go h p handle t s)) = requests (ts_notes s) ++ [q]).
    { destruct Gs as [-> | ->]; [|reflexivity]. cbn [at_place ts_notes]. now rewrite requests_app. }
    rewrite Rq in An. apply answers_snoc in An as (rs & r & -> & An & Wr & Sr & Er).
    pose proof (IH rs An) as (Nr & Ns & En & Wf & D).
    assert (X : net_send p (encaps_pack q) (ts_net s)
        = (Ok tt, mkNet (n_sent (ts_net s) ++ [encaps_pack q]) (incoming p (ts_net s) (encaps_pack q)) (tl (n_results (ts_net s))))).
    { apply net_send_all. unfold sends_all. rewrite Nr. exact Logic.I. }
    assert (G : go h p handle t s = at_place s t (mkNet (n_sent (ts_net s) ++ [encaps_pack q]) (incoming p (ts_net s) (encaps_pack q)) [])
                 qs (InHeader []) [Handed t q]).
    { unfold go. rewrite Pl, C, X, Nr. reflexivity. }
    rewrite G. rewrite <- Ns in Sr, Er. destruct (stream_app (n_in (ts_net s)) (p (n_sent (ts_net s)) (encaps_pack q)) En) as (S1 & S2 & _).
    unfold served_in_order. cbv zeta. cbn [at_place ts_net ts_notes n_results n_sent n_in].

    rewrite requests_app, readers_app, returns_app. cbn [requests readers returns]. rewrite !app_nil_r.
    split; [reflexivity|]. split; [now rewrite Ns, map_app, app_assoc|]. unfold incoming. split; [congruence|].
    split; [apply Forall_app; auto|].
    assert (Nt : ~ reading s t). { unfold reading. rewrite Pl. auto. }
    destruct D as [(a & b & N & Ers & L & Ret & St)|(t0 & rd & a & r0 & b & rest & N & Ers & Rd & L & Ret & Du & St)].
    + left. exists a, (b ++ [r]). split; [apply not_reading_at; auto|]. rewrite Ers, app_assoc. repeat (split; [reflexivity || assumption|]).
      rewrite S1, St, Sr. unfold packs. rewrite map_app, concat_app. cbn [map List.concat]. now rewrite app_nil_r.
    + right. exists t0, rd, a, r0, (b ++ [r]), rest. 
      assert (Dt : t0 <> t). { intros ->. apply Nt. eapply due_reading, Du. }
      split.
      { intros i Di R. destruct (Nat.eq_dec i t) as [->|Dit]; [|eapply N, others_reading_at, R; auto].
        unfold reading in R. rewrite at_place_same in R. exact R. }
      rewrite Ers, <- app_assoc. repeat (split; [reflexivity || assumption|]).
      change (set_thread (ts_threads s) t (mkThread qs (InHeader [])) t0) with (ts_threads (at_place s t (ts_net s) qs (InHeader []) []) t0).
      rewrite at_place_other by exact Dt. split; [exact Du|].
      rewrite S1, St, Sr. unfold packs. rewrite map_app, concat_app. cbn [map List.concat]. now rewrite app_nil_r, app_assoc.
  - (* receives the header *)
    assert (Lg : (List.length got < HEADER_SIZE)%nat).
    { destruct (P t) as [X|X]; rewrite Pl in X; [discriminate|exact X]. }
    assert (En : ending_of (n_in (ts_net s)) = Silent \/ True) by auto. clear En.
    assert (Rq : requests (ts_notes (go h p handle t s)) = requests (ts_notes s)).
    { destruct (go_inside h p handle t s) as [(pl' & w' & ns & -> & _ & _ & N & _)|(o & w' & ns & -> & _ & N & _)].
      - rewrite Pl. exact Lg.
      - cbn [at_place ts_notes]. now rewrite requests_app, N, app_nil_r.
      - cbn [at_place ts_notes]. now rewrite requests_app, N, app_nil_r. }
    rewrite Rq in An. pose proof (IH rs' An) as So. pose proof So as (Nr & Ns & En & Wf & D).
    destruct (header_step h p handle t s got Pl Lg En) as (l & segs & S1 & E1 & K & H). cbv zeta in H.
    destruct got as [|x got].
    + destruct l as [|y l].
      * (* nothing arrives *)
        cbn [app List.length] in *. destruct H as [[_ G]|[X _]]; [|unfold HEADER_SIZE in X; lia]. rewrite G.
        unfold served_in_order. cbv zeta. cbn [at_place ts_net ts_notes n_results n_sent n_in]. rewrite !app_nil_r.
        split; [exact Nr|]. split; [exact Ns|]. split; [exact E1|]. split; [exact Wf|].
        assert (Nt : ~ reading s t). { unfold reading. rewrite Pl. auto. }
        destruct D as [(a & b & N & Ers & L & Ret & St)|(t0 & rd & a & r0 & b & rest & N & Ers & Rd & L & Ret & Du & St)].
        -- left. exists a, b. split; [|rewrite <- S1; auto].
           intros i. apply (not_reading_at s t (mkNet (n_sent (ts_net s)) segs (n_results (ts_net s))) (th_calls (ts_threads s t)) (InHeader []) []); auto.
        -- right. exists t0, rd, a, r0, b, rest.
           assert (Dt : t0 <> t). { intros ->. apply Nt. eapply due_reading, Du. }
           split.
           { intros i Di R. destruct (Nat.eq_dec i t) as [->|Dit].
             - revert R. unfold reading, at_place. cbn [ts_threads]. unfold set_thread. now rewrite Nat.eqb_refl.
             - apply (N i Di). revert R. unfold reading, at_place. cbn [ts_threads]. unfold set_thread. apply Nat.eqb_neq in Dit. now rewrite Dit. }
           unfold at_place. cbn [ts_threads]. unfold set_thread. apply Nat.eqb_neq in Dt. rewrite Dt. rewrite <- S1. auto 10.
      * (* first bytes *)
        assert (Rd : readers (ts_notes (go h p handle t s)) = readers (ts_notes s) ++ [t]).
        { destruct H as [[_ ->]|[_ ->]]; [cbn [at_place ts_notes]; now rewrite readers_app|].
          destruct (header_there h handle ([] ++ y :: l)) as [pl|o]; cbn [at_place ts_notes]; now rewrite readers_app. }
        assert (N : forall i, ~ reading s i).
        { apply Ap. rewrite Rd. intros X. apply (f_equal (@List.length nat)) in X. rewrite app_length in X. cbn in X. lia. }
        destruct D as [(a & b & _ & Ers & L & Ret & St)|(t0 & rd & a & r0 & b & rest & _ & Ers & Rd0 & L & Ret & Du & St)].
        2: { exfalso. eapply N, due_reading, Du. }
        destruct b as [|r b]; [rewrite St in S1; discriminate|].
        assert (Wr : well_formed r). { rewrite Ers in Wf. apply Forall_app in Wf as [_ Wf]. now inversion Wf. }
        rewrite St in S1. change (packs (r :: b)) with (encaps_pack r ++ packs b) in S1. symmetry in S1.
        apply app_prefix in S1 as (rest & R1 & R2).
        2: { rewrite pack_long by exact Wr. cbn [app] in K. unfold HEADER_SIZE in K. lia. }
        refine (take_header h p handle w0 rs' s _ t (y :: l) segs a r b rest (readers (ts_notes s)) _ [Began t] Wf Ers L Ret _ Nr Ns E1 R2 R1 _ _ eq_refl eq_refl H); auto.
        -- discriminate.
        -- now rewrite readers_app.
    + (* more of the header *)
      destruct D as [(a & b & N & _)|(t0 & rd & a & r & b & rest & N & Ers & Rd & L & Ret & Du & St)].
      { exfalso. apply (N t). unfold reading. now rewrite Pl. }
      destruct (Nat.eq_dec t t0) as [<-|Dt]. 2: { exfalso. apply (N t Dt). unfold reading. now rewrite Pl. }
      rewrite Pl in Du. destruct Du as (_ & _ & Du).
      assert (Wr : well_formed r). { rewrite Ers in Wf. apply Forall_app in Wf as [_ Wf]. now inversion Wf. }
      pose proof (pack_long r Wr) as Lr. rewrite <- Du, app_length in Lr.
      rewrite St in S1. symmetry in S1. apply app_prefix in S1 as (rest' & R1 & R2).
      2: { rewrite app_length in K. unfold HEADER_SIZE in K. lia. }
      refine (take_header h p handle w0 rs' s _ t ((x :: got) ++ l) segs a r b rest' rd _ [] Wf Ers L Ret N Nr Ns E1 R2 _ _ _ eq_refl eq_refl H).
      * now rewrite <- app_assoc, R1.
      * discriminate.
      * now rewrite app_nil_r.
  - (* receives the data *)
    assert (Rq : requests (ts_notes (go h p handle t s)) = requests (ts_notes s)).
    { destruct (go_inside h p handle t s) as [(pl' & w' & ns & -> & _ & _ & N & _)|(o & w' & ns & -> & _ & N & _)].
      - destruct (P t) as [X|X]; rewrite Pl in X; [discriminate|]. rewrite Pl. exact X.
      - cbn [at_place ts_notes]. now rewrite requests_app, N, app_nil_r.
      - cbn [at_place ts_notes]. now rewrite requests_app, N, app_nil_r. }
    rewrite Rq in An. pose proof (IH rs' An) as So. pose proof So as (Nr & Ns & En & Wf & D).
    destruct D as [(a & b & N & _)|(t0 & rd & a & r & b & rest & N & Ers & Rd & L & Ret & Du & St)].
    { exfalso. apply (N t). unfold reading. now rewrite Pl. }
    destruct (Nat.eq_dec t t0) as [<-|Dt]. 2: { exfalso. apply (N t Dt). unfold reading. now rewrite Pl. }
    rewrite Pl in Du. destruct Du as (Lh & En' & Lg & Du).
    destruct (turn_stream n got (n_in (ts_net s)) En Lg) as (l & segs & T & S1 & E1 & K).
    assert (Wr : well_formed r). { rewrite Ers in Wf. apply Forall_app in Wf as [_ Wf]. now inversion Wf. }
    pose proof (pack_long r Wr) as Lr. rewrite <- Du, !app_length, Lh in Lr. unfold HEADER_SIZE in Lr.
    rewrite St in S1. symmetry in S1. apply app_prefix in S1 as (rest' & R1 & R2).
    2: { rewrite app_length in K. lia. }
    unfold go. rewrite Pl, T. destruct (Nat.leb_spec n (List.length (got ++ l))) as [A|A].
    + assert (Z0 : rest' = []).
      { apply length_zero_iff_nil. rewrite <- R1, app_length in Lr. rewrite app_length in A. lia. }
      subst rest'. rewrite app_nil_r in R1. subst l.
      assert (Cn : conclude h handle header (got ++ rest) = verdict handle r).
      { unfold conclude. rewrite Du. destruct Wr as [W El]. destruct (encaps_roundtrip h encaps0 r W El eq_refl) as (_ & _ & ->).
        cbn [finished bind]. apply check_verdict. }
      rewrite Cn. unfold served_in_order. cbv zeta. cbn [at_place ts_net ts_notes n_results n_sent n_in].
      rewrite requests_app, readers_app, returns_app. cbn [requests readers returns]. rewrite !app_nil_r.
      split; [exact Nr|]. split; [exact Ns|]. split; [exact E1|]. split; [exact Wf|]. left. exists (a ++ [r]), b. split.
      { intros i. apply (not_reading_at s t (ts_net s) (th_calls (ts_threads s t)) Outside [] N). auto. }
      split; [now rewrite <- app_assoc|]. rewrite Rd, !app_length, L. split; [reflexivity|]. rewrite map_app. cbn [map].
      rewrite combine_snoc by (rewrite map_length; exact L). rewrite Ret. split; [reflexivity|exact R2].
    + unfold served_in_order. cbv zeta. cbn [at_place ts_net ts_notes n_results n_sent n_in]. rewrite !app_nil_r.
      split; [exact Nr|]. split; [exact Ns|]. split; [exact E1|]. split; [exact Wf|]. right. exists t, rd, a, r, b, rest'. split.
      { intros i Di R. apply (N i Di). revert R. unfold reading, at_place. cbn [ts_threads]. unfold set_thread. apply Nat.eqb_neq in Di. now rewrite Di. }
      split; [exact Ers|]. split; [exact Rd|]. split; [exact L|]. split; [exact Ret|]. split; [|exact R2].
      unfold at_place. cbn [ts_threads]. unfold set_thread. rewrite Nat.eqb_refl. cbn [th_place due].
      split; [exact Lh|]. split; [exact En'|]. split; [exact A|]. now rewrite <- app_assoc, R1.
Qed.

Lemma apart_app h p handle es : forall s e, apart h p handle s (es ++ [e]) ->
  apart h p handle s es
  /\ (readers (ts_notes (step h p handle (run_threads h p handle s es) e)) <> readers (ts_notes (run_threads h p handle s es)) ->
      forall t, ~ reading (run_threads h p handle s es) t).
Proof.
  induction es as [|e0 es IH]; intros s e L; cbn [app apart] in L.
  - split; [exact Logic.I|]. apply L.
  - destruct L as [L1 L2]. apply IH in L2 as [L2 L3]. split; [split; assumption|]. exact L3.
Qed.

Lemma order_run h p handle calls w es : n_results w = [] -> drained (n_in w) -> Forall (fun e => exists t, e = Go t) es ->
  apart h p handle (threads_start calls w) es ->
  forall rs, answers p (n_sent w) (requests (ts_notes (run_threads h p handle (threads_start calls w) es))) rs ->
  served_in_order h p handle w rs (run_threads h p handle (threads_start calls w) es).
Proof.
  intros R [D1 D2]. induction es as [|e es IH] using rev_ind; intros F A rs An.
  - inversion An. subst. split; [exact R|]. split; [cbn; now rewrite app_nil_r|]. split; [exact D2|]. split; [constructor|].
    left. exists [], []. split; [intros t X; exact X|]. repeat split. exact D1.
  - apply Forall_app in F as [F1 F2]. inversion F2 as [|? ? [t ->] _]. subst. apply apart_app in A as [A1 A2]. rewrite run_snoc in *.
    apply order_step; auto. apply run_proper, start_proper.
Qed.

Lemma threads_order h p handle calls w es rs : let s := run_threads h p handle (threads_start calls w) es in
  let ns := ts_notes s in
  n_results w = [] -> drained (n_in w) -> Forall (fun e => exists t, e = Go t) es ->
  apart h p handle (threads_start calls w) es ->
  answers p (n_sent w) (requests ns) rs ->
  returns ns = firstn (List.length (returns ns)) (combine (readers ns) (map (verdict handle) rs))
  /\ (List.length (readers ns) <= S (List.length (returns ns)))%nat
  /\ (quiet s -> returns ns = combine (readers ns) (map (verdict handle) rs)).
Proof.
  intros s ns R D F A An. pose proof (order_run h p handle calls w es R D F A rs An) as So. fold s in So.
  unfold served_in_order in So. cbv zeta in So. fold ns in So.
  destruct So as (_ & _ & _ & _ & [(a & b & N & Ers & L & Ret & St)|(t & rd & a & r & b & rest & N & Ers & Rd & L & Ret & Du & St)]).
  - assert (X : returns ns = combine (readers ns) (map (verdict handle) rs)).
    { rewrite Ret, Ers, map_app. clear - L. revert a L. induction (readers ns) as [|x l IH]; intros [|y a] L; try discriminate; [reflexivity|].
      cbn [map app combine]. f_equal. apply IH. now injection L. }
    rewrite <- X. rewrite firstn_all. split; [reflexivity|]. split; [|reflexivity]. rewrite Ret, combine_length, map_length. lia.
  - assert (X : combine (readers ns) (map (verdict handle) rs) = returns ns ++ [(t, verdict handle r)]).
    { rewrite Rd, Ret, Ers, map_app. cbn [map]. clear - L. revert a L. induction rd as [|x l IH]; intros [|y a] L; try discriminate; [reflexivity|].
      cbn [map app combine]. f_equal. apply IH. now injection L. }
    rewrite X, firstn_app, firstn_all, Nat.sub_diag. cbn [firstn]. rewrite app_nil_r. split; [reflexivity|]. split.
    + rewrite Rd, Ret, app_length, combine_length, map_length. cbn. lia.
    + intros Q. rewrite Q in Du. destruct Du.
Qed.

Lemma fst_firstn_combine {A B} k : forall (l : list A) (m : list B),
  (k <= List.length l)%nat -> (k <= List.length m)%nat -> map fst (firstn k (combine l m)) = firstn k l.
Proof.
  induction k as [|k IH]; intros [|x l] [|y m] L M; cbn [List.length] in *; try lia; try reflexivity.
  cbn [combine firstn map fst]. f_equal. apply IH; lia.
Qed.
Lemma firstn_combine_same {A B} k : forall (l l' : list A) (m : list B), firstn k l = firstn k l' ->
  firstn k (combine l m) = firstn k (combine l' m).
Proof.
  induction k as [|k IH]; intros [|x l] [|y l'] [|z m] E; cbn [firstn combine] in *; try discriminate; try reflexivity.
  injection E as -> E. f_equal. now apply IH.
Qed.
Lemma answers_length p log qs rs : answers p log qs rs -> List.length rs = List.length qs.
Proof. induction 1; cbn [List.length]; congruence. Qed.
Lemma threads_order_exact h p handle calls w es rs : let s := run_threads h p handle (threads_start calls w) es in
  let ns := ts_notes s in
  n_results w = [] -> drained (n_in w) -> Forall (fun e => exists t, e = Go t) es ->
  apart h p handle (threads_start calls w) es ->
  answers p (n_sent w) (requests ns) rs ->
  let k := List.length (returns ns) in
  returns ns = firstn k (combine (senders ns) (map (verdict handle) rs))
  <-> firstn k (readers ns) = firstn k (senders ns).
Proof.
  intros s ns R D F A An k. destruct (threads_order h p handle calls w es rs R D F A An) as (E & _ & _).
  fold s in E. fold ns in E. fold k in E. apply answers_length in An. fold s in An. fold ns in An.
  pose proof (senders_length ns) as Ls.
  assert (K : (k <= List.length (readers ns))%nat /\ (k <= List.length rs)%nat).
  { unfold k in *. apply (f_equal (@List.length _)) in E. rewrite firstn_length, combine_length, map_length in E. lia. }
  destruct K as [K1 K2]. split.
  - intros E2. rewrite E in E2. apply (f_equal (map fst)) in E2.
    rewrite !fst_firstn_combine in E2 by (rewrite ?map_length; lia). exact E2.
  - intros E2. rewrite E at 1. now apply firstn_combine_same.
Qed.
