(** One connection over time: statements in terms of clock time. *)
From Verif Require Import Base MBuffer SBuffer PBase PBuffer MEip SEip PEip MSocket SSocket PSocket MConnReq SConnReq MConn SConn PConnOpen PConnMap PIo PConnCall PConnCall2 PConnHist PIo2 PConnTop.
Ltac Zify.zify_post_hook ::= Z.div_mod_to_equations.

Definition clock0 (c : iocon) : clock := mkClock (io_last c) 0 0 0 (io_out c).
Lemma fresh_clocked c : io_wf c -> fresh_io c -> clocked c (clock0 c).
Proof.
  intros (_ & _ & [W1 _] & [W2 _]) (A & B & C & D). unfold clocked, clock0; cbn [k_last k_idle k_since k_slots k_out].
  repeat split; try lia; auto; nia.
Qed.
Lemma fresh_run h ops c : io_wf c -> fresh_io c -> zlen (io_out c) <= 65000 -> sane (spec_of c) (io_last c) ops ->
  match io_run h ops c, spec_run (spec_of c) ops (clock0 c) with
  | (Open c', ev), (Some k', ev') => ev = ev' /\ io_static c' = io_static c
  | (Closed, ev), (None, ev') => ev = ev'
  | _, _ => False
  end.
Proof.
  intros W F L S. pose proof (run_refines h (spec_of c) ops c (clock0 c) eq_refl W (fresh_clocked c W F) L S) as R.
  destruct (io_run h ops c) as [[c'| |] ev], (spec_run (spec_of c) ops (clock0 c)) as [[k'|] ev']; auto.
  destruct R as (A & _ & _ & _ & B). auto.
Qed.

(** ** Inactivity *)
Definition tick_time (ops : list io_op) (last : Z) : Z :=
  fold_left (fun t o => match o with Tick now _ _ => now | _ => t end) ops last.

Lemma spec_idle s ops : forall k k' ev mark n, sane s (k_last k) ops ->
  0 <= n -> 1000000 * k_idle k <= k_last k - mark <= 1000000 * k_idle k + 1000000 * n ->
  spec_run s ops k = (Some k', ev) ->
  let '(mark', n') := heard s ops (k_last k) mark n in
  0 <= n' /\ 1000000 * k_idle k' <= k_last k' - mark' <= 1000000 * k_idle k' + 1000000 * n'.
Proof.
  induction ops as [|[now hook sr|t d|d] ops IH]; intros k k' ev mark n S N I E; cbn [spec_run heard sane] in *.
  - inv E. auto.
  - destruct S as (S1 & S2 & S3 & S4).
    destruct (sp_limit s <? 1000 * (k_idle k + (now - k_last k) / 1000000)); [discriminate|].
    destruct (sp_api s <=? 1000 * (k_since k + (now - k_last k) / 1000000)).
    + destruct (spec_run s ops _) as [e ev1] eqn:Q. inv E. 
      specialize (IH (mkClock now (k_idle k + (now - k_last k) / 1000000) 0 (k_slots k + 1) (hook (k_out k))) k' ev1 mark (n + 1) S4).
      cbn [k_last k_idle] in IH. apply IH; [lia| |exact Q]. lia.
    + specialize (IH (mkClock now (k_idle k + (now - k_last k) / 1000000) (k_since k + (now - k_last k) / 1000000) (k_slots k) (k_out k)) k' ev mark (n + 1) S4).
      cbn [k_last k_idle] in IH. apply IH; [lia| |exact E]. lia.
  - destruct S as (S1 & S2 & S3). destruct (fits (sp_t2oSize s) _).
    + destruct (spec_run s ops _) as [e ev1] eqn:Q. inv E.
      specialize (IH (mkClock (k_last k) 0 (k_since k) (k_slots k) (k_out k)) k' ev1 (k_last k) 0 S3).
      cbn [k_last k_idle] in IH. apply IH; [lia| |exact Q]. lia.
    + eapply IH; eauto.
  - destruct S as [S1 S2].
    specialize (IH (mkClock (k_last k) (k_idle k) (k_since k) (k_slots k) d) k' ev mark n S2).
    cbn [k_last k_idle] in IH. apply IH; auto.
Qed.

Lemma sane_app s a : forall last b, sane s last (a ++ b) -> sane s last a.
Proof.
  induction a as [|[now hook sr|t d|d] a IH]; intros last b; cbn [app sane]; [auto| | |].
  - intros (A & B & C & D). eauto.
  - intros (A & B & C). eauto.
  - intros (A & B). eauto.
Qed.
Lemma run_app h a : forall c b, io_run h (a ++ b) c
  = match io_run h a c with
    | (Open c', ev) => let '(e, ev') := io_run h b c' in (e, ev ++ ev')
    | (e, ev) => (e, ev)
    end.
Proof.
  induction a as [|[now hook sr|t d|d] a IH]; intros c b; cbn [app io_run].
  - now destruct (io_run h b c).
  - destruct (io_tick now hook sr c) as [[res c'] ev].
    destruct res as [[|]|?|?|]; try reflexivity;
    rewrite IH; destruct (io_run h a c') as [[c2| |] ev2]; try reflexivity; destruct (io_run h b c2); now rewrite app_assoc.
  - destruct (io_receive h c d) as [[c' ev]|?|?|]; try reflexivity. rewrite IH.
    destruct (io_run h a c') as [[c2| |] ev2]; try reflexivity; destruct (io_run h b c2); now rewrite app_assoc.
  - apply IH.
Qed.

(** At each tick: closed only if more time than the limit has passed since the
    last tick before the last accepted data; not closed only if at most one
    millisecond per tick more than the limit has passed. *)
Lemma real_time h ops now hook sr c c1 ev1 : io_wf c -> fresh_io c -> zlen (io_out c) <= 65000 ->
  sane (spec_of c) (io_last c) (ops ++ [Tick now hook sr]) -> io_run h ops c = (Open c1, ev1) ->
  let '(mark, n) := heard (spec_of c) ops (io_last c) (io_last c) 0 in
  match fst (io_run h (ops ++ [Tick now hook sr]) c) with
  | Closed => 1000 * (io_mult c * io_t2oAPI c) < now - mark
  | Open _ => now - mark <= 1000 * (io_mult c * io_t2oAPI c) + 1000000 * (n + 1)
  | Broken => False
  end.
Proof.
  intros W F L S E.
  pose proof (run_refines h (spec_of c) ops c (clock0 c) eq_refl W (fresh_clocked c W F) L (sane_app _ _ _ _ S)) as R.
  rewrite E in R. destruct (spec_run (spec_of c) ops (clock0 c)) as [[k1|] ev1'] eqn:Q; [|contradiction].
  destruct R as (_ & SP & W1 & CK & _).
  pose proof (spec_idle (spec_of c) ops (clock0 c) k1 ev1' (io_last c) 0 (sane_app _ _ _ _ S) ltac:(lia) ltac:(cbn; lia) Q) as H.
  cbn [k_last clock0] in H. destruct (heard (spec_of c) ops (io_last c) (io_last c) 0) as [mark n]. destruct H as (N & H).
  assert (S1 : io_last c1 <= now /\ (now - io_last c1) / 1000000 * 1000 + io_mult c * io_t2oAPI c < 2 ^ 32).
  { clear - S E. assert (T : forall ops c c1 ev1 last s, io_last c = last -> spec_of c = s -> sane s last (ops ++ [Tick now hook sr]) -> io_run h ops c = (Open c1, ev1) ->
       io_last c1 <= now /\ (now - io_last c1) / 1000000 * 1000 + Z.max (sp_limit s) (sp_api s) < 2 ^ 32).
    { clear. induction ops as [|[t hk s'|t d|d] ops IH]; intros c c1 ev1 last s P PS; cbn [app sane io_run].
      - intros (A & _ & B & _) E. inv E. auto.
      - intros (A & _ & B & D). unfold io_tick.
        destruct (_ <? _); [discriminate|]. destruct (_ <=? _).
        + destruct (io_o2tFixed c && _).
          * destruct (io_run h ops _) as [e ev] eqn:Q. intros X. inv X. refine (IH _ _ _ t _ _ _ D Q); reflexivity.
          * destruct (send_check _ _) as [[]|?|?|]; cbn [omap]; (destruct (io_run h ops _) as [e9 ev] eqn:Q; intros X; inv X; refine (IH _ _ _ t _ _ _ D Q); reflexivity).
        + destruct (io_run h ops _) as [e ev] eqn:Q. intros X. inv X. refine (IH _ _ _ t _ _ _ D Q); reflexivity.
      - intros (A & B & D). destruct (io_receive h c d) as [[c' ev]|?|?|] eqn:R; try discriminate.
        destruct (io_run h ops c') as [e ev'] eqn:Q. intros X. inv X. refine (IH _ _ _ _ _ _ _ D Q).
        + pose proof (receive_total h c d A) as T. destruct (Nat.ltb _ _); [destruct T as [u T]; congruence|].
          destruct (_ && _); [rewrite T in R; now inv R|]. destruct T as (hdr & sq & T). rewrite T in R. now inv R.
        + pose proof (receive_static h c d c' ev R) as ST. unfold io_static in ST. unfold spec_of. now inv ST.
      - intros (A & D) X. refine (IH _ _ _ _ _ _ _ D X); subst; reflexivity. }
    destruct (T ops c c1 ev1 (io_last c) (spec_of c) eq_refl eq_refl S E) as [T1 T2]. split; [assumption|].
    assert (sp_limit (spec_of c) = io_mult c * io_t2oAPI c) by reflexivity. lia. }
  rewrite run_app, E. cbn [io_run].
  destruct CK as (K1 & K2 & _ & _ & _ & _ & K7 & K8 & _).
  assert (LIM : io_mult c1 * io_t2oAPI c1 = io_mult c * io_t2oAPI c) by (change (sp_limit (spec_of c1) = sp_limit (spec_of c)); now rewrite SP).
  unfold io_tick. rewrite Z.quot_div_nonneg by lia. rewrite K2, LIM.
  destruct S1 as [S1 S2]. rewrite LIM in K8.
  assert (0 <= (now - io_last c1) / 1000000) by (apply Z.div_pos; lia).
  rewrite (u32_small (1000 * k_idle k1 + _)) by (unfold is_u32; lia). rewrite (u32_small (io_mult c * _)) by (unfold is_u32; lia).
  destruct (Z.ltb_spec (io_mult c * io_t2oAPI c) (1000 * k_idle k1 + (now - io_last c1) / 1000000 * 1000)) as [Q1|Q1].
  - cbn [fst]. lia.
  - assert (G : now - mark <= 1000 * (io_mult c * io_t2oAPI c) + 1000000 * (n + 1)) by lia.
    destruct (_ <=? _); [|exact G]. destruct (_ && _); [exact G|]. destruct (send_check _ _) as [[]|?|?|]; exact G.
Qed.

(** ** Refutations *)
Definition demo (trigger mult t2oAPI : Z) (head : bool) : iocon :=
  mkIo 0 0x0A0B0C0D 7 10000 t2oAPI 4 4 false false 0 mult 0 0 5 trigger head head 0 [] 342 1 []
       (mkEP "10.0.0.1" 2222 (mkAddr 2 44296 0)) 0.
Definition same_out : bytes -> bytes := fun d => d.
Definition all_sent : Z -> send_result := fun n => mkSend n 0.
(** closed one millisecond after data was accepted, with a limit of 40 ms *)
Lemma early_refuted : let c := demo 1 4 10000 false in
  exists d, fst (io_run strict [Recv 99000000 d] c) = Open c
  /\ snd (io_run strict [Recv 99000000 d] c) = [EvData 0 0 1 [9]]
  /\ fst (io_run strict [Recv 99000000 d; Tick 100000000 same_out all_sent] c) = Closed
  /\ sane (spec_of c) 0 [Recv 99000000 d; Tick 100000000 same_out all_sent].
Proof.
  cbv zeta. exists [1; 0; 9]. split; [vm_compute; reflexivity|]. split; [vm_compute; reflexivity|]. split; [vm_compute; reflexivity|].
  cbn [sane]. split; [repeat constructor; cbn; lia|]. split; [vm_compute; discriminate|]. split; [lia|].
  split; [intros d H; exact H|]. split; [vm_compute; reflexivity|exact Logic.I].
Qed.
(** the product wraps: limit 2^32 us, closed after a millisecond *)
Lemma wrap_refuted : let c := demo 1 128 33554432 false in
  io_mult c * io_t2oAPI c = 2 ^ 32
  /\ fst (io_run strict [Tick 1000000 same_out all_sent] c) = Closed.
Proof. split; reflexivity. Qed.
(** ticks less than a millisecond apart: no time is counted, the connection
    neither times out nor sends *)
Fixpoint rapid (n : nat) (last : Z) : list io_op :=
  match n with O => [] | S n' => Tick (last + 999999) same_out all_sent :: rapid n' (last + 999999) end.
Lemma rapid_hectic n : forall last, hectic last (rapid n last).
Proof. induction n as [|n IH]; intros last; cbn [rapid hectic]; [exact Logic.I|]. split; [lia|apply IH]. Qed.
Lemma rapid_time n : forall last, tick_time (rapid n last) last = last + 999999 * Z.of_nat n.
Proof.
  unfold tick_time. induction n as [|n IH]; intros last; cbn [rapid fold_left]; [lia|]. rewrite IH. lia.
Qed.
Lemma late_refuted : let c := demo 1 4 10000 false in forall T, exists ops c',
  T <= tick_time ops 0 /\ Forall (fun o => match o with Tick _ _ _ => True | _ => False end) ops
  /\ io_run strict ops c = (Open c', []).
Proof.
  cbv zeta. intros T. exists (rapid (Z.to_nat T) 0).
  destruct (hectic_idle strict (rapid (Z.to_nat T) 0) (demo 1 4 10000 false)) as (c' & E & _).
  - apply rapid_hectic.
  - cbn [demo io_tcount]. unfold is_u32. lia.
  - cbn [demo io_o2tTimer]. unfold is_u32. lia.
  - vm_compute. discriminate.
  - vm_compute. reflexivity.
  - exists c'. split; [rewrite rapid_time; lia|]. split; [|exact E].
    clear E; generalize 0. induction (Z.to_nat T) as [|n IH]; intros l; cbn [rapid]; constructor; auto.
Qed.
(** header and sequence count in the order of the CIP specification *)
Lemma order_refuted : let c := demo 1 4 10000 true in
  io_receive strict c (wire_data true true 7 1 [9; 9]) = Ok (io_set_tcount c 0, [EvData 0 0x10007 0 [9; 9]]).
Proof. reflexivity. Qed.

(** ** Numbers of the datagrams *)
Lemma sent_app a b : sent_data (a ++ b) = sent_data a ++ sent_data b.
Proof. unfold sent_data. apply flat_map_app. Qed.
(** The slots whose data had the right size. *)
Lemma spec_numbers s ops : forall k, exists slots outs,
  sent_data (snd (spec_run s ops k)) = map (fun p => io_packet s (fst p) (snd p)) (combine slots outs)
  /\ List.length slots = List.length outs
  /\ Sorted.StronglySorted Z.lt slots /\ Forall (fun n => k_slots k < n) slots
  /\ (sp_o2tSize s = None -> forall i n, nth_error slots i = Some n -> n = k_slots k + 1 + Z.of_nat i)
  /\ (forall z, sp_o2tSize s = Some z -> Forall (fun o => zlen o = z) outs)
  /\ (forall k', fst (spec_run s ops k) = Some k' -> Forall (fun n => n <= k_slots k') slots
       /\ (sp_o2tSize s = None -> zlen slots = k_slots k' - k_slots k)).
Proof.
  induction ops as [|[now hook sr|t d|d] ops IH]; intros k; cbn [spec_run].
  - exists [], []. repeat match goal with |- _ /\ _ => split end; try constructor; try discriminate.
    +  intros _ [|i] n; discriminate.
    + inv H. constructor.
    + inv H. intros _. rewrite zlen_nil. lia.
  - destruct (_ <? _).
    { exists [], []. repeat match goal with |- _ /\ _ => split end; try constructor; try discriminate. intros _ [|i] n; discriminate. }
    destruct (_ <=? _).
    + destruct (IH (mkClock now (k_idle k + (now - k_last k) / 1000000) 0 (k_slots k + 1) (hook (k_out k)))) as (sl & os & A & B & C & D & E & F & G).
      cbn [k_slots] in *. destruct (spec_run s ops _) as [e ev] eqn:Q. cbn [fst snd] in *.
      destruct (fits (sp_o2tSize s) (hook (k_out k))) eqn:FT.
      * exists (k_slots k + 1 :: sl), (hook (k_out k) :: os). cbn [combine map fst snd app sent_data flat_map List.length]. repeat match goal with |- _ /\ _ => split end.
        -- f_equal. exact A.
        -- now rewrite B.
        -- constructor; [exact C|]. eapply Forall_impl; [|exact D]. cbn. lia.
        -- constructor; [lia|]. eapply Forall_impl; [|exact D]. cbn. lia.
        -- intros N [|i] n; cbn [nth_error]; [intros X; inv X; lia|]. intros X. specialize (E N i n X). lia.
        -- intros z Z1. constructor; [|eauto]. rewrite Z1 in FT. cbn [fits] in FT. lia.
        -- intros k' H. destruct (G k' H) as [G1 G2]. split; [|intros N; rewrite zlen_cons, (G2 N); lia]. constructor; [|exact G1].
           destruct sl as [|x sl]; [|apply Forall_cons_iff in D as [D1 _]; apply Forall_cons_iff in G1 as [G1 _]; lia].
           clear - Q H. assert (M : forall ops k k' , fst (spec_run s ops k) = Some k' -> k_slots k <= k_slots k').
           { clear. induction ops as [|[now hook sr|t d|d] ops IH]; intros k k'; cbn [spec_run].
             - intros E. inv E. lia.
             - destruct (_ <? _); [discriminate|]. destruct (_ <=? _).
               + destruct (spec_run s ops _) as [e ev] eqn:Q. cbn [fst]. intros E. subst. specialize (IH (mkClock now (k_idle k + (now - k_last k) / 1000000) 0 (k_slots k + 1) (hook (k_out k))) k').
                 rewrite Q in IH. specialize (IH eq_refl). cbn [k_slots] in IH. lia.
               + intros E. apply IH in E. exact E.
             - destruct (fits _ _).
               + destruct (spec_run s ops _) as [e ev] eqn:Q. cbn [fst]. intros E. subst. specialize (IH (mkClock (k_last k) 0 (k_since k) (k_slots k) (k_out k)) k').
                 rewrite Q in IH. specialize (IH eq_refl). exact IH.
               + apply IH.
             - intros E. apply IH in E. exact E. }
           specialize (M ops (mkClock now (k_idle k + (now - k_last k) / 1000000) 0 (k_slots k + 1) (hook (k_out k))) k'). rewrite Q in M. specialize (M H). cbn [k_slots] in M. lia.
      * exists sl, os. cbn [app]. repeat match goal with |- _ /\ _ => split end; auto.
        -- eapply Forall_impl; [|exact D]. cbn. lia.
        -- intros N. rewrite N in FT. discriminate.
        -- intros k' H. split; [now apply G|]. intros N. rewrite N in FT. discriminate.
    + destruct (IH (mkClock now (k_idle k + (now - k_last k) / 1000000) (k_since k + (now - k_last k) / 1000000) (k_slots k) (k_out k))) as (sl & os & R).
      exists sl, os. exact R.
  - destruct (fits _ _).
    + destruct (IH (mkClock (k_last k) 0 (k_since k) (k_slots k) (k_out k))) as (sl & os & R).
      destruct (spec_run s ops _) as [e ev]. exists sl, os. exact R.
    + apply IH.
  - destruct (IH (mkClock (k_last k) (k_idle k) (k_since k) (k_slots k) d)) as (sl & os & R).
    exists sl, os. exact R.
Qed.
Lemma numbers h ops c : io_wf c -> fresh_io c -> zlen (io_out c) <= 65000 -> sane (spec_of c) (io_last c) ops ->
  exists slots outs,
  sent_data (snd (io_run h ops c)) = map (fun p => io_packet (spec_of c) (fst p) (snd p)) (combine slots outs)
  /\ List.length slots = List.length outs
  /\ Sorted.StronglySorted Z.lt slots /\ Forall (fun n => 0 < n) slots
  /\ (io_o2tFixed c = false -> forall i n, nth_error slots i = Some n -> n = 1 + Z.of_nat i)
  /\ (io_o2tFixed c = true -> Forall (fun o => zlen o = io_o2tSize c) outs).
Proof.
  intros W F L S. pose proof (fresh_run h ops c W F L S) as R.
  destruct (spec_numbers (spec_of c) ops (clock0 c)) as (sl & os & A & B & C & D & E & G & _). exists sl, os.
  assert (Q : snd (io_run h ops c) = snd (spec_run (spec_of c) ops (clock0 c))).
  { destruct (io_run h ops c) as [[c'| |] ev], (spec_run (spec_of c) ops (clock0 c)) as [[k'|] ev']; cbn [snd]; try contradiction; [now destruct R|exact R]. }
  rewrite Q. cbn [clock0 k_slots] in *. split; [exact A|]. split; [exact B|]. split; [exact C|]. split; [exact D|]. split.
  - intros N i n X. apply E; [|exact X]. cbn [spec_of sp_o2tSize]. now rewrite N.
  - intros N. apply G. cbn [spec_of sp_o2tSize]. now rewrite N.
Qed.

(** ** Datagrams *)
Lemma readable_exact S g l m : reachable S g m -> is_bytes l ->
  (fst (on_readable strict (Dgram l) m) = Ok tt <-> harmless l m).
Proof. intros R. apply reach_inv in R. now apply (readable_ok_iff g). Qed.
Lemma datagrams_refuted :
  fst (on_readable strict (Dgram []) (w_m after1 0%nat)) = Throw OutOfRange
  /\ fst (on_readable strict (Dgram (le 2 1 ++ le 2 32770 ++ le 2 0)) (w_m after1 0%nat)) = Undef UbOobRead
  /\ fst (on_readable strict (Dgram (gram 7 [1])) (w_m after1 0%nat)) = Undef UbOobRead
  /\ fst (on_readable strict (Dgram (le 2 1 ++ le 2 32770 ++ le 2 8 ++ le 4 7 ++ le 4 1)) (w_m after1 0%nat)) = Throw OutOfRange.
Proof. repeat split; vm_compute; reflexivity. Qed.
Lemma harmless_example : harmless (gram 0x10007 [1; 0; 9; 9]) (w_m after1 0%nat)
  /\ ~ harmless [] (w_m after1 0%nat).
Proof.
  split.
  - apply (readable_ok_iff (w_g after1)); [apply (reach_inv (list encaps)), after1_reach|repeat constructor; cbn; lia|]. vm_compute. reflexivity.
  - intros H. apply (readable_ok_iff (w_g after1)) in H; [|apply (reach_inv (list encaps)), after1_reach|constructor].
    destruct datagrams_refuted as [E _]. rewrite E in H. discriminate.
Qed.

(** ** End points *)
Lemma weak_refuted : exists a b c, same_key a b = true /\ same_key b c = true /\ ep_ltb a c = true.
Proof.
  exists (ep_of_host (fun _ => None) "a" 1), (ep_of_host (fun _ => None) "z" 0), (ep_of_host (fun _ => None) "c" 2).
  repeat split; reflexivity.
Qed.
