(** Programs with several connection managers. *)
From Verif Require Import Base MBuffer SBuffer PBase PBuffer MEip SEip PEip PRouter MSocket SSocket PSocket MConnReq SConnReq PConnReq
  MConn SConn PConnOpen PConnMap PIo PConnCall PConnCall2 PConnHist PIo2 PConnTop MMany SMany PMany PMany2 PSlot.
Ltac Zify.zify_post_hook ::= Z.div_mod_to_equations.

Section S.
Context {S : Type}.
Implicit Types q : many S.

(** ** Apart *)
Definition news (cs : list (qcall S)) : list Z := flat_map (fun c => match c with QNew inc => [inc] | _ => [] end) cs.
Lemma handle_next h x i rounds ending env q :
  q_next (snd (st_bind (bs_select (readable_many h (cm_socks x)) (List.length (cm_socks x)) rounds ending) (fun _ => ticks_many env i) q)) = q_next q.
Proof.
  assert (K : q_next (snd (bs_select (readable_many h (cm_socks x)) (List.length (cm_socks x)) rounds ending q)) = q_next q).
  { apply (select_keeps (fun w : many S => q_next w = q_next q)); [|reflexivity]. intros k d w E. unfold readable_many.
    destruct (nth_error _ _) as [[e n]|]; [|exact E]. cbv zeta. destruct (q_mgr w _) as [y|]; [|exact E].
    destruct (on_readable _ _ _). cbn [snd]. now rewrite put_next. }
  unfold st_bind. destruct (bs_select _ _ _ _ _) as [[[]|e|u|] q1]; try exact K. cbn [snd] in K. rewrite <- K.
  unfold ticks_many. destruct (q_mgr q1 i); [|reflexivity]. cbv zeta. destruct (ticks _ _) as [[[ks|e|u|] l] ev]; cbn [snd q_next]; now rewrite put_next.
Qed.
Lemma qstep_next h c q : apart_call q c -> q_next (snd (qstep h c q)) = match c with QNew _ => Datatypes.S (q_next q) | _ => q_next q end.
Proof.
  intros A. destruct c as [inc|i|i j|i|i use8 si host env large c|i use8 si o|i rounds ending env|o d]; cbn [qstep apart_call] in *; try contradiction; try reflexivity.
  - destruct (q_mgr q i); [|reflexivity]. destruct (forward_open _ _ _ _ _ _ _ _) as [r [[g m] s]]. cbn [snd with_gs q_next]. apply put_next.
  - destruct (q_mgr q i); [|reflexivity]. destruct (forward_close _ _ _ _ _) as [r [m s]]. cbn [snd with_gs q_next]. apply put_next.
  - destruct (q_mgr q i) as [x|]; [|reflexivity]. pose proof (handle_next h x i rounds ending env q) as H. destruct (st_bind _ _ _). exact H.
  - destruct (lock_any o q); reflexivity.
Qed.
Lemma new_alike q w inc : alike q w -> w_m w (q_next q) = mgr0 inc -> alike (new_mgr q (mkCm inc [] [])) w.
Proof.
  intros [G Eg Es Al Lo Ea] M.
  assert (P : forall i y, q_mgr (new_mgr q (mkCm inc [] [])) i = Some y -> (i = q_next q /\ y = mkCm inc [] []) \/ q_mgr q i = Some y).
  { intros i y F. cbn [new_mgr q_mgr] in F. destruct (Nat.eq_dec i (q_next q)) as [->|N]; [rewrite upd_same in F; injection F as <-; auto|].
    rewrite upd_other in F by assumption. auto. }
  constructor; try assumption.
  - apply new_good; [exact G|]. right. auto.
  - intros i y F. apply P in F as [[-> ->]|F]; [|exact (Al i y F)]. rewrite M. unfold seen, mgr0. cbn. rewrite (gd_log q G); [reflexivity|lia].
  - intros i j o (k & y & F & K) (k' & y' & F' & K'). apply P in F as [[-> ->]|F]; [contradiction|]. apply P in F' as [[-> ->]|F']; [contradiction|].
    apply (Lo i j o); [exists k, y; auto|exists k', y'; auto].
  - intros i j (y & e & n & F & K & N). apply P in F as [[-> ->]|F]; [contradiction|]. apply (Ea i j). exists y, e, n. auto.
Qed.
Lemma gone_alike q w i : alike q w -> alike (set_mgr q i None) w.
Proof.
  intros [G Eg Es Al Lo Ea].
  assert (P : forall k y, q_mgr (set_mgr q i None) k = Some y -> q_mgr q k = Some y).
  { intros k y F. cbn [set_mgr q_mgr] in F. destruct (Nat.eq_dec k i) as [->|N]; [rewrite upd_same in F; discriminate|now rewrite upd_other in F]. }
  constructor; try assumption.
  - apply set_good; auto.
  - intros k y F. apply P in F. exact (Al k y F).
  - intros k j o (k1 & y & F & K) (k' & y' & F' & K'). apply P in F. apply P in F'. apply (Lo k j o); [exists k1, y; auto|exists k', y'; auto].
  - intros k j (y & e & n & F & K & N). apply P in F. apply (Ea k j). exists y, e, n. auto.
Qed.
Lemma call_far h i (op : call S) w j : j <> i -> w_m (snd (call_world h i op w)) j = w_m w j.
Proof. intros J. unfold call_world. destruct (call_mgr _ _ _) as [o [[g m] s]]. cbn [snd w_m]. now apply upd_other. Qed.

Lemma step_apart h c q w : alike q w -> apart_call q c ->
  match c with
  | QNew inc => w_m w (q_next q) = mgr0 inc -> alike (snd (qstep h c q)) w
  | _ => exists ops, alike (snd (qstep h c q)) (run_calls h ops w) /\ forall j, (q_next q <= j)%nat -> w_m (run_calls h ops w) j = w_m w j
  end.
Proof.
  intros A Ap. pose proof A as [G Eg Es Al Lo Ea].
  assert (One : forall i x op, q_mgr q i = Some x -> own_call q i op -> exists ops, alike (snd (qstep h (on_mgr i op) q)) (run_calls h ops w)
     /\ forall j, (q_next q <= j)%nat -> w_m (run_calls h ops w) j = w_m w j).
  { intros i x op E O. exists [(i, op)]. cbn [run_calls]. split; [apply (step_alike h q w i x op A E O)|]. intros j L. apply call_far.
    pose proof (gd_next q G i x E). lia. }
  assert (Nil : exists ops, alike q (run_calls h ops w) /\ forall j, (q_next q <= j)%nat -> w_m (run_calls h ops w) j = w_m w j).
  { exists []. auto. }
  destruct c as [inc|i|i j|i|i use8 si host env large c|i use8 si o|i rounds ending env|o d]; cbn [apart_call] in Ap; try contradiction.
  - intros M. now apply new_alike.
  - exists []. split; [now apply gone_alike|auto].
  - destruct (q_mgr q i) as [x|] eqn:E; [|cbn [qstep]; rewrite E; exact Nil]. exact (One i x (COpen use8 si host env large c) E Logic.I).
  - destruct (q_mgr q i) as [x|] eqn:E; [|cbn [qstep]; rewrite E; exact Nil]. exact (One i x (CClose use8 si o) E Ap).
  - destruct (q_mgr q i) as [x|] eqn:E; [|cbn [qstep]; rewrite E; exact Nil]. exact (One i x (CHandle rounds ending env) E Logic.I).
  - destruct (lock_any o q) as [c|] eqn:L; [|cbn [qstep]; rewrite L; exact Nil]. apply lock_any_iff in L as (_ & i & K); [|exact G].
    pose proof K as (k & x & E & _). apply (One i x (CData o d) E). intros j K'. apply (Lo j i o); assumption.
Qed.
Lemma run_apart h cs : forall q w, alike q w -> apart h cs q -> (forall k, w_m w (q_next q + k)%nat = mgr0 (nth k (news cs) 0)) ->
  exists ops, alike (qrun h cs q) (run_calls h ops w).
Proof.
  induction cs as [|c cs IH]; intros q w A Ap M; [now exists []|]. cbn [apart] in Ap. destruct Ap as [Ac Ap]. cbn [qrun fold_left].
  fold (qrun h cs (snd (qstep h c q))). pose proof (step_apart h c q w A Ac) as St. pose proof (qstep_next h c q Ac) as Nx.
  destruct c as [inc|i|i j|i|i use8 si host env large c|i use8 si o|i rounds ending env|o d].
  1:{ pose proof (M 0%nat) as M0. cbn [news flat_map app nth] in M0. rewrite Nat.add_0_r in M0. specialize (St M0).
      apply (IH _ w St Ap). intros k. rewrite Nx. replace (Datatypes.S (q_next q) + k)%nat with (q_next q + Datatypes.S k)%nat by lia.
      rewrite M. reflexivity. }
  all: destruct St as (ops & A1 & Far); destruct (IH _ _ A1 Ap) as (ops' & A2);
    [intros k; rewrite Nx, Far by lia; rewrite M; reflexivity|exists (ops ++ ops'); rewrite run_calls_app; exact A2].
Qed.
Lemma start_alike (s : S) inc : alike (many0 s) (mkWorld globals0 (fun i => mgr0 (inc i)) s).
Proof.
  constructor; try reflexivity; [apply many0_good|cbn; discriminate|..].
  - intros i j o (k & x & F & _). discriminate.
  - intros i j (x & e & n & F & _). discriminate.
Qed.
Theorem apart_alike h cs (s : S) : apart h cs (many0 s) ->
  exists ops w, new_world w /\ alike (qrun h cs (many0 s)) (run_calls h ops w).
Proof.
  intros Ap. set (w := mkWorld globals0 (fun i => mgr0 (nth i (news cs) 0)) s).
  destruct (run_apart h cs (many0 s) w (start_alike s _) Ap) as (ops & A); [reflexivity|].
  exists ops, w. split; [|exact A]. intros j. cbn. eauto.
Qed.
Lemma own_mgr h i j op q x : q_mgr q i = Some x -> j <> i -> good q -> q_mgr (snd (qstep h (on_mgr i op) q)) j = q_mgr q j.
Proof.
  intros E J G. destruct op as [use8 si host env large c|use8 si o|rounds ending env|o d]; cbn [on_mgr qstep].
  - rewrite E. destruct (forward_open _ _ _ _ _ _ _ _) as [r [[g m] s]]. cbn [snd with_gs q_mgr]. now apply put_mgr_other.
  - rewrite E. destruct (forward_close _ _ _ _ _) as [r [m s]]. cbn [snd with_gs q_mgr]. now apply put_mgr_other.
  - rewrite E. unfold st_bind. pose proof (select_unmoved h (cm_socks x) (List.length (cm_socks x)) rounds ending q G) as (G1 & U & _).
    destruct (bs_select _ _ _ _ _) as [[[]|e|u|] q1]; cbn [snd] in *; try (now rewrite U). rewrite <- U.
    pose proof (ticks_put env i x q1 G1 ltac:(now rewrite U)) as T. destruct (ticks _ _) as [[res l] ev]. cbv zeta in T. destruct T as [(_ & U1 & _) ->].
    destruct res; cbn [snd]; try (now rewrite U1). cbn [set_mgr q_mgr]. rewrite upd_other by assumption. apply U1.
  - destruct (lock_any o q); reflexivity.
Qed.
Lemma own_keeps_mgr h i op q x : q_mgr q i = Some x -> good q -> exists x', q_mgr (snd (qstep h (on_mgr i op) q)) i = Some x'.
Proof.
  intros E G. destruct op as [use8 si host env large c|use8 si o|rounds ending env|o d]; cbn [on_mgr qstep].
  - rewrite E. destruct (forward_open _ _ _ _ _ _ _ _) as [r [[g m] s]]. cbn [snd with_gs q_mgr]. rewrite (put_mgr q i x m E). eauto.
  - rewrite E. destruct (forward_close _ _ _ _ _) as [r [m s]]. cbn [snd with_gs q_mgr]. rewrite (put_mgr q i x m E). eauto.
  - rewrite E. unfold st_bind. pose proof (select_unmoved h (cm_socks x) (List.length (cm_socks x)) rounds ending q G) as (G1 & U & _).
    destruct (bs_select _ _ _ _ _) as [[[]|e|u|] q1]; cbn [snd] in *; try (rewrite U; eauto).
    pose proof (ticks_put env i x q1 G1 ltac:(now rewrite U)) as T. destruct (ticks _ _) as [[res l] ev]. cbv zeta in T. destruct T as [(_ & U1 & _) ->].
    destruct res; cbn [snd]; try (rewrite U1, U; eauto). cbn [set_mgr q_mgr]. rewrite upd_same. eauto.
  - destruct (lock_any o q); cbn [snd q_mgr]; eauto.
Qed.
Theorem separate h cs (s : S) i x : apart h cs (many0 s) -> let q := qrun h cs (many0 s) in q_mgr q i = Some x ->
  reachable S (q_g q) (seen q i x)
  /\ forall op, own_call q i op ->
     let '(o, (g, m, s')) := call_mgr h op (q_g q, seen q i x, q_s q) in
     let q' := snd (qstep h (on_mgr i op) q) in
     fst (qstep h (on_mgr i op) q) = o /\ q_g q' = g /\ q_s q' = s'
     /\ (exists x', q_mgr q' i = Some x' /\ seen q' i x' = m)
     /\ forall j y, j <> i -> q_mgr q j = Some y -> q_mgr q' j = Some y /\ seen q' j y = seen q j y.
Proof.
  intros Ap q E. destruct (apart_alike h cs s Ap) as (ops & w & Nw & A). fold q in A. pose proof A as [G Eg Es Al Lo Ea]. split.
  - exists h, ops, w, i. split; [exact Nw|]. split; [exact Eg|]. symmetry. exact (Al i x E).
  - intros op O. destruct (step_alike h q _ i x op A E O) as [O1 A1]. unfold call_world in *. rewrite (Al i x E), <- Eg, <- Es in *.
    destruct (call_mgr h op _) as [o [[g m] s']]. cbn [fst snd] in *. cbv zeta. split; [exact O1|]. split; [exact (al_g _ _ A1)|].
    split; [exact (al_s _ _ A1)|]. split.
    + destruct (own_keeps_mgr h i op q x E G) as [x' E']. exists x'. split; [exact E'|]. rewrite <- (al_seen _ _ A1 i x' E'). cbn [w_m]. apply upd_same.
    + intros j y J F. assert (F' : q_mgr (snd (qstep h (on_mgr i op) q)) j = Some y) by (rewrite (own_mgr h i j op q x E J G); exact F).
      split; [exact F'|]. rewrite <- (al_seen _ _ A1 j y F'). cbn [w_m]. rewrite upd_other by assumption. exact (Al j y F).
Qed.

(** ** Closing through any manager *)
Theorem close_any h use8 (si : session_if S) (q : many S) i x j y k o : good q -> q_mgr q i = Some x -> q_mgr q j = Some y -> In (k, o) (cm_map y) ->
  let '(r, (_, s)) := forward_close h use8 si (lock o (seen q j y)) (seen q j y, q_s q) in
  let '(r', q') := qstep h (QClose i use8 si o) q in
  q_s q' = s /\ q_g q' = q_g q /\ (forall n, n <> i -> q_mgr q' n = q_mgr q n) /\ (forall n o', keeper q n o' -> q_con q' o' = q_con q o')
  /\ match r with
     | Ok _ => r' = (if existsb (fun e => fst e =? k) (cm_map x) then Ok None else Abort)
               /\ forall k' o', keeps q' i k' o' <-> keeps q i k' o' /\ k' <> k
     | Throw e => r' = Throw e /\ forall k' o', keeps q' i k' o' <-> keeps q i k' o'
     | Undef u => r' = Undef u /\ forall k' o', keeps q' i k' o' <-> keeps q i k' o'
     | Abort => r' = Abort /\ forall k' o', keeps q' i k' o' <-> keeps q i k' o'
     end.
Proof.
  intros G E F K. pose proof (gd_mgr q G j y F) as I. pose proof (gd_name q G j y k o F K) as N.
  assert (L : lock o (seen q j y) = Some (q_con q o)).
  { rewrite <- N at 1. eapply lock_some; [exact I|]. apply in_seen. exact K. }
  assert (La : lock_any o q = Some (q_con q o)).
  { apply lock_any_iff; [exact G|]. split; [reflexivity|]. exists j, k, y. auto. }
  pose proof (mi_key _ _ I k (q_con q o) (in_seen q j y k o K)) as Key.
  pose proof (sorted_nodup _ (mi_sorted _ _ I)) as Nd.
  assert (Fk : map_find k (m_map (seen q j y)) = Some (q_con q o)) by (apply find_iff; [exact Nd|apply in_seen; exact K]).
  cbn [qstep]. rewrite E, La, L. unfold forward_close. rewrite <- Key. destruct (send_request _ _ _ _ _ _ _ _) as [sr s1].
  assert (Same : forall m', grown (q_g q) (seen q i x) m' -> mgr_inv (q_g q) m' -> (forall e, In e (m_map m') -> In e (m_map (seen q i x))) ->
    forall n o', keeper q n o' -> q_con (with_gs (q_g q) s1 (put i m' q)) o' = q_con q o').
  { intros m' Gr Im Sub n o' Kn. cbn [with_gs q_con]. rewrite (put_con q i x m' E).
    destruct (in_dec Nat.eq_dec o' (oids (m_map m'))) as [In'|No]; [|now apply stored_other].
    apply in_map_iff in In' as ([k1 c1] & Q & In'). cbn [snd] in Q. subst o'. rewrite (stored_in _ _ k1 c1 (mi_oids _ _ Im) In').
    apply Sub in In'. apply (seen_in q i x k1 c1 G E) in In' as [_ C]. now symmetry. }
  assert (Kp : forall m' k' o', keeps (with_gs (q_g q) s1 (put i m' q)) i k' o' <-> exists c, In (k', c) (m_map m') /\ io_oid c = o').
  { intros m' k' o'. unfold keeps. cbn [with_gs q_mgr]. rewrite (put_mgr q i x m' E). split.
    - intros (x' & Q & In'). injection Q as <-. cbn [put_cm cm_map] in In'. apply in_map_iff in In' as ([k1 c1] & Q & In'). cbn [fst snd] in Q. injection Q as -> <-.
      eauto.
    - intros (c & In' & <-). eexists. split; [reflexivity|]. cbn [put_cm cm_map]. apply in_map_iff. exists (k', c). auto. }
  assert (Ki : forall k' o', keeps q i k' o' <-> exists c, In (k', c) (m_map (seen q i x)) /\ io_oid c = o').
  { intros k' o'. unfold keeps. split.
    - intros (x' & Q & In'). rewrite E in Q. injection Q as <-. exists (q_con q o'). split; [now apply in_seen|exact (gd_name q G i x k' o' E In')].
    - intros (c & In' & <-). exists x. split; [exact E|]. now apply (seen_in q i x k' c G E) in In' as [In' _]. }
  assert (Ki2 : forall k' o', keeps (with_gs (q_g q) s1 (put i (seen q i x) q)) i k' o' <-> keeps q i k' o') by (intros; rewrite Kp, Ki; reflexivity).
  assert (Oth : forall m' n, n <> i -> q_mgr (with_gs (q_g q) s1 (put i m' q)) n = q_mgr q n) by (intros; now apply put_mgr_other).
  pose proof (gd_mgr q G i x E) as Ii.
  destruct sr as [resp|e|u|]; cbn [omap bind]; cbv beta iota zeta.
  - rewrite Fk. split; [reflexivity|]. split; [reflexivity|]. split; [apply Oth|]. split.
    + apply Same; [split; [|exists []; cbn; now rewrite app_nil_r]|now apply inv_erase|].
      * cbn [set_map m_map]. intros k1 c1 In1. apply erase_in in In1 as [In1 _]. eauto.
      * cbn [set_map m_map]. intros e In1. now apply erase_in in In1.
    + split.
      * pose proof (sorted_nodup _ (mi_sorted _ _ Ii)) as Ndi. destruct (map_find k (m_map (seen q i x))) as [c|] eqn:Fi.
        -- apply find_in in Fi. apply (seen_in q i x k c G E) in Fi as [Fi _]. replace (existsb _ _) with true; [reflexivity|].
           symmetry. apply existsb_exists. exists (k, io_oid c). cbn [fst]. rewrite Z.eqb_refl. auto.
        -- destruct (existsb _ _) eqn:X; [|reflexivity]. exfalso. apply existsb_exists in X as ([k1 o1] & In1 & Q). cbn [fst] in Q. apply Z.eqb_eq in Q. subst k1.
           apply (in_seen q i x) in In1. apply (find_iff _ _ _ Ndi) in In1. congruence.
      * intros k' o'. rewrite Kp, Ki. cbn [set_map m_map]. split.
        -- intros (c & In1 & Q). apply erase_in in In1 as [In1 Ne]. cbn [fst] in Ne. eauto.
        -- intros [(c & In1 & Q) Ne]. exists c. split; [apply erase_in; auto|exact Q].
  - split; [reflexivity|]. split; [reflexivity|]. split; [apply Oth|]. split; [apply Same; auto; apply grown_refl|]. auto.
  - split; [reflexivity|]. split; [reflexivity|]. split; [apply Oth|]. split; [apply Same; auto; apply grown_refl|]. auto.
  - split; [reflexivity|]. split; [reflexivity|]. split; [apply Oth|]. split; [apply Same; auto; apply grown_refl|]. auto.
Qed.

(** ** Receiving *)
Lemma receive_about h c data c' ev : io_receive h c data = Ok (c', ev) -> forall e, In e ev -> exists hd sq d, e = EvData (io_oid c) hd sq d.
Proof.
  unfold io_receive. intros E. cbv zeta in E. apply bind_Ok in E as ([hd b1] & _ & E).
  apply bind_Ok in E as ([sq b2] & _ & E). destruct (negb (buf_valid b2)); [discriminate|].
  destruct (_ && _); inv E; intros e I; [contradiction|]. destruct I as [<-|[]]. eauto.
Qed.
Lemma readable_about h d m : exists ev, m_log (snd (on_readable h d m)) = m_log m ++ ev
  /\ forall e, In e ev -> exists k c hd sq x, In (k, c) (m_map m) /\ e = EvData (io_oid c) hd sq x.
Proof.
  assert (Nil : exists ev, m_log m = m_log m ++ ev /\ forall e, In e ev -> exists k c hd sq x, In (k, c) (m_map m) /\ e = EvData (io_oid c) hd sq x).
  { exists []. split; [now rewrite app_nil_r|contradiction]. }
  unfold on_readable. destruct (fst _) as [data|e|u|]; [|exact Nil..].
  match goal with |- context [match ?x with Ok _ => _ | Throw _ => _ | Undef _ => _ | Abort => _ end] => destruct x as [m1|e|u|] eqn:E end; [|exact Nil..].
  cbn [snd]. apply bind_Ok in E as (items & _ & E). destruct (nth_error items 0) as [i0|]; [|discriminate].
  apply bind_Ok in E as ([id b] & _ & E). cbv zeta in E. destruct (map_find _ _) as [c|] eqn:F; [|inv E; exact Nil].
  destruct (nth_error items 1) as [i1|]; [|discriminate]. apply bind_Ok in E as ([c' ev] & R & E). inv E.
  exists ev. split; [reflexivity|]. intros e I. destruct (receive_about _ _ _ _ _ R e I) as (hd & sq & x & ->).
  apply find_in in F. eauto 8.
Qed.
Lemma tick_about now hook sr c e : In e (snd (io_tick now hook sr c)) -> forall o hd sq d, e <> EvData o hd sq d.
Proof.
  unfold io_tick. cbv zeta. destruct (_ <? _); [intros [<-|[]]; discriminate|]. destruct (_ <=? _); [|contradiction].
  destruct (_ && _); [contradiction|]. intros [<-|[]]; discriminate.
Qed.
Lemma ticks_about env l e : In e (snd (ticks env l)) -> forall o hd sq d, e <> EvData o hd sq d.
Proof.
  induction l as [|[k c] l IH]; cbn [ticks]; [contradiction|]. cbv zeta.
  pose proof (tick_about (t_now env (io_oid c)) (t_hook env (io_oid c)) (t_send env (io_oid c)) c e) as T.
  destruct (io_tick _ _ _ _) as [[[b|?|?|] c'] ev]; cbn [snd] in *; try exact T.
  destruct (ticks env l) as [[res l'] ev']. cbn [snd] in *. intros I. apply in_app_or in I as [I|I]; auto.
Qed.
(** Data that managers have been told since. *)
Theorem deaf h i rounds ending env (q : many S) o : good q -> (forall j, hears q i j -> ~ keeper q j o) ->
  forall n hd sq d, In (EvData o hd sq d) (q_log (snd (qstep h (QHandle i rounds ending env) q)) n) -> In (EvData o hd sq d) (q_log q n).
Proof.
  intros G D n hd sq d. cbn [qstep]. destruct (q_mgr q i) as [x|] eqn:E; [|auto].
  set (Q := fun u : many S => unmoved q u /\ (In (EvData o hd sq d) (q_log u n) -> In (EvData o hd sq d) (q_log q n))).
  assert (Sel : Q (snd (bs_select (readable_many h (cm_socks x)) (List.length (cm_socks x)) rounds ending q))).
  { apply select_keeps; [|split; [now apply unmoved_refl|auto]]. intros k a u [U K]. split.
    - eapply unmoved_trans; [exact U|]. apply readable_unmoved. apply U.
    - unfold readable_many. destruct (nth_error (cm_socks x) k) as [[e nn]|] eqn:Nk; [|exact K]. cbv zeta.
      destruct U as (Gu & Um & _ & Ud & _). apply nth_error_In in Nk. pose proof (gd_made q G i x e nn E Nk) as Ln.
      destruct (q_mgr u (nth nn (q_made u) 0%nat)) as [y|] eqn:F; [|exact K].
      set (j := nth nn (q_made u) 0%nat) in *.
      assert (H : hears q i j). { exists x, e, nn. split; [exact E|]. split; [exact Nk|]. unfold j. rewrite Ud. now apply nth_error_nth'. }
      destruct (readable_about h a (seen u j y)) as (ev & L & Ab). destruct (on_readable h a (seen u j y)) as [r m]. cbn [snd] in *.
      rewrite (put_log u j y m F). destruct (Nat.eq_dec n j) as [->|J]; [|rewrite upd_other by assumption; exact K].
      rewrite upd_same, L. cbn [seen m_log]. intros I. apply in_app_or in I as [I|I]; [exact (K I)|]. exfalso.
      destruct (Ab _ I) as (k1 & c & hd1 & sq1 & x1 & In1 & Q1). apply (seen_in u j y k1 c Gu F) in In1 as [In1 _].
      assert (Oc : io_oid c = o) by congruence. rewrite Oc in In1. apply (D j H). exists k1, y. rewrite Um in F. auto. }
  unfold st_bind. destruct (bs_select _ _ _ _ _) as [[[]|e|u|] q1]; cbn [snd] in Sel; destruct Sel as [(G1 & U & _) K]; cbn [omap bind]; try exact K.
  pose proof (ticks_put env i x q1 G1 ltac:(now rewrite U)) as T. pose proof (ticks_about env (m_map (seen q1 i x)) (EvData o hd sq d)) as Ta.
  destruct (ticks _ _) as [[res l] ev]. cbn [snd] in Ta. cbv zeta in T. destruct T as [_ ->].
  assert (X : In (EvData o hd sq d) (q_log (put i (add_log (set_map (seen q1 i x) l) ev) q1) n) -> In (EvData o hd sq d) (q_log q n)).
  { rewrite (put_log q1 i x _ ltac:(now rewrite U)). destruct (Nat.eq_dec n i) as [->|J]; [|rewrite upd_other by assumption; exact K].
    rewrite upd_same. cbn [add_log set_map m_log seen]. intros I. apply in_app_or in I as [I|I]; [exact (K I)|]. exfalso. exact (Ta I o hd sq d eq_refl). }
  destruct res; cbn [omap bind snd]; exact X.
Qed.

(** ** Sockets whose maker is gone *)
Lemma tick_no_undef now hook sr c u : fst (fst (io_tick now hook sr c)) <> Undef u.
Proof.
  unfold io_tick. cbv zeta. destruct (_ <? _); [discriminate|]. destruct (_ <=? _); [|discriminate].
  destruct (_ && _); [discriminate|]. cbn [fst]. unfold send_check. destruct (_ <? _); discriminate.
Qed.
Lemma ticks_no_undef env l u : fst (fst (ticks env l)) <> Undef u.
Proof.
  induction l as [|[k c] l IH]; cbn [ticks]; [discriminate|]. cbv zeta.
  pose proof (tick_no_undef (t_now env (io_oid c)) (t_hook env (io_oid c)) (t_send env (io_oid c)) c) as T.
  destruct (io_tick _ _ _ _) as [[[b|?|?|] c'] ev]; cbn [fst] in *; try discriminate; [|now destruct (T _ eq_refl)].
  destruct (ticks env l) as [[[ks|?|?|] l'] ev']; cbn [fst omap bind] in *; congruence.
Qed.
Definition not_dangling (o : outcome unit) : Prop := o <> Undef UbDangling.
Lemma dispatch_result {W A} (P : W -> Prop) (f : nat -> A -> st W unit) (N : nat) :
  (forall k a w, (k < N)%nat -> P w -> P (snd (f k a w)) /\ not_dangling (fst (f k a w))) ->
  forall n ready i w, (i + n <= N)%nat -> P w -> P (snd (dispatch f i n ready w)) /\ not_dangling (fst (dispatch f i n ready w)).
Proof.
  intros H. induction n as [|n IH]; intros ready i w L Pw; [split; [exact Pw|discriminate]|].
  destruct ready as [|[a|] r]; cbn [dispatch]; [split; [exact Pw|discriminate]| |apply IH; [lia|exact Pw]].
  unfold st_bind. destruct (H i a w ltac:(lia) Pw) as [P1 O]. destruct (f i a w) as [[[]|e|b|] w1]; cbn [fst snd] in *; auto.
  apply IH; [lia|exact P1].
Qed.
Lemma select_result {W A} (P : W -> Prop) (f : nat -> A -> st W unit) (N : nat) rounds ending :
  (forall k a w, (k < N)%nat -> P w -> P (snd (f k a w)) /\ not_dangling (fst (f k a w))) ->
  forall w, P w -> P (snd (bs_select f N rounds ending w)) /\ not_dangling (fst (bs_select f N rounds ending w)).
Proof.
  intros H w Pw. unfold bs_select. destruct N as [|N]; [split; [exact Pw|discriminate]|]. revert w Pw.
  induction rounds as [|r rs IH]; intros w Pw; cbn [select_rounds].
  - destruct ending; (split; [exact Pw|discriminate]).
  - unfold st_bind. destruct (dispatch_result P f (Datatypes.S N) H (Datatypes.S N) (sr_ready r) 0 w ltac:(lia) Pw) as [P1 O].
    destruct (dispatch _ _ _ _ _) as [[[]|e|b|] w1]; cbn [fst snd] in *; auto.
Qed.
Theorem safe h i rounds ending env (q : many S) : good q -> (forall j, hears q i j -> q_mgr q j <> None) ->
  fst (qstep h (QHandle i rounds ending env) q) <> Undef UbDangling.
Proof.
  intros G A. cbn [qstep]. destruct (q_mgr q i) as [x|] eqn:E; [|discriminate].
  destruct (select_result (unmoved q) (readable_many h (cm_socks x)) (List.length (cm_socks x)) rounds ending) with (w := q) as [U O].
  - intros k a u L U. split; [eapply unmoved_trans; [exact U|]; apply readable_unmoved; apply U|]. unfold readable_many.
    destruct (nth_error (cm_socks x) k) as [[e nn]|] eqn:Nk; [|discriminate]. cbv zeta.
    destruct U as (Gu & Um & _ & Ud & _). apply nth_error_In in Nk. pose proof (gd_made q G i x e nn E Nk) as Ln.
    assert (H : hears q i (nth nn (q_made u) 0%nat)). { exists x, e, nn. split; [exact E|]. split; [exact Nk|]. rewrite Ud. now apply nth_error_nth'. }
    pose proof (A _ H) as Alive. rewrite <- Um in Alive. destruct (q_mgr u (nth nn (q_made u) 0%nat)) as [y|]; [|congruence].
    pose proof (readable_firm h a (seen u (nth nn (q_made u) 0%nat) y)) as [F _]. destruct (on_readable _ _ _). exact F.
  - now apply unmoved_refl.
  - unfold st_bind. unfold not_dangling in O. destruct (bs_select _ _ _ _ _) as [[[]|e|u|] q1]; cbn [fst snd] in *; cbn [omap bind fst]; try congruence.
    destruct U as (G1 & U & _). pose proof (ticks_put env i x q1 G1 ltac:(now rewrite U)) as T.
    pose proof (ticks_no_undef env (m_map (seen q1 i x))) as Tn. destruct (ticks _ _) as [[res l] ev]. cbn [fst] in Tn. cbv zeta in T. destruct T as [_ ->].
    destruct res; cbn [omap bind fst]; try discriminate. exfalso. eapply Tn; reflexivity.
Qed.
Lemma dispatch_nones {W A} (f : nat -> A -> st W unit) a r : forall k i n w,
  dispatch f i (k + Datatypes.S n) (repeat None k ++ Some a :: r) w = st_bind (f (i + k)%nat a) (fun _ => dispatch f (Datatypes.S (i + k)) n r) w.
Proof.
  induction k as [|k IH]; intros i n w; cbn [repeat app Nat.add dispatch]; [now rewrite Nat.add_0_r|].
  rewrite IH. now replace (i + Datatypes.S k)%nat with (Datatypes.S i + k)%nat by lia.
Qed.
Theorem dangles i k e n l i0 items X rest r now rounds ending env (q : many S) x : good q -> q_mgr q i = Some x ->
  nth_error (cm_socks x) k = Some (e, n) -> (forall j, nth_error (q_made q) n = Some j -> q_mgr q j = None) ->
  is_bytes l -> carries l (i0 :: items) -> is_u32 X -> it_data i0 = le 4 X ++ rest ->
  fst (qstep strict (QHandle i (mkRound (repeat None k ++ Some (Dgram l) :: r) now :: rounds) ending env) q) = Undef UbDangling.
Proof.
  intros G E Nk Gone B C U D. cbn [qstep]. rewrite E.
  assert (Ok0 : fst (on_readable strict (Dgram l) (mgr0 0)) = Ok tt).
  { apply (readable_ok_iff globals0); [apply inv_new|exact B|]. exists i0, items, X, rest. split; [exact C|]. split; [exact U|]. split; [exact D|].
    intros o c L. discriminate. }
  pose proof (nth_error_In _ _ Nk) as Ik. pose proof (gd_made q G i x e n E Ik) as Ln.
  assert (Lk : (k < List.length (cm_socks x))%nat) by (apply nth_error_Some; congruence).
  assert (Rd : fst (readable_many strict (cm_socks x) k (Dgram l) q) = Undef UbDangling).
  { unfold readable_many. rewrite Nk. cbv zeta. rewrite (Gone (nth n (q_made q) 0%nat)) by now apply nth_error_nth'. cbn [fst]. now rewrite Ok0. }
  unfold st_bind, bs_select. destruct (List.length (cm_socks x)) as [|N] eqn:Q; [lia|]. cbn [select_rounds sr_ready]. unfold st_bind.
  replace (Datatypes.S N) with (k + Datatypes.S (N - k))%nat by lia. rewrite dispatch_nones. unfold st_bind. cbn [Nat.add].
  destruct (readable_many strict (cm_socks x) k (Dgram l) q) as [o q1]. cbn [fst] in Rd. subst o. reflexivity.
Qed.
End S.

(** ** Programs for examples *)
Definition q_open (i : nat) (t2o : Z) : qcall (list encaps) :=
  QOpen i false (recording 1 (accepts t2o 10000 10000)) "10.0.0.1" (env_ok 0) false (class1 1 0).
Definition q_close (i o : nat) : qcall (list encaps) := QClose i false (recording 1 refuses) o.
Definition q_tick (i : nat) (ms : Z) (d : list dgram) : qcall (list encaps) :=
  QHandle i (map (fun d => mkRound [Some d] 0) d) SelQuiet (mkTick (fun _ => ms * 1000000) (fun _ d => d) (fun _ n => mkSend n 0)).
Definition two_managers : list (qcall (list encaps)) := [QNew 1; QNew 2; q_open 0 0x10007; q_open 1 0x20007; q_open 1 0x20008].
Definition a_copy : list (qcall (list encaps)) := [QNew 1; q_open 0 0x10007; QCopy 0].
Definition ran (cs : list (qcall (list encaps))) : many (list encaps) := qrun strict cs (many0 []).
