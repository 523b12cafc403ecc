(** Proofs about error numbers and log output of the sockets. *)
From Verif Require Import Base PBase MBuffer MEip MSocket SSocket PSocket MIdent MDisc SDisc MLog SLog PLog SText PText MErrno SErrno.
From Coq Require Import String.
Local Open Scope outcome_scope.
Ltac Zify.zify_post_hook ::= Z.div_mod_to_equations.

(** ** Messages *)

Definition shownb (l : level) (s : logger) : bool :=
  negb (level_value (lg_level s) =? level_value OFF) && (level_value l <=? level_value (lg_level s)).
Lemma shownb_iff l t : shownb l (t_log t) = true <-> shows t l.
Proof. unfold shownb, shows. destruct (lg_level (t_log t)), l; cbn; intuition (try discriminate; try reflexivity). Qed.
Lemma log_ok l pieces s : decent_appender (lg_appender s) -> l <> OFF ->
  exists s', log l pieces s = (Ok tt, s') /\ lg_level s' = lg_level s /\ lg_appender s' = lg_appender s
    /\ lg_passed s' = lg_passed s ++ (if shownb l s then [(lg_appender s, l, String.concat "" pieces)] else []).
Proof.
  intros D N. unfold log. fold (shownb l s). destruct (shownb l s); [|exists s; rewrite app_nil_r; auto].
  unfold print. destruct (lg_appender s) as [|n th|] eqn:A; [| |contradiction].
  - destruct l; try congruence; cbn [level_name]; eexists; (split; [reflexivity|cbn; auto]).
  - cbn in D. rewrite D. eexists; split; [reflexivity|cbn; auto].
Qed.
Lemma say_ok ns l pieces t : decent_thread t -> l <> OFF ->
  exists t', say ns l pieces t = (Ok tt, t') /\ lg_level (t_log t') = lg_level (t_log t)
    /\ lg_appender (t_log t') = lg_appender (t_log t)
    /\ t_errno t' = (if shownb l (t_log t) then ns (t_log t) l (String.concat "" pieces) (t_errno t) else t_errno t)
    /\ lg_passed (t_log t') = lg_passed (t_log t)
         ++ (if shownb l (t_log t) then [(lg_appender (t_log t), l, String.concat "" pieces)] else []).
Proof.
  intros D N. unfold say. destruct (log_ok l pieces (t_log t) D N) as (s' & E & L & A & P). rewrite E.
  eexists. split; [reflexivity|]. cbn [t_errno t_log]. fold (shownb l (t_log t)). auto.
Qed.
Lemma decent_same t t' : lg_appender (t_log t') = lg_appender (t_log t) -> decent_thread t -> decent_thread t'.
Proof. unfold decent_thread. now intros ->. Qed.
Lemma shownb_same l s s' : lg_level s' = lg_level s -> shownb l s' = shownb l s.
Proof. unfold shownb. now intros ->. Qed.

(** ** send *)
Lemma send_like ns kind fd size r t : decent_thread t -> 0 <= fd -> 0 <= size < 2 ^ 63 ->
  match r with Took c => 0 <= c | Refused _ => True end ->
  exists e, blurred ns t TRACE (sends kind fd size) (t_errno t) e
    /\ fst (send_e ns kind fd size r t) = send_check size (result_of r e).
Proof.
  intros D F S0 C. unfold send_e, st_bind.
  destruct (say_ok ns TRACE ["Send "; to_string size; " bytes from "; kind; " socket #"; to_string fd; "."]%string t D ltac:(discriminate))
    as (t' & E & L & A & Er & _).
  rewrite E. exists (t_errno t'). split.
  - rewrite Er. destruct (shownb TRACE (t_log t)) eqn:B; [right|left].
    + split; [now apply shownb_iff|]. exists (t_log t). eexists. split; [reflexivity|]. split; [reflexivity|]. split; [|reflexivity].
      exists (to_string fd), (to_string size). split; [now apply to_string_numeral|]. split; [apply to_string_numeral; lia|]. reflexivity.
    + split; [|reflexivity]. intros S1. apply shownb_iff in S1. congruence.
  - destruct r as [c|e]; cbn [fst result_of]; unfold send_check; cbn [s_count s_errno].
    + now destruct (Z.ltb_spec c 0); [lia|].
    + reflexivity.
Qed.

(** ** recvfrom *)
Definition sees (ns : noise) (t : thread) (fd : Z) : Z -> Z -> Prop := blurred ns t TRACE (udp_failed fd).

Lemma sees_same ns t t' fd e e' : lg_level (t_log t') = lg_level (t_log t) -> lg_appender (t_log t') = lg_appender (t_log t) ->
  sees ns t' fd e e' -> sees ns t fd e e'.
Proof. unfold sees, blurred, shows. now intros -> ->. Qed.
Lemma udp_like ns fd size t ds : decent_thread t -> 0 <= fd ->
  exists o t' rest, udp_receive_e ns fd size (t, ds) = (o, (t', rest))
    /\ lg_level (t_log t') = lg_level (t_log t) /\ lg_appender (t_log t') = lg_appender (t_log t)
    /\ match ds with
       | [] => exists e, sees ns t fd 11 e /\ o = Throw (SystemError e)
       | Dgram l :: r => fst (udp_receive size ds) = o
       | DErr e :: r => exists e', sees ns t fd e e' /\ o = Throw (SystemError e')
       end.
Proof.
  intros D F.
  assert (Fail : forall e : Z, exists t', say ns TRACE ["Received "; "-1"; " bytes from UDP socket #"; to_string fd; "."]%string (set_errno e t) = (Ok tt, t')
           /\ lg_level (t_log t') = lg_level (t_log t) /\ lg_appender (t_log t') = lg_appender (t_log t) /\ sees ns t fd e (t_errno t')).
  { intros e. destruct (say_ok ns TRACE ["Received "; "-1"; " bytes from UDP socket #"; to_string fd; "."]%string (set_errno e t) D ltac:(discriminate))
      as (t' & E & L & A & Er & _). exists t'. split; [exact E|]. split; [exact L|]. split; [exact A|]. unfold sees, blurred. rewrite Er. cbn [set_errno t_log t_errno].
    destruct (shownb TRACE (t_log t)) eqn:B; [right|left].
    - split; [now apply shownb_iff|]. exists (t_log t). eexists. split; [reflexivity|]. split; [reflexivity|]. split; [|reflexivity].
      exists (to_string fd). split; [now apply to_string_numeral|]. reflexivity.
    - split; [|reflexivity]. intros S1. apply shownb_iff in S1. congruence. }
  unfold udp_receive_e. destruct ds as [|[l|e] r].
  - cbn [Z.ltb Z.compare]. destruct (Fail EAGAIN) as (t' & E & L & A & Se). rewrite E. do 3 eexists. split; [reflexivity|]. split; [exact L|]. split; [exact A|].
    eexists. split; [exact Se|reflexivity].
  - assert (Z.min (zlen l) (Z.of_nat size) <? 0 = false) as -> by (apply Z.ltb_ge; unfold zlen; lia).
    edestruct (say_ok ns TRACE) as (t' & E & L & A & Er & _); [exact D|discriminate|]. rewrite E.
    do 3 eexists. split; [reflexivity|]. split; [exact L|]. split; [exact A|]. reflexivity.
  - cbn [Z.ltb Z.compare]. destruct (Fail e) as (t' & E & L & A & Se). rewrite E. do 3 eexists. split; [reflexivity|]. split; [exact L|]. split; [exact A|].
    eexists. split; [exact Se|reflexivity].
Qed.

(** ** The discovery *)
Lemma seen_same ns t t' fd ds ds' : lg_level (t_log t') = lg_level (t_log t) -> lg_appender (t_log t') = lg_appender (t_log t) ->
  seen (sees ns t' fd) ds ds' -> seen (sees ns t fd) ds ds'.
Proof. intros L A. induction 1; constructor; eauto using sees_same. Qed.
Lemma sees_any ns fd t e : 0 <= fd -> exists e', sees ns t fd e e'.
Proof.
  intros F. destruct (shownb TRACE (t_log t)) eqn:B.
  - eexists. right. split; [now apply shownb_iff|]. exists (t_log t). eexists. split; [reflexivity|]. split; [reflexivity|]. split; [|reflexivity].
    exists (to_string fd). split; [now apply to_string_numeral|reflexivity].
  - exists e. left. split; [|reflexivity]. intros S1. apply shownb_iff in S1. congruence.
Qed.
Lemma seen_any ns fd t ds : 0 <= fd -> exists ds', seen (sees ns t fd) ds ds'.
Proof.
  intros F. induction ds as [|[l|e] r (r' & IH)].
  - destruct (sees_any ns fd t 11 F) as (e & S0). exists [DErr e]. now constructor.
  - exists (Dgram l :: r'). constructor. exact IH.
  - destruct (sees_any ns fd t e F) as (e' & S0). exists (DErr e' :: r). constructor. exact S0.
Qed.

Lemma loop_like ns h fd : 0 <= fd -> forall ds acc t, decent_thread t ->
  exists ds' t', seen (sees ns t fd) ds ds' /\ disc_loop_e ns h fd acc ds t = (disc_loop h acc ds', t')
    /\ lg_level (t_log t') = lg_level (t_log t) /\ lg_appender (t_log t') = lg_appender (t_log t).
Proof.
  intros F. induction ds as [|d r IH]; intros acc t D; cbn [disc_loop_e].
  - destruct (udp_like ns fd EIP_MAX_PACKET_SIZE t [] D F) as (o & t' & rest & E & L & A & e & S0 & ->). rewrite E.
    exists [DErr e], t'. split; [now constructor|]. split; [|auto]. reflexivity.
  - destruct (udp_like ns fd EIP_MAX_PACKET_SIZE t (d :: r) D F) as (o & t' & rest & E & L & A & U). rewrite E. destruct d as [l|e].
    + subst o. unfold udp_receive at 1. cbn [fst bind].
      destruct (disc_reply h _ acc) as [acc'|x|u|] eqn:R.
      * destruct (IH acc' t' (decent_same _ _ A D)) as (ds' & t2 & S0 & E2 & L2 & A2).
        exists (Dgram l :: ds'), t2. split; [constructor; exact (seen_same _ _ _ _ _ _ L A S0)|]. split; [|split; congruence].
        rewrite E2. cbn [disc_loop]. unfold udp_receive. cbn [fst bind]. now rewrite R.
      * destruct (seen_any ns fd t r F) as (r' & S0). exists (Dgram l :: r'), t'. split; [now constructor|]. split; [|auto].
        cbn [disc_loop]. unfold udp_receive. cbn [fst bind]. now rewrite R.
      * destruct (seen_any ns fd t r F) as (r' & S0). exists (Dgram l :: r'), t'. split; [now constructor|]. split; [|auto].
        cbn [disc_loop]. unfold udp_receive. cbn [fst bind]. now rewrite R.
      * destruct (seen_any ns fd t r F) as (r' & S0). exists (Dgram l :: r'), t'. split; [now constructor|]. split; [|auto].
        cbn [disc_loop]. unfold udp_receive. cbn [fst bind]. now rewrite R.
    + destruct U as (e' & S0 & ->). exists (DErr e' :: r), t'. split; [now constructor|]. split; [|auto]. reflexivity.
Qed.

Lemma discover_like ns h fd k ds t broadcast : decent_thread t -> 0 <= fd ->
  match d_send k with Took c => 0 <= c | Refused _ => True end ->
  exists e ds', seen (sees ns t fd) ds ds'
    /\ (exists e0, (d_timeout k = Some e0 \/ d_timeout k = None
                    /\ blurred ns t DEBUG (fun m => exists s, numeral s fd /\ m = ("Opened UDP socket fd=" ++ s)%string) (t_errno t) e0)
         /\ blurred ns t TRACE (sends "UDP" fd 24) e0 e)
    /\ fst (discover_e ns h fd k ds t) = fst (discover h (mkDK (d_socket k) (d_broadcast k) (result_of (d_send k) e)) broadcast ds').
Proof.
  intros D F C. unfold discover_e, with_udp, discover. cbn [dk_socket dk_broadcast dk_send].
  unfold st_bind at 1. 
  destruct (say_ok ns DEBUG ["Opened UDP socket fd="; to_string fd]%string t D ltac:(discriminate)) as (t1 & E1 & L1 & A1 & Er1 & _).
  set (t2 := match d_timeout k with Some e => set_errno e t1 | None => t1 end).
  assert (L2 : lg_level (t_log t2) = lg_level (t_log t)) by (unfold t2; destruct (d_timeout k); cbn; congruence).
  assert (A2 : lg_appender (t_log t2) = lg_appender (t_log t)) by (unfold t2; destruct (d_timeout k); cbn; congruence).
  assert (D2 : decent_thread t2) by exact (decent_same _ _ A2 D).
  destruct (send_like ns "UDP" fd 24 (d_send k) t2 D2 F ltac:(lia) C) as (e & B & Es).
  assert (B0 : exists e0, (d_timeout k = Some e0 \/ d_timeout k = None
                    /\ blurred ns t DEBUG (fun m => exists s, numeral s fd /\ m = ("Opened UDP socket fd=" ++ s)%string) (t_errno t) e0)
         /\ blurred ns t TRACE (sends "UDP" fd 24) e0 e).
  { exists (t_errno t2). split.
    - unfold t2. destruct (d_timeout k); [left; reflexivity|right]. split; [reflexivity|]. rewrite Er1. unfold blurred.
      destruct (shownb DEBUG (t_log t)) eqn:Sb; [right|left].
      + split; [now apply shownb_iff|]. exists (t_log t). eexists. split; [reflexivity|]. split; [reflexivity|]. split; [|reflexivity].
        exists (to_string fd). split; [now apply to_string_numeral|reflexivity].
      + split; [|reflexivity]. intros S1. apply shownb_iff in S1. congruence.
    - unfold blurred, shows in *. rewrite L2, A2 in B. exact B. }
  destruct (seen_any ns fd t ds F) as (ds0 & S00).
  unfold call_sys at 1. destruct (d_socket k) as [es|] eqn:Ks.
  { exists e, ds0. split; [exact S00|]. split; [exact B0|]. reflexivity. }
  unfold st_bind at 1. rewrite E1. cbn beta iota.
  (* the destructor *)
  assert (Dtor : forall A (o : outcome A) t3, decent_thread t3 ->
    fst (match o with
         | Undef _ | Abort => (o, t3)
         | _ => st_bind (say ns DEBUG ["Close UDP socket fd="; to_string fd]%string) (fun _ =>
                st_bind (call_ignored (d_shutdown k)) (fun _ =>
                st_bind (call_ignored (d_close k)) (fun _ t2 => (o, t2)))) t3 end) = o).
  { intros X o t3 D3. unfold st_bind, call_ignored.
    destruct (say_ok ns DEBUG ["Close UDP socket fd="; to_string fd]%string t3 D3 ltac:(discriminate)) as (t4 & E4 & _). rewrite E4.
    destruct o; reflexivity. }
  match goal with |- context [let '(o, t1) := ?b t1 in _] => set (body := b t1) end.
  assert (Bd : exists ds', seen (sees ns t fd) ds ds' /\ decent_thread (snd body)
     /\ fst body = fst (match d_broadcast k with
                        | Some e0 => (Throw (SystemError e0), [])
                        | None => let data := encaps_pack list_identity_packet in
                                  let sent := if s_count (result_of (d_send k) e) <? 0 then []
                                     else [(ep_addr broadcast, firstn (Z.to_nat (s_count (result_of (d_send k) e))) data)] in
                                  (_ <- send_check (zlen data) (result_of (d_send k) e) ;; disc_loop h [] ds', sent)
                        end)).
  { assert (Eb : body = match d_broadcast k with
                        | Some eb => (Throw (SystemError eb), set_errno eb t2)
                        | None => st_bind (send_e ns "UDP" fd 24 (d_send k)) (fun _ => disc_loop_e ns h fd [] ds) t2
                        end).
    { unfold body. unfold st_bind at 1, call_ignored at 1. fold t2. unfold st_bind at 1, call_sys at 1.
      destruct (d_broadcast k); reflexivity. }
    rewrite Eb. destruct (d_broadcast k) as [eb|].
    { exists ds0. split; [exact S00|]. split; [exact D2|reflexivity]. }
    unfold st_bind. cbv zeta. change (zlen (encaps_pack list_identity_packet)) with 24.
    destruct (send_e ns "UDP" fd 24 (d_send k) t2) as [os t3] eqn:Ese. cbn [fst] in Es.
    assert (Lt : lg_level (t_log t3) = lg_level (t_log t) /\ lg_appender (t_log t3) = lg_appender (t_log t)).
    { unfold send_e, st_bind in Ese. edestruct (say_ok ns TRACE) as (t' & E & L & A & _); [exact D2|discriminate|]. rewrite E in Ese.
      destruct (d_send k); injection Ese as _ <-; cbn; split; congruence. }
    destruct Lt as (L3 & A3). pose proof (decent_same _ _ A3 D) as D3.
    subst os. cbn [fst]. cbv zeta. destruct (send_check 24 (result_of (d_send k) e)) as [[]|x|u|]; cbn [bind].
    - destruct (loop_like ns h fd F ds [] t3 D3) as (ds' & t4 & S0 & E4 & L4 & A4). exists ds'. rewrite E4.
      split; [exact (seen_same _ _ _ _ _ _ L3 A3 S0)|]. split; [exact (decent_same _ _ A4 D3)|reflexivity].
    - exists ds0. split; [exact S00|]. split; [exact D3|reflexivity].
    - exists ds0. split; [exact S00|]. split; [exact D3|reflexivity].
    - exists ds0. split; [exact S00|]. split; [exact D3|reflexivity]. }
  destruct Bd as (ds' & S0 & Db & Eb). exists e, ds'. split; [exact S0|]. split; [exact B0|].
  clearbody body. transitivity (fst body); [|exact Eb]. destruct body as [o t3]. apply Dtor. exact Db.
Qed.

Lemma exact_sight ns t fd e e' : considerate ns \/ ~ shows t TRACE -> sees ns t fd e e' -> e' = e.
Proof. intros [C|N] [[_ ->]|(S0 & g & m & _ & _ & _ & ->)]; auto; contradiction. Qed.
Lemma seen_exact ns t fd ds ds' : considerate ns \/ ~ shows t TRACE -> seen (sees ns t fd) ds ds' ->
  forall h acc, disc_loop h acc ds' = disc_loop h acc ds.
Proof.
  intros C. induction 1 as [e S0|l r r' S0 IH|e e' r S0]; intros h acc.
  - apply (exact_sight _ _ _ _ _ C) in S0 as ->. reflexivity.
  - cbn [disc_loop]. unfold udp_receive. cbn [fst]. destruct (bind _ _); try reflexivity. apply IH.
  - apply (exact_sight _ _ _ _ _ C) in S0 as ->. reflexivity.
Qed.
Lemma discover_same ns h fd k ds t broadcast : decent_thread t -> 0 <= fd -> considerate ns \/ ~ shows t TRACE ->
  (forall c, d_send k = Took c -> c = 24) ->
  fst (discover_e ns h fd k ds t) = fst (discover h (mkDK (d_socket k) (d_broadcast k) (result_of (d_send k) 0)) broadcast ds).
Proof.
  intros D F C T.
  assert (P : match d_send k with Took c => 0 <= c | Refused _ => True end)
    by (destruct (d_send k) as [c|]; [rewrite (T c eq_refl); lia|exact I]).
  destruct (discover_like ns h fd k ds t broadcast D F P) as (e & ds' & S0 & _ & E).
  rewrite E. unfold discover. cbn [dk_socket dk_broadcast dk_send].
  destruct (d_socket k); [reflexivity|]. destruct (d_broadcast k); [reflexivity|]. cbn [fst].
  rewrite (seen_exact _ _ _ _ _ C S0). destruct (d_send k) as [c|x]; [|reflexivity]. rewrite (T c eq_refl). reflexivity.
Qed.

(** ** recv *)
Lemma at_level_app v a b : at_level v (a ++ b) = at_level v a ++ at_level v b.
Proof. unfold at_level. now rewrite filter_app, map_app. Qed.
Lemma written_app t t1 t2 a b : lg_appender (t_log t1) = lg_appender (t_log t) -> written t t1 a -> written t1 t2 b -> written t t2 (a ++ b).
Proof. unfold written. intros A -> ->. now rewrite A, map_app, app_assoc. Qed.

Definition traces (t : thread) (l : list (level * string)) (fd : Z) (ks : list nat) : Prop :=
  if shownb TRACE (t_log t) then exists ms, l = map (pair TRACE) ms /\ Forall2 (tcp_got fd) ks ms else l = [].

Lemma say_got ns fd k t : decent_thread t -> 0 <= fd ->
  exists t' l, say ns TRACE ["Received "; to_string (Z.of_nat k); " bytes from TCP socket #"; to_string fd; "."]%string t = (Ok tt, t')
    /\ lg_level (t_log t') = lg_level (t_log t) /\ lg_appender (t_log t') = lg_appender (t_log t)
    /\ written t t' l /\ traces t l fd [k].
Proof.
  intros D F. edestruct (say_ok ns TRACE) as (t' & E & L & A & _ & P); [exact D|discriminate|]. rewrite E.
  exists t'. unfold written, traces. rewrite P. destruct (shownb TRACE (t_log t)).
  - eexists [(TRACE, _)]. split; [reflexivity|]. split; [exact L|]. split; [exact A|]. split; [reflexivity|].
    eexists [_]. split; [reflexivity|]. constructor; [|constructor]. exists (to_string fd), (to_string (Z.of_nat k)).
    split; [now apply to_string_numeral|]. split; [apply to_string_numeral; lia|]. reflexivity.
  - exists []. split; [reflexivity|]. auto.
Qed.
Lemma traces_app t t' fd a b l1 l2 : lg_level (t_log t') = lg_level (t_log t) -> traces t l1 fd a -> traces t' l2 fd b -> traces t (l1 ++ l2) fd (a ++ b).
Proof.
  unfold traces. intros L. rewrite (shownb_same TRACE _ _ L). destruct (shownb TRACE (t_log t)).
  - intros (m1 & -> & F1) (m2 & -> & F2). exists (m1 ++ m2). split; [now rewrite map_app|]. now apply Forall2_app.
  - intros -> ->. reflexivity.
Qed.

Lemma full (l : bytes) : l ++ zeros (List.length l + 0 - List.length l) = l.
Proof. replace (List.length l + 0 - List.length l)%nat with 0%nat by lia. apply app_nil_r. Qed.
Lemma recv_like ns fd : 0 <= fd -> forall segs n acc t, decent_thread t ->
  exists o t' rest l ks, recv_loop_e ns fd n acc segs t = (o, (t', rest))
    /\ lg_level (t_log t') = lg_level (t_log t) /\ lg_appender (t_log t') = lg_appender (t_log t)
    /\ written t t' l /\ traces t l fd ks /\ list_sum ks = Nat.min n (List.length (stream segs))
    /\ recv_loop n acc segs = (omap (fun got => got ++ zeros (List.length acc + n - List.length got)) o, rest)
    /\ (forall got, o = Ok got -> got = acc ++ firstn n (stream segs)
          /\ ((n <= List.length (stream segs))%nat \/ ending_of segs = Closed)).
Proof.
  intros F.
  assert (None_ : forall t, written t t [] /\ traces t [] fd []).
  { intros t. unfold written, traces. split; [now rewrite app_nil_r|]. destruct (shownb TRACE (t_log t)); [exists []; split; [reflexivity|constructor]|reflexivity]. }
  induction segs as [|[l|e|] r IH]; intros n acc t D.
  - destruct n as [|n].
    + cbn [recv_loop_e recv_loop]. exists (Ok acc), t, [], [], []. repeat (split; [first [reflexivity|apply None_]|]).
      split; [cbn [omap bind]; now rewrite full|]. intros got E; inv E. split; [cbn; now rewrite app_nil_r|left; cbn; lia].
    + cbn [recv_loop_e recv_loop]. exists (Throw (SystemError EAGAIN)), (set_errno EAGAIN t), [], [], [].
      split; [reflexivity|]. split; [reflexivity|]. split; [reflexivity|]. split; [apply (None_ t)|]. split; [apply None_|]. split; [reflexivity|].
      split; [reflexivity|]. intros got E; discriminate.
  - destruct n as [|n].
    { cbn [recv_loop_e recv_loop]. exists (Ok acc), t, (Data l :: r), [], []. repeat (split; [first [reflexivity|apply None_]|]).
      split; [cbn [omap bind]; now rewrite full|]. intros got E; inv E. split; [cbn; now rewrite app_nil_r|left; cbn; lia]. }
    cbn [stream ending_of]. rewrite app_length.
    cbn [recv_loop_e recv_loop]. destruct (Nat.leb_spec (List.length l) (S n)) as [Le|Gt].
    + destruct l as [|b l].
      * destruct (IH (S n - List.length (@nil Z))%nat (acc ++ []) t D) as (o & t' & rest & l1 & ks & E & L & A & W & T & Su & R & G).
        exists o, t', rest, l1, ks. split; [exact E|]. split; [exact L|]. split; [exact A|]. split; [exact W|]. split; [exact T|].
        cbn [List.length Nat.add] in *. rewrite Nat.sub_0_r, app_nil_r in *. split; [exact Su|]. split; [exact R|]. exact G.
      * destruct (say_got ns fd (List.length (b :: l)) t D F) as (t1 & l1 & E1 & L1 & A1 & W1 & T1). rewrite E1.
        destruct (IH (S n - List.length (b :: l))%nat (acc ++ b :: l) t1 (decent_same _ _ A1 D)) as (o & t' & rest & l2 & ks & E & L & A & W & T & Su & R & G).
        exists o, t', rest, (l1 ++ l2), (List.length (b :: l) :: ks). split; [exact E|]. split; [congruence|]. split; [congruence|].
        split; [exact (written_app _ _ _ _ _ A1 W1 W)|]. split; [exact (traces_app _ _ _ [_] _ _ _ L1 T1 T)|].
        split; [change (list_sum (List.length (b :: l) :: ks)) with (List.length (b :: l) + list_sum ks)%nat; rewrite Su; lia|].
        rewrite R. rewrite app_length. split; [|intros got Eg; destruct (G got Eg) as (-> & Z0)].
        { replace (List.length acc + List.length (b :: l) + (S n - List.length (b :: l)))%nat with (List.length acc + S n)%nat by lia. reflexivity. }
        split; [|destruct Z0 as [Z0|Z0]; [left; lia|now right]].
        rewrite <- app_assoc, firstn_app. rewrite (firstn_all2 (b :: l)) by lia. reflexivity.
    + destruct (say_got ns fd (S n) t D F) as (t1 & l1 & E1 & L1 & A1 & W1 & T1). rewrite E1. cbn [bind].
      exists (Ok (acc ++ firstn (S n) l)), t1, (Data (skipn (S n) l) :: r), l1, [S n].
      split; [reflexivity|]. split; [exact L1|]. split; [exact A1|]. split; [exact W1|]. split; [exact T1|]. split; [cbn [list_sum fold_right]; lia|].
      split.
      { cbn [omap bind]. rewrite app_length, firstn_length. replace (List.length acc + S n - _)%nat with 0%nat by lia. cbn [zeros repeat]. now rewrite app_nil_r. }
      intros got E; injection E as <-. split; [|left; lia]. f_equal. rewrite firstn_app. replace (S n - List.length l)%nat with 0%nat by lia. cbn [firstn]. now rewrite app_nil_r.
  - destruct n as [|n].
    { cbn [recv_loop_e recv_loop]. exists (Ok acc), t, (Err e :: r), [], []. repeat (split; [first [reflexivity|apply None_]|]).
      split; [cbn [omap bind]; now rewrite full|]. intros got E; inv E. split; [cbn [firstn]; now rewrite app_nil_r|left; lia]. }
    cbn [recv_loop_e recv_loop]. cbn [set_errno t_errno]. destruct (err_cases e) as [->|(N & R0)].
    + cbn [Z.eqb EINTR Pos.eqb]. destruct (IH (S n) acc (set_errno EINTR t) D) as (o & t' & rest & l1 & ks & E & H). exists o, t', rest, l1, ks.
      split; [exact E|]. exact H.
    + destruct (R0 r) as (R1 & R2 & R3). rewrite R1, R2. apply Z.eqb_neq in N. rewrite N.
      exists (Throw (SystemError e)), (set_errno e t), r, [], []. split; [reflexivity|]. split; [reflexivity|]. split; [reflexivity|]. split; [apply (None_ t)|].
      split; [apply None_|]. split; [reflexivity|]. split; [reflexivity|]. intros got E; discriminate.
  - destruct n as [|n].
    { cbn [recv_loop_e recv_loop]. exists (Ok acc), t, (Eof :: r), [], []. repeat (split; [first [reflexivity|apply None_]|]).
      split; [cbn [omap bind]; now rewrite full|]. intros got E; inv E. split; [cbn; now rewrite app_nil_r|left; cbn; lia]. }
    cbn [recv_loop_e recv_loop]. change 0 with (Z.of_nat 0). destruct (say_got ns fd 0 t D F) as (t1 & l1 & E1 & L1 & A1 & W1 & T1). rewrite E1. cbn [bind].
    exists (Ok acc), t1, (Eof :: r), l1, [0%nat]. split; [reflexivity|]. split; [exact L1|]. split; [exact A1|]. split; [exact W1|]. split; [exact T1|]. split; [reflexivity|].
    split; [cbn [omap bind]; replace (List.length acc + S n - List.length acc)%nat with (S n) by lia; reflexivity|]. intros got E; injection E as <-. split; [cbn [stream firstn]; now rewrite app_nil_r|now right].
Qed.

Lemma traces_warning t l fd ks : traces t l fd ks -> at_level WARNING l = [].
Proof.
  unfold traces. destruct (shownb TRACE (t_log t)); [intros (ms & -> & _)|now intros ->]. induction ms as [|m ms IH]; [reflexivity|exact IH].
Qed.
Lemma traces_trace t l fd ks : traces t l fd ks -> shows t TRACE -> Forall2 (tcp_got fd) ks (at_level TRACE l).
Proof.
  unfold traces. intros T S0. apply shownb_iff in S0. rewrite S0 in T. destruct T as (ms & -> & F).
  replace (at_level TRACE (map (pair TRACE) ms)) with ms; [exact F|]. clear F. induction ms as [|m ms IH]; [reflexivity|]. cbn. now rewrite IH at 1.
Qed.

Lemma tcp_receive_like ns fd from n t segs : decent_thread t -> 0 <= fd ->
  exists o t' rest l, tcp_receive_e ns fd from n (t, segs) = (o, (t', rest)) /\ tcp_receive n segs = (o, rest) /\ written t t' l
    /\ (shows t WARNING -> ended_early n segs /\ (exists m, at_level WARNING l = [m] /\ tcp_short from (List.length (stream segs)) n m)
                           \/ ~ ended_early n segs /\ at_level WARNING l = [])
    /\ (shows t TRACE -> exists ks, Forall2 (tcp_got fd) ks (at_level TRACE l) /\ list_sum ks = Nat.min n (List.length (stream segs))).
Proof.
  intros D F. destruct (recv_like ns fd F segs n [] t D) as (o & t1 & rest & l & ks & E & L & A & W & T & Su & R & G).
  unfold tcp_receive_e, tcp_receive. rewrite E, R. cbn [List.length Nat.add].
  destruct o as [got|e|u|]; cbn [omap bind].
  - destruct (G got eq_refl) as (Eg & Z0). cbn [app] in Eg.
    assert (Lg : List.length got = Nat.min n (List.length (stream segs))) by (subst got; rewrite firstn_length; reflexivity).
    destruct (Nat.eqb_spec n (List.length got)) as [En|Nn]; cbn [negb].
    + exists (Ok got), t1, rest, l. split; [reflexivity|]. split.
      { replace (n - List.length got)%nat with 0%nat by lia. cbn. now rewrite app_nil_r. }
      split; [exact W|]. split; [intros _; right; split; [intros [? _]; lia|now apply traces_warning in T]|].
      intros S0. exists ks. split; [now apply (traces_trace t)|exact Su].
    + destruct (say_ok ns WARNING ["Received from "; ep_to_string from; " "; to_string (zlen got); " of "; to_string (Z.of_nat n)]%string t1
                  (decent_same _ _ A D) ltac:(discriminate)) as (t2 & E2 & L2 & A2 & _ & P2). rewrite E2. cbn [bind].
      assert (Sb : shownb WARNING (t_log t1) = shownb WARNING (t_log t)) by (now apply shownb_same).
      set (w := if shownb WARNING (t_log t) then [(WARNING, String.concat "" ["Received from "; ep_to_string from; " "; to_string (zlen got); " of "; to_string (Z.of_nat n)]%string)] else []).
      exists (Ok (got ++ zeros (n - List.length got))), t2, rest, (l ++ w). split; [reflexivity|]. split; [reflexivity|].
      split. { apply (written_app t t1 t2 l w A W). unfold written, w. rewrite P2, Sb. destruct (shownb WARNING (t_log t)); reflexivity. }
      split.
      * intros S0. apply shownb_iff in S0. left. split; [split; [lia|destruct Z0; [lia|assumption]]|]. unfold w. rewrite S0, at_level_app.
        rewrite (traces_warning _ _ _ _ T). cbn [at_level filter fst level_eqb level_value Z.eqb Pos.eqb map snd app]. eexists. split; [reflexivity|].
        exists (to_string (zlen got)), (to_string (Z.of_nat n)). split; [|split; [apply to_string_numeral; lia|reflexivity]].
        unfold zlen. replace (List.length (stream segs)) with (List.length got) by lia. apply to_string_numeral. lia.
      * intros S0. exists ks. rewrite at_level_app. replace (at_level TRACE w) with (@nil string) by (unfold w; destruct (shownb WARNING (t_log t)); reflexivity).
        rewrite app_nil_r. split; [now apply (traces_trace t)|exact Su].
  - exists (Throw e), t1, rest, l. split; [reflexivity|]. split; [reflexivity|]. split; [exact W|]. split.
    + intros _. right. split; [|now apply traces_warning in T]. intros (Sh & Cl). pose proof (receive_short n segs Sh) as R2. rewrite Cl in R2.
      unfold tcp_receive in R2. rewrite R in R2. discriminate.
    + intros S0. exists ks. split; [now apply (traces_trace t)|exact Su].
  - exfalso. destruct (Nat.leb_spec n (List.length (stream segs))) as [Le|Gt].
    + destruct (receive_enough n segs Le) as (s' & R2 & _). unfold tcp_receive in R2. rewrite R in R2. discriminate.
    + pose proof (receive_short n segs Gt) as R2. unfold tcp_receive in R2. rewrite R in R2. destruct (ending_of segs); discriminate.
  - exfalso. destruct (Nat.leb_spec n (List.length (stream segs))) as [Le|Gt].
    + destruct (receive_enough n segs Le) as (s' & R2 & _). unfold tcp_receive in R2. rewrite R in R2. discriminate.
    + pose proof (receive_short n segs Gt) as R2. unfold tcp_receive in R2. rewrite R in R2. destruct (ending_of segs); discriminate.
Qed.

(** ** connect *)
Lemma connect_like ns fd to k close t : decent_thread t -> fst (tcp_connect_e ns fd to k close t) = fst (tcp_connect k).
Proof.
  intros D. unfold tcp_connect_e, tcp_connect. unfold st_bind at 1, call_sys at 1. destruct (k_socket k); [reflexivity|].
  unfold st_bind at 1, call_sys at 1. destruct (k_getfl1 k); [reflexivity|].
  unfold st_bind at 1, call_sys at 1. destruct (k_setfl1 k); [reflexivity|].
  unfold st_bind at 1. edestruct (say_ok ns DEBUG) as (t1 & E1 & L1 & A1 & _); [exact D|discriminate|]. rewrite E1.
  unfold st_bind at 1. edestruct (say_ok ns DEBUG) as (t2 & E2 & L2 & A2 & _); [exact (decent_same _ _ A1 D)|discriminate|]. rewrite E2.
  unfold tcp_connect_try, tcp_connect_wait, st_bind, call_sys, sys, call_ignored, set_errno. cbn [t_errno bind].
  destruct (k_connect k) as [e|]; cbn [bind].
  - destruct (e =? EINPROGRESS); [|reflexivity]. destruct (k_select k) as [res err].
    destruct (Z.ltb_spec res 0) as [Rn|Rp]; cbn [andb t_errno].
    + destruct (err =? EINTR); cbn [negb]; [|reflexivity]. destruct (Z.ltb_spec 0 res); [lia|reflexivity].
    + destruct (0 <? res); [|reflexivity]. destruct (k_getsockopt k); cbn [bind]; [reflexivity|].
      destruct (k_soerr k =? 0); cbn [negb bind]; [|reflexivity].
      destruct (k_getfl2 k); cbn [bind]; [reflexivity|]. destruct (k_setfl2 k); reflexivity.
  - destruct (k_getfl2 k); cbn [bind]; [reflexivity|]. destruct (k_setfl2 k); reflexivity.
Qed.

(** ** The messages of the discovery *)
Definition only (v : level) (t t' : thread) : Prop :=
  lg_level (t_log t') = lg_level (t_log t) /\ lg_appender (t_log t') = lg_appender (t_log t) /\ exists ms, written t t' (map (pair v) ms).
Lemma only_refl v t e : only v t (set_errno e t).
Proof. split; [reflexivity|]. split; [reflexivity|]. exists []. unfold written. cbn. now rewrite app_nil_r. Qed.
Lemma only_trans v t t1 t2 : only v t t1 -> only v t1 t2 -> only v t t2.
Proof.
  intros (L1 & A1 & m1 & W1) (L2 & A2 & m2 & W2). split; [congruence|]. split; [congruence|]. exists (m1 ++ m2). rewrite map_app.
  exact (written_app _ _ _ _ _ A1 W1 W2).
Qed.
Lemma only_decent v t t' : only v t t' -> decent_thread t -> decent_thread t'.
Proof. intros (_ & A & _). exact (decent_same _ _ A). Qed.
Lemma say_only ns v pieces t o t' : decent_thread t -> v <> OFF -> say ns v pieces t = (o, t') -> o = Ok tt /\ only v t t'.
Proof.
  intros D N E. destruct (say_ok ns v pieces t D N) as (t1 & E1 & L & A & _ & P). rewrite E in E1. injection E1 as -> ->.
  split; [reflexivity|]. split; [exact L|]. split; [exact A|]. unfold written. rewrite P.
  destruct (shownb v (t_log t)); [eexists [_]; reflexivity|exists []; reflexivity].
Qed.
Lemma udp_only ns fd size t ds o t' rest : decent_thread t -> udp_receive_e ns fd size (t, ds) = (o, (t', rest)) -> only TRACE t t'.
Proof.
  intros D. unfold udp_receive_e. destruct ds as [|[l|e] r].
  - destruct (say ns TRACE _ (set_errno EAGAIN t)) as [o1 t1] eqn:E. intros X. injection X as _ <- _.
    eapply only_trans; [apply (only_refl TRACE t EAGAIN)|]. eapply say_only in E; [apply E|exact D|discriminate].
  - destruct (say ns TRACE _ t) as [o1 t1] eqn:E. intros X. injection X as _ <- _. eapply say_only in E; [apply E|exact D|discriminate].
  - destruct (say ns TRACE _ (set_errno e t)) as [o1 t1] eqn:E. intros X. injection X as _ <- _.
    eapply only_trans; [apply (only_refl TRACE t e)|]. eapply say_only in E; [apply E|exact D|discriminate].
Qed.
Lemma loop_only ns h fd ds : forall acc t, decent_thread t -> only TRACE t (snd (disc_loop_e ns h fd acc ds t)).
Proof.
  induction ds as [|d r IH]; intros acc t D; cbn [disc_loop_e].
  - destruct (udp_receive_e ns fd _ (t, [])) as [o [t1 rest]] eqn:E. cbn [snd]. now apply udp_only in E.
  - destruct (udp_receive_e ns fd _ (t, d :: r)) as [o [t1 rest]] eqn:E. apply udp_only in E; [|exact D].
    destruct (bind o _) as [acc'| | |]; cbn [snd]; try exact E. exact (only_trans _ _ _ _ E (IH acc' t1 (only_decent _ _ _ E D))).
Qed.
Lemma send_only ns kind fd size r t : decent_thread t -> only TRACE t (snd (send_e ns kind fd size r t)).
Proof.
  intros D. unfold send_e, st_bind. destruct (say ns TRACE _ t) as [o t1] eqn:E. apply say_only in E as [-> E]; [|exact D|discriminate].
  destruct r; cbn [snd]; [exact E|]. exact (only_trans _ _ _ _ E (only_refl _ _ _)).
Qed.
Lemma at_level_pair v w ms : at_level v (map (pair w) ms) = if level_eqb w v then ms else [].
Proof.
  unfold at_level, level_eqb. destruct (level_value w =? level_value v) eqn:E.
  - induction ms as [|m ms IH]; [reflexivity|]. cbn. rewrite E. cbn. now rewrite IH.
  - induction ms as [|m ms IH]; [reflexivity|]. cbn. rewrite E. exact IH.
Qed.

Lemma discover_log ns h fd k ds t o t' : decent_thread t -> 0 <= fd -> shows t DEBUG ->
  discover_e ns h fd k ds t = (o, t') ->
  exists l, written t t' l
    /\ match d_socket k with
       | Some _ => l = []
       | None => exists s, numeral s fd /\ (exists more, at_level DEBUG l = ("Opened UDP socket fd=" ++ s)%string :: more
                   /\ match o with Ok _ | Throw _ => more = ["Close UDP socket fd=" ++ s]%string | _ => more = [] end)
       end.
Proof.
  intros D F S0. unfold discover_e, with_udp. unfold st_bind at 1, call_sys at 1. destruct (d_socket k) as [e|].
  { intros E. injection E as _ <-. exists []. split; [|reflexivity]. unfold written. cbn. now rewrite app_nil_r. }
  unfold st_bind at 1. destruct (say_ok ns DEBUG ["Opened UDP socket fd="; to_string fd]%string t D ltac:(discriminate)) as (t1 & E1 & L1 & A1 & _ & P1).
  rewrite E1. pose proof S0 as Sb. apply shownb_iff in Sb. rewrite Sb in P1.
  assert (D1 : decent_thread t1) by exact (decent_same _ _ A1 D).
  assert (W1 : written t t1 [(DEBUG, ("Opened UDP socket fd=" ++ to_string fd)%string)]) by exact P1.
  match goal with |- context [let '(o, t1) := ?b t1 in _] => set (body := b t1) end.
  assert (Ob : only TRACE t1 (snd body)).
  { unfold body. set (t2 := match d_timeout k with Some e => set_errno e t1 | None => t1 end).
    assert (O2 : only TRACE t1 t2).
    { unfold t2. destruct (d_timeout k); [apply only_refl|]. pose proof (only_refl TRACE t1 (t_errno t1)) as O0. destruct t1; exact O0. }
    eapply only_trans; [exact O2|]. pose proof (only_decent _ _ _ O2 D1) as D2.
    unfold st_bind at 1, call_ignored at 1. fold t2. unfold st_bind at 1, call_sys at 1. destruct (d_broadcast k); [apply only_refl|].
    unfold st_bind at 1. pose proof (send_only ns "UDP" fd (zlen (encaps_pack list_identity_packet)) (d_send k) t2 D2) as O3.
    destruct (send_e _ _ _ _ _ t2) as [[u| | |] t3]; cbn [snd] in O3; try exact O3.
    exact (only_trans _ _ _ _ O3 (loop_only ns h fd ds [] t3 (only_decent _ _ _ O3 D2))). }
  clearbody body. destruct body as [ob tb]. cbn [snd] in Ob. destruct Ob as (Lb & Ab & ms & Wb).
  assert (Db : decent_thread tb) by exact (decent_same _ _ Ab D1).
  pose proof (written_app _ _ _ _ _ A1 W1 Wb) as W2.
  assert (Close : st_bind (say ns DEBUG ["Close UDP socket fd="; to_string fd]%string) (fun _ =>
           st_bind (call_ignored (d_shutdown k)) (fun _ =>
           st_bind (call_ignored (d_close k)) (fun _ t2 => (ob, t2)))) tb = (o, t') ->
    o = ob /\ exists l, written t t' l /\ at_level DEBUG l = ["Opened UDP socket fd=" ++ to_string fd; "Close UDP socket fd=" ++ to_string fd]%string).
  { unfold st_bind, call_ignored. destruct (say_ok ns DEBUG ["Close UDP socket fd="; to_string fd]%string tb Db ltac:(discriminate)) as (t3 & E3 & L3 & A3 & _ & P3).
    rewrite E3. intros E. injection E as <- <-. split; [reflexivity|].
    assert (Sb2 : shownb DEBUG (t_log tb) = true) by (rewrite (shownb_same DEBUG (t_log t)); [exact Sb|congruence]). rewrite Sb2 in P3.
    eexists. split.
    - apply (written_app t tb _ _ [(DEBUG, ("Close UDP socket fd=" ++ to_string fd)%string)] ltac:(congruence) W2).
      unfold written. destruct (d_shutdown k), (d_close k); exact P3.
    - rewrite !at_level_app, at_level_pair. reflexivity. }
  intros E. destruct ob as [es|x|u|].
  - destruct (Close E) as (-> & l & W & Al). exists l. split; [exact W|]. exists (to_string fd). split; [now apply to_string_numeral|]. eexists. split; [exact Al|reflexivity].
  - destruct (Close E) as (-> & l & W & Al). exists l. split; [exact W|]. exists (to_string fd). split; [now apply to_string_numeral|]. eexists. split; [exact Al|reflexivity].
  - injection E as <- <-. eexists. split; [exact W2|]. exists (to_string fd). split; [now apply to_string_numeral|]. eexists. rewrite at_level_app, at_level_pair. split; reflexivity.
  - injection E as <- <-. eexists. split; [exact W2|]. exists (to_string fd). split; [now apply to_string_numeral|]. eexists. rewrite at_level_app, at_level_pair. split; reflexivity.
Qed.
