(** Proofs about the messages of a connection manager. *)
From Coq Require Import Permutation.
From Verif Require Import Base MBuffer SBuffer PBase PBuffer MEip SEip MSocket MConnReq MLog MStatus SText PText MConn SConn SConnReq PConnMap PIo PReader
  PConnOpen PConnCall PConnCall2 PConnHist PConnTop MMsg SMsg.
Local Open Scope Z_scope.

(** ** Reading *)
Lemma strip_app p r : strip p (p ++ r) = Some r.
Proof. induction p as [|c p IH]; [reflexivity|]. cbn [append strip]. rewrite Ascii.eqb_refl. exact IH. Qed.
Lemma number_from_app s : forall a v r, reads a s = Some v -> nondigit r -> number_from a (s ++ r) = (v, r).
Proof.
  induction s as [|c s IH]; intros a v r R N.
  - cbn [reads] in R. inv R. cbn [append]. destruct r as [|c r]; [reflexivity|]. cbn [number_from].
    cbn [nondigit reads] in N. unfold digit. destruct (_ && _); [discriminate|reflexivity].
  - cbn [reads] in R. cbn [append number_from]. unfold digit. destruct (_ && _); [|discriminate]. now apply IH.
Qed.
Lemma number_to_string v r : 0 <= v -> nondigit r -> number (to_string v ++ r) = Some (v, r).
Proof.
  intros V N. destruct (to_string_numeral v V) as (E & R & _). destruct (to_string v) as [|c s] eqn:T; [contradiction|].
  pose proof (number_from_app _ _ _ r R N) as F. cbn [append number] in *.
  cbn [reads] in R. unfold digit. destruct (_ && _); [|discriminate]. now rewrite F.
Qed.
Lemma fields_cons p ps e v r : 0 <= v -> nondigit r ->
  fields (p :: ps) e (p ++ to_string v ++ r) = option_map (cons v) (fields ps e r).
Proof. intros V N. cbn [fields]. rewrite strip_app, number_to_string by assumption. reflexivity. Qed.
Lemma fields_end e : fields [] e e = Some [].
Proof. cbn [fields]. rewrite String.eqb_refl. reflexivity. Qed.

Lemma one_hit p e v f : 0 <= v -> nondigit e -> one p e (p ++ to_string v ++ e) f = Some (f v).
Proof. intros V N. unfold one. rewrite fields_cons, fields_end by assumption. reflexivity. Qed.
Lemma three_hit p q r e a b c f : 0 <= a -> 0 <= b -> 0 <= c -> (forall s, nondigit (q ++ s)) -> (forall s, nondigit (r ++ s)) -> nondigit e ->
  three p q r e (p ++ to_string a ++ q ++ to_string b ++ r ++ to_string c ++ e) f = Some (f a b c).
Proof.
  intros A B C Q R E. unfold three. rewrite !fields_cons, fields_end by auto. reflexivity.
Qed.
Lemma one_miss p e s f : strip p s = None -> one p e s f = None.
Proof. intros E. unfold one. cbn [fields]. now rewrite E. Qed.
Lemma three_miss p q r e s f : strip p s = None -> three p q r e s f = None.
Proof. intros E. unfold three. cbn [fields]. now rewrite E. Qed.
Lemma append_nil s : (s ++ "")%string = s.
Proof. induction s as [|c s IH]; [reflexivity|]. cbn [append]. now rewrite IH. Qed.

Ltac miss := rewrite ?one_miss, ?three_miss by reflexivity.

Lemma read_opened a b c : 0 <= a -> 0 <= b -> 0 <= c ->
  read_message (INFO, "Open IO connection O2T_ID=" ++ to_string a ++ " T2O_ID=" ++ to_string b ++ " SerialNumber " ++ to_string c)%string
  = SOpened a b c.
Proof.
  intros A B C. unfold read_message, read_text. cbn [fst snd]. rewrite <- (append_nil (to_string c)).
  rewrite three_hit; [reflexivity|assumption..|reflexivity|reflexivity|exact Logic.I].
Qed.
Lemma read_refused lv a : lv = ERROR -> 0 <= a ->
  read_message (lv, "Connection with T2O_ID=" ++ to_string a ++ " already exists.")%string = SRefused a.
Proof.
  intros -> A. unfold read_message, read_text. cbn [fst snd]. rewrite three_miss by reflexivity.
  rewrite one_hit; [reflexivity|assumption|reflexivity].
Qed.
Lemma read_closing a : 0 <= a ->
  read_message (INFO, "Close connection connection T2O_ID=" ++ to_string a)%string = SClosing a.
Proof.
  intros A. unfold read_message, read_text. cbn [fst snd]. rewrite three_miss, one_miss by reflexivity.
  rewrite <- (append_nil (to_string a)). rewrite one_hit; [reflexivity|assumption|exact Logic.I].
Qed.
Lemma read_timeout a : 0 <= a ->
  read_message (WARNING, "Connection SeriaNumber=" ++ to_string a ++ " is closed by timeout")%string = STimedOut a.
Proof.
  intros A. unfold read_message, read_text. cbn [fst snd]. rewrite three_miss, !one_miss by reflexivity.
  rewrite one_hit; [reflexivity|assumption|reflexivity].
Qed.
Lemma read_unknown a : 0 <= a ->
  read_message (ERROR, "Received data from unknown connection T2O_ID=" ++ to_string a)%string = SUnknown a.
Proof.
  intros A. unfold read_message, read_text. cbn [fst snd]. rewrite three_miss, !one_miss by reflexivity.
  rewrite <- (append_nil (to_string a)). rewrite one_hit; [reflexivity|assumption|exact Logic.I].
Qed.
Lemma read_ignored a b c : 0 <= a -> 0 <= b -> 0 <= c ->
  read_message (WARNING, "Connection T2O_ID=" ++ to_string a ++ " has fixed size " ++ to_string b
    ++ " bytes but " ++ to_string c ++ " bytes were received. Ignore this data.")%string = SIgnored a b c.
Proof.
  intros A B C. unfold read_message, read_text. cbn [fst snd]. rewrite three_miss, !one_miss by reflexivity.
  rewrite three_hit; [reflexivity|assumption..|reflexivity|reflexivity|reflexivity].
Qed.
Lemma read_unsent a b c : 0 <= a -> 0 <= b -> 0 <= c ->
  read_message (WARNING, "Connection O2T_ID=" ++ to_string a ++ " has fixed size " ++ to_string b
    ++ " bytes but " ++ to_string c ++ " bytes are to send. Don't send this data.")%string = SUnsent a b c.
Proof.
  intros A B C. unfold read_message, read_text. cbn [fst snd]. rewrite three_miss, !one_miss by reflexivity.
  rewrite (three_miss "Connection T2O_ID=") by reflexivity.
  rewrite three_hit; [reflexivity|assumption..|reflexivity|reflexivity|reflexivity].
Qed.
Lemma read_other lv s : (forall p, In p ["Open IO connection O2T_ID="; "Connection with T2O_ID="; "Close connection connection T2O_ID=";
    "Connection SeriaNumber="; "Received data from unknown connection T2O_ID="; "Connection T2O_ID="; "Connection O2T_ID="]%string -> strip p s = None) ->
  read_message (lv, s) = SOther.
Proof.
  intros N. unfold read_message, read_text. cbn [fst snd].
  rewrite !three_miss, !one_miss by (apply N; cbn [In]; tauto). destruct lv; reflexivity.
Qed.
Ltac other := apply read_other; let p := fresh in let I := fresh in intros p I; cbn [In] in I;
  repeat (destruct I as [<-|I]; [reflexivity|]); contradiction.
Lemma read_request svc p : read_message (request_message svc p) = SOther.
Proof. unfold request_message. other. Qed.
Lemma read_status r : read_message (ERROR, status_text r) = SOther.
Proof. unfold status_text. other. Qed.
Lemma read_socket s : read_message (INFO, "Open UDP socket to send data to " ++ s)%string = SOther.
Proof. other. Qed.
Lemma read_attempt : read_message (WARNING, "Attempt to close an already closed connection"%string) = SOther.
Proof. reflexivity. Qed.
Lemma read_failed s : read_message (WARNING, "Failed to close the connection in target with error=0x" ++ s)%string = SOther.
Proof. other. Qed.

(** ** Numbers in messages *)
Definition nn (c : iocon) : Prop := 0 <= io_o2tId c /\ 0 <= io_t2oId c /\ 0 <= io_serial c /\ 0 <= io_o2tSize c /\ 0 <= io_t2oSize c.
Definition nums (m : mgr) : Prop := forall k c, In (k, c) (m_map m) -> nn c.
Lemma nn_static c c' : io_static c' = io_static c -> nn c -> nn c'.
Proof. unfold io_static, nn. intros E. injection E. intros. lia. Qed.
Lemma nums_statics m m' : statics (m_map m') = statics (m_map m) -> nums m -> nums m'.
Proof. intros E N k c' I. destruct (statics_t2o _ _ _ _ E I) as (c & J & St). eapply nn_static; eauto. Qed.
Lemma get_u32_nn h b v b' : get_u32 h b = Ok (v, b') -> 0 <= v.
Proof.
  unfold get_u32. intros E. repeat (apply bind_Ok in E as ([? ?] & _ & E); cbv zeta in E). inv E.
  match goal with |- 0 <= u32 ?x => pose proof (u32_range x) as R; unfold is_u32 in R; lia end.
Qed.
Lemma get_u16_nn h b v b' : get_u16 h b = Ok (v, b') -> 0 <= v.
Proof.
  unfold get_u16. intros E. repeat (apply bind_Ok in E as ([? ?] & _ & E); cbv zeta in E). inv E.
  match goal with |- 0 <= u16 ?x => pose proof (u16_range x) as R; unfold is_u16 in R; lia end.
Qed.
Lemma expand_nn h data r : fo_expand h data = Ok r -> 0 <= f_o2tId r /\ 0 <= f_t2oId r /\ 0 <= f_serial r.
Proof.
  unfold fo_expand. intros E.
  apply bind_Ok in E as ([o b1] & Eo & E). apply bind_Ok in E as ([t b2] & Et & E). apply bind_Ok in E as ([n b3] & En & E).
  do 7 (apply bind_Ok in E as ([? ?] & _ & E)). inv E. cbn [f_o2tId f_t2oId f_serial].
  repeat split; [eapply get_u32_nn; eauto|eapply get_u32_nn; eauto|eapply get_u16_nn; eauto].
Qed.
Lemma size_nn large v : 0 <= ncp_size large v.
Proof. unfold ncp_size. pose proof (u16_range (Z.land v (ncp_mask large))) as R. unfold is_u16 in R. lia. Qed.
Lemma open_nn h data large c r mult oid now dest : fo_expand h data = Ok r -> nn (fo_connection large c r mult oid now dest).
Proof.
  intros E. apply expand_nn in E as (A & B & C). unfold nn, fo_connection; cbn [io_o2tId io_t2oId io_serial io_o2tSize io_t2oSize].
  auto using size_nn.
Qed.

Lemma fold_erase_sub ks : forall l e, In e (fold_left (fun l k => map_erase k l) ks l) -> In e l.
Proof. intros l e I. now apply fold_erase_in in I. Qed.
Lemma run_ticks_nums env m : nums m -> nums (snd (run_ticks env m)).
Proof.
  intros N. unfold run_ticks. pose proof (ticks_static env (m_map m)) as T. destruct (ticks env (m_map m)) as [[res l'] ev].
  assert (N' : nums (add_log (set_map m l') ev)) by (eapply nums_statics; eauto).
  destruct res as [ks|?|?|]; cbn [snd]; [|exact N'..].
  intros k c I. cbn [set_map m_map] in I. apply fold_erase_sub in I. exact (N' k c I).
Qed.
Lemma call_nums {S} h (op : call S) g m s o g' m' s' : mgr_inv g m -> nums m ->
  call_mgr h op (g, m, s) = (o, (g', m', s')) -> nums m'.
Proof.
  intros I N E. destruct op as [use8 si host env large c|use8 si oid|rounds ending env|oid d]; cbn [call_mgr] in E.
  - destruct (Z.eq_dec (g_serial g) 2147483647) as [G|G].
    { unfold forward_open in E. rewrite (prepare_overflow large (m_inc m) c g G) in E. inv E. assumption. }
    destruct (open_request h use8 si host env large c g m s G) as (g1 & c' & O & F). rewrite F in E. clear F.
    destruct (send_request _ _ _ _ _ _ _ _) as [[resp|?|?|] s1]; [|inv E; assumption..].
    destruct (fo_answer _ _ _ _ _ _ _) as [o1 [g2 m2]] eqn:A. inv E.
    assert (D : (exists oid, o = Ok (Some oid)) \/ forall oid, o <> Ok (Some oid)).
    { destruct o as [[oid|]|?|?|]; [left; eauto|right; congruence..]. }
    destruct D as [[oid ->]|D].
    + apply answer_some in A as (r & mult & dest & m1 & _ & Ex & _ & _ & _ & _ & M & _ & _ & ->).
      intros k c1 J. cbn [set_map m_map] in J. apply insert_oid_in in J as [J|J]; [inv J; eapply open_nn; eauto|exact (N k c1 J)].
    + destruct (answer_none _ _ _ _ _ _ _ _ _ _ _ A D) as [M _]. unfold nums. rewrite M. exact N.
  - destruct (forward_close _ _ _ _ _) as [o1 [m1 s1]] eqn:F. inv E. unfold forward_close in F.
    destruct (lock oid m) as [c|]; [|inv F; assumption].
    destruct (send_request _ _ _ _ _ _ _ _) as [[resp|?|?|] s2]; inv F; try assumption.
    intros k c1 J. cbn [set_map m_map] in J. apply erase_in in J as [J _]. exact (N k c1 J).
  - destruct (handle_connections h rounds ending env m) as [o1 m1] eqn:F. inv E.
    unfold handle_connections, st_bind in F. pose proof (select_quiet g' h rounds ending m I) as Q.
    destruct (bs_select _ _ _ _ _) as [o2 m2]. cbn [snd] in Q. destruct Q as (Qs & _).
    assert (N2 : nums m2) by (eapply nums_statics; eauto).
    destruct o2 as [[]|?|?|]; [|inv F; assumption..]. pose proof (run_ticks_nums env m2 N2) as X. now rewrite F in X.
  - inv E. eapply nums_statics; [|exact N]. cbn [set_output set_map m_map]. apply output_statics.
Qed.
Lemma world_nums {S} h (ops : list (nat * call S)) : forall w, (forall j, mgr_inv (w_g w) (w_m w j)) -> (forall j, nums (w_m w j)) ->
  forall j, nums (w_m (run_calls h ops w) j).
Proof.
  induction ops as [|[i op] ops IH]; intros w I N; cbn [run_calls]; [exact N|].
  unfold call_world. destruct (call_mgr h op (w_g w, w_m w i, w_s w)) as [o [[g' m'] s']] eqn:C. cbn [snd].
  pose proof (call_nums _ _ _ _ _ _ _ _ _ (I i) (N i) C) as N'. pose proof (call_inv _ _ _ _ _ _ _ _ _ (I i) C) as [I' L].
  apply IH; cbn [w_g w_m]; intros j; unfold update; destruct (Nat.eqb_spec j i) as [->|]; auto.
  now apply (inv_later (w_g w)).
Qed.
Lemma reach_nums S g m : reachable S g m -> nums m.
Proof.
  intros (h & ops & w & i & Nw & _ & ->). apply world_nums.
  - intros j. destruct (Nw j) as [inc ->]. apply inv_new.
  - intros j. destruct (Nw j) as [inc ->]. intros k c [].
Qed.

(** ** Receiving *)
Definition dull (x : said) : Prop := match x with SUnknown _ | SIgnored _ _ _ | SOther => True | _ => False end.
Definition notice (id : Z) : message := (DEBUG, "Received data from connection T2O_ID=" ++ to_string id)%string.
Lemma notice_announced id : 0 <= id -> announced (notice id) = [id].
Proof.
  intros P. unfold announced, notice. cbn [fst snd]. rewrite <- (append_nil (to_string id)), fields_cons, fields_end; [reflexivity|assumption|exact Logic.I].
Qed.
Lemma shown_quiet l : Forall (fun m : message => fst m <> DEBUG) l -> announcements l = [].
Proof. induction 1 as [|[lv t] l N _ IH]; [reflexivity|]. unfold announcements in *. cbn [flat_map]. rewrite IH. unfold announced. cbn [fst snd] in *. destruct lv; try reflexivity. congruence. Qed.
Lemma receive_shown h c data : Forall (fun m : message => fst m <> DEBUG) (io_receive_log h c data).
Proof. unfold io_receive_log. cbv zeta. destruct (bind _ _) as [b|?|?|]; try constructor. destruct (negb _); [constructor|]. destruct (_ && _); repeat constructor. discriminate. Qed.
Lemma tick_shown now hook c : Forall (fun m : message => fst m <> DEBUG) (io_tick_log now hook c).
Proof. unfold io_tick_log. cbv zeta. destruct (_ <? _); [repeat constructor; discriminate|]. destruct (_ <=? _); [|constructor]. destruct (_ && _); repeat constructor. discriminate. Qed.
Lemma ticks_shown env l : Forall (fun m : message => fst m <> DEBUG) (ticks_log env l).
Proof.
  induction l as [|[k c] l IH]; cbn [ticks_log]; [constructor|]. cbv zeta. apply Forall_app. split; [apply tick_shown|].
  destruct (fst (fst _)); [exact IH|constructor..].
Qed.
Lemma receive_msg h c data : nn c -> match io_receive h c data with
  | Ok (_, ev) => (exists hd sq d, ev = [EvData (io_oid c) hd sq d] /\ io_receive_log h c data = [])
                  \/ ev = [] /\ exists got, map read_message (io_receive_log h c data) = [SIgnored (io_t2oId c) (io_t2oSize c) got]
  | _ => io_receive_log h c data = []
  end.
Proof.
  intros (_ & A & _ & _ & B). unfold io_receive, io_receive_log. cbv zeta.
  destruct (if io_t2oRTF c then _ else _) as [[hd b1]|?|?|]; cbn [bind]; try reflexivity.
  destruct (if has_seq _ then _ else _) as [[sq b2]|?|?|]; cbn [bind]; try reflexivity.
  destruct (negb (buf_valid b2)); [reflexivity|].
  destruct (_ && _) eqn:F; [right|left; do 3 eexists; split; reflexivity].
  split; [reflexivity|]. eexists. cbn [map]. rewrite read_ignored; [reflexivity|assumption..|apply zlen_nonneg].
Qed.
Lemma readable_msg h d m : nums m ->
  let '(o, m') := on_readable h d m in
  exists ev, m_log m' = m_log m ++ ev /\ Forall dull (map read_message (readable_log h d m))
  /\ (o = Ok tt -> (List.length (deliveries ev) + List.length (complaints (readable_log h d m)) = 1)%nat
        /\ List.length (announcements (readable_log h d m)) = 1%nat).
Proof.
  intros N. unfold on_readable, readable_log.
  destruct (fst (udp_receive _ _)) as [data|?|?|]; cbn [bind];
    [|exists []; rewrite app_nil_r; cbn [map]; repeat split; try constructor; discriminate..].
  destruct (finished (cp_expand h data)) as [items|?|?|]; cbn [bind];
    [|exists []; rewrite app_nil_r; cbn [map]; repeat split; try constructor; discriminate..].
  destruct (nth_error items 0) as [i0|]; [|exists []; rewrite app_nil_r; cbn [map]; repeat split; try constructor; discriminate].
  destruct (get_u32 h (buf_of (it_data i0))) as [[id b]|?|?|] eqn:G; cbn [bind];
    [|exists []; rewrite app_nil_r; cbn [map]; repeat split; try constructor; discriminate..].
  cbv zeta. apply get_u32_nn in G. fold (notice id). cbn [map]. unfold complaints. cbn [map].
  change (read_message (notice id)) with SOther. cbn [filter].
  assert (A : forall l, Forall (fun m : message => fst m <> DEBUG) l -> List.length (announcements (notice id :: l)) = 1%nat).
  { intros l Q. apply shown_quiet in Q. unfold announcements in *. cbn [flat_map]. now rewrite Q, notice_announced. }
  destruct (map_find (u16 id) (m_map m)) as [c|] eqn:F.
  2:{ exists []. rewrite app_nil_r. cbn [map]. rewrite read_unknown by assumption.
      split; [reflexivity|]. split; [repeat constructor|]. intros _. split; [reflexivity|]. apply A. repeat constructor. discriminate. }
  destruct (nth_error items 1) as [i1|]; [|exists []; rewrite app_nil_r; cbn [map]; split; [reflexivity|]; split; [repeat constructor|discriminate]].
  pose proof (receive_msg h c (it_data i1) (N _ _ (find_in _ _ _ F))) as R. pose proof (A _ (receive_shown h c (it_data i1))) as A1.
  destruct (io_receive h c (it_data i1)) as [[c' ev]|?|?|]; cbn [bind];
    [|rewrite R; exists []; rewrite app_nil_r; cbn [map]; split; [reflexivity|]; split; [repeat constructor|discriminate]..].
  exists ev. split; [reflexivity|]. destruct R as [(hd & sq & d' & -> & R)|(-> & got & E)].
  - rewrite R in *. split; [repeat constructor|]. auto.
  - rewrite E. split; [repeat constructor|]. auto.
Qed.

(** ** select with the log *)
Definition plain {A} (r : outcome A * (mgr * list message)) : outcome A * mgr := (fst r, fst (snd r)).
Lemma dispatch_plain h : forall ready i n w,
  plain (dispatch (fun _ : nat => on_readable_logged h) i n ready w) = dispatch (fun _ : nat => on_readable h) i n ready (fst w).
Proof.
  induction ready as [|[d|] r IH]; intros i n [m l]; destruct n; cbn [dispatch]; try reflexivity; [|apply IH].
  unfold st_bind, on_readable_logged at 1. cbn [fst]. destruct (on_readable h d m) as [[[]|?|?|] m1]; [|reflexivity..].
  exact (IH _ _ (m1, _)).
Qed.
Lemma select_plain h ending : forall rounds n w,
  plain (bs_select (fun _ : nat => on_readable_logged h) n rounds ending w) = bs_select (fun _ : nat => on_readable h) n rounds ending (fst w).
Proof.
  intros rounds n w. unfold bs_select. destruct n; [reflexivity|]. revert w.
  induction rounds as [|r rs IH]; intros w; cbn [select_rounds].
  - destruct ending; reflexivity.
  - unfold st_bind. pose proof (dispatch_plain h (sr_ready r) 0 (Datatypes.S n) w) as D. unfold plain in D.
    destruct (dispatch (fun _ => on_readable_logged h) _ _ _ w) as [o [m1 l1]]. cbn [fst snd] in D. rewrite <- D.
    destruct o as [[]|?|?|]; [|reflexivity..]. exact (IH (m1, l1)).
Qed.
(** Whatever the result: only messages about datagrams. *)
Lemma select_dull g h rounds ending n m l : mgr_inv g m -> nums m ->
  exists new, snd (snd (bs_select (fun _ : nat => on_readable_logged h) n rounds ending (m, l))) = l ++ new
  /\ Forall dull (map read_message new).
Proof.
  intros I N.
  pose proof (select_keeps (fun w => quiet m (fst w) /\ exists new, snd w = l ++ new /\ Forall dull (map read_message new))
    (fun _ : nat => on_readable_logged h) n rounds ending (m, l)) as K.
  destruct K as [_ K]; [| |exact K].
  - intros _ d [m1 l1] [Q (new & E & D)]. cbn [fst snd] in *. subst l1.
    assert (N1 : nums m1) by (destruct Q as [Q _]; eapply nums_statics; eauto).
    pose proof (readable_quiet g h d m m1 I Q) as Q'. pose proof (readable_msg h d m1 N1) as R. unfold on_readable_logged.
    destruct (on_readable h d m1) as [o m2]. destruct R as (ev & _ & R & _). cbn [fst snd] in *. split; [exact Q'|].
    exists (new ++ readable_log h d m1). rewrite app_assoc. split; [reflexivity|]. rewrite map_app. apply Forall_app. auto.
  - cbn [fst snd]. split; [apply quiet_refl|]. exists []. rewrite app_nil_r. split; [reflexivity|constructor].
Qed.

Definition counted (n : nat) (m : mgr) (l : list message) (m' : mgr) (l' : list message) : Prop :=
  exists new ev, l' = l ++ new /\ m_log m' = m_log m ++ ev
  /\ (List.length (deliveries ev) + List.length (complaints new))%nat = n /\ List.length (announcements new) = n.
Lemma counted_trans a b m l m1 l1 m2 l2 : counted a m l m1 l1 -> counted b m1 l1 m2 l2 -> counted (a + b) m l m2 l2.
Proof.
  intros (n1 & e1 & -> & E1 & C1 & A1) (n2 & e2 & -> & E2 & C2 & A2). exists (n1 ++ n2), (e1 ++ e2). split; [now rewrite app_assoc|].
  split; [rewrite E2, E1; now rewrite app_assoc|].
  unfold deliveries, complaints, announcements in *. rewrite map_app, !filter_app, flat_map_app, !app_length. lia.
Qed.
Lemma counted_refl m l : counted 0 m l m l.
Proof. exists [], []. rewrite !app_nil_r. auto. Qed.
Lemma dispatch_count g h m0 : mgr_inv g m0 -> nums m0 -> forall ready i n m l m' l', quiet m0 m ->
  dispatch (fun _ : nat => on_readable_logged h) i n ready (m, l) = (Ok tt, (m', l')) ->
  counted (List.length (flat_map (fun x => match x with Some d => [d] | None => [] end) (firstn n ready))) m l m' l' /\ quiet m0 m'.
Proof.
  intros I N0. induction ready as [|[d|] r IH]; intros i n m l m' l' Q E; destruct n; cbn [dispatch] in E;
    try (inv E; split; [apply counted_refl|assumption]).
  - unfold st_bind, on_readable_logged at 1 in E.
    assert (N : nums m) by (destruct Q as [Q _]; eapply nums_statics; eauto).
    pose proof (readable_quiet g h d m0 m I Q) as Q'. pose proof (readable_msg h d m N) as R.
    destruct (on_readable h d m) as [[[]|?|?|] m1]; try discriminate. cbn [snd] in Q'.
    apply IH in E as [E Q2]; [|assumption]. split; [|assumption]. cbn [firstn flat_map app List.length].
    refine (counted_trans 1 _ _ _ _ _ _ _ _ E). destruct R as (ev & L & D & C).
    exists (readable_log h d m), ev. split; [reflexivity|]. split; [assumption|]. now apply C.
  - cbn [firstn flat_map app]. now apply IH in E.
Qed.
Lemma select_count g h rounds ending n m l m' l' : mgr_inv g m -> nums m ->
  bs_select (fun _ : nat => on_readable_logged h) n rounds ending (m, l) = (Ok tt, (m', l')) ->
  counted (List.length (arrivals n rounds)) m l m' l'.
Proof.
  intros I N. unfold bs_select. destruct n as [|n]; [discriminate|].
  assert (G : forall rounds m1 l1, quiet m m1 ->
    select_rounds (fun _ : nat => on_readable_logged h) (Datatypes.S n) rounds ending (m1, l1) = (Ok tt, (m', l')) ->
    counted (List.length (arrivals (Datatypes.S n) rounds)) m1 l1 m' l').
  { clear rounds. induction rounds as [|r rs IH]; intros m1 l1 Q E; cbn [select_rounds] in E.
    - destruct ending; [|discriminate]. inv E. apply counted_refl.
    - unfold st_bind in E. destruct (dispatch _ _ _ _ _) as [[[]|?|?|] [m2 l2]] eqn:D; try discriminate.
      apply (dispatch_count g h m I N _ _ _ _ _ _ _ Q) in D as [D Q2]. apply IH in E; [|assumption].
      unfold arrivals in *. cbn [flat_map]. rewrite app_length. exact (counted_trans _ _ _ _ _ _ _ _ D E). }
  intros E. apply G; [apply quiet_refl|exact E].
Qed.

(** ** Ticks *)
Definition sends (ev : list event) : list event := filter (fun e => match e with EvSent _ _ _ => true | _ => false end) ev.
Definition tick_reads (env : tick_env) (c : iocon) : list said :=
  let '(_, c', ev) := ticked env c in
  if timed_out env c then [STimedOut (io_serial c)]
  else if negb (io_o2tSeq c' =? io_o2tSeq c) && match ev with [] => true | _ => false end
  then [SUnsent (io_o2tId c) (io_o2tSize c) (zlen (io_out c'))] else [].
Lemma seq_next x : u32 (x + 1) <> x.
Proof. unfold u32. intros E. pose proof (Z.mod_pos_bound (x + 1) (2 ^ 32) ltac:(lia)). pose proof (Z.div_mod (x + 1) (2 ^ 32) ltac:(lia)). lia. Qed.
Lemma tick_msg env c : nn c ->
  map read_message (io_tick_log (t_now env (io_oid c)) (t_hook env (io_oid c)) c) = tick_reads env c.
Proof.
  intros (A & _ & B & C & _). unfold tick_reads, timed_out, ticked, io_tick, io_tick_log. cbv zeta.
  destruct (_ <? _); [cbn [map fst]; now rewrite read_timeout|].
  destruct (_ <=? _); [|cbn [fst io_o2tSeq io_set_tick]; rewrite Z.eqb_refl; reflexivity].
  destruct (io_o2tFixed c && _) eqn:F.
  - cbn [fst io_o2tSeq io_set_tick map]. rewrite read_unsent by (assumption || apply zlen_nonneg).
    destruct (Z.eqb_spec (u32 (io_o2tSeq c + 1)) (io_o2tSeq c)) as [E|]; [now apply seq_next in E|]. reflexivity.
  - cbn [fst io_o2tSeq io_set_tick map]. rewrite Bool.andb_false_r. unfold send_check. destruct (_ <? _); reflexivity.
Qed.
Lemma ticks_msg_ok env : forall l ks l' ev, (forall k c, In (k, c) l -> nn c) -> ticks env l = (Ok ks, l', ev) ->
  map read_message (ticks_log env l) = flat_map (fun e => tick_reads env (snd e)) l
  /\ ks = keys (filter (fun e => timed_out env (snd e)) l)
  /\ l' = map (fun e => (fst e, snd (fst (ticked env (snd e))))) l
  /\ ev = flat_map (fun e => snd (ticked env (snd e))) l.
Proof.
  induction l as [|[k c] l IH]; intros ks l' ev N E; cbn [ticks] in E; [inv E; auto|].
  cbv zeta in E. fold (ticked env c) in E. cbn [ticks_log]. cbv zeta. fold (ticked env c).
  pose proof (tick_msg env c (N k c (or_introl eq_refl))) as T. rewrite map_app, T.
  assert (To : timed_out env c = match fst (fst (ticked env c)) with Ok false => true | _ => false end) by reflexivity.
  cbn [filter map flat_map fst snd]. rewrite To.
  destruct (ticked env c) as [[[b|?|?|] c'] evc]; try discriminate. cbn [fst snd] in *.
  destruct (ticks env l) as [[res l1] ev1]. destruct res as [ks1|?|?|]; cbn [omap bind] in E; inv E.
  destruct (IH _ _ _ (fun k c I => N k c (or_intror I)) eq_refl) as (A & B & C & D). rewrite A, <- C, <- D.
  repeat split. destruct b; cbn [keys map fst]; now rewrite B.
Qed.
(** Any outcome: timeouts. *)
Lemma timeouts_app a b : timeouts (a ++ b) = timeouts a ++ timeouts b.
Proof. apply flat_map_app. Qed.
Lemma timeouts_reads l : timeouts l = flat_map (fun x => match x with STimedOut n => [n] | _ => [] end) (map read_message l).
Proof. unfold timeouts. rewrite flat_map_concat_map, flat_map_concat_map, map_map. reflexivity. Qed.
Lemma tick_timeouts env c : flat_map (fun x => match x with STimedOut n => [n] | _ => [] end) (tick_reads env c)
  = if timed_out env c then [io_serial c] else [].
Proof. unfold tick_reads. destruct (ticked env c) as [[o c'] ev]. destruct (timed_out env c); [reflexivity|]. destruct (_ && _); reflexivity. Qed.
Lemma ticks_timeouts env (f : nat -> option Z) : forall l res l' ev, (forall k c, In (k, c) l -> nn c /\ f (io_oid c) = Some (io_serial c)) ->
  ticks env l = (res, l', ev) -> map Some (timeouts (ticks_log env l)) = map f (closings ev).
Proof.
  induction l as [|[k c] l IH]; intros res l' ev N E; cbn [ticks] in E; [inv E; reflexivity|].
  cbv zeta in E. fold (ticked env c) in E. cbn [ticks_log]. cbv zeta. fold (ticked env c).
  destruct (N k c (or_introl eq_refl)) as [Nc Fc]. rewrite timeouts_app, timeouts_reads, (tick_msg env c Nc), tick_timeouts.
  pose proof (tick_closings env c) as Tc.
  assert (H1 : map Some (if timed_out env c then [io_serial c] else []) = map f (closings (snd (ticked env c)))).
  { rewrite Tc. destruct (timed_out env c); cbn [map]; [now rewrite Fc|reflexivity]. }
  rewrite map_app, H1. clear H1 Tc.
  destruct (ticked env c) as [[[b|?|?|] c'] evc]; cbn [fst snd] in *;
    [|inv E; cbn [timeouts flat_map map]; now rewrite app_nil_r..].
  destruct (ticks env l) as [[res1 l1] ev1]. inv E. rewrite closings_app, map_app. f_equal.
  eapply IH; [|reflexivity]. intros k1 c1 I. apply (N k1). now right.
Qed.

(** ** handleConnections *)
Lemma handle_plain h rounds ending env m l :
  plain (handle_connections_logged h rounds ending env (m, l)) = handle_connections h rounds ending env m.
Proof.
  unfold handle_connections_logged, handle_connections, st_bind. cbn [fst].
  pose proof (select_plain h ending rounds (List.length (m_socks m)) (m, l)) as P. unfold plain in P. cbn [fst] in P.
  destruct (bs_select (fun _ => on_readable_logged h) _ _ _ _) as [o [m1 l1]]. cbn [fst snd] in P. rewrite <- P.
  destruct o as [[]|?|?|]; [|reflexivity..]. destruct (run_ticks env m1) as [o m2]. reflexivity.
Qed.
Lemma call_plain {S} h (op : call S) w l o w' l' : call_logged h op (w, l) = (o, (w', l')) -> call_mgr h op w = (o, w').
Proof.
  destruct w as [[g m] s]. destruct op as [use8 si host env large c|use8 si oid|rounds ending env|oid d];
    unfold call_logged, call_mgr; intros E.
  - destruct (forward_open _ _ _ _ _ _ _ _) as [o1 w1]. now inv E.
  - destruct (forward_close _ _ _ _ _) as [o1 [m1 s1]]. now inv E.
  - pose proof (handle_plain h rounds ending env m l) as P. unfold plain in P.
    destruct (handle_connections_logged _ _ _ _ _) as [o1 [m1 l1]]. cbn [fst snd] in P. rewrite <- P. now inv E.
  - now inv E.
Qed.

Definition is_data (e : event) : Prop := match e with EvData _ _ _ _ => True | _ => False end.
Definition seqs (l : list (Z * iocon)) := map (fun e => (io_oid (snd e), io_o2tId (snd e), io_o2tSize (snd e), io_o2tSeq (snd e))) l.
Definition calm (m0 m : mgr) : Prop := seqs (m_map m) = seqs (m_map m0) /\ exists ev, m_log m = m_log m0 ++ ev /\ Forall is_data ev.
Lemma receive_calm h c data c' ev : io_receive h c data = Ok (c', ev) ->
  (io_oid c', io_o2tId c', io_o2tSize c', io_o2tSeq c') = (io_oid c, io_o2tId c, io_o2tSize c, io_o2tSeq c) /\ Forall is_data ev.
Proof.
  unfold io_receive. intros E. cbv zeta in E. apply bind_Ok in E as ([hd b1] & _ & E).
  apply bind_Ok in E as ([sq b2] & _ & E). destruct (negb (buf_valid b2)); [discriminate|].
  destruct (_ && _); inv E; split; try reflexivity; constructor; [exact Logic.I|constructor].
Qed.
Lemma update_seqs k c c' l : NoDup (keys l) -> map_find k l = Some c ->
  (io_oid c', io_o2tId c', io_o2tSize c', io_o2tSeq c') = (io_oid c, io_o2tId c, io_o2tSize c, io_o2tSeq c) ->
  seqs (map_update k c' l) = seqs l.
Proof.
  intros Nd F E. unfold seqs, map_update. rewrite map_map. apply map_ext_in. intros [k1 c1] I. cbn [fst].
  destruct (Z.eqb_spec k1 k) as [->|]; [|reflexivity]. cbn [snd]. apply (find_iff _ _ _ Nd) in I.
  assert (c1 = c) by congruence. subst c1. exact E.
Qed.
Lemma readable_calm g h d m0 m : mgr_inv g m -> calm m0 m -> calm m0 (snd (on_readable h d m)).
Proof.
  intros I Q. pose proof Q as (Qs & ev0 & Ql & Qc).
  unfold on_readable. destruct (fst _) as [data|e|u|]; [|exact Q..].
  match goal with |- context [match ?x with Ok _ => _ | Throw _ => _ | Undef _ => _ | Abort => _ end] => destruct x as [m1|e|u|] eqn:E end; [|exact Q..].
  cbn [snd]. apply bind_Ok in E as (items & _ & E). destruct (nth_error items 0) as [i0|]; [|discriminate].
  apply bind_Ok in E as ([id b] & _ & E). cbv zeta in E. destruct (map_find _ _) as [c|] eqn:F; [|inv E; exact Q].
  destruct (nth_error items 1) as [i1|]; [|discriminate]. apply bind_Ok in E as ([c' ev] & R & E). inv E.
  apply receive_calm in R as [R1 R2]. split.
  - cbn [add_log set_map m_map]. rewrite (update_seqs _ c); [exact Qs| |assumption|assumption].
    apply sorted_nodup. exact (mi_sorted g m I).
  - exists (ev0 ++ ev). cbn [add_log set_map m_log]. rewrite Ql, app_assoc. split; [reflexivity|]. apply Forall_app. auto.
Qed.
Lemma select_calm g h rounds ending m : mgr_inv g m ->
  calm m (snd (bs_select (fun _ : nat => on_readable h) (List.length (m_socks m)) rounds ending m)).
Proof.
  intros I. pose proof (select_keeps (fun w => quiet m w /\ calm m w) (fun _ : nat => on_readable h) (List.length (m_socks m)) rounds ending m) as K.
  destruct K as [_ K]; [| |exact K].
  - intros _ d w [Q C]. assert (Iw : mgr_inv g w) by (destruct Q as [Q _]; eapply statics_inv; eauto).
    split; [now apply (readable_quiet g)|now apply (readable_calm g)].
  - split; [apply quiet_refl|]. split; [reflexivity|]. exists []. rewrite app_nil_r. split; [reflexivity|constructor].
Qed.

(** The loop over the connections, if it gets to its end. *)
Lemma ticks_lock g env m ks l' ev : mgr_inv g m -> ticks env (m_map m) = (Ok ks, l', ev) ->
  l' = map (fun e => (fst e, snd (fst (ticked env (snd e))))) (m_map m) ->
  ks = keys (filter (fun e => timed_out env (snd e)) (m_map m)) ->
  forall k c, In (k, c) (m_map m) ->
  lock (io_oid c) (snd (run_ticks env m)) = if timed_out env c then None else Some (snd (fst (ticked env c))).
Proof.
  intros I E L K k c J. pose proof (run_ticks_inv g env m I) as I'. unfold run_ticks in *. rewrite E in *. cbn [snd] in *.
  pose proof (sorted_nodup _ (mi_sorted g m I)) as Nd.
  assert (St : forall c, io_static (snd (fst (ticked env c))) = io_static c) by (intros; apply tick_static).
  assert (Kt : In k ks <-> timed_out env c = true).
  { subst ks. unfold keys. rewrite in_map_iff. split.
    - intros ([k2 c2] & E2 & J2). cbn [fst] in E2. subst k2. apply filter_In in J2 as [J2 T2]. cbn [snd] in T2.
      apply (find_iff _ _ _ Nd) in J2. apply (find_iff _ _ _ Nd) in J. congruence.
    - intros T. exists (k, c). split; [reflexivity|]. apply filter_In. auto. }
  destruct (timed_out env c) eqn:T.
  - apply lock_none. intros X. unfold oids in X. apply in_map_iff in X as ([k2 c2] & Eo & X). cbn [snd] in Eo.
    cbn [set_map m_map add_log] in X. apply fold_erase_in in X as [X Y]. cbn [fst] in Y. rewrite L in X.
    apply in_map_iff in X as ([k3 c3] & E3 & X). cbn [fst snd] in E3. inv E3.
    rewrite (static_oid _ _ (St c3)) in Eo.
    pose proof (lock_some g m _ _ I X) as L1. pose proof (lock_some g m _ _ I J) as L2. rewrite Eo in L1.
    assert (c3 = c) by congruence. subst c3. rewrite (mi_key g m I _ _ X), <- (mi_key g m I _ _ J) in Y.
    apply Y. now apply Kt.
  - apply (lock_iff g _ _ _ I'). split; [apply static_oid, St|]. cbn [set_map m_map add_log]. apply fold_erase_in. split.
    + rewrite L. apply in_map_iff. exists (k, c). split; [|assumption]. cbn [fst snd].
      rewrite (static_t2o _ _ (St c)), <- (mi_key g m I _ _ J). reflexivity.
    + cbn [fst]. rewrite (static_t2o _ _ (St c)), <- (mi_key g m I _ _ J). intros Q. apply Kt in Q. discriminate.
Qed.

Lemma has_sent_app o a b : has_sent o (a ++ b) = has_sent o a || has_sent o b.
Proof. apply existsb_app. Qed.
Lemma data_not_sent o ev : Forall is_data ev -> has_sent o ev = false.
Proof. induction 1 as [|e ev D _ IH]; [reflexivity|]. cbn [has_sent existsb]. destruct e; try contradiction. exact IH. Qed.
Lemma tick_sent env c o : timed_out env c = false ->
  has_sent o (snd (ticked env c)) = Nat.eqb (io_oid c) o && negb match snd (ticked env c) with [] => true | _ => false end.
Proof.
  unfold timed_out, ticked, io_tick. cbv zeta. destruct (_ <? _); [discriminate|]. destruct (_ <=? _); [|intros _; cbn; now rewrite Bool.andb_false_r].
  destruct (io_o2tFixed c && _); intros _; cbn [snd has_sent existsb]; [now rewrite Bool.andb_false_r|].
  now rewrite Bool.orb_false_r, Bool.andb_true_r.
Qed.
Lemma tick_sent_out env c o : timed_out env c = true -> has_sent o (snd (ticked env c)) = false.
Proof.
  unfold timed_out, ticked, io_tick. cbv zeta. destruct (_ <? _); [reflexivity|]. destruct (_ <=? _); [|discriminate].
  destruct (io_o2tFixed c && _); [discriminate|]. cbn [fst]. unfold send_check. destruct (_ <? _); discriminate.
Qed.
Lemma others_sent env o : forall l, ~ In o (oids l) -> has_sent o (flat_map (fun e => snd (ticked env (snd e))) l) = false.
Proof.
  induction l as [|[k c] l IH]; intros N; [reflexivity|]. cbn [flat_map snd]. rewrite has_sent_app, IH by (intros X; apply N; now right).
  rewrite Bool.orb_false_r. destruct (timed_out env c) eqn:T; [now apply tick_sent_out|]. rewrite tick_sent by assumption.
  destruct (Nat.eqb_spec (io_oid c) o) as [E|]; [|reflexivity]. exfalso. apply N. now left.
Qed.
Lemma all_sent env k c : forall l, NoDup (oids l) -> In (k, c) l ->
  has_sent (io_oid c) (flat_map (fun e => snd (ticked env (snd e))) l) = has_sent (io_oid c) (snd (ticked env c)).
Proof.
  induction l as [|[k1 c1] l IH]; intros Nd I; [contradiction|]. cbn [flat_map snd]. rewrite has_sent_app.
  unfold oids in Nd. cbn [map snd] in Nd. inversion Nd as [|x y N1 N2]. subst. destruct I as [I|I].
  - inv I. rewrite others_sent by assumption. now rewrite Bool.orb_false_r.
  - rewrite IH by assumption. assert (X : io_oid c1 <> io_oid c).
    { intros E. apply N1. rewrite E. apply in_map_iff. now exists (k, c). }
    destruct (timed_out env c1) eqn:T; [now rewrite tick_sent_out|]. rewrite tick_sent by assumption.
    destruct (Nat.eqb_spec (io_oid c1) (io_oid c)); [contradiction|reflexivity].
Qed.

(** ** Which connections are open *)
Definition apply_said (l : list said) (open : list (Z * Z)) : list (Z * Z) := fold_left after_said l open.
Lemma apply_app a b open : apply_said (a ++ b) open = apply_said b (apply_said a open).
Proof. apply fold_left_app. Qed.
Lemma clear_app a : forall b open, clear open (a ++ b) <-> clear open a /\ clear (apply_said a open) b.
Proof. induction a as [|x a IH]; intros b open; cbn [app clear apply_said fold_left]; [tauto|]. rewrite IH. unfold apply_said. tauto. Qed.
Definition gone (x : said) : list Z := match x with STimedOut n => [n] | _ => [] end.
Definition closing_only (x : said) : Prop := match x with SOpened _ _ _ | SRefused _ | SClosing _ => False | _ => True end.
Lemma apply_closing l : forall open, Forall closing_only l ->
  apply_said l open = filter (fun e => negb (existsb (Z.eqb (snd e)) (flat_map gone l))) open.
Proof.
  induction l as [|x l IH]; intros open F; cbn [apply_said fold_left flat_map].
  - induction open as [|e open IHo]; [reflexivity|]. cbn [filter existsb negb]. now f_equal.
  - inversion F as [|a b Fx Fl]. subst. change (fold_left after_said l (after_said open x)) with (apply_said l (after_said open x)).
    rewrite IH by assumption. destruct x; try contradiction; cbn [after_said gone app]; try reflexivity.
    clear. induction open as [|e open IHo]; [reflexivity|]. cbn [filter existsb].
    destruct (snd e =? serial); cbn [orb negb]; [exact IHo|]. cbn [filter]. now rewrite IHo.
Qed.

Lemma perm_filter {A} (f : A -> bool) l l' : Permutation l l' -> Permutation (filter f l) (filter f l').
Proof.
  induction 1; cbn [filter]; repeat match goal with |- context [if ?b then _ else _] => destruct b end;
    try (constructor; assumption); try assumption; try apply Permutation_refl; try constructor.
  eapply perm_trans; eauto.
Qed.
Lemma insert_perm k c l : ~ In k (keys l) -> Permutation (map_insert k c l) ((k, c) :: l).
Proof.
  induction l as [|[k1 c1] l IH]; intros N; cbn [map_insert]; [apply Permutation_refl|].
  destruct (k <? k1); [apply Permutation_refl|]. destruct (Z.eqb_spec k k1) as [->|]; [exfalso; apply N; now left|].
  eapply perm_trans; [apply perm_skip, IH|apply perm_swap]. intros X. apply N. now right.
Qed.
Definition conn_of (e : Z * iocon) : Z * Z := (io_t2oId (snd e), io_serial (snd e)).
Lemma connections_statics m m' : statics (m_map m') = statics (m_map m) -> connections m' = connections m.
Proof.
  unfold connections, statics. generalize (m_map m). generalize (m_map m'). clear.
  induction l as [|[k c] l IH]; intros [|[k1 c1] l1] E; try discriminate; [reflexivity|]. cbn [map fst snd] in *.
  unfold io_static in E at 1 3. injection E. clear E. intros. f_equal; [congruence|]. apply IH. assumption.
Qed.
Lemma connections_log m e : connections (add_log m e) = connections m.
Proof. reflexivity. Qed.

Lemma map_filter_comm {A B} (f : A -> B) (p : B -> bool) l : filter p (map f l) = map f (filter (fun x => p (f x)) l).
Proof. induction l as [|x l IH]; [reflexivity|]. cbn [map filter]. destruct (p (f x)); cbn [map]; now rewrite IH. Qed.
Lemma fold_erase_filter ks : forall l, fold_left (fun l k => map_erase k l) ks l = filter (fun e : Z * iocon => negb (existsb (Z.eqb (fst e)) ks)) l.
Proof.
  induction ks as [|k ks IH]; intros l; cbn [fold_left].
  - induction l as [|e l IHl]; [reflexivity|]. cbn [filter existsb negb]. now f_equal.
  - rewrite IH. unfold map_erase. clear. induction l as [|e l IHl]; [reflexivity|]. cbn [filter existsb].
    destruct (fst e =? k); cbn [orb negb]; [exact IHl|]. cbn [filter]. now rewrite IHl.
Qed.
(** In a list with distinct values of [f], having the value of a chosen element
    means being chosen. *)
Lemma chosen {A} (f : A -> Z) (p : A -> bool) l : NoDup (map f l) -> forall x, In x l ->
  existsb (Z.eqb (f x)) (map f (filter p l)) = p x.
Proof.
  intros Nd x I. apply Bool.eq_iff_eq_true. rewrite existsb_exists. split.
  - intros (v & J & E). apply Z.eqb_eq in E. apply in_map_iff in J as (y & Ey & J). apply filter_In in J as [J P].
    assert (y = x); [|now subst]. assert (Efy : f y = f x) by congruence. clear E Ey P v.
    induction l as [|z l IH]; [contradiction|]. cbn [map] in Nd. inversion Nd as [|a b N1 N2]. subst.
    destruct I as [->|I], J as [->|J]; auto.
    + exfalso. apply N1. rewrite <- Efy. now apply in_map.
    + exfalso. apply N1. rewrite Efy. now apply in_map.
  - intros P. exists (f x). split; [|apply Z.eqb_refl]. apply in_map. apply filter_In. auto.
Qed.

Record agree (g : globals) (m : mgr) (open : list (Z * Z)) : Prop := {
  ag_inv : mgr_inv g m; ag_nums : nums m; ag_perm : Permutation open (connections m); ag_nodup : NoDup (map snd open) }.

Lemma agree_statics g m m' open : agree g m open -> statics (m_map m') = statics (m_map m) -> agree g m' open.
Proof.
  intros [A B C D] E. constructor; [eapply statics_inv; eauto|eapply nums_statics; eauto|now rewrite (connections_statics _ _ E)|assumption].
Qed.
Lemma dull_closing l : Forall dull l -> Forall closing_only l /\ flat_map gone l = [].
Proof. induction 1 as [|x l D _ [A B]]; [split; [constructor|reflexivity]|]. destruct x; try contradiction; split; try (constructor; auto; exact Logic.I); exact B. Qed.
Lemma filter_true {A} (l : list A) : filter (fun _ => true) l = l.
Proof. induction l as [|x l IH]; [reflexivity|]. cbn [filter]. now rewrite IH. Qed.
Lemma apply_dull l open : Forall dull l -> apply_said l open = open.
Proof. intros D. apply dull_closing in D as [A B]. rewrite apply_closing, B by assumption. cbn [existsb negb]. apply filter_true. Qed.
Lemma tick_reads_closing env l : Forall closing_only (flat_map (fun e : Z * iocon => tick_reads env (snd e)) l)
  /\ flat_map gone (flat_map (fun e => tick_reads env (snd e)) l) = map (fun e => io_serial (snd e)) (filter (fun e => timed_out env (snd e)) l).
Proof.
  induction l as [|[k c] l [A B]]; [split; [constructor|reflexivity]|]. cbn [flat_map snd filter].
  assert (T : Forall closing_only (tick_reads env c) /\ flat_map gone (tick_reads env c) = if timed_out env c then [io_serial c] else []).
  { unfold tick_reads. destruct (ticked env c) as [[o c'] ev]. destruct (timed_out env c); [|destruct (_ && _)]; cbn; auto;
      split; try reflexivity; constructor; try exact Logic.I; constructor. }
  destruct T as [T1 T2]. split; [apply Forall_app; auto|]. rewrite flat_map_app, B, T2. destruct (timed_out env c); reflexivity.
Qed.
Lemma ticks_agree g env m m' open : agree g m open -> run_ticks env m = (Ok tt, m') ->
  agree g m' (apply_said (map read_message (ticks_log env (m_map m))) open).
Proof.
  intros [I N P D] E. pose proof (run_ticks_inv g env m I) as I'. pose proof (run_ticks_nums env m N) as N'.
  rewrite E in I', N'. cbn [snd] in *.
  pose proof (ticks_static env (m_map m)) as St.
  unfold run_ticks in E. destruct (ticks env (m_map m)) as [[res l'] ev] eqn:T. destruct res as [ks|?|?|]; inv E.
  destruct (ticks_msg_ok env _ _ _ _ N T) as (R & K & L & _). rewrite R. clear R.
  destruct (tick_reads_closing env (m_map m)) as [F G]. rewrite apply_closing, G by assumption.
  constructor; try assumption.
  2:{ apply nodup_filter. assumption. }
  eapply perm_trans; [apply perm_filter, P|]. unfold connections at 1. rewrite map_filter_comm. cbn [snd].
  unfold connections. cbn [set_map add_log m_map]. rewrite fold_erase_filter.
  assert (Q : map (fun e : Z * iocon => (io_t2oId (snd e), io_serial (snd e))) (filter (fun e => negb (existsb (Z.eqb (fst e)) ks)) l')
    = map (fun e : Z * iocon => (io_t2oId (snd e), io_serial (snd e))) (filter (fun e => negb (existsb (Z.eqb (fst e)) ks)) (m_map m))).
  { clear - St. revert St. generalize (m_map m). induction l' as [|[k c] l' IH]; intros [|[k1 c1] l1] E; try discriminate; [reflexivity|].
    cbn [statics map fst snd] in E. unfold io_static in E at 1 3. injection E. clear E. intros. cbn [filter fst].
    match goal with H : k = k1 |- _ => rewrite H end. destruct (negb _); [|apply IH; assumption]. cbn [map snd].
    f_equal; [congruence|]. apply IH. assumption. }
  rewrite Q. clear Q.
  rewrite (filter_ext_in (fun e : Z * iocon => negb (existsb (Z.eqb (fst e)) ks)) (fun e => negb (timed_out env (snd e)))).
  2:{ intros e J. f_equal. rewrite K. apply (chosen fst (fun e => timed_out env (snd e))); [|assumption].
      apply sorted_nodup. exact (mi_sorted g m I). }
  rewrite (filter_ext_in (fun e : Z * iocon => negb (existsb (Z.eqb (io_serial (snd e))) (map _ _))) (fun e => negb (timed_out env (snd e)))).
  2:{ intros e J. f_equal. apply (chosen (fun e => io_serial (snd e)) (fun e => timed_out env (snd e))); [|assumption].
      apply (Permutation_map snd) in P. apply (Permutation_NoDup P) in D. unfold connections in D. rewrite map_map in D. exact D. }
  apply Permutation_refl.
Qed.

Lemma open_log_ok {S} h use8 (si : session_if S) host env large c g m (s : S) a w' :
  forward_open h use8 si host env large c (g, m, s) = (Ok a, w') ->
  exists g1 resp g' m' s', w' = (g', m', s') /\ fo_answer h env host large c resp (g1, m) = (Ok a, (g', m'))
  /\ forward_open_log h use8 si host env large c (g, m, s) = request_message (fo_service large) CM_PATH :: fo_answer_log h env host c resp m.
Proof.
  unfold forward_open, forward_open_log. destruct (fo_prepare large (m_inc m) c g) as [[c' g1]|?|?|]; try discriminate.
  destruct (fo_request large c') as [data|?|?|]; try discriminate.
  destruct (send_request _ _ _ _ _ _ _ _) as [[resp|?|?|] s1]; try discriminate. cbn [fst].
  destruct (fo_answer _ _ _ _ _ _ _) as [o1 [g2 m2]] eqn:A. intros E. inv E.
  exists g1, resp, g2, m2, s1. repeat split; assumption.
Qed.
Lemma answer_agree h env host large c resp g0 g m a g' m' open new : agree g0 m open ->
  fo_answer h env host large c resp (g, m) = (Ok a, (g', m')) -> new = map read_message (fo_answer_log h env host c resp m) ->
  clear open new -> mgr_inv g' m' -> nums m' -> agree g' m' (apply_said new open).
Proof.
  intros [I N P D] E W C I' N'. constructor; try assumption; subst new; revert E C; unfold fo_answer, fo_answer_log.
  all: destruct (negb (r_status resp =? 0)); [intros E; inv E; intros _; cbn [map]; rewrite read_status; assumption|].
  all: destruct (fo_expand h (r_data resp)) as [r|?|?|] eqn:Er; cbn [bind]; try discriminate.
  all: destruct (fo_multiplier (c_multiplier c)) as [mult|?|?|]; cbn [bind]; try discriminate.
  all: destruct (fo_dest h (v_aton env) host (r_items resp)) as [dest|?|?|]; cbn [bind]; try discriminate.
  all: destruct (checked (v_udp env)) as [?|?|?|]; cbn [bind]; try discriminate.
  all: cbv zeta; destruct (find_or_create_socket _ _ _) as [[?|?|?|] m1] eqn:F; try discriminate.
  all: apply socket_frame in F as (_ & M & _); rewrite M; intros E; inv E; apply expand_nn in Er as (Ro & Rt & Rs).
  all: cbn [map]; rewrite read_opened, read_socket by assumption.
  all: destruct (map_find (u16 (f_t2oId r)) (m_map m)) as [c0|] eqn:Fi; cbn [map].
  all: rewrite ?read_refused by (reflexivity || assumption); unfold apply_said; cbn [fold_left after_said clear]; intros C.
  - rewrite removelast_last. unfold connections. cbn [set_map m_map].
    rewrite insert_same; [exact P|exact (mi_sorted g0 m I)|]. apply find_in in Fi. eapply in_keys; eauto.
  - apply find_none in Fi. eapply perm_trans; [apply Permutation_app_comm|]. cbn [app].
    unfold connections. cbn [set_map m_map]. eapply perm_trans; [|apply Permutation_sym, Permutation_map, insert_perm, Fi].
    cbn [map snd fo_connection io_t2oId io_serial]. apply perm_skip. exact P.
  - now rewrite removelast_last.
  - destruct C as [C _]. rewrite map_app. cbn [map snd]. apply nodup_app; [assumption|constructor; [intros []|constructor]|].
    intros x X [<-|[]]. contradiction.
Qed.
Lemma close_agree {S} h use8 (si : session_if S) g m (s : S) oid a m' s' open : agree g m open ->
  forward_close h use8 si (lock oid m) (m, s) = (Ok a, (m', s')) -> mgr_inv g m' -> nums m' ->
  agree g m' (apply_said (map read_message (forward_close_log h use8 si (lock oid m) s)) open).
Proof.
  intros [I N P D] E I' N'. constructor; try assumption; revert E; unfold forward_close, forward_close_log;
    destruct (lock oid m) as [c|] eqn:Lk; try (intros E; inv E; cbn [map]; rewrite read_attempt; assumption).
  all: pose proof Lk as L0; apply (lock_iff g) in L0 as [Eo J]; [|assumption]; pose proof (N _ _ J) as Nc.
  all: destruct (send_request _ _ _ _ _ _ _ _) as [[resp|?|?|] s1]; cbv zeta; try discriminate; intros E; injection E as E1 E2 E3.
  all: cbn [map fst]; rewrite read_closing, read_request by apply Nc.
  all: destruct (negb (r_status resp =? 0)); cbn [map]; rewrite ?read_failed; unfold apply_said; cbn [fold_left after_said].
  1,2: subst m'; unfold connections; cbn [set_map m_map]; eapply perm_trans; [apply perm_filter, P|];
    unfold connections; rewrite map_filter_comm; unfold map_erase; cbn [fst];
    (erewrite filter_ext_in; [apply Permutation_refl|]); intros [k1 c1] J1; cbn [snd fst]; f_equal;
    destruct (Z.eqb_spec (io_t2oId c1) (io_t2oId c)) as [Ei|Ni];
    [rewrite (mi_key g m I _ _ J1), Ei; symmetry; apply Z.eqb_refl
    |destruct (Z.eqb_spec k1 (u16 (io_t2oId c))) as [Ek|]; [|reflexivity]; subst k1;
     pose proof (sorted_nodup _ (mi_sorted g m I)) as Nd; apply (find_iff _ _ _ Nd) in J1; apply (find_iff _ _ _ Nd) in J; congruence].
  all: apply nodup_filter; assumption.
Qed.

Lemma call_agree {S} h (op : call S) g m s l a g' m' s' l' open : agree g m open ->
  call_logged h op (g, m, s, l) = (Ok a, (g', m', s', l')) ->
  exists new, l' = l ++ new /\ (clear open (map read_message new) -> agree g' m' (apply_said (map read_message new) open)).
Proof.
  intros A E. pose proof A as [I N P D]. pose proof (call_plain _ _ _ _ _ _ _ E) as C.
  pose proof (call_inv _ _ _ _ _ _ _ _ _ I C) as [I' _]. pose proof (call_nums _ _ _ _ _ _ _ _ _ I N C) as N'. clear C.
  unfold call_logged in E. destruct op as [use8 si host env large c|use8 si oid|rounds ending env|oid d].
  - remember (forward_open_log h use8 si host env large c (g, m, s)) as lg eqn:Lg.
    destruct (forward_open _ _ _ _ _ _ _ _) as [o1 w1] eqn:F. injection E as -> -> <-.
    apply open_log_ok in F as (g1 & resp & g2 & m2 & s2 & E & F & L). rewrite L in Lg. subst lg. inv E. eexists. split; [reflexivity|].
    cbn [map clear]. rewrite read_request. cbn [after_said]. intros [_ C]. unfold apply_said. cbn [fold_left after_said].
    exact (answer_agree h env host large c resp g g1 m a g2 m2 open _ A F eq_refl C I' N').
  - destruct (forward_close _ _ _ _ _) as [[o1|?|?|] [m1 s1]] eqn:F; cbn [omap bind] in E; try discriminate. inv E.
    eexists. split; [reflexivity|]. intros _. eapply close_agree; eauto.
  - destruct (handle_connections_logged _ _ _ _ _) as [[o1|?|?|] [m1 l1]] eqn:F; cbn [omap bind] in E; try discriminate. inv E.
    unfold handle_connections_logged, st_bind in F. cbn [fst] in F.
    destruct (select_dull g' h rounds ending (List.length (m_socks m)) m l I N) as (new & L & Du).
    pose proof (select_plain h ending rounds (List.length (m_socks m)) (m, l)) as Pl. unfold plain in Pl. cbn [fst] in Pl.
    destruct (bs_select (fun _ => on_readable_logged h) _ _ _ _) as [[[]|?|?|] [m2 l2]]; try discriminate. cbn [fst snd] in *. subst l2.
    pose proof (select_quiet g' h rounds ending m I) as Q. rewrite <- Pl in Q. cbn [snd] in Q. destruct Q as (Q & _).
    destruct (run_ticks env m2) as [o2 m3] eqn:T. inv F.
    exists (new ++ ticks_log env (m_map m2)). split; [now rewrite app_assoc|]. intros _. rewrite map_app, apply_app, (apply_dull _ open Du).
    destruct o1. apply ticks_agree; [|assumption]. eapply agree_statics; eauto.
  - inv E. exists []. rewrite app_nil_r. split; [reflexivity|]. intros _. cbn [map apply_said fold_left].
    eapply agree_statics; [exact A|]. cbn [set_output set_map m_map]. apply output_statics.
Qed.
Lemma call_grows {S} h (op : call S) g m s l o g' m' s' l' : call_logged h op (g, m, s, l) = (o, (g', m', s', l')) ->
  exists new, l' = l ++ new.
Proof.
  unfold call_logged. intros E. destruct op as [use8 si host env large c|use8 si oid|rounds ending env|oid d].
  - remember (forward_open_log h use8 si host env large c (g, m, s)) as lg. destruct (forward_open _ _ _ _ _ _ _ _) as [o1 w1].
    injection E as _ _ <-. eauto.
  - remember (forward_close_log h use8 si (lock oid m) s) as lg. destruct (forward_close _ _ _ _ _) as [o1 [m1 s1]]. inv E. eauto.
  - destruct (handle_connections_logged _ _ _ _ _) as [o1 [m1 l1]] eqn:F. inv E.
    unfold handle_connections_logged, st_bind in F. cbn [fst] in F.
    pose proof (select_keeps (fun w => exists new, snd w = l ++ new) (fun _ : nat => on_readable_logged h)
      (List.length (m_socks m)) rounds ending (m, l)) as K.
    destruct K as [new K].
    { intros _ d [m2 l2] [new L]. cbn [snd] in L. subst l2. unfold on_readable_logged. destruct (on_readable h d m2).
      cbn [snd]. rewrite <- app_assoc. eauto. }
    { exists []. now rewrite app_nil_r. }
    destruct (bs_select _ _ _ _ _) as [o2 [m2 l2]]. cbn [snd] in K. subst l2.
    destruct o2 as [[]|?|?|]; [|inv F; eauto..]. destruct (run_ticks env m2) as [o3 m3]. inv F. rewrite <- app_assoc. eauto.
  - inv E. exists []. now rewrite app_nil_r.
Qed.
Lemma calls_grow {S} h (ops : list (call S)) : forall g m s l os g' m' s' l',
  calls_logged h ops (g, m, s, l) = (os, (g', m', s', l')) -> exists new, l' = l ++ new.
Proof.
  induction ops as [|op ops IH]; intros g m s l os g' m' s' l' E; cbn [calls_logged] in E.
  - inv E. exists []. now rewrite app_nil_r.
  - destruct (call_logged h op (g, m, s, l)) as [o [[[g1 m1] s1] l1]] eqn:C. apply call_grows in C as [n1 ->].
    destruct (calls_logged h ops _) as [os1 [[[g2 m2] s2] l2]] eqn:Cs. inv E. apply IH in Cs as [n2 ->].
    rewrite <- app_assoc. eauto.
Qed.
Lemma calls_agree {S} h (ops : list (call S)) : forall g m s l os g' m' s' l' open new, agree g m open ->
  calls_logged h ops (g, m, s, l) = (os, (g', m', s', l')) -> Forall returned os -> l' = l ++ new ->
  clear open (map read_message new) -> agree g' m' (apply_said (map read_message new) open).
Proof.
  induction ops as [|op ops IH]; intros g m s l os g' m' s' l' open new A E R L Cl; cbn [calls_logged] in E.
  - injection E as <- <- <- <- <-. rewrite <- (app_nil_r l) in L at 1. apply app_inv_head in L. subst new. exact A.
  - destruct (call_logged h op (g, m, s, l)) as [o [[[g1 m1] s1] l1]] eqn:C.
    destruct (calls_logged h ops (g1, m1, s1, l1)) as [os1 [[[g2 m2] s2] l2]] eqn:Cs. inv E.
    inversion R as [|x y [a Ra] Rs]. subst. apply (call_agree h op g m s l a g1 m1 s1 l1 open A) in C as (new1 & -> & C).
    pose proof (calls_grow _ _ _ _ _ _ _ _ _ _ _ Cs) as [new2 L2]. rewrite <- app_assoc in L2. apply app_inv_head in L2. subst new.
    rewrite map_app, clear_app in Cl. destruct Cl as [Cl1 Cl2]. rewrite map_app, apply_app.
    refine (IH _ _ _ _ _ _ _ _ _ _ _ (C Cl1) Cs Rs _ Cl2). now rewrite app_assoc.
Qed.
Lemma log_tells {S} h (ops : list (call S)) g inc s os g' m' s' log :
  calls_logged h ops (g, mgr0 inc, s, []) = (os, (g', m', s', log)) -> Forall returned os ->
  clear [] (map read_message log) -> Permutation (told_open log) (connections m').
Proof.
  intros E R C. assert (A : agree g (mgr0 inc) []).
  { constructor; [apply inv_new|intros k c []|apply Permutation_refl|constructor]. }
  exact (ag_perm _ _ _ (calls_agree h ops g (mgr0 inc) s [] os g' m' s' log [] log A E R eq_refl C)).
Qed.
Lemma calls_plain {S} h (ops : list (call S)) : forall w l os w' l', calls_logged h ops (w, l) = (os, (w', l')) ->
  forall i W, w = (w_g W, w_m W i, w_s W) -> w' = (w_g (run_calls h (map (pair i) ops) W), w_m (run_calls h (map (pair i) ops) W) i, w_s (run_calls h (map (pair i) ops) W)).
Proof.
  induction ops as [|op ops IH]; intros w l os w' l' E i W EW; cbn [calls_logged] in E; cbn [map run_calls].
  - inv E. reflexivity.
  - destruct (call_logged h op (w, l)) as [o [w1 l1]] eqn:C. destruct (calls_logged h ops (w1, l1)) as [os1 [w2 l2]] eqn:Cs.
    injection E as _ <- _. apply call_plain in C. subst w. unfold call_world. rewrite C. destruct w1 as [[g1 m1] s1]. cbn [snd].
    eapply IH; [exact Cs|]. cbn [w_g w_m w_s]. unfold update. now rewrite Nat.eqb_refl.
Qed.

(** ** What one handleConnections logs *)
Lemma handle_timeouts g h rounds ending env m l o m' l' : mgr_inv g m -> nums m ->
  handle_connections_logged h rounds ending env (m, l) = (o, (m', l')) ->
  exists new ev, l' = l ++ new /\ m_log m' = m_log m ++ ev
  /\ map Some (timeouts new) = map (fun o => option_map io_serial (lock o m)) (closings ev).
Proof.
  intros I N F. unfold handle_connections_logged, st_bind in F. cbn [fst] in F.
  destruct (select_dull g h rounds ending (List.length (m_socks m)) m l I N) as (new & L & Du).
  pose proof (select_plain h ending rounds (List.length (m_socks m)) (m, l)) as Pl. unfold plain in Pl. cbn [fst] in Pl.
  pose proof (select_quiet g h rounds ending m I) as Q. rewrite <- Pl in Q. clear Pl.
  destruct (bs_select (fun _ => on_readable_logged h) _ _ _ _) as [o1 [m2 l2]]. cbn [fst snd] in *. subst l2.
  destruct Q as (Qs & _ & _ & ev & Ql & Qc).
  assert (T0 : timeouts new = []).
  { rewrite timeouts_reads. exact (proj2 (dull_closing _ Du)). }
  destruct o1 as [[]|?|?|]; try (injection F as <- <- <-; exists new, ev; rewrite T0, Qc; auto; fail).
  assert (I2 : mgr_inv g m2) by (eapply statics_inv; eauto). assert (N2 : nums m2) by (eapply nums_statics; eauto).
  destruct (run_ticks env m2) as [o3 m3] eqn:T. injection F as <- <- <-.
  exists (new ++ ticks_log env (m_map m2)). unfold run_ticks in T. destruct (ticks env (m_map m2)) as [[res lt] evt] eqn:Tk.
  assert (M3 : m_log m3 = m_log m2 ++ evt) by (destruct res; inv T; reflexivity).
  exists (ev ++ evt). split; [now rewrite app_assoc|]. split; [rewrite M3, Ql; now rewrite app_assoc|].
  rewrite timeouts_app, T0, closings_app, Qc. cbn [app].
  refine (ticks_timeouts env _ _ _ _ _ _ Tk). intros k c J. split; [exact (N2 k c J)|].
  destruct (statics_t2o _ _ _ _ Qs J) as (c0 & J0 & St).
  rewrite (static_oid _ _ St), (lock_some g m _ _ I J0). cbn [option_map]. f_equal.
  unfold io_static in St. injection St. intros. congruence.
Qed.
Lemma ticks_no_data env l : deliveries (flat_map (fun e : Z * iocon => snd (ticked env (snd e))) l) = [].
Proof.
  induction l as [|[k c] l IH]; [reflexivity|]. cbn [flat_map snd]. unfold deliveries in *. rewrite filter_app, IH, app_nil_r.
  unfold ticked, io_tick. cbv zeta. destruct (_ <? _); [reflexivity|]. destruct (_ <=? _); [|reflexivity]. destruct (_ && _); reflexivity.
Qed.
Definition complaining (x : said) : bool := match x with SUnknown _ | SIgnored _ _ _ => true | _ => false end.
Definition holding (x : said) : bool := match x with SUnsent _ _ _ => true | _ => false end.
Lemma tick_reads_parts env c : filter complaining (tick_reads env c) = [] /\ filter holding (tick_reads env c)
  = if timed_out env c then [] else
    if negb (io_o2tSeq (snd (fst (ticked env c))) =? io_o2tSeq c) && match snd (ticked env c) with [] => true | _ => false end
    then [SUnsent (io_o2tId c) (io_o2tSize c) (zlen (io_out (snd (fst (ticked env c)))))] else [].
Proof.
  unfold tick_reads. destruct (ticked env c) as [[o c'] ev]. cbn [fst snd]. destruct (timed_out env c); [auto|].
  destruct (_ && _); auto.
Qed.
Lemma held_seqs m' ev l l' : seqs l' = seqs l ->
  flat_map (fun e => held_back m' ev (snd e)) l' = flat_map (fun e => held_back m' ev (snd e)) l.
Proof.
  revert l. induction l' as [|[k c] l' IH]; intros [|[k1 c1] l] E; try discriminate; [reflexivity|].
  unfold seqs in E. cbn [map snd] in E. injection E. clear E. intros E E1 E2 E3 E4. cbn [flat_map snd].
  f_equal; [|now apply IH]. unfold held_back. now rewrite E1, E2, E3, E4.
Qed.
Lemma handle_returns g h rounds ending env m l m' l' : mgr_inv g m -> nums m ->
  handle_connections_logged h rounds ending env (m, l) = (Ok tt, (m', l')) ->
  exists new ev, l' = l ++ new /\ m_log m' = m_log m ++ ev
  /\ (List.length (deliveries ev) + List.length (complaints new))%nat = List.length (arrivals (List.length (m_socks m)) rounds)
  /\ List.length (announcements new) = List.length (arrivals (List.length (m_socks m)) rounds)
  /\ unsent new = flat_map (fun e => held_back m' ev (snd e)) (m_map m).
Proof.
  intros I N F. unfold handle_connections_logged, st_bind in F. cbn [fst] in F.
  destruct (select_dull g h rounds ending (List.length (m_socks m)) m l I N) as (new0 & L0 & Du).
  pose proof (select_plain h ending rounds (List.length (m_socks m)) (m, l)) as Pl. unfold plain in Pl. cbn [fst] in Pl.
  pose proof (select_quiet g h rounds ending m I) as Q. pose proof (select_calm g h rounds ending m I) as K. rewrite <- Pl in Q, K. clear Pl.
  destruct (bs_select (fun _ => on_readable_logged h) _ _ _ _) as [[[]|?|?|] [m2 l2]] eqn:B; try discriminate. cbn [fst snd] in *.
  apply (select_count g) in B; [|assumption..]. destruct B as (new & ev & L & E & C & An). rewrite L0 in L. apply app_inv_head in L. subst new0 l2.
  destruct Q as (Qs & _). destruct K as (Ks & ev' & Kl & Kd). rewrite E in Kl. apply app_inv_head in Kl. subst ev'.
  assert (I2 : mgr_inv g m2) by (eapply statics_inv; eauto). assert (N2 : nums m2) by (eapply nums_statics; eauto).
  destruct (run_ticks env m2) as [o3 m3] eqn:T. injection F as -> <- <-.
  pose proof T as T0. unfold run_ticks in T. destruct (ticks env (m_map m2)) as [[[ks|?|?|] lt] evt] eqn:Tk; try discriminate.
  destruct (ticks_msg_ok env _ _ _ _ N2 Tk) as (R & Kk & Lt & Et).
  assert (M3 : m_log m3 = m_log m2 ++ evt) by (inv T; reflexivity).
  pose proof (ticks_lock g env m2 ks lt evt I2 Tk Lt Kk) as Lk. rewrite T0 in Lk. cbn [snd] in Lk. clear T T0 Tk.
  exists (new ++ ticks_log env (m_map m2)), (ev ++ evt). split; [now rewrite app_assoc|].
  split; [rewrite M3, E; now rewrite app_assoc|]. split.
  - unfold complaints. rewrite map_app, R, filter_app, app_length.
    unfold deliveries. rewrite filter_app, app_length. fold (deliveries ev). fold (deliveries evt). fold (complaints new).
    rewrite Et, ticks_no_data. change (fun x => match x with SUnknown _ | SIgnored _ _ _ => true | _ => false end) with complaining.
    assert (X : filter complaining (flat_map (fun e : Z * iocon => tick_reads env (snd e)) (m_map m2)) = []).
    { clear. induction (m_map m2) as [|[k c] l IH]; [reflexivity|]. cbn [flat_map snd]. rewrite filter_app, IH, (proj1 (tick_reads_parts env c)). reflexivity. }
    rewrite X. cbn [List.length]. lia.
  - split; [unfold announcements in *; rewrite flat_map_app; fold (announcements (ticks_log env (m_map m2))); rewrite (shown_quiet _ (ticks_shown env _)), app_nil_r; exact An|].
    rewrite <- (held_seqs m3 (ev ++ evt) _ _ Ks). unfold unsent. rewrite map_app, R, filter_app.
    change (fun x => match x with SUnsent _ _ _ => true | _ => false end) with holding.
    assert (X : filter holding (map read_message new) = []).
    { clear - Du. induction Du as [|x l D _ IH]; [reflexivity|]. cbn [filter]. destruct x; try contradiction; exact IH. }
    rewrite X. cbn [app]. clear X.
    assert (X : forall l, (forall k c, In (k, c) l -> In (k, c) (m_map m2)) ->
      filter holding (flat_map (fun e : Z * iocon => tick_reads env (snd e)) l) = flat_map (fun e => held_back m3 (ev ++ evt) (snd e)) l).
    { intros l0; induction l0 as [|[k c] l1 IH]; intros S; [reflexivity|]. cbn [flat_map snd]. rewrite filter_app, IH by (intros; apply S; now right).
      f_equal. rewrite (proj2 (tick_reads_parts env c)). unfold held_back. pose proof (S k c (or_introl eq_refl)) as J.
      rewrite (Lk k c J). destruct (timed_out env c) eqn:To; [reflexivity|].
      rewrite has_sent_app, (data_not_sent _ _ Kd), Et, (all_sent env k c _ (mi_oids g m2 I2) J), (tick_sent env c _ To), Nat.eqb_refl.
      cbn [orb andb]. now rewrite Bool.negb_involutive. }
    apply X. auto.
Qed.

(** ** One datagram *)
Lemma log_items h l m i0 items X rest : is_bytes l -> carries l (i0 :: items) -> is_u32 X -> it_data i0 = le 4 X ++ rest ->
  readable_log h (Dgram l) m
  = notice X :: match map_find (u16 X) (m_map m) with
    | None => [(ERROR, "Received data from unknown connection T2O_ID=" ++ to_string X)%string]
    | Some c => match items with i1 :: _ => io_receive_log h c (it_data i1) | [] => [] end
    end.
Proof.
  intros B C V E. apply (carries_iff h) in C; [|assumption]. unfold readable_log.
  rewrite seen_udp. cbn [bind]. rewrite C. cbn [finished bind nth_error].
  rewrite E, buf_of_at, get_u32_le, u32_small by assumption. cbn [bind].
  destruct (map_find _ _) as [c|]; [|reflexivity]. destruct items; reflexivity.
Qed.
Lemma receive_log_at h c hdr seq data : is_u32 hdr -> is_u16 seq ->
  let d := (if io_t2oRTF c then le 4 hdr else []) ++ (if has_seq (io_trigger c) then le 2 seq else []) ++ data in
  io_receive_log h c d
  = if io_t2oFixed c && negb (zlen data =? io_t2oSize c)
    then [(WARNING, "Connection T2O_ID=" ++ to_string (io_t2oId c) ++ " has fixed size " ++ to_string (io_t2oSize c)
                      ++ " bytes but " ++ to_string (zlen data) ++ " bytes were received. Ignore this data.")%string]
    else [].
Proof.
  intros H S. cbv zeta. unfold io_receive_log. cbv zeta.
  set (a := if io_t2oRTF c then le 4 hdr else []). set (b := if has_seq (io_trigger c) then le 2 seq else []).
  rewrite buf_of_at.
  replace (if io_t2oRTF c then get_u32 h (at_ [] (a ++ b ++ data)) else Ok (0, at_ [] (a ++ b ++ data)))
    with (Ok (if io_t2oRTF c then hdr else 0, at_ a (b ++ data))).
  2:{ unfold a. destruct (io_t2oRTF c); [|reflexivity]. rewrite get_u32_le, u32_small by assumption. reflexivity. }
  cbn [bind].
  replace (if has_seq (io_trigger c) then get_u16 h (at_ a (b ++ data)) else Ok (0, at_ a (b ++ data)))
    with (Ok (if has_seq (io_trigger c) then seq else 0, at_ (a ++ b) data)).
  2:{ unfold b. destruct (has_seq (io_trigger c)); [|now rewrite app_nil_r]. rewrite get_u16_le, u16_small by assumption. reflexivity. }
  cbn [bind].
  replace (buf_valid (at_ (a ++ b) data)) with true
    by (symmetry; apply buf_valid_spec; unfold at_; cbn [bpos bdata]; rewrite !app_length; lia).
  cbn [negb]. unfold at_; cbn [bpos].
  replace (skipn (List.length (a ++ b)) (a ++ b ++ data)) with data; [reflexivity|].
  rewrite app_assoc. symmetry. apply skipn_app_exact.
Qed.

Lemma datagram_log g l m log m' log' : mgr_inv g m -> nums m -> is_bytes l ->
  on_readable_logged strict (Dgram l) (m, log) = (Ok tt, (m', log')) ->
  exists i0 items X rest new ev, carries l (i0 :: items) /\ is_u32 X /\ it_data i0 = le 4 X ++ rest
  /\ log' = log ++ notice X :: new /\ m_log m' = m_log m ++ ev
  /\ ((forall o c, lock o m = Some c -> u16 (io_t2oId c) <> u16 X) /\ map read_message new = [SUnknown X] /\ ev = []
      \/ exists c i1 items', lock (io_oid c) m = Some c /\ u16 (io_t2oId c) = u16 X /\ items = i1 :: items'
         /\ (((io_t2oFixed c = true -> zlen (it_data i1) - front c = io_t2oSize c) /\ new = []
              /\ exists hd sq, ev = [EvData (io_oid c) hd sq (skipn (Z.to_nat (front c)) (it_data i1))])
             \/ io_t2oFixed c = true /\ zlen (it_data i1) - front c <> io_t2oSize c /\ ev = []
                /\ map read_message new = [SIgnored (io_t2oId c) (io_t2oSize c) (zlen (it_data i1) - front c)])).
Proof.
  intros I N B E. unfold on_readable_logged in E. destruct (on_readable strict (Dgram l) m) as [o m1] eqn:R. injection E as -> -> <-.
  assert (H : harmless l m) by (apply (readable_ok_iff g l m I B); now rewrite R).
  destruct H as (i0 & items & X & rest & C & V & E0 & H).
  rewrite (log_items strict l m i0 items X rest B C V E0).
  rewrite (readable_items strict l m i0 items X rest B C V E0) in R.
  exists i0, items, X, rest. pose proof (sorted_nodup _ (mi_sorted g m I)) as Nd.
  destruct (map_find (u16 X) (m_map m)) as [c|] eqn:F.
  - pose proof (find_in _ _ _ F) as J. pose proof (lock_some g m _ _ I J) as Lk. pose proof (mi_key g m I _ _ J) as Ky.
    destruct (H _ _ Lk (eq_sym Ky)) as (i1 & items' & -> & Fr).
    assert (B1 : is_bytes (it_data i1)).
    { destruct C as (? & ? & _ & W & _). inversion W as [|? ? _ W']. inversion W' as [|? ? W1 _]. subst. apply W1. }
    rewrite <- front_len in Fr. assert (Hl : (head_len c <= List.length (it_data i1))%nat) by (unfold zlen in Fr; lia).
    destruct (receive_split c _ B1 Hl) as (hdr & seq & data & Vh & Vs & Ed & Es).
    assert (Z : zlen (it_data i1) - front c = zlen data).
    { rewrite Es, <- front_len. unfold zlen. rewrite skipn_length. lia. }
    pose proof (receive_order strict c hdr seq data Vh Vs) as O. pose proof (receive_log_at strict c hdr seq data Vh Vs) as Lg.
    cbv zeta in O, Lg. rewrite <- Ed in O, Lg. rewrite O in R. rewrite Lg.
    destruct (N _ _ J) as (_ & A & _ & _ & D).
    destruct (io_t2oFixed c) eqn:Fx; cbn [andb] in *; [destruct (Z.eqb_spec (zlen data) (io_t2oSize c)) as [Sz|Sz]; cbn [negb] in *|];
      injection R as <-; eexists; eexists; (split; [exact C|]); (split; [exact V|]); (split; [exact E0|]);
      (split; [reflexivity|]); (split; [reflexivity|]); right; exists c, i1, items'; (split; [exact Lk|]);
      (split; [now symmetry|]); (split; [reflexivity|]); rewrite Z.
    + left. split; [auto|]. split; [reflexivity|]. rewrite <- front_len, Nat2Z.id, <- Es. eauto.
    + right. split; [exact Fx|]. split; [assumption|]. split; [reflexivity|].
      cbn [map]. rewrite read_ignored; [reflexivity|assumption..|apply zlen_nonneg].
    + left. split; [congruence|]. split; [reflexivity|]. rewrite <- front_len, Nat2Z.id, <- Es. eauto.
  - injection R as <-. eexists. exists []. split; [exact C|]. split; [exact V|]. split; [exact E0|]. split; [reflexivity|].
    split; [now rewrite app_nil_r|]. left. split.
    + intros o c L K. apply (lock_iff g) in L as [_ L]; [|assumption]. rewrite K in L. apply (find_iff _ _ _ Nd) in L. congruence.
    + split; [|reflexivity]. cbn [map]. rewrite read_unknown by apply V. reflexivity.
Qed.

(** ** Programs whose log misleads *)
Definition accepts_as (serial t2o t2oApi : Z) : list encaps -> encaps -> outcome encaps :=
  fun _ _ => Ok (reply_with ([212; 0; 0; 0] ++ fo_reply_bytes (mkFoResp 0x0A0B0C0D t2o serial 342 0x12345678 10000 t2oApi 0 []) 0 [])).
Definition open_as (serial t2o t2oApi : Z) : call (list encaps) :=
  COpen false (recording 1 (accepts_as serial t2o t2oApi)) "10.0.0.1" (env_ok 0) false (class1 1 0).
Definition fails_with (e : exn) : list encaps -> encaps -> outcome encaps := fun _ _ => Throw e.
Definition start_calls : globals * mgr * list encaps * list message := (globals0, mgr0 1, [], []).

Lemma close_misleads : exists os g m s log,
  calls_logged strict [open_as 5 1 10000; CClose false (recording 1 (fails_with (SystemError 32))) 0] start_calls = (os, (g, m, s, log))
  /\ os = [Ok (Some 0%nat); Throw (SystemError 32)] /\ clear [] (map read_message log)
  /\ told_open log = [] /\ connections m = [(1, 5)].
Proof. do 5 eexists. split; [vm_compute; reflexivity|]. split; [reflexivity|]. vm_compute. tauto. Qed.
Lemma open_misleads : exists os g m s log,
  calls_logged strict [COpen false (recording 1 (accepts_as 5 1 10000)) "10.0.0.1" (mkFoEnv (Some 24) None 0 (fun _ => Some 0x0100007F)) false (class1 1 0)]
    start_calls = (os, (g, m, s, log))
  /\ os = [Throw (SystemError 24)] /\ clear [] (map read_message log)
  /\ told_open log = [(1, 5)] /\ connections m = [].
Proof. do 5 eexists. split; [vm_compute; reflexivity|]. split; [reflexivity|]. vm_compute. tauto. Qed.
(** The first connection times out, then sending for the second one fails half-way. *)
Definition half_way : list (call (list encaps)) :=
  [open_as 5 1 1000; open_as 6 2 1000000; CHandle [] SelQuiet (env_at 20000000 (fun _ => 0))].
Lemma timeout_misleads : exists os g m s log e,
  calls_logged strict half_way start_calls = (os, (g, m, s, log))
  /\ os = [Ok (Some 0%nat); Ok (Some 1%nat); Throw e] /\ clear [] (map read_message log)
  /\ told_open log = [(2, 6)] /\ connections m = [(1, 5); (2, 6)].
Proof. do 6 eexists. split; [vm_compute; reflexivity|]. split; [reflexivity|]. vm_compute. intuition discriminate. Qed.
(** Two connections with the same serial number, one of them times out. *)
Lemma serial_misleads : exists os g m s log,
  calls_logged strict [open_as 5 1 1000; open_as 5 2 1000000; CHandle [] SelQuiet (env_at 20000000 (fun n => n))] start_calls = (os, (g, m, s, log))
  /\ Forall returned os /\ told_open log = [] /\ connections m = [(2, 5)].
Proof.
  do 5 eexists. split; [vm_compute; reflexivity|]. split; [repeat constructor; eexists; reflexivity|]. vm_compute. tauto.
Qed.
