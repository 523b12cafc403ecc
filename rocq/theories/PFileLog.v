(** Proofs about the messages of file objects. *)
From Verif Require Import Base MBuffer SBuffer PBase PBuffer PReader MEip SEip PEip PRouter SObj PObj MFile SFile PFile MSync SSync
  MLog SText PText MStatus PStatus MMsg SMsg PMsg MErrno SErrno PErrno MFileLog SFileLog.
Local Open Scope Z_scope.

(** ** Reading *)
Definition nonhex (s : string) : Prop := match s with EmptyString => True | String c _ => hex_value c = None end.
Lemma hex_from_app s : forall a v r, reads_hex a s = Some v -> nonhex r -> hex_from a (s ++ r) = (v, r).
Proof.
  induction s as [|c s IH]; intros a v r R N.
  - cbn [reads_hex] in R. inv R. cbn [append]. destruct r as [|c r]; [reflexivity|]. cbn [hex_from]. cbn [nonhex] in N. now rewrite N.
  - cbn [reads_hex] in R. cbn [append hex_from]. destruct (hex_value c); [|discriminate]. now apply IH.
Qed.
Lemma hex_from_to_hex v r : is_u16 v -> nonhex r -> hex_from 0 (to_hex v ++ r) = (v, r).
Proof.
  intros V N. apply hex_from_app; [|assumption]. unfold is_u16 in V. destruct (to_hex_numeral v) as (_ & R & _); [lia|exact R].
Qed.

Lemma state_name_ok s : state_name s = name_of (state_code s).
Proof. destruct s; reflexivity. Qed.
Lemma up_to_gt_name s r : up_to_gt (state_name s ++ String ">" r) = Some (state_name s, r).
Proof. destruct s; reflexivity. Qed.
Lemma read_named id s l t : is_u16 id -> read_note (snd (named id s l t)) = Some (mkNote id (state_name s) t).
Proof.
  intros V. unfold named, read_note. cbn [snd]. rewrite strip_app.
  change (" <" ++ state_name s ++ "> " ++ t)%string with (String " " (String "<" (state_name s ++ "> " ++ t))%string).
  rewrite hex_from_to_hex by (assumption || reflexivity). cbn [strip]. rewrite !Ascii.eqb_refl.
  change ("> " ++ t)%string with (String ">" (String " " t)). rewrite up_to_gt_name. cbn [strip].
  rewrite Ascii.eqb_refl. reflexivity.
Qed.
Lemma read_request service path : read_note (snd (request_message service path)) = None.
Proof. reflexivity. Qed.
Lemma read_status r : read_note (status_text r) = None.
Proof. reflexivity. Qed.

(** ** States *)
Lemma told_app id l1 l2 : told_states id (l1 ++ l2) = fold_left (after_note id) l2 (told_states id l1).
Proof. unfold told_states. apply fold_left_app. Qed.
Lemma after_request id live service path : after_note id live (request_message service path) = live.
Proof. reflexivity. Qed.
Lemma after_status id live lv r : after_note id live (lv, status_text r) = live.
Proof. reflexivity. Qed.
Lemma after_start id s live : is_u16 id -> after_note id live (named id s DEBUG "Start") = live ++ [state_name s].
Proof. intros V. unfold after_note. rewrite read_named by assumption. cbn [n_id n_text n_state]. rewrite Z.eqb_refl. reflexivity. Qed.
Lemma after_stop id s live : is_u16 id -> after_note id (state_name s :: live) (named id s TRACE "Stop") = live.
Proof.
  intros V. unfold after_note. rewrite read_named by assumption. cbn [n_id n_text n_state]. rewrite Z.eqb_refl.
  cbn [negb fst named]. change (String.eqb "Stop" "Stop") with true. cbv iota. now rewrite String.eqb_refl.
Qed.
Lemma after_other id id' s l t live : is_u16 id -> id <> id' -> after_note id' live (named id s l t) = live.
Proof.
  intros V N. unfold after_note. rewrite read_named by assumption. cbn [n_id]. apply Z.eqb_neq in N. now rewrite N.
Qed.
Lemma after_plain id s l t live : is_u16 id -> l <> DEBUG -> l <> TRACE -> after_note id live (named id s l t) = live.
Proof.
  intros V A B. unfold after_note. rewrite read_named by assumption. destruct (negb _); [reflexivity|].
  destruct l; try reflexivity; contradiction.
Qed.
Lemma after_packet id s t live : is_u16 id ->
  after_note id live (named id s DEBUG ("Receive transfer packet type=" ++ t)) = live.
Proof. intros V. unfold after_note. rewrite read_named by assumption. destruct (negb _); reflexivity. Qed.

(** The messages of one call on an object in state [s]. *)
Inductive quiet (id : Z) (s : fstate) : message -> Prop :=
| QRequest service path : quiet id s (request_message service path)
| QStatus r : quiet id s (ERROR, status_text r)
| QNamed l t : l <> DEBUG -> l <> TRACE -> quiet id s (named id s l t)
| QPacket t : quiet id s (named id s DEBUG ("Receive transfer packet type=" ++ t)%string).
Lemma quiet_after id s id' live m : is_u16 id -> quiet id s m -> after_note id' live m = live.
Proof.
  intros V Q. destruct Q; try reflexivity.
  - destruct (Z.eq_dec id id') as [<-|N]; [now apply after_plain|now apply after_other].
  - destruct (Z.eq_dec id id') as [<-|N]; [now apply after_packet|now apply after_other].
Qed.
Lemma quiet_all id s id' live l : is_u16 id -> Forall (quiet id s) l -> fold_left (after_note id') l live = live.
Proof. intros V. induction 1 as [|m l M _ IH]; [reflexivity|]. cbn [fold_left]. now rewrite (quiet_after id s). Qed.

(** A change of state, or none, and otherwise quiet messages. *)
Definition moves (id : Z) (s s' : fstate) (l : list message) : Prop :=
  exists q, Forall (quiet id s) q /\ ((l = q /\ state_name s' = state_name s) \/ l = q ++ set_state_log id s s').
Lemma moves_self id s s' l live : is_u16 id -> moves id s s' l -> live = [state_name s] ->
  fold_left (after_note id) l live = [state_name s'].
Proof.
  intros V (q & Q & [[-> E]| ->]) ->.
  - rewrite (quiet_all id s) by assumption. now rewrite E.
  - rewrite fold_left_app, (quiet_all id s id _ q) by assumption. unfold set_state_log. cbn [fold_left].
    rewrite after_start by assumption. cbn [app]. now rewrite after_stop.
Qed.
Lemma moves_other id id' s s' l live : is_u16 id -> id <> id' -> moves id s s' l -> fold_left (after_note id') l live = live.
Proof.
  intros V N (q & Q & [[-> E]| ->]).
  - now rewrite (quiet_all id s).
  - rewrite fold_left_app, (quiet_all id s id' _ q) by assumption. unfold set_state_log. cbn [fold_left]. now rewrite !after_other.
Qed.

Lemma sync_moves {W} h use8 (si : session_if W) f w : forall o f' w',
  file_sync h use8 si (f, w) = (o, (f', w')) -> fo_id f' = fo_id f /\ moves (fo_id f) (fo_state f) (fo_state f') (sync_log h use8 si (fo_id f) (fo_state f) w).
Proof.
  intros o f' w' E. unfold file_sync in E. unfold sync_log. cbv zeta.
  destruct (send_request _ _ _ _ _ _ _ w) as [o1 w1] eqn:R. cbn [fst].
  assert (S0 : forall q, Forall (quiet (fo_id f) (fo_state f)) q -> moves (fo_id f) (fo_state f) (fo_state f) q).
  { intros q Q. exists q. split; [assumption|]. left. now split. }
  assert (Q1 : forall q, Forall (quiet (fo_id f) (fo_state f)) q ->
            Forall (quiet (fo_id f) (fo_state f)) (request_message GET_ATTRIBUTE_SINGLE (epath3 FILE_OBJECT_CLASS_ID (fo_id f) FILE_ATTR_STATE) :: q)).
  { intros q Q. constructor; [constructor|assumption]. }
  destruct o1 as [r|e|u|]; cbn [bind] in E.
  2-4: inv E; split; [reflexivity|]; apply S0, Q1; constructor.
  destruct (synced h r) as [s|e|u|] eqn:Y.
  2-4: inv E; split; [reflexivity|]; apply S0, Q1; constructor.
  inv E. cbn [f_set fo_id fo_state]. split; [reflexivity|].
  set (warn := match get_u8 h (buf_of (r_data r)) with Ok _ => _ | _ => _ end).
  exists (request_message GET_ATTRIBUTE_SINGLE (epath3 FILE_OBJECT_CLASS_ID (fo_id f) FILE_ATTR_STATE) :: warn). split.
  - apply Q1. unfold warn. destruct (get_u8 h _) as [[code b]| | |]; [|constructor..].
    destruct (_ || _); [|constructor]. repeat constructor; discriminate.
  - right. reflexivity.
Qed.

Lemma begin_moves {W} h use8 (si : session_if W) hid f w : forall o f' w',
  begin_upload h use8 si hid (f, w) = (o, (f', w')) ->
  fo_id f' = fo_id f /\ moves (fo_id f) (fo_state f) (fo_state f') (begin_log h use8 si hid f w).
Proof.
  intros o f' w' E. unfold begin_upload in E. unfold begin_log. cbv zeta.
  assert (S0 : forall q, Forall (quiet (fo_id f) (fo_state f)) q -> moves (fo_id f) (fo_state f) (fo_state f) q).
  { intros q Q. exists q. split; [assumption|]. left. now split. }
  destruct (fo_state f) eqn:F; try rewrite <- F in *.
  1-3,5: inv E; split; [reflexivity|]; apply S0; repeat constructor; discriminate.
  destruct (send_request _ _ _ _ _ _ _ w) as [o1 w1] eqn:R. cbn [fst].
  assert (Q1 : forall q, Forall (quiet (fo_id f) (fo_state f)) q ->
            Forall (quiet (fo_id f) (fo_state f)) (named (fo_id f) (fo_state f) INFO "Initiate upload" ::
               request_message INITIATE_UPLOAD (epath2 FILE_OBJECT_CLASS_ID (fo_id f)) :: q)).
  { intros q Q. constructor; [constructor; discriminate|]. constructor; [constructor|assumption]. }
  destruct o1 as [r|e|u|]; cbn [bind] in E.
  2-4: inv E; split; [reflexivity|]; apply S0, Q1; constructor.
  destruct (r_status r =? GSC_SUCCESS) eqn:Z.
  - destruct (initiated h hid f r) as [f1|e|u|] eqn:Y.
    2-4: inv E; split; [reflexivity|]; apply S0, Q1; constructor.
    inv E. assert (I : fo_id f' = fo_id f).
    { unfold initiated in Y. rewrite Z in Y. destruct (get_u32 h _) as [[a b]| | |]; cbn [bind] in Y; try discriminate.
      destruct (get_u8 h b) as [[a' b']| | |]; cbn [bind] in Y; try discriminate. now inv Y. }
    split; [assumption|]. eexists. split; [apply Q1; constructor|]. right. reflexivity.
  - assert (Y : initiated h hid f r = Ok (f_call f (mkCall hid (r_status r) []))) by (unfold initiated; now rewrite Z).
    rewrite Y in E. inv E. split; [reflexivity|]. cbn [f_call fo_state]. apply S0, Q1. repeat constructor.
Qed.

Lemma transfer_moves {W} h use8 (si : session_if W) f w : forall o f' w',
  handle_transfers h use8 si (f, w) = (o, (f', w')) ->
  fo_id f' = fo_id f /\ moves (fo_id f) (fo_state f) (fo_state f') (transfer_log h use8 si f w).
Proof.
  intros o f' w' E. unfold handle_transfers in E. unfold transfer_log. cbv zeta.
  assert (S0 : forall q s, state_name s = state_name (fo_state f) -> Forall (quiet (fo_id f) (fo_state f)) q -> moves (fo_id f) (fo_state f) s q).
  { intros q s N Q. exists q. split; [assumption|]. left. now split. }
  destruct (fo_state f) as [| | | |size tsize content number handler] eqn:F; try rewrite <- F in *.
  1-4: inv E; split; [reflexivity|]; apply S0; [reflexivity|repeat constructor; discriminate].
  destruct (send_request _ _ _ _ _ _ _ w) as [o1 w1] eqn:R. cbn [fst].
  assert (Q1 : forall q, Forall (quiet (fo_id f) (fo_state f)) q ->
            Forall (quiet (fo_id f) (fo_state f)) (request_message UPLOAD_TRANSFER (epath2 FILE_OBJECT_CLASS_ID (fo_id f)) :: q)).
  { intros q Q. constructor; [constructor|assumption]. }
  destruct o1 as [r|e|u|]; cbn [bind] in E.
  2-4: inv E; split; [reflexivity|]; apply S0; [reflexivity|]; apply Q1; constructor.
  assert (QT : Forall (quiet (fo_id f) (fo_state f)) (transferred_log h f size content number r)).
  { unfold transferred_log. cbv zeta. destruct (r_status r =? GSC_SUCCESS); [|repeat constructor].
    destruct (get_u8 h (buf_of (r_data r))) as [[num b]| | |]; cbn [bind]; [|constructor..].
    destruct (get_u8 h b) as [[ty b2]| | |]; cbn [bind]; [|constructor..].
    constructor; [apply QPacket|]. destruct (negb _); [repeat constructor; discriminate|].
    destruct (_ && _); [|constructor]. destruct (get_bytes h _ b2) as [[d b3]| | |]; [|constructor..].
    destruct (_ =? size); [constructor|]. repeat constructor; discriminate. }
  assert (K : forall more f1, transferred h f size tsize content number handler r = Ok (more, f1) ->
              fo_id f1 = fo_id f /\ state_name (fo_state f1) = state_name (fo_state f)).
  { intros more f1 Y. unfold transferred in Y. destruct (r_status r =? GSC_SUCCESS).
    2: { inv Y. split; reflexivity. }
    destruct (get_u8 h (buf_of (r_data r))) as [[num b]| | |]; cbn [bind] in Y; try discriminate.
    destruct (get_u8 h b) as [[ty b2]| | |]; cbn [bind] in Y; try discriminate.
    destruct (negb _); [inv Y; split; reflexivity|].
    destruct (_ || _).
    - destruct (get_bytes h _ b2) as [[d b3]| | |]; cbn [bind] in Y; try discriminate. inv Y. rewrite F. split; reflexivity.
    - destruct (_ || _); [|discriminate]. destruct (Nat.ltb _ _); [discriminate|].
      destruct (get_bytes h _ b2) as [[d b3]| | |]; cbn [bind] in Y; try discriminate. inv Y. rewrite F. split; reflexivity. }
  destruct (transferred h f size tsize content number handler r) as [[more f1]|e|u|] eqn:Y.
  - inv E. destruct (K _ _ eq_refl) as [K1 K2]. split; [assumption|]. apply S0; [assumption|]. now apply Q1.
  - inv E. split; [reflexivity|]. apply S0; [reflexivity|]. now apply Q1.
  - inv E. split; [reflexivity|]. apply S0; [reflexivity|]. now apply Q1.
  - inv E. split; [reflexivity|]. apply S0; [reflexivity|]. now apply Q1.
Qed.

Lemma fop_moves {W} h use8 (si : session_if W) x f w : forall o f' w',
  fop_run h use8 si x (f, w) = (o, (f', w')) ->
  fo_id f' = fo_id f /\ moves (fo_id f) (fo_state f) (fo_state f') (fop_log h use8 si x (f, w)).
Proof.
  intros o f' w' E. destruct x as [hid| |]; cbn [fop_run fop_log] in *.
  - unfold st_bind in E. destruct (begin_upload h use8 si hid (f, w)) as [o1 [f1 w1]] eqn:B.
    apply begin_moves in B. destruct o1; inv E; exact B.
  - now apply transfer_moves in E.
  - unfold st_bind in E. destruct (file_sync h use8 si (f, w)) as [o1 [f1 w1]] eqn:B.
    apply sync_moves in B. destruct o1; inv E; exact B.
Qed.

Lemma moves_live id s s' l n live : is_u16 id -> moves id s s' l -> live = [state_name s] ->
  fold_left (after_note id) (firstn n l) live <> [].
Proof.
  intros V (q & Q & M) ->.
  assert (A : fold_left (after_note id) (firstn n q) [state_name s] = [state_name s]).
  { apply (quiet_all id s); [assumption|]. rewrite <- (firstn_skipn n q) in Q. now apply Forall_app in Q. }
  destruct M as [[-> _]| ->]; [rewrite A; discriminate|].
  rewrite firstn_app, fold_left_app, A. destruct (n - _)%nat as [|[|k]]; cbn [firstn set_state_log fold_left]; [discriminate|..].
  - rewrite after_start by assumption. discriminate.
  - rewrite firstn_nil. cbn [fold_left]. rewrite after_start by assumption. cbn [app]. rewrite after_stop by assumption. discriminate.
Qed.
Lemma fop_live {W} h use8 (si : session_if W) x f w l n : is_u16 (fo_id f) -> told_states (fo_id f) l = [state_name (fo_state f)] ->
  told_states (fo_id f) (l ++ firstn n (fop_log h use8 si x (f, w))) <> [].
Proof.
  intros V T. destruct (fop_run h use8 si x (f, w)) as [o [f' w']] eqn:E. destruct (fop_moves h use8 si x f w o f' w' E) as [_ M].
  rewrite told_app, T. now apply (moves_live _ (fo_state f) (fo_state f')).
Qed.

Lemma fops_told {W} h use8 (si : session_if W) ops : forall f w l os f' w' l',
  is_u16 (fo_id f) -> fops_logged h use8 si ops (f, w, l) = (os, (f', w', l')) ->
  fo_id f' = fo_id f
  /\ (told_states (fo_id f) l = [state_name (fo_state f)] -> told_states (fo_id f) l' = [state_name (fo_state f')])
  /\ forall id', id' <> fo_id f -> told_states id' l' = told_states id' l.
Proof.
  induction ops as [|x ops IH]; intros f w l os f' w' l' V E; cbn [fops_logged] in E.
  - inv E. now repeat split.
  - unfold fop_logged in E at 1. destruct (fop_run h use8 si x (f, w)) as [o [f1 w1]] eqn:R.
    destruct (fop_moves _ _ _ _ _ _ _ _ _ R) as [I M]. set (m := fop_log h use8 si x (f, w)) in *.
    assert (T1 : told_states (fo_id f) l = [state_name (fo_state f)] -> told_states (fo_id f) (l ++ m) = [state_name (fo_state f1)]).
    { intros T. rewrite told_app. now apply (moves_self (fo_id f) (fo_state f)). }
    assert (T2 : forall id', id' <> fo_id f -> told_states id' (l ++ m) = told_states id' l).
    { intros id' N. rewrite told_app. apply (moves_other (fo_id f) id' (fo_state f) (fo_state f1)); auto. }
    assert (K : forall os1, fops_logged h use8 si ops (f1, w1, l ++ m) = (os1, (f', w', l')) ->
      fo_id f' = fo_id f
      /\ (told_states (fo_id f) l = [state_name (fo_state f)] -> told_states (fo_id f) l' = [state_name (fo_state f')])
      /\ forall id', id' <> fo_id f -> told_states id' l' = told_states id' l).
    { intros os1 E1. rewrite <- I in V. destruct (IH _ _ _ _ _ _ _ V E1) as (I' & A & B). rewrite I in *.
      split; [assumption|]. split; [tauto|]. intros id' N. rewrite B by assumption. now apply T2. }
    destruct o as [b|e|u|].
    + destruct (fops_logged h use8 si ops (f1, w1, l ++ m)) as [os1 [[f2 w2] l2]] eqn:E1. inv E. now apply (K os1).
    + destruct (fops_logged h use8 si ops (f1, w1, l ++ m)) as [os1 [[f2 w2] l2]] eqn:E1. inv E. now apply (K os1).
    + inv E. auto.
    + inv E. auto.
Qed.

Lemma open_told {W} h use8 (si : session_if W) id w l o w' l' :
  is_u16 id -> file_open_logged h use8 si id (w, l) = (o, (w', l')) ->
  (forall id', id' <> id -> told_states id' l' = told_states id' l)
  /\ (told_states id l = [] ->
      match o with
      | Ok f => fo_id f = id /\ told_states id l' = [state_name (fo_state f)]
      | Throw _ => told_states id l' = []
      | _ => True
      end).
Proof.
  intros V E. unfold file_open_logged in E. remember (sync_log h use8 si id FUnknown w) as sl eqn:SL. destruct (file_open h use8 si id w) as [o1 w1] eqn:O. injection E as -> -> <-.
  pose proof (eq_refl (file_sync h use8 si (mkFile id FUnknown [], w))) as Y. unfold file_sync in Y at 2.
  unfold file_open in O. cbn [fo_id] in Y.
  destruct (send_request h si use8 GET_ATTRIBUTE_SINGLE (epath3 FILE_OBJECT_CLASS_ID id FILE_ATTR_STATE) [] [] w) as [o2 w2] eqn:R.
  assert (M : exists s (o3 : outcome unit), (o = match o3 with Ok _ => Ok (mkFile id s []) | Throw e => Throw e | Undef u => Undef u | Abort => Abort end)
              /\ (forall e, o3 = Throw e -> s = FUnknown)
              /\ moves id FUnknown s sl).
  { rewrite SL. clear SL. destruct o2 as [r|e|u|]; cbn [bind] in O, Y.
    2: { inv O. apply sync_moves in Y. destruct Y as [_ Y]. exists FUnknown, (Throw e). split; [reflexivity|]. split; [reflexivity|exact Y]. }
    2: { inv O. apply sync_moves in Y. destruct Y as [_ Y]. exists FUnknown, (Undef u). split; [reflexivity|]. split; [reflexivity|exact Y]. }
    2: { inv O. apply sync_moves in Y. destruct Y as [_ Y]. exists FUnknown, Abort. split; [reflexivity|]. split; [reflexivity|exact Y]. }
    destruct (synced h r) as [s|e|u|]; cbn [bind] in O; inv O; apply sync_moves in Y; destruct Y as [_ Y].
    - exists s, (Ok tt). split; [reflexivity|]. split; [discriminate|exact Y].
    - exists FUnknown, (Throw e). split; [reflexivity|]. split; [reflexivity|exact Y].
    - exists FUnknown, (Undef u). split; [reflexivity|]. split; [reflexivity|exact Y].
    - exists FUnknown, Abort. split; [reflexivity|]. split; [reflexivity|exact Y]. }
  clear O Y R. destruct M as (s & o3 & Eo & Fs & M).
  clear SL. split.
  - intros id' N. rewrite told_app. cbn [fold_left]. rewrite after_other by auto. rewrite fold_left_app.
    rewrite (moves_other id id' FUnknown s sl) by auto.
    destruct o; try reflexivity. cbn [fold_left]. now rewrite after_other by auto.
  - intros T. rewrite told_app, T. cbn [fold_left]. rewrite after_start by assumption. cbn [app]. rewrite fold_left_app.
    rewrite (moves_self id FUnknown s sl) by auto.
    destruct o3 as [x|e|u|]; subst o; [|rewrite (Fs e eq_refl)|exact Logic.I..].
    + split; reflexivity.
    + cbn [fold_left]. now apply after_stop.
Qed.
