(** Proofs about the messages of file objects: errors, requests and calls that do
    nothing. *)
From Verif Require Import Base MBuffer SBuffer PBase PBuffer PReader MEip SEip PEip PRouter SObj PObj MFile SFile PFile MSync SSync PSync
  MLog SText PText MStatus PStatus MMsg SMsg PMsg MErrno SErrno PErrno MFileLog SFileLog PFileLog.
Local Open Scope Z_scope.

(** ** Errors *)
Lemma at_level_cons v m l : at_level v (m :: l) = (if level_eqb (fst m) v then [snd m] else []) ++ at_level v l.
Proof. unfold at_level. cbn [filter]. destruct (level_eqb (fst m) v); reflexivity. Qed.
Lemma at_level_nil v : at_level v [] = [].
Proof. reflexivity. Qed.
Lemma status_explains id hid r : explains id (status_text r) (mkCall hid (r_status r) []).
Proof. split; [reflexivity|]. left. eexists. reflexivity. Qed.

Definition one_more (id : Z) (f f' : fobj) (l : list message) : Prop :=
  exists new, fo_calls f' = fo_calls f ++ new /\ Forall2 (explains id) (at_level ERROR l) (failures new) /\ fo_state f' <> FUnknown.
Lemma none_more id f f' l : fo_calls f' = fo_calls f -> fo_state f' <> FUnknown -> at_level ERROR l = [] -> one_more id f f' l.
Proof. intros C S A. exists []. rewrite app_nil_r, A. split; [assumption|]. split; [constructor|assumption]. Qed.
Lemma failure_more id f hid v c m : m <> ([] : list message) -> v <> 0 -> fo_state f <> FUnknown ->
  (exists t, at_level ERROR m = [t] /\ explains id t (mkCall hid v c)) -> one_more id f (f_call f (mkCall hid v c)) m.
Proof.
  intros _ V S (t & A & X). exists [mkCall hid v c]. split; [reflexivity|]. split; [|assumption].
  rewrite A. unfold failures. cbn [filter hc_status]. apply Z.eqb_neq in V. rewrite V. cbn [negb]. now constructor; [|constructor].
Qed.

Lemma synced_known h r s : synced h r = Ok s -> s <> FUnknown.
Proof.
  unfold synced. destruct (_ =? GSC_SUCCESS); [|discriminate].
  destruct (get_u8 h _) as [[code b]| | |]; cbn [bind]; try discriminate.
  repeat match goal with |- (if ?c then _ else _) = _ -> _ => destruct c end; intros E; inv E; discriminate.
Qed.

Lemma sync_errors {W} h use8 (si : session_if W) f w o f' w' : fo_state f <> FUnknown ->
  file_sync h use8 si (f, w) = (o, (f', w')) -> one_more (fo_id f) f f' (sync_log h use8 si (fo_id f) (fo_state f) w).
Proof.
  intros K E. unfold file_sync in E. unfold sync_log. cbv zeta.
  destruct (send_request _ _ _ _ _ _ _ w) as [o1 w1]. cbn [fst].
  destruct o1 as [r|e|u|]; cbn [bind] in E.
  2-4: inv E; now apply none_more.
  destruct (synced h r) as [s|e|u|] eqn:Y.
  2-4: inv E; now apply none_more.
  inv E. apply none_more; [reflexivity|cbn [f_set fo_state]; exact (synced_known _ _ _ Y)|].
  rewrite at_level_cons. cbn [request_message fst level_eqb level_value Z.eqb Pos.eqb]. cbn [app].
  destruct (get_u8 h _) as [[code b]| | |]; [|reflexivity..]. destruct (_ || _); reflexivity.
Qed.

Lemma initiated_cases h hid f r :
  r_status r = 0 -> forall f', initiated h hid f r = Ok f' -> fo_calls f' = fo_calls f /\ fo_state f' <> FUnknown.
Proof.
  intros Z f' Y. unfold initiated in Y. rewrite Z in Y. cbn [Z.eqb GSC_SUCCESS] in Y.
  destruct (get_u32 h _) as [[a b]| | |]; cbn [bind] in Y; try discriminate.
  destruct (get_u8 h b) as [[a' b']| | |]; cbn [bind] in Y; try discriminate. inv Y. split; [reflexivity|discriminate].
Qed.
Lemma begin_errors {W} h use8 (si : session_if W) hid f w o f' w' : fo_state f <> FUnknown ->
  begin_upload h use8 si hid (f, w) = (o, (f', w')) -> one_more (fo_id f) f f' (begin_log h use8 si hid f w).
Proof.
  intros K E. unfold begin_upload in E. unfold begin_log. cbv zeta.
  destruct (fo_state f) eqn:F; [contradiction| | | |]; try rewrite <- F in *.
  1,2,4: inv E; now apply none_more.
  destruct (send_request _ _ _ _ _ _ _ w) as [o1 w1]. cbn [fst].
  destruct o1 as [r|e|u|]; cbn [bind] in E.
  2-4: inv E; now apply none_more.
  destruct (r_status r =? GSC_SUCCESS) eqn:Z.
  - apply Z.eqb_eq in Z. pose proof (initiated_cases h hid f r Z) as C. destruct (initiated h hid f r) as [f1|e|u|].
    2-4: inv E; now apply none_more.
    inv E. destruct (C _ eq_refl). now apply none_more.
  - assert (Y : initiated h hid f r = Ok (f_call f (mkCall hid (r_status r) []))) by (unfold initiated; now rewrite Z).
    rewrite Y in E. inv E. apply failure_more; [discriminate|now apply Z.eqb_neq|now rewrite F|].
    exists (status_text r). split; [reflexivity|apply status_explains].
Qed.

Lemma transfer_errors {W} h use8 (si : session_if W) f w o f' w' : is_u16 (fo_id f) -> fo_state f <> FUnknown ->
  handle_transfers h use8 si (f, w) = (o, (f', w')) -> one_more (fo_id f) f f' (transfer_log h use8 si f w).
Proof.
  intros V K E. unfold handle_transfers in E. unfold transfer_log. cbv zeta.
  destruct (fo_state f) as [| | | |size tsize content number handler] eqn:F; [contradiction| | | |]; try rewrite <- F in *.
  1-3: inv E; now apply none_more.
  destruct (send_request _ _ _ _ _ _ _ w) as [o1 w1]. cbn [fst].
  destruct o1 as [r|e|u|]; cbn [bind] in E.
  2-4: inv E; now apply none_more.
  assert (N : forall t, read_note (snd (named (fo_id f) (fo_state f) ERROR t)) = Some (mkNote (fo_id f) (name_of 5) t)).
  { intros t. rewrite read_named by assumption. rewrite F. reflexivity. }
  assert (K' : fo_state f <> FUnknown) by now rewrite F.
  unfold transferred in E. unfold transferred_log. cbv zeta.
  destruct (r_status r =? GSC_SUCCESS) eqn:Z.
  2: { inv E. apply failure_more; [discriminate|now apply Z.eqb_neq|assumption|].
       exists (status_text r). split; [reflexivity|apply status_explains]. }
  destruct (get_u8 h (buf_of (r_data r))) as [[num b]| | |]; cbn [bind] in E |- *.
  2-4: inv E; now apply none_more.
  destruct (get_u8 h b) as [[ty b2]| | |]; cbn [bind] in E |- *.
  2-4: inv E; now apply none_more.
  destruct (negb (num =? number)) eqn:Q.
  { inv E. apply failure_more; [discriminate|discriminate|assumption|]. eexists. split; [reflexivity|].
    split; [reflexivity|]. right. split; [reflexivity|]. left. apply N. }
  destruct ((ty =? 0) || (ty =? 1)) eqn:T1.
  { replace ((ty =? 2) || (ty =? 4)) with false by lia. cbn [andb].
    destruct (get_bytes h _ b2) as [[d b3]| | |]; cbn [bind] in E; inv E; apply none_more; try reflexivity; try assumption.
    discriminate. }
  destruct ((ty =? 2) || (ty =? 4)); cbn [andb].
  2: inv E; now apply none_more.
  destruct (Nat.ltb _ _); cbn [negb].
  { inv E; now apply none_more. }
  destruct (get_bytes h _ b2) as [[d b3]| | |]; cbn [bind] in E |- *.
  2-4: inv E; now apply none_more.
  destruct (zlen (content ++ d) =? size).
  - inv E. eexists. split; [reflexivity|]. split; [constructor|discriminate].
  - inv E.
    change (one_more (fo_id f) f (f_call (f_set f (FUpload size tsize (content ++ d) number handler)) (mkCall handler 32 []))
      [request_message UPLOAD_TRANSFER (epath2 FILE_OBJECT_CLASS_ID (fo_id f));
       named (fo_id f) (fo_state f) DEBUG ("Receive transfer packet type=" ++ to_string ty);
       named (fo_id f) (fo_state f) ERROR "Wrong size of the uploaded file"]).
    exists [mkCall handler 32 []]. split; [reflexivity|]. split; [|discriminate].
    constructor; [|constructor]. split; [reflexivity|]. right. split; [reflexivity|]. right. apply N.
Qed.

Lemma fop_errors {W} h use8 (si : session_if W) x f w o f' w' : is_u16 (fo_id f) -> fo_state f <> FUnknown ->
  fop_run h use8 si x (f, w) = (o, (f', w')) -> one_more (fo_id f) f f' (fop_log h use8 si x (f, w)).
Proof.
  intros V K E. destruct x as [hid| |]; cbn [fop_run fop_log] in *.
  - unfold st_bind in E. destruct (begin_upload h use8 si hid (f, w)) as [o1 [f1 w1]] eqn:B.
    apply begin_errors in B; [|assumption]. destruct o1; inv E; exact B.
  - now apply transfer_errors in E.
  - unfold st_bind in E. destruct (file_sync h use8 si (f, w)) as [o1 [f1 w1]] eqn:B.
    apply sync_errors in B; [|assumption]. destruct o1; inv E; exact B.
Qed.

Lemma failures_app a b : failures (a ++ b) = failures a ++ failures b.
Proof. apply filter_app. Qed.
Lemma fops_errors {W} h use8 (si : session_if W) ops : forall f w l os f' w' l',
  is_u16 (fo_id f) -> fo_state f <> FUnknown -> fops_logged h use8 si ops (f, w, l) = (os, (f', w', l')) ->
  exists m, l' = l ++ m /\ one_more (fo_id f) f f' m.
Proof.
  induction ops as [|x ops IH]; intros f w l os f' w' l' V K E; cbn [fops_logged] in E.
  - inv E. exists []. split; [now rewrite app_nil_r|]. now apply none_more.
  - unfold fop_logged in E at 1. destruct (fop_run h use8 si x (f, w)) as [o [f1 w1]] eqn:R.
    pose proof (fop_errors _ _ _ _ _ _ _ _ _ V K R) as M. destruct (fop_moves _ _ _ _ _ _ _ _ _ R) as [I _].
    set (m := fop_log h use8 si x (f, w)) in *.
    assert (Q : forall os1, fops_logged h use8 si ops (f1, w1, l ++ m) = (os1, (f', w', l')) ->
      exists m, l' = l ++ m /\ one_more (fo_id f) f f' m).
    { intros os1 E1. destruct M as (n1 & C1 & F1 & K1). rewrite <- I in V.
      destruct (IH _ _ _ _ _ _ _ V K1 E1) as (m2 & -> & n2 & C2 & F2 & K2). rewrite I in F2.
      exists (m ++ m2). split; [now rewrite app_assoc|]. exists (n1 ++ n2). rewrite C2, C1, app_assoc.
      split; [reflexivity|]. rewrite at_level_app, failures_app. split; [now apply Forall2_app|assumption]. }
    destruct o as [b|e|u|].
    + destruct (fops_logged h use8 si ops (f1, w1, l ++ m)) as [os1 [[f2 w2] l2]] eqn:E1. inv E. now apply (Q os1).
    + destruct (fops_logged h use8 si ops (f1, w1, l ++ m)) as [os1 [[f2 w2] l2]] eqn:E1. inv E. now apply (Q os1).
    + inv E. eauto.
    + inv E. eauto.
Qed.

Lemma opened {W} h use8 (si : session_if W) id w l f w' l' :
  file_open_logged h use8 si id (w, l) = (Ok f, (w', l')) -> fo_id f = id /\ fo_calls f = [] /\ fo_state f <> FUnknown
  /\ forall m, l' = l ++ m -> at_level ERROR m = [].
Proof.
  intros E. unfold file_open_logged in E. destruct (file_open h use8 si id w) as [o w1] eqn:O. injection E as -> -> E.
  unfold file_open in O. revert E. unfold sync_log. cbv zeta.
  destruct (send_request _ _ _ _ _ _ _ w) as [o2 w2]. cbn [fst]. destruct o2 as [r| | |]; cbn [bind] in O; try discriminate.
  destruct (synced h r) as [s| | |] eqn:Y; cbn [bind] in O; try discriminate. inv O. intros E.
  split; [reflexivity|]. split; [reflexivity|]. split; [exact (synced_known _ _ _ Y)|].
  intros m Em. rewrite Em in E. apply app_inv_head in E. subst m.
  destruct (get_u8 h _) as [[code b]| | |]; [|reflexivity..]. destruct (_ || _); reflexivity.
Qed.

(** ** Requests *)
Definition numbered (f : fobj) : Prop := match fo_state f with FUpload _ _ _ n _ => is_u8 n | _ => True end.
Lemma path_text2 c i : epath_to_string (epath2 c i) = ("[classId=" ++ to_string c ++ " objectId=" ++ to_string i ++ "]")%string.
Proof.
  unfold epath_to_string, epath2. cbn [p_class p_object p_attr p_size]. change (2 >? 1) with true. change (2 >? 2) with false. cbv iota.
  now rewrite append_nil, app_assoc_str.
Qed.
Lemma path_text3 c i a : epath_to_string (epath3 c i a)
  = ("[classId=" ++ to_string c ++ " objectId=" ++ to_string i ++ " attributeId=" ++ to_string a ++ "]")%string.
Proof.
  unfold epath_to_string, epath3. cbn [p_class p_object p_attr p_size]. change (3 >? 1) with true. change (3 >? 2) with true. cbv iota.
  now rewrite !app_assoc_str.
Qed.
Lemma tells2 service c i d : is_u8 service -> is_u8 c -> is_u16 i ->
  tells_request (request_message service (epath2 c i)) (mkReq service [(KClass, c); (KInst, i)] d).
Proof.
  intros S C I. unfold is_u8, is_u16 in *. exists (to_hex service), (epath_to_string (epath2 c i)). split; [apply to_hex_numeral; cbn [q_service]; lia|].
  split; [|reflexivity]. cbn [q_path path_text]. exists (to_string c), (to_string i).
  split; [apply to_string_numeral; lia|]. split; [apply to_string_numeral; lia|]. apply path_text2.
Qed.
Lemma tells3 service c i a d : is_u8 service -> is_u8 c -> is_u16 i -> is_u8 a ->
  tells_request (request_message service (epath3 c i a)) (mkReq service [(KClass, c); (KInst, i); (KAttr, a)] d).
Proof.
  intros S C I A. unfold is_u8, is_u16 in *. exists (to_hex service), (epath_to_string (epath3 c i a)). split; [apply to_hex_numeral; cbn [q_service]; lia|].
  split; [|reflexivity]. cbn [q_path path_text]. exists (to_string c), (to_string i), (to_string a).
  split; [apply to_string_numeral; lia|]. split; [apply to_string_numeral; lia|]. split; [apply to_string_numeral; lia|]. apply path_text3.
Qed.

Lemma request_first m l : is_request m = true -> filter is_request l = [] -> filter is_request (m :: l) = [m].
Proof. intros M L. cbn [filter]. now rewrite M, L. Qed.
Lemma is_request_message s p : is_request (request_message s p) = true.
Proof. reflexivity. Qed.
Lemma no_request_synced h id s r :
  filter is_request
    match synced h r with
    | Ok s' => match get_u8 h (buf_of (r_data r)) with
               | Ok (code, _) => if (code =? 3) || (code =? 5)
                                 then [named id s WARNING "File is uploading. We need to re-initialize the uploading"] else []
               | _ => [] end ++ set_state_log id s s'
    | _ => []
    end = [].
Proof.
  destruct (synced h r); try reflexivity. destruct (get_u8 h _) as [[code b]| | |]; try reflexivity. destruct (_ || _); reflexivity.
Qed.
Lemma no_request_transferred h f size content number r : filter is_request (transferred_log h f size content number r) = [].
Proof.
  unfold transferred_log. cbv zeta. destruct (_ =? GSC_SUCCESS); [|reflexivity].
  destruct (get_u8 h (buf_of (r_data r))) as [[num b]| | |]; cbn [bind]; try reflexivity.
  destruct (get_u8 h b) as [[ty b2]| | |]; cbn [bind]; try reflexivity.
  destruct (negb (num =? number)); [reflexivity|]. destruct (_ && _); [|reflexivity].
  destruct (get_bytes h _ b2) as [[d b3]| | |]; try reflexivity. destruct (_ =? size); reflexivity.
Qed.

Section Requests.
Context {D : Type}.
Variables (h : heap) (use8 : bool) (handle : Z) (dev : device D).
Hypothesis Hh : is_u32 handle.
Hypothesis Hd : device_wf dev.
Let si := served handle dev.

Lemma sync_requests f d tr o f' d' tr' : sendable use8 (fo_id f) -> numbered f ->
  file_sync h use8 si (f, (d, tr)) = (o, (f', (d', tr'))) ->
  numbered f' /\ exists new, tr' = tr ++ new
  /\ Forall2 tells_request (filter is_request (sync_log h use8 si (fo_id f) (fo_state f) (d, tr))) (map fst new).
Proof.
  intros S N E. destruct (dev d (state_request (fo_id f))) as [a d1] eqn:A. pose proof (Hd d (state_request (fo_id f))) as Wa. rewrite A in Wa. cbn [fst] in Wa.
  unfold sync_log. cbv zeta. unfold GET_ATTRIBUTE_SINGLE, FILE_OBJECT_CLASS_ID, FILE_ATTR_STATE, si in *.
  rewrite (served3 h use8 handle dev 14 55 (fo_id f) 1 [] d tr a d1); try assumption; try lia; [|constructor|cbn; lia]. cbn [fst].
  rewrite (sync_request h use8 handle dev f d tr a d1) in E by assumption.
  set (r := mkResp (14 + 128) (a_status a) (a_addl a) (a_data a) []) in *.
  assert (T : tr' = tr ++ [(state_request (fo_id f), a)] /\ numbered f').
  { change (mkResp 142 (a_status a) (a_addl a) (a_data a) []) with r in E.
    destruct (synced h r) as [s| | |] eqn:Y; inv E; (split; [reflexivity|]); try assumption.
    unfold numbered. cbn [f_set fo_state]. revert Y. unfold synced. destruct (_ =? GSC_SUCCESS); [|discriminate].
    destruct (get_u8 h _) as [[code b]| | |]; cbn [bind]; try discriminate.
    repeat match goal with |- (if ?c then _ else _) = _ -> _ => destruct c end; intros E; inv E; exact Logic.I. }
  destruct T as [-> Nf]. split; [assumption|]. eexists. split; [reflexivity|].
  rewrite request_first by (reflexivity || apply no_request_synced). constructor; [|constructor].
  cbn [fst]. apply tells3; [unfold is_u8; lia|unfold is_u8; lia|apply S|unfold is_u8; lia].
Qed.

Lemma begin_requests hid f d tr o f' d' tr' : sendable use8 (fo_id f) -> numbered f ->
  begin_upload h use8 si hid (f, (d, tr)) = (o, (f', (d', tr'))) ->
  numbered f' /\ exists new, tr' = tr ++ new
  /\ Forall2 tells_request (filter is_request (begin_log h use8 si hid f (d, tr))) (map fst new).
Proof.
  intros S N E. unfold begin_upload in E. unfold begin_log. cbv zeta.
  destruct (fo_state f) eqn:F; try rewrite <- F in *.
  1-3,5: inv E; split; [assumption|]; exists []; rewrite app_nil_r; (split; [reflexivity|constructor]).
  destruct (dev d (initiate_request (fo_id f))) as [a d1] eqn:A. pose proof (Hd d (initiate_request (fo_id f))) as Wa. rewrite A in Wa. cbn [fst] in Wa.
  change (bdata (put_u8 (buf_of []) MAX_TRANSFER_SIZE)) with [255] in *. unfold INITIATE_UPLOAD, FILE_OBJECT_CLASS_ID, si in *.
  rewrite (served2 h use8 handle dev 75 55 (fo_id f) [255] d tr a d1) in *; try assumption; try lia;
    try (repeat constructor; unfold is_u8; lia); try (cbn; lia).
  cbn [fst bind] in *. set (r := mkResp (75 + 128) (a_status a) (a_addl a) (a_data a) []) in *.
  assert (T : tr' = tr ++ [(initiate_request (fo_id f), a)] /\ numbered f').
  { destruct (initiated h hid f r) as [s| | |] eqn:Y; inv E; (split; [reflexivity|]); try assumption.
    revert Y. unfold initiated. destruct (_ =? GSC_SUCCESS); [|intros Y; inv Y; exact N].
    destruct (get_u32 h _) as [[x b]| | |]; cbn [bind]; try discriminate.
    destruct (get_u8 h b) as [[x' b']| | |]; cbn [bind]; try discriminate. intros Y; inv Y. unfold numbered, is_u8; cbn. lia. }
  destruct T as [-> Nf]. split; [assumption|]. eexists. split; [reflexivity|].
  cbn [filter]. change (is_request (named _ _ _ _)) with false. rewrite is_request_message.
  assert (Q : filter is_request (if r_status r =? GSC_SUCCESS then match initiated h hid f r with
        Ok f' => set_state_log (fo_id f) (fo_state f) (fo_state f') | _ => [] end else [(ERROR, status_text r)]) = []).
  { destruct (_ =? GSC_SUCCESS); [|reflexivity]. destruct (initiated h hid f r); reflexivity. }
  rewrite Q. constructor; [|constructor]. cbn [fst]. apply tells2; [unfold is_u8; lia|unfold is_u8; lia|apply S].
Qed.

Lemma transfer_requests f d tr o f' d' tr' : sendable use8 (fo_id f) -> numbered f ->
  handle_transfers h use8 si (f, (d, tr)) = (o, (f', (d', tr'))) ->
  numbered f' /\ exists new, tr' = tr ++ new
  /\ Forall2 tells_request (filter is_request (transfer_log h use8 si f (d, tr))) (map fst new).
Proof.
  intros S N E. unfold handle_transfers in E. unfold transfer_log. cbv zeta.
  destruct (fo_state f) as [| | | |size tsize content number handler] eqn:F; try rewrite <- F in *.
  1-4: inv E; split; [assumption|]; exists []; rewrite app_nil_r; (split; [reflexivity|constructor]).
  assert (U : is_u8 number) by (unfold numbered in N; now rewrite F in N).
  set (q := mkReq 79 [(KClass, 55); (KInst, fo_id f)] [number]).
  destruct (dev d q) as [a d1] eqn:A. pose proof (Hd d q) as Wa. rewrite A in Wa. cbn [fst] in Wa.
  change (bdata (put_u8 (buf_of []) number)) with [number] in *. unfold UPLOAD_TRANSFER, FILE_OBJECT_CLASS_ID, si in *.
  rewrite (served2 h use8 handle dev 79 55 (fo_id f) [number] d tr a d1) in *; try assumption; try lia;
    try (constructor; [assumption|constructor]); try (cbn; lia).
  cbn [fst bind] in *. set (r := mkResp (79 + 128) (a_status a) (a_addl a) (a_data a) []) in *. fold q in E.
  assert (T : tr' = tr ++ [(q, a)] /\ numbered f').
  { destruct (transferred h f size tsize content number handler r) as [[more f1]| | |] eqn:Y; inv E; (split; [reflexivity|]); try assumption.
    revert Y. unfold transferred. destruct (_ =? GSC_SUCCESS); [|intros Y; inv Y; exact N].
    destruct (get_u8 h _) as [[num b]| | |]; cbn [bind]; try discriminate.
    destruct (get_u8 h b) as [[ty b2]| | |]; cbn [bind]; try discriminate.
    destruct (negb _); [intros Y; inv Y; exact N|]. destruct (_ || _).
    - destruct (get_bytes h _ b2) as [[x b3]| | |]; cbn [bind]; try discriminate. intros Y; inv Y. unfold numbered; cbn [f_set fo_state].
      unfold u8, is_u8. apply Z.mod_pos_bound. lia.
    - destruct (_ || _); [|discriminate]. destruct (Nat.ltb _ _); [discriminate|].
      destruct (get_bytes h _ b2) as [[x b3]| | |]; cbn [bind]; try discriminate. intros Y; inv Y. exact U. }
  destruct T as [-> Nf]. split; [assumption|]. eexists. split; [reflexivity|].
  rewrite request_first by (reflexivity || apply no_request_transferred).
  constructor; [|constructor]. cbn [fst]. apply tells2; [unfold is_u8; lia|unfold is_u8; lia|apply S].
Qed.

Lemma fop_requests x f d tr o f' d' tr' : sendable use8 (fo_id f) -> numbered f ->
  fop_run h use8 si x (f, (d, tr)) = (o, (f', (d', tr'))) ->
  numbered f' /\ exists new, tr' = tr ++ new
  /\ Forall2 tells_request (filter is_request (fop_log h use8 si x (f, (d, tr)))) (map fst new).
Proof.
  intros S N E. destruct x as [hid| |]; cbn [fop_run fop_log] in *.
  - unfold st_bind in E. destruct (begin_upload h use8 si hid (f, (d, tr))) as [o1 [f1 [d1 tr1]]] eqn:B.
    apply begin_requests in B; [|assumption..]. destruct o1; inv E; exact B.
  - now apply transfer_requests in E.
  - unfold st_bind in E. destruct (file_sync h use8 si (f, (d, tr))) as [o1 [f1 [d1 tr1]]] eqn:B.
    apply sync_requests in B; [|assumption..]. destruct o1; inv E; exact B.
Qed.

Lemma fops_requests ops : forall f d tr l os f' d' tr' l', sendable use8 (fo_id f) -> numbered f ->
  fops_logged h use8 si ops (f, (d, tr), l) = (os, (f', (d', tr'), l')) ->
  Forall2 tells_request (filter is_request l) (map fst tr) -> Forall2 tells_request (filter is_request l') (map fst tr').
Proof.
  induction ops as [|x ops IH]; intros f d tr l os f' d' tr' l' S N E P; cbn [fops_logged] in E.
  - inv E. assumption.
  - unfold fop_logged in E at 1. destruct (fop_run h use8 si x (f, (d, tr))) as [o [f1 [d1 tr1]]] eqn:R.
    destruct (fop_requests _ _ _ _ _ _ _ _ S N R) as (N1 & new & -> & M). destruct (fop_moves _ _ _ _ _ _ _ _ _ R) as [I _].
    set (m := fop_log h use8 si x (f, (d, tr))) in *.
    assert (P1 : Forall2 tells_request (filter is_request (l ++ m)) (map fst (tr ++ new))).
    { rewrite filter_app, map_app. now apply Forall2_app. }
    rewrite <- I in S.
    destruct o as [b|e|u|].
    + match type of E with (let (_, _) := ?t in _) = _ => destruct t as [os1 [[f2 [d2 tr2]] l2]] eqn:E1 end. inv E. exact (IH _ _ _ _ _ _ _ _ _ S N1 E1 P1).
    + match type of E with (let (_, _) := ?t in _) = _ => destruct t as [os1 [[f2 [d2 tr2]] l2]] eqn:E1 end. inv E. exact (IH _ _ _ _ _ _ _ _ _ S N1 E1 P1).
    + inv E. assumption.
    + inv E. assumption.
Qed.

Lemma open_requests id d tr l o d' tr' l' : sendable use8 id ->
  file_open_logged h use8 si id ((d, tr), l) = (o, ((d', tr'), l')) ->
  (Forall2 tells_request (filter is_request l) (map fst tr) -> Forall2 tells_request (filter is_request l') (map fst tr'))
  /\ forall f, o = Ok f -> fo_id f = id /\ numbered f.
Proof.
  intros S E. unfold file_open_logged in E. remember (sync_log h use8 si id FUnknown (d, tr)) as sl eqn:SL.
  destruct (file_open h use8 si id (d, tr)) as [o1 [d1 tr1]] eqn:O. injection E as -> -> -> <-.
  pose proof (sync_requests (mkFile id FUnknown []) d tr) as Q. cbn [fo_id fo_state] in Q. rewrite <- SL in Q.
  unfold file_open in O. unfold file_sync in Q. cbn [fo_id] in Q.
  destruct (send_request h si use8 GET_ATTRIBUTE_SINGLE (epath3 FILE_OBJECT_CLASS_ID id FILE_ATTR_STATE) [] [] (d, tr)) as [o2 [d2 tr2]].
  assert (X : numbered (mkFile id FUnknown [])) by exact Logic.I.
  assert (Y : (forall f, o = Ok f -> fo_id f = id /\ numbered f) /\ exists new, tr' = tr ++ new /\ Forall2 tells_request (filter is_request sl) (map fst new)).
  { destruct o2 as [r|e|u|]; cbn [bind] in O, Q.
    2-4: inv O; destruct (Q _ _ _ _ S X eq_refl) as [_ Y]; (split; [discriminate|exact Y]).
    destruct (synced h r) as [s|e|u|]; cbn [bind] in O; inv O; destruct (Q _ _ _ _ S X eq_refl) as [N Y]; (split; [|exact Y]).
    - intros f Ef. inv Ef. split; [reflexivity|exact N].
    - discriminate.
    - discriminate.
    - discriminate. }
  destruct Y as [Y1 (new & -> & Y2)]. split; [|assumption]. intros P.
  rewrite filter_app, map_app. apply Forall2_app; [assumption|].
  change (filter is_request (named id FUnknown DEBUG "Start" :: sl ++ match o with Throw _ => [named id FUnknown TRACE "Stop"] | _ => [] end))
    with (filter is_request (sl ++ match o with Throw _ => [named id FUnknown TRACE "Stop"] | _ => [] end)).
  rewrite filter_app. replace (filter is_request (match o with Throw _ => _ | _ => _ end)) with (@nil message) by (destruct o; reflexivity).
  now rewrite app_nil_r.
Qed.
End Requests.

(** ** Single calls *)
Lemma idle {W} h use8 (si : session_if W) x f w :
  is_u16 (fo_id f) -> fo_state f <> FUnknown -> impossible x (state_code (fo_state f)) ->
  fop_run h use8 si x (f, w) = (Ok false, (f, w))
  /\ match remark x (state_code (fo_state f)) with
     | Some (l, t) => exists m, fop_log h use8 si x (f, w) = [m] /\ fst m = l /\ says (fo_id f) (state_code (fo_state f)) t m
     | None => fop_log h use8 si x (f, w) = []
     end.
Proof.
  intros V K P. destruct f as [id s calls]. cbn [fo_id fo_state] in *.
  assert (S : forall l t, says id (state_code s) t (named id s l t)).
  { intros l t. unfold says. rewrite read_named by assumption. now rewrite state_name_ok. }
  destruct x as [hid| |]; cbn [impossible] in P; [| |contradiction]; destruct s; try contradiction;
    (split; [reflexivity|]); cbn [remark state_code Z.eqb]; try reflexivity;
    (eexists; split; [reflexivity|]; split; [reflexivity|]; apply S).
Qed.

Lemma begins {W} h use8 (si : session_if W) hid f w : is_u16 (fo_id f) -> state_code (fo_state f) = 2 ->
  exists m more, begin_log h use8 si hid f w = m :: more /\ fst m = INFO /\ says (fo_id f) 2 "Initiate upload" m.
Proof.
  intros V C. destruct f as [id s calls]. cbn [fo_id fo_state] in *. destruct s; try discriminate.
  unfold begin_log. cbv zeta. cbn [fo_id fo_state]. do 2 eexists. split; [reflexivity|]. split; [reflexivity|].
  unfold says. now rewrite read_named.
Qed.

Lemma packet_told {D} h use8 handle (dev : device D) f d tr a d' size T content k hid num ty rest :
  is_u32 handle -> sendable use8 (fo_id f) -> fo_state f = FUpload size T content k hid -> is_u8 k ->
  dev d (transfer_request (fo_id f) k) = (a, d') -> answer_wf a -> a_status a = 0 -> a_data a = num :: ty :: rest ->
  exists t m, numeral t ty /\ at_level DEBUG (transfer_log h use8 (served handle dev) f (d, tr)) = [m]
    /\ says (fo_id f) 5 ("Receive transfer packet type=" ++ t) (DEBUG, m).
Proof.
  intros H S F U A Wa Z0 Ed. unfold transfer_log. cbv zeta. rewrite F.
  assert (B : is_u8 ty).
  { destruct Wa as (_ & _ & _ & B & _). rewrite Ed in B. inv B. match goal with X : Forall _ (ty :: _) |- _ => now inv X end. }
  change (bdata (put_u8 (buf_of []) k)) with [k] in *. unfold UPLOAD_TRANSFER, FILE_OBJECT_CLASS_ID.
  unfold transfer_request in A. replace (k mod 256) with k in A by (unfold is_u8 in U; rewrite Z.mod_small; lia).
  rewrite (served2 h use8 handle dev 79 55 (fo_id f) [k] d tr a d'); try assumption; try lia;
    [|constructor; [assumption|constructor]|cbn; lia].
  cbn [fst]. unfold transferred_log. cbv zeta. cbn [r_status r_data]. rewrite Z0, Ed. rewrite F.
  change (0 =? GSC_SUCCESS) with true. cbv iota.
  change (get_u8 h (buf_of (num :: ty :: rest))) with (Ok (num, mkBuf (num :: ty :: rest) 1)).
  cbn [bind]. change (get_u8 h (mkBuf (num :: ty :: rest) 1)) with (Ok (ty, mkBuf (num :: ty :: rest) 2)). cbn [bind].
  exists (to_string ty). eexists. split; [apply to_string_numeral; unfold is_u8 in B; lia|]. split.
  - rewrite !at_level_cons. cbn [request_message named fst snd level_eqb level_value Z.eqb Pos.eqb app].
    match goal with |- _ :: at_level DEBUG ?l = _ => assert (N : at_level DEBUG l = []) end.
    { destruct (negb (num =? k)); [reflexivity|]. destruct (_ && _); [|reflexivity].
      destruct (get_bytes h _ _) as [[x b3]| | |]; try reflexivity. destruct (_ =? size); reflexivity. }
    rewrite N. reflexivity.
  - unfold says.
    change (read_note (snd (named (fo_id f) (FUpload size T content k hid) DEBUG ("Receive transfer packet type=" ++ to_string ty)))
            = Some (mkNote (fo_id f) (name_of 5) ("Receive transfer packet type=" ++ to_string ty))).
    now rewrite read_named by apply S.
Qed.

Lemma resync_told {D} h use8 handle (dev : device D) f d tr a d' code rest :
  is_u32 handle -> sendable use8 (fo_id f) -> dev d (state_request (fo_id f)) = (a, d') -> answer_wf a ->
  a_status a = 0 -> a_data a = code :: rest ->
  exists l, at_level WARNING (fop_log h use8 (served handle dev) FoSync (f, (d, tr))) = l
  /\ ((code = 3 \/ code = 5) -> exists m, l = [m]
        /\ says (fo_id f) (state_code (fo_state f)) "File is uploading. We need to re-initialize the uploading" (WARNING, m))
  /\ (code <> 3 -> code <> 5 -> l = []).
Proof.
  intros H S A Wa Z0 Ed. eexists. split; [reflexivity|]. cbn [fop_log]. unfold sync_log. cbv zeta.
  unfold GET_ATTRIBUTE_SINGLE, FILE_OBJECT_CLASS_ID, FILE_ATTR_STATE.
  rewrite (served3 h use8 handle dev 14 55 (fo_id f) 1 [] d tr a d'); try assumption; try lia; [|constructor|cbn; lia]. cbn [fst].
  unfold synced. cbn [r_status r_data]. rewrite Z0, Ed. change (0 =? GSC_SUCCESS) with true. cbv iota.
  change (get_u8 h (buf_of (code :: rest))) with (Ok (code, mkBuf (code :: rest) 1)). cbn [bind]. split.
  - intros [-> | ->]; (eexists; split; [reflexivity|]); unfold says;
      match goal with |- read_note (snd (WARNING, ?t)) = _ =>
        change (read_note (snd (named (fo_id f) (fo_state f) WARNING "File is uploading. We need to re-initialize the uploading"))
          = Some (mkNote (fo_id f) (name_of (state_code (fo_state f))) "File is uploading. We need to re-initialize the uploading")) end;
      rewrite read_named by apply S; now rewrite state_name_ok.
  - intros N3 N5. replace ((code =? 3) || (code =? 5)) with false by lia.
    destruct (code =? 0), (code =? 1), (code =? 2); reflexivity.
Qed.

Lemma fops_plain {W} h use8 (si : session_if W) ops : forall f w l,
  exists m, fops_logged h use8 si ops (f, w, l) = (fst (fops_run h use8 si ops (f, w)), (snd (fops_run h use8 si ops (f, w)), l ++ m)).
Proof.
  induction ops as [|x ops IH]; intros f w l; cbn [fops_logged fops_run].
  - exists []. now rewrite app_nil_r.
  - unfold fop_logged at 1. destruct (fop_run h use8 si x (f, w)) as [o [f1 w1]] eqn:R. set (m := fop_log h use8 si x (f, w)).
    destruct o as [b|e|u|]; try (now exists m).
    + destruct (IH f1 w1 (l ++ m)) as [m' ->]. destruct (fops_run h use8 si ops (f1, w1)) as [os s]. exists (m ++ m'). now rewrite app_assoc.
    + destruct (IH f1 w1 (l ++ m)) as [m' ->]. destruct (fops_run h use8 si ops (f1, w1)) as [os s]. exists (m ++ m'). now rewrite app_assoc.
Qed.
