(** Proofs about file objects that are synchronised again. *)
From Verif Require Import Base MBuffer SBuffer PBase PBuffer PReader MEip SEip PEip PRouter SObj PObj MFile SFile PFile PFile2 MSync SSync.
Ltac Zify.zify_post_hook ::= Z.div_mod_to_equations.

Lemma sync_request {D} h use8 handle (dev : device D) f d tr a d' :
  is_u32 handle -> sendable use8 (fo_id f) -> dev d (state_request (fo_id f)) = (a, d') -> answer_wf a ->
  file_sync h use8 (served handle dev) (f, (d, tr))
  = match synced h (mkResp 142 (a_status a) (a_addl a) (a_data a) []) with
    | Ok s => (Ok tt, (f_set f s, (d', tr ++ [(state_request (fo_id f), a)])))
    | Throw e => (Throw e, (f, (d', tr ++ [(state_request (fo_id f), a)])))
    | Undef u => (Undef u, (f, (d', tr ++ [(state_request (fo_id f), a)])))
    | Abort => (Abort, (f, (d', tr ++ [(state_request (fo_id f), a)])))
    end.
Proof.
  intros H S E W. unfold file_sync, GET_ATTRIBUTE_SINGLE, FILE_OBJECT_CLASS_ID, FILE_ATTR_STATE.
  rewrite (served3 h use8 handle dev 14 55 (fo_id f) 1 [] d tr a d'); try assumption; try lia; [reflexivity|constructor|cbn; lia].
Qed.

Lemma sync_state {D} h use8 handle (dev : device D) f d tr a d' c rest :
  is_u32 handle -> sendable use8 (fo_id f) -> dev d (state_request (fo_id f)) = (a, d') -> answer_wf a ->
  a_status a = 0 -> a_data a = c :: rest ->
  exists o f', file_sync h use8 (served handle dev) (f, (d, tr)) = (o, (f', (d', tr ++ [(state_request (fo_id f), a)])))
  /\ match client_state c with
     | Some s => o = Ok tt /\ state_code (fo_state f') = s /\ fo_id f' = fo_id f /\ fo_calls f' = fo_calls f
     | None => (exists e, o = Throw (RuntimeError e)) /\ f' = f
     end.
Proof.
  intros H S E W Z0 Ed. rewrite (sync_request h use8 handle dev f d tr a d') by assumption.
  pose proof (synced_cases h (mkResp 142 (a_status a) (a_addl a) (a_data a) []) c rest Ed Z0) as C.
  destruct (client_state c) as [s|].
  - destruct C as (s' & -> & Q). do 2 eexists. split; [reflexivity|]. cbn [f_set fo_state fo_id fo_calls]. now rewrite Q.
  - rewrite C. do 2 eexists. split; [reflexivity|]. split; [eexists; reflexivity|reflexivity].
Qed.

Lemma sync_error {D} h use8 handle (dev : device D) f d tr a d' :
  is_u32 handle -> sendable use8 (fo_id f) -> dev d (state_request (fo_id f)) = (a, d') -> answer_wf a -> a_status a <> 0 ->
  exists e, file_sync h use8 (served handle dev) (f, (d, tr))
            = (Throw (RuntimeError e), (f, (d', tr ++ [(state_request (fo_id f), a)]))).
Proof.
  intros H S E W N. rewrite (sync_request h use8 handle dev f d tr a d') by assumption.
  unfold synced; cbn [r_status]. apply Z.eqb_neq in N. unfold GSC_SUCCESS. rewrite N. eexists; reflexivity.
Qed.

Lemma sync_fails {W} h use8 (si : session_if W) f w e w' :
  (forall p, si_exchange si p w = (Throw e, w')) -> file_sync h use8 si (f, w) = (Throw e, (f, w')).
Proof. intros F. unfold file_sync, send_request. rewrite F. reflexivity. Qed.

(** ** An adapter that follows the protocol *)
Section Steps.
Variables (h : heap) (use8 : bool) (handle id : Z) (F : bytes) (T : Z) (crc : bytes).
Hypothesis Hh : is_u32 handle.
Hypothesis Hid : sendable use8 id.
Hypothesis BF : is_bytes F.
Hypothesis LF : zlen F < 2 ^ 32.
Hypothesis HT : 1 <= T <= 255.
Hypothesis BC : is_bytes crc.
Hypothesis LC : List.length crc = 2%nat.
Let si := served handle (uploader id F T crc).
Let t := Z.to_nat T.

Lemma sync_loaded f k tr : fo_id f = id ->
  file_sync h use8 si (f, (k, tr)) = (Ok tt, (f_set f FLoaded, (k, tr ++ [(state_request id, done [2])]))).
Proof.
  intros I. unfold si. rewrite (sync_request h use8 handle (uploader id F T crc) f k tr (done [2]) k); try assumption; rewrite ?I; try assumption.
  - unfold synced. cbn [done a_status a_addl a_data r_status r_data GSC_SUCCESS Z.eqb]. rewrite u8_at. reflexivity.
  - apply uploader_state.
  - apply done_wf; [repeat constructor; unfold is_u8; lia|cbn; lia].
Qed.

Lemma again f k tr hid : fo_id f = id ->
  exists f1 f2 f3 n trn w1 w2, file_sync h use8 si (f, (k, tr)) = (Ok tt, (f1, w1))
  /\ fo_state f1 = FLoaded
  /\ begin_upload h use8 si hid (f1, w1) = (Ok tt, (f2, w2)) /\ fo_calls f2 = fo_calls f
  /\ (forall m, (n <= m)%nat -> transfer_loop h use8 si m (f2, w2) = (Ok false, (f3, (Some n, trn))))
  /\ fo_calls f3 = fo_calls f ++ [mkCall hid 0 F]
  /\ List.length trn = (List.length tr + 2 + n)%nat /\ Z.of_nat n = pieces (zlen F) T.
Proof.
  intros I. destruct (follow_upload h use8 handle id F T crc hid (fo_calls f) Hh Hid BF LF HT BC LC (f_set f FLoaded) k
      (tr ++ [(state_request id, done [2])]) eq_refl I eq_refl) as (f1 & f2 & n & trn & w1 & E1 & C1 & E2 & C2 & L & N).
  exists (f_set f FLoaded), f1, f2, n, trn. do 2 eexists. split; [now apply sync_loaded|]. split; [reflexivity|].
  split; [exact E1|]. split; [exact C1|]. split; [exact E2|]. split; [exact C2|]. split; [|exact N].
  rewrite L, app_length. cbn [List.length]. lia.
Qed.

(** The client and the adapter agree on the next packet, or the file is
    complete and the adapter one packet ahead. *)
Definition agree (f : fobj) (k : option nat) (left : nat) : Prop :=
  fo_id f = id /\
  match fo_state f with
  | FUpload size T' c num hid =>
      (exists j, at_packet f id F T hid (fo_calls f) j /\ k = Some j /\ left = 1%nat)
      \/ (exists j, k = Some (S j) /\ fo_state f = FUpload (zlen F) T F (Z.of_nat j mod 256) hid /\ left = 0%nat)
  | _ => left = 0%nat
  end.

Lemma agree_transfer f k tr left : agree f k left ->
  exists b f' k' tr' left' cs, handle_transfers h use8 si (f, (k, tr)) = (Ok b, (f', (k', tr')))
  /\ agree f' k' left' /\ fo_calls f' = fo_calls f ++ cs /\ Forall (told F) cs
  /\ (List.length (filter succeeded cs) + left' <= left)%nat
  /\ Forall (fun c => exists size T' ct num, fo_state f = FUpload size T' ct num (hc_handler c)) cs
  /\ (forall size T' ct num hid, fo_state f' = FUpload size T' ct num hid -> exists size T' ct num, fo_state f = FUpload size T' ct num hid).
Proof.
  intros (I & A). destruct (fo_state f) as [| | | |size T' c num hid] eqn:S0.
  1-4: exists false, f, k, tr, left, []; rewrite app_nil_r, transfers_idle by (rewrite S0; discriminate); repeat split; try constructor; try assumption; try (cbn; lia); try (rewrite S0; assumption); rewrite S0; discriminate.
  destruct A as [(j & A & -> & ->)|(j & -> & S1 & ->)].
  - destruct A as (I' & C & S1). rewrite S0 in S1. injection S1 as -> -> Q -> .
    assert (A : at_packet f id F T hid (fo_calls f) j) by (repeat split; [assumption|now rewrite S0, Q]).
    destruct (Nat.le_gt_cases (List.length (skipn (j * t) F)) t) as [L|L].
    + destruct (follow_last h use8 handle id F T crc hid (fo_calls f) Hh Hid BF HT BC LC f j tr A L) as (f' & tr' & E & C' & _ & I2 & S2).
      exists false, f', (Some (S j)), tr', 0%nat, [mkCall hid 0 F]. split; [exact E|].
      split; [split; [assumption|]; rewrite S2; right; exists j; now repeat split|]. split; [exact C'|].
      split; [constructor; [left; now split|constructor]|]. split; [cbn; lia|].
      split; [constructor; [|constructor]; cbn [hc_handler]; do 4 eexists; reflexivity|].
      intros ? ? ? ? ? Q'. rewrite S2 in Q'. injection Q' as <- <- <- <- <-. do 4 eexists; reflexivity.
    + destruct (follow_more h use8 handle id F T crc hid (fo_calls f) Hh Hid BF HT BC LC f j tr A L) as (f' & tr' & E & A' & _).
      exists true, f', (Some (S j)), tr', 1%nat, []. split; [exact E|]. pose proof A' as (I2 & C2 & S2).
      split; [split; [assumption|]; rewrite S2; left; exists (S j); rewrite C2; now repeat split|].
      split; [now rewrite app_nil_r|]. split; [constructor|]. split; [cbn; lia|]. split; [constructor|].
      intros ? ? ? ? ? Q'. rewrite S2 in Q'. injection Q' as <- <- <- <- <-. do 4 eexists; reflexivity.
  - injection S1 as -> -> -> ->. exists true, (f_call f (mkCall hid 32 [])), (Some (S j)). eexists. exists 0%nat, [mkCall hid 32 []].
    split.
    + unfold si. rewrite (transfer_request_ok h use8 handle (uploader id F T crc) f (zlen F) T F j hid (Some (S j)) tr (failed 32) (Some (S j))); try assumption.
      * reflexivity.
      * now rewrite I.
      * unfold uploader, transfer_request. rewrite I.
        replace (Z.of_nat j mod 256 =? Z.of_nat (S j) mod 256) with false by (symmetry; apply Z.eqb_neq; lia).
        now rewrite andb_false_r.
      * unfold answer_wf; cbn. repeat match goal with |- _ /\ _ => split end; try constructor; unfold is_u8; lia.
    + split; [split; [exact I|]; cbn [f_call fo_state]; rewrite S0; right; exists j; now repeat split|].
      split; [reflexivity|]. split; [constructor; [right; split; [discriminate|reflexivity]|constructor]|]. split; [cbn; lia|].
      split; [constructor; [|constructor]; cbn [hc_handler]; do 4 eexists; reflexivity|].
      cbn [f_call fo_state]. intros ? ? ? ? ? Q'. rewrite S0 in Q'. injection Q' as <- <- <- <- <-. do 4 eexists; reflexivity.
Qed.

Lemma agree_begin f k tr left hid : agree f k left ->
  exists f' k' tr' left', begin_upload h use8 si hid (f, (k, tr)) = (Ok tt, (f', (k', tr')))
  /\ agree f' k' left' /\ fo_calls f' = fo_calls f /\ (left' <= left + 1)%nat
  /\ (forall size T' ct num hid', fo_state f' = FUpload size T' ct num hid' ->
      hid' = hid \/ exists size T' ct num, fo_state f = FUpload size T' ct num hid').
Proof.
  intros A. pose proof A as (I & B). destruct (Z.eq_dec (state_code (fo_state f)) 2) as [Q|Q].
  - assert (S0 : fo_state f = FLoaded) by (destruct (fo_state f); cbn [state_code] in Q; try discriminate; reflexivity).
    destruct (follow_begin h use8 handle id F T crc hid (fo_calls f) Hh Hid LF HT LC f k tr S0 I eq_refl) as (f' & tr' & E & A' & _).
    exists f', (Some O), tr', 1%nat. split; [exact E|]. pose proof A' as (I2 & C2 & S2).
    split; [split; [assumption|]; rewrite S2; left; exists 0%nat; rewrite C2; now repeat split|]. split; [exact C2|].
    split; [lia|]. intros ? ? ? ? ? Q'. rewrite S2 in Q'. injection Q' as <- <- <- <- <-. now left.
  - exists f, k, tr, left. rewrite begin_idle by assumption. split; [reflexivity|]. split; [exact A|]. split; [reflexivity|]. split; [lia|].
    intros ? ? ? ? ? Q'. right. do 4 eexists. exact Q'.
Qed.

Lemma any_order l : forall f k tr left, agree f k left ->
  exists os f' k' tr' cs left', fops_run h use8 si l (f, (k, tr)) = (os, (f', (k', tr')))
  /\ List.length os = List.length l /\ Forall (fun o => exists b, o = Ok b) os
  /\ agree f' k' left'
  /\ fo_calls f' = fo_calls f ++ cs /\ Forall (told F) cs
  /\ (List.length (filter succeeded cs) + left' <= left + List.length (begins l))%nat
  /\ Forall (fun c => In (hc_handler c) (begins l) \/ exists size T' ct num, fo_state f = FUpload size T' ct num (hc_handler c)) cs.
Proof.
  induction l as [|x l IH]; intros f k tr left A.
  - exists [], f, k, tr, [], left. rewrite app_nil_r. repeat split; try constructor; try apply A; cbn; lia.
  - assert (ST : exists b f1 k1 tr1 left1 cs, fop_run h use8 si x (f, (k, tr)) = (Ok b, (f1, (k1, tr1)))
       /\ agree f1 k1 left1 /\ fo_calls f1 = fo_calls f ++ cs /\ Forall (told F) cs
       /\ (List.length (filter succeeded cs) + left1 <= left + List.length (begins [x]))%nat
       /\ Forall (fun c => exists size T' ct num, fo_state f = FUpload size T' ct num (hc_handler c)) cs
       /\ (forall size T' ct num hid, fo_state f1 = FUpload size T' ct num hid ->
            In hid (begins [x]) \/ exists size T' ct num, fo_state f = FUpload size T' ct num hid)).
    { destruct x as [hid| |].
      - destruct (agree_begin f k tr left hid A) as (f1 & k1 & tr1 & left1 & E & A1 & C & L & ST).
        exists false, f1, k1, tr1, left1, []. cbn [fop_run]. unfold st_bind. rewrite E, app_nil_r.
        split; [reflexivity|]. split; [exact A1|]. split; [exact C|]. split; [constructor|]. split; [cbn; lia|]. split; [constructor|].
        intros ? ? ? ? ? Q. destruct (ST _ _ _ _ _ Q) as [->|R]; [left; now left|now right].
      - destruct (agree_transfer f k tr left A) as (b & f1 & k1 & tr1 & left1 & cs & E & A1 & C & TO & L & H1 & H2).
        exists b, f1, k1, tr1, left1, cs. cbn [fop_run]. split; [exact E|]. split; [exact A1|]. split; [exact C|]. split; [exact TO|].
        split; [cbn; lia|]. split; [exact H1|]. intros ? ? ? ? ? Q. right. eapply H2; exact Q.
      - exists false, (f_set f FLoaded), k. eexists. exists 0%nat, []. cbn [fop_run]. unfold st_bind.
        rewrite sync_loaded by apply A. split; [reflexivity|].
        split; [split; [apply A|reflexivity]|]. split; [now rewrite app_nil_r|]. split; [constructor|]. split; [cbn; lia|]. split; [constructor|].
        cbn. discriminate. }
    destruct ST as (b & f1 & k1 & tr1 & left1 & cs1 & E & A1 & C1 & TO1 & L1 & H1 & H2).
    destruct (IH f1 k1 tr1 left1 A1) as (os & f2 & k2 & tr2 & cs2 & left2 & E2 & LO & OK & A2 & C2 & TO2 & L2 & HB).
    exists (Ok b :: os), f2, k2, tr2, (cs1 ++ cs2), left2. cbn [fops_run]. rewrite E, E2.
    assert (BE : begins (x :: l) = begins [x] ++ begins l) by (unfold begins; cbn [map concat]; now rewrite app_nil_r).
    split; [reflexivity|]. split; [cbn [List.length]; now rewrite LO|]. split; [constructor; [eexists; reflexivity|assumption]|].
    split; [exact A2|]. split; [now rewrite C2, C1, app_assoc|]. split; [now apply Forall_app|].
    split; [rewrite filter_app, BE, !app_length; lia|]. apply Forall_app; split.
    + eapply Forall_impl; [|exact H1]. intros c Q. now right.
    + eapply Forall_impl; [|exact HB]. intros c [Q|(? & ? & ? & ? & Q)].
      * left. rewrite BE. apply in_app_iff. now right.
      * destruct (H2 _ _ _ _ _ Q) as [R|R]; [left; rewrite BE; apply in_app_iff; now left|now right].
Qed.

Lemma any_history l f k tr : fo_id f = id -> state_code (fo_state f) <> 5 ->
  exists os f' w' cs, fops_run h use8 si l (f, (k, tr)) = (os, (f', w'))
  /\ List.length os = List.length l /\ Forall (fun o => exists b, o = Ok b) os
  /\ fo_id f' = id /\ fo_calls f' = fo_calls f ++ cs
  /\ Forall (told F) cs
  /\ (List.length (filter succeeded cs) <= List.length (begins l))%nat
  /\ Forall (fun c => In (hc_handler c) (begins l)) cs.
Proof.
  intros I N. assert (A : agree f k 0) by (split; [exact I|]; destruct (fo_state f); cbn [state_code] in N; try reflexivity; lia).
  destruct (any_order l f k tr 0 A) as (os & f' & k' & tr' & cs & left' & E & LO & OK & (I' & _) & C & TO & L & HB).
  exists os, f', (k', tr'), cs. repeat (split; [assumption|]). split; [lia|].
  eapply Forall_impl; [|exact HB]. intros c [Q|(? & ? & ? & ? & Q)]; [exact Q|]. rewrite Q in N. cbn [state_code] in N. lia.
Qed.
End Steps.

(** ** Any session: a handler belongs to a beginUpload *)
Definition own (f : fobj) (hid : nat) : Prop :=
  match fo_state f with FUpload _ _ _ _ hid' => hid' = hid | _ => False end.

Lemma own_step {W} h use8 (si : session_if W) x f w o f' w' : fop_run h use8 si x (f, w) = (o, (f', w')) ->
  fo_id f' = fo_id f
  /\ exists cs, fo_calls f' = fo_calls f ++ cs
     /\ Forall (fun c => In (hc_handler c) (begins [x]) \/ own f (hc_handler c)) cs
     /\ (forall hid, own f' hid -> In hid (begins [x]) \/ own f hid)
     /\ (x = FoSync -> o = Ok false -> forall hid, ~ own f' hid)
     /\ (x = FoSync -> cs = []).
Proof.
  intros E.
  assert (NOOP : f' = f -> x <> FoSync -> fo_id f' = fo_id f
    /\ exists cs, fo_calls f' = fo_calls f ++ cs
     /\ Forall (fun c => In (hc_handler c) (begins [x]) \/ own f (hc_handler c)) cs
     /\ (forall hid, own f' hid -> In hid (begins [x]) \/ own f hid)
     /\ (x = FoSync -> o = Ok false -> forall hid, ~ own f' hid) /\ (x = FoSync -> cs = [])).
  { intros -> N. split; [reflexivity|]. exists []. rewrite app_nil_r. split; [reflexivity|]. split; [constructor|]. split; [now right|].
    split; intros Q; now destruct (N Q). }
  destruct x as [hid| |]; cbn [fop_run] in E.
  - unfold st_bind in E. destruct (begin_upload h use8 si hid (f, w)) as [o1 [f1 w1]] eqn:B.
    assert (Q : f' = f1) by (destruct o1; inversion E; reflexivity). subst f1. clear E.
    unfold begin_upload in B. destruct (fo_state f) as [| | | |size T c k hid0] eqn:S0;
      try (inversion B; subst; now apply NOOP).
    destruct (send_request _ _ _ _ _ _ _ _) as [r w2]. destruct (bind r _) as [f2| | |] eqn:X; inversion B; subst;
      try (now apply NOOP).
    destruct r as [r| | |]; try discriminate. cbn [bind] in X. unfold initiated in X. destruct (r_status r =? GSC_SUCCESS).
    + destruct (get_u32 h _) as [[x b1]| | |]; try discriminate. cbn [bind] in X.
      destruct (get_u8 h b1) as [[y b2]| | |]; try discriminate. inversion X; subst. split; [reflexivity|].
      exists []. cbn. rewrite app_nil_r. split; [reflexivity|]. split; [constructor|]. split; [|split; discriminate]. unfold own; cbn [fo_state]. intros h' <-. left. now left.
    + inversion X; subst. split; [reflexivity|]. exists [mkCall hid (r_status r) []]. split; [reflexivity|].
      split; [constructor; [left; now left|constructor]|]. split; [|split; discriminate].
      unfold own, f_call; cbn [fo_state]. rewrite S0. now right.
  - unfold handle_transfers in E. destruct (fo_state f) as [| | | |size T c k hid0] eqn:S0;
      try (inversion E; subst; now apply NOOP).
    destruct (send_request _ _ _ _ _ _ _ _) as [r w2]. destruct (bind r _) as [[b f2]| | |] eqn:X; inversion E; subst;
      try (now apply NOOP).
    destruct r as [r| | |]; try discriminate. cbn [bind] in X. unfold transferred in X.
    assert (ONE : forall s ct, f' = f_call f (mkCall hid0 s ct) -> fo_id f' = fo_id f
       /\ exists cs, fo_calls f' = fo_calls f ++ cs
       /\ Forall (fun c => In (hc_handler c) (begins [FoTransfer]) \/ own f (hc_handler c)) cs
       /\ (forall hid, own f' hid -> In hid (begins [FoTransfer]) \/ own f hid)
       /\ (FoTransfer = FoSync -> Ok b = Ok false -> forall hid, ~ own f' hid) /\ (FoTransfer = FoSync -> cs = [])).
    { intros s ct ->. split; [reflexivity|]. exists [mkCall hid0 s ct]. split; [reflexivity|].
      split; [constructor; [right; unfold own; now rewrite S0|constructor]|]. split; [|split; discriminate].
      intros h' O. right. exact O. }
    destruct (r_status r =? GSC_SUCCESS); [|inversion X; subst; eapply ONE; reflexivity].
    destruct (get_u8 h _) as [[x b1]| | |]; try discriminate. cbn [bind] in X.
    destruct (get_u8 h b1) as [[y b2]| | |]; try discriminate. cbn [bind] in X.
    destruct (negb (x =? k)); [inversion X; subst; eapply ONE; reflexivity|].
    destruct ((y =? 0) || (y =? 1)).
    + destruct (get_bytes _ _ _) as [[z b3]| | |]; try discriminate. inversion X; subst. split; [reflexivity|].
      exists []. cbn. rewrite app_nil_r. split; [reflexivity|]. split; [constructor|]. split; [|split; discriminate]. unfold own; cbn [fo_state]. rewrite S0. now right.
    + destruct ((y =? 2) || (y =? 4)); [|discriminate]. destruct (Nat.ltb _ _); [discriminate|].
      destruct (get_bytes _ _ _) as [[z b3]| | |]; try discriminate. inversion X; subst. cbn. split; [reflexivity|].
      eexists. split; [reflexivity|]. split; [constructor; [right; unfold own; rewrite S0; now destruct (_ =? size)|constructor]|].
      split; [|split; discriminate]. unfold own; cbn [fo_state]. rewrite S0. now right.
  - unfold st_bind in E. destruct (file_sync h use8 si (f, w)) as [o1 [f1 w1]] eqn:B.
    assert (Q : f' = f1) by (destruct o1; inversion E; reflexivity). subst f1.
    unfold file_sync in B. destruct (send_request _ _ _ _ _ _ _ _) as [r w2]. destruct (bind r _) as [s| | |] eqn:X; inversion B; subst;
      (split; [reflexivity|]; exists []; rewrite app_nil_r; split; [reflexivity|]; split; [constructor|]).
    2-4: split; [now right|]; split; [intros _ K; inversion E; subst; discriminate|reflexivity].
    assert (NO : forall hid, ~ own (f_set f s) hid).
    { intros hid O. unfold own, f_set in O; cbn [fo_state] in O. destruct r as [r| | |]; try discriminate. cbn [bind] in X. unfold synced in X.
      destruct (r_status r =? GSC_SUCCESS); [|discriminate]. destruct (get_u8 h _) as [[x b1]| | |]; try discriminate. cbn [bind] in X.
      destruct (x =? 0); [inversion X; subst; exact O|]. destruct (x =? 1); [inversion X; subst; exact O|].
      destruct (x =? 2); [inversion X; subst; exact O|]. destruct (_ || _); [inversion X; subst; exact O|discriminate]. }
    split; [intros hid O; now destruct (NO hid)|]. split; [intros _ _; exact NO|reflexivity].
Qed.

Lemma own_run {W} h use8 (si : session_if W) l : forall f w os f' w', fops_run h use8 si l (f, w) = (os, (f', w')) ->
  fo_id f' = fo_id f /\
  exists cs, fo_calls f' = fo_calls f ++ cs
  /\ Forall (fun c => In (hc_handler c) (begins l) \/ own f (hc_handler c)) cs.
Proof.
  induction l as [|x l IH]; intros f w os f' w' E.
  - inversion E; subst. split; [reflexivity|]. exists []. rewrite app_nil_r. split; [reflexivity|constructor].
  - cbn [fops_run] in E. destruct (fop_run h use8 si x (f, w)) as [o [f1 w1]] eqn:X.
    destruct (own_step h use8 si x f w o f1 w1 X) as (I1 & cs1 & C1 & H1 & O1 & _).
    assert (BE : begins (x :: l) = begins [x] ++ begins l) by (unfold begins; cbn [map concat]; now rewrite app_nil_r).
    assert (STOP : forall os', (os', (f1, w1)) = (os, (f', w')) -> fo_id f' = fo_id f /\
        exists cs, fo_calls f' = fo_calls f ++ cs /\ Forall (fun c => In (hc_handler c) (begins (x :: l)) \/ own f (hc_handler c)) cs).
    { intros os' Q. inversion Q; subst. split; [exact I1|]. exists cs1. split; [exact C1|]. eapply Forall_impl; [|exact H1].
      intros c [R|R]; [left; rewrite BE; apply in_app_iff; now left|now right]. }
    assert (GO : forall os' s', fops_run h use8 si l (f1, w1) = (os', s') -> s' = (f', w') -> fo_id f' = fo_id f /\
        exists cs, fo_calls f' = fo_calls f ++ cs /\ Forall (fun c => In (hc_handler c) (begins (x :: l)) \/ own f (hc_handler c)) cs).
    { intros os' s' Q ->. destruct (IH _ _ _ _ _ Q) as (I2 & cs2 & C2 & H2). split; [congruence|]. exists (cs1 ++ cs2).
      split; [now rewrite C2, C1, app_assoc|]. apply Forall_app; split; (eapply Forall_impl; [|eassumption]).
      - intros c [R|R]; [left; rewrite BE; apply in_app_iff; now left|now right].
      - intros c [R|R]; [left; rewrite BE; apply in_app_iff; now right|]. destruct (O1 _ R) as [R'|R']; [left; rewrite BE; apply in_app_iff; now left|now right]. }
    destruct o as [b|e|u|]; try (eapply STOP; exact E);
      destruct (fops_run h use8 si l (f1, w1)) as [os' s'] eqn:Q; inversion E; subst; eapply GO; reflexivity.
Qed.

Lemma abandoned {W} h use8 (si : session_if W) l f w f1 w1 os f' w' :
  file_sync h use8 si (f, w) = (Ok tt, (f1, w1)) -> fops_run h use8 si l (f1, w1) = (os, (f', w')) ->
  exists cs, fo_calls f' = fo_calls f ++ cs /\ Forall (fun c => In (hc_handler c) (begins l)) cs.
Proof.
  intros E R. assert (X : fop_run h use8 si FoSync (f, w) = (Ok false, (f1, w1))) by (cbn [fop_run]; unfold st_bind; now rewrite E).
  destruct (own_step h use8 si FoSync f w _ f1 w1 X) as (_ & cs1 & C1 & _ & _ & N & Z0). rewrite (Z0 eq_refl), app_nil_r in C1.
  destruct (own_run h use8 si l f1 w1 os f' w' R) as (_ & cs & C & H). exists cs. split; [now rewrite C, C1|].
  eapply Forall_impl; [|exact H]. intros c [Q|Q]; [exact Q|]. now destruct (N eq_refl eq_refl _ Q).
Qed.
