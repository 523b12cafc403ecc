(** Proofs about the file object client. *)
From Verif Require Import Base MBuffer SBuffer PBase PBuffer MEip SEip PEip PRouter SObj PObj MFile SFile.
Ltac Zify.zify_post_hook ::= Z.div_mod_to_equations.

Lemma u8_at h x rest : get_u8 h (buf_of (x :: rest)) = Ok (x, at_ [x] rest).
Proof. rewrite buf_of_at. apply get_u8_at. Qed.

(** ** State synchronisation *)
Lemma synced_cases h r c rest : r_data r = c :: rest -> r_status r = 0 ->
  match client_state c with
  | Some s => exists f, synced h r = Ok f /\ state_code f = s
  | None => synced h r = Throw (RuntimeError RtFileState)
  end.
Proof.
  intros E S. unfold synced. rewrite S, E. cbn [Z.eqb GSC_SUCCESS]. rewrite u8_at. cbn [bind].
  assert (C : c = 0 \/ c = 1 \/ c = 2 \/ c = 3 \/ c = 5 \/ (client_state c = None /\ c <> 0 /\ c <> 1 /\ c <> 2 /\ c <> 3 /\ c <> 5)).
  { destruct (Z.eq_dec c 0), (Z.eq_dec c 1), (Z.eq_dec c 2), (Z.eq_dec c 3), (Z.eq_dec c 5); try tauto.
    do 5 right. split; [|tauto]. destruct c as [|p|p]; try reflexivity; try lia.
    do 3 (destruct p; try reflexivity; try lia). }
  destruct C as [->|[->|[->|[->|[->|(-> & N0 & N1 & N2 & N3 & N5)]]]]]; try (eexists; split; reflexivity).
  apply Z.eqb_neq in N0, N1, N2, N3, N5. rewrite N0, N1, N2, N3, N5. reflexivity.
Qed.

Lemma file_open_request {D} h use8 handle (dev : device D) id d tr a d' :
  is_u32 handle -> sendable use8 id -> dev d (state_request id) = (a, d') -> answer_wf a ->
  file_open h use8 (served handle dev) id (d, tr)
  = (bind (synced h (mkResp 142 (a_status a) (a_addl a) (a_data a) [])) (fun s => Ok (mkFile id s [])),
     (d', tr ++ [(state_request id, a)])).
Proof.
  intros H S E W. unfold file_open, GET_ATTRIBUTE_SINGLE, FILE_OBJECT_CLASS_ID, FILE_ATTR_STATE.
  rewrite (served3 h use8 handle dev 14 55 id 1 [] d tr a d'); try assumption; try lia; [reflexivity|constructor|cbn; lia].
Qed.

Lemma file_open_state {D} h use8 handle (dev : device D) id d tr a d' c rest :
  is_u32 handle -> sendable use8 id -> dev d (state_request id) = (a, d') -> answer_wf a ->
  a_status a = 0 -> a_data a = c :: rest ->
  exists r, file_open h use8 (served handle dev) id (d, tr) = (r, (d', tr ++ [(state_request id, a)]))
  /\ match client_state c with
     | Some s => exists f, r = Ok f /\ state_code (fo_state f) = s /\ fo_id f = id /\ fo_calls f = []
     | None => exists e, r = Throw (RuntimeError e)
     end.
Proof.
  intros H S E W Z0 Ed. rewrite (file_open_request h use8 handle dev id d tr a d') by assumption.
  eexists. split; [reflexivity|]. pose proof (synced_cases h (mkResp 142 (a_status a) (a_addl a) (a_data a) []) c rest Ed Z0) as C.
  destruct (client_state c) as [s|].
  - destruct C as (f & -> & Q). cbn [bind]. eexists. split; [reflexivity|]. cbn [fo_state fo_id fo_calls]. now rewrite Q.
  - rewrite C. eexists; reflexivity.
Qed.

Lemma file_open_error {D} h use8 handle (dev : device D) id d tr a d' :
  is_u32 handle -> sendable use8 id -> dev d (state_request id) = (a, d') -> answer_wf a -> a_status a <> 0 ->
  exists e, file_open h use8 (served handle dev) id (d, tr)
            = (Throw (RuntimeError e), (d', tr ++ [(state_request id, a)])).
Proof.
  intros H S E W N. rewrite (file_open_request h use8 handle dev id d tr a d') by assumption.
  unfold synced; cbn [r_status]. apply Z.eqb_neq in N. unfold GSC_SUCCESS. rewrite N. eexists; reflexivity.
Qed.

Lemma file_open_fails {W} h use8 (si : session_if W) id w e w' :
  (forall p, si_exchange si p w = (Throw e, w')) -> file_open h use8 si id w = (Throw e, w').
Proof. intros F. unfold file_open, send_request. rewrite F. reflexivity. Qed.

Lemma file_open_empty {D} handle (dev : device D) use8 id d tr d' :
  is_u32 handle -> sendable use8 id -> dev d (state_request id) = (done [], d') ->
  fst (file_open strict use8 (served handle dev) id (d, tr)) = Undef UbOobRead.
Proof.
  intros H S E. rewrite (file_open_request strict use8 handle dev id d tr (done []) d'); try assumption; [reflexivity|].
  unfold answer_wf; cbn. repeat split; try constructor; lia.
Qed.

(** ** Transfers *)
Lemma put_one n : bdata (put_u8 (buf_of []) n) = [n].
Proof. reflexivity. Qed.

Lemma begin_request {D} h use8 handle (dev : device D) f hid d tr a d' :
  is_u32 handle -> sendable use8 (fo_id f) -> fo_state f = FLoaded ->
  dev d (initiate_request (fo_id f)) = (a, d') -> answer_wf a ->
  begin_upload h use8 (served handle dev) hid (f, (d, tr))
  = match initiated h hid f (mkResp 203 (a_status a) (a_addl a) (a_data a) []) with
    | Ok f' => (Ok tt, (f', (d', tr ++ [(initiate_request (fo_id f), a)])))
    | Throw e => (Throw e, (f, (d', tr ++ [(initiate_request (fo_id f), a)])))
    | Undef u => (Undef u, (f, (d', tr ++ [(initiate_request (fo_id f), a)])))
    | Abort => (Abort, (f, (d', tr ++ [(initiate_request (fo_id f), a)])))
    end.
Proof.
  intros H S L E W. unfold begin_upload. rewrite L, put_one. unfold INITIATE_UPLOAD, FILE_OBJECT_CLASS_ID, MAX_TRANSFER_SIZE.
  rewrite (served2 h use8 handle dev 75 55 (fo_id f) [255] d tr a d'); try assumption; try lia.
  - reflexivity.
  - repeat constructor; unfold is_u8; lia.
  - cbn; lia.
Qed.

Lemma transfer_request_ok {D} h use8 handle (dev : device D) f size T content k hid d tr a d' :
  is_u32 handle -> sendable use8 (fo_id f) -> fo_state f = FUpload size T content (Z.of_nat k mod 256) hid ->
  dev d (transfer_request (fo_id f) (Z.of_nat k)) = (a, d') -> answer_wf a ->
  handle_transfers h use8 (served handle dev) (f, (d, tr))
  = match transferred h f size T content (Z.of_nat k mod 256) hid (mkResp 207 (a_status a) (a_addl a) (a_data a) []) with
    | Ok (b, f') => (Ok b, (f', (d', tr ++ [(transfer_request (fo_id f) (Z.of_nat k), a)])))
    | Throw e => (Throw e, (f, (d', tr ++ [(transfer_request (fo_id f) (Z.of_nat k), a)])))
    | Undef u => (Undef u, (f, (d', tr ++ [(transfer_request (fo_id f) (Z.of_nat k), a)])))
    | Abort => (Abort, (f, (d', tr ++ [(transfer_request (fo_id f) (Z.of_nat k), a)])))
    end.
Proof.
  intros H S L E W. unfold handle_transfers. rewrite L, put_one. unfold UPLOAD_TRANSFER, FILE_OBJECT_CLASS_ID.
  rewrite (served2 h use8 handle dev 79 55 (fo_id f) [Z.of_nat k mod 256] d tr a d'); try assumption; try lia.
  - reflexivity.
  - repeat constructor; unfold is_u8; lia.
  - cbn; lia.
Qed.

(** One transfer, by the contents of the reply. *)
Lemma transferred_two h f size T content num hid r n ty rest : r_status r = 0 -> r_data r = n :: ty :: rest ->
  transferred h f size T content num hid r
  = if negb (n =? num) then Ok (false, f_call f (mkCall hid 32 []))
    else if (ty =? 0) || (ty =? 1) then
      bind (get_bytes h (Z.to_nat T) (at_ [n; ty] rest)) (fun '(d, _) =>
      Ok (true, f_set f (FUpload size T (content ++ d) (u8 (num + 1)) hid)))
    else if (ty =? 2) || (ty =? 4) then
      if Nat.ltb (List.length rest) 2 then Throw LengthError
      else
        let content := content ++ firstn (List.length rest - 2) rest in
        let f := f_set f (FUpload size T content num hid) in
        Ok (false, f_call f (if zlen content =? size then mkCall hid 0 content else mkCall hid 32 []))
    else Throw (RuntimeError RtFileTransferStatus).
Proof.
  intros S0 E. unfold transferred. rewrite S0, E. cbn [GSC_SUCCESS Z.eqb]. rewrite u8_at. cbn [bind].
  rewrite get_u8_at. cbn [bind app]. destruct (negb (n =? num)); [reflexivity|].
  destruct ((ty =? 0) || (ty =? 1)); [reflexivity|]. destruct ((ty =? 2) || (ty =? 4)); [|reflexivity].
  cbn [List.length]. destruct (Nat.ltb_spec (S (S (List.length rest))) 4), (Nat.ltb_spec (List.length rest) 2); try lia; [reflexivity|].
  replace (S (S (List.length rest)) - 4)%nat with (List.length rest - 2)%nat by lia.
  rewrite get_bytes_n by lia. reflexivity.
Qed.

Lemma u8_next k : u8 (Z.of_nat k mod 256 + 1) = Z.of_nat (S k) mod 256.
Proof. unfold u8. lia. Qed.

(** ** The protocol-following adapter *)
Definition at_packet (f : fobj) (id : Z) (F : bytes) (T : Z) (hid : nat) (pre : list hcall) (k : nat) : Prop :=
  fo_id f = id /\ fo_calls f = pre
  /\ fo_state f = FUpload (zlen F) T (firstn (k * Z.to_nat T) F) (Z.of_nat k mod 256) hid.

Lemma uploader_state id F T crc k : uploader id F T crc k (state_request id) = (done [2], k).
Proof. unfold uploader, state_request. now rewrite Z.eqb_refl. Qed.
Lemma uploader_initiate id F T crc k : T <= 255 ->
  uploader id F T crc k (initiate_request id) = (done (le 4 (zlen F) ++ [T]), Some O).
Proof. intros L. unfold uploader, initiate_request. rewrite Z.eqb_refl. now destruct (Z.leb_spec T 255); [|lia]. Qed.
Lemma uploader_transfer id F T crc j :
  uploader id F T crc (Some j) (transfer_request id (Z.of_nat j)) = (done (file_packet F (Z.to_nat T) crc j), Some (S j)).
Proof. unfold uploader, transfer_request. now rewrite !Z.eqb_refl. Qed.

Lemma skipn_bytes n l : is_bytes l -> is_bytes (skipn n l).
Proof. intros B. rewrite <- (firstn_skipn n l) in B. apply Forall_app in B. apply B. Qed.
Lemma firstn_bytes n l : is_bytes l -> is_bytes (firstn n l).
Proof. intros B. rewrite <- (firstn_skipn n l) in B. apply Forall_app in B. apply B. Qed.

Lemma done_wf d : is_bytes d -> zlen d <= 60000 -> answer_wf (done d).
Proof. intros B L. unfold answer_wf, done; cbn [a_status a_addl a_data]. repeat match goal with |- _ /\ _ => split end; try assumption; try constructor; unfold is_u8; cbn; try lia. Qed.

Lemma packet_wf' F T crc k : is_bytes F -> is_bytes crc -> List.length crc = 2%nat -> (T <= 255)%nat ->
  answer_wf (done (file_packet F T crc k)).
Proof.
  intros BF BC LC LT. apply done_wf; unfold file_packet.
  - destruct (Nat.leb_spec (List.length (skipn (k * T) F)) T); apply is_bytes_app; split;
      try (repeat constructor; unfold is_u8; try lia; destruct (Nat.eqb k 0); lia).
    + apply is_bytes_app; split; [now apply skipn_bytes|assumption].
    + now apply firstn_bytes, skipn_bytes.
  - destruct (Nat.leb_spec (List.length (skipn (k * T) F)) T); rewrite !zlen_app; unfold zlen; cbn [List.length].
    + lia.
    + rewrite firstn_length. lia.
Qed.

Section Follow.
Variables (h : heap) (use8 : bool) (handle id : Z) (F : bytes) (T : Z) (crc : bytes) (hid : nat) (pre : list hcall).
Hypothesis Hh : is_u32 handle.
Hypothesis Hid : sendable use8 id.
Hypothesis BF : is_bytes F.
Hypothesis LF : zlen F < 2 ^ 32.
Hypothesis HT : 1 <= T <= 255.
Hypothesis BC : is_bytes crc.
Hypothesis LC : List.length crc = 2%nat.
Let si := served handle (uploader id F T crc).
Let t := Z.to_nat T.

Lemma follow_more f k tr : at_packet f id F T hid pre k -> (t < List.length (skipn (k * t) F))%nat ->
  exists f' tr', handle_transfers h use8 si (f, (Some k, tr)) = (Ok true, (f', (Some (S k), tr')))
  /\ at_packet f' id F T hid pre (S k) /\ List.length tr' = S (List.length tr).
Proof.
  intros (I & C & S0) L. unfold si.
  pose proof (uploader_transfer id F T crc k) as E. rewrite <- I in E at 2.
  rewrite (transfer_request_ok h use8 handle _ f _ _ _ k hid (Some k) tr _ _ Hh ltac:(now rewrite I) S0 E)
    by (apply packet_wf'; try assumption; lia).
  remember (skipn (k * t) F) as rest eqn:R.
  erewrite transferred_two; [|reflexivity|].
  2:{ cbn [r_data done a_data]. unfold file_packet. fold t. rewrite <- R. destruct (Nat.leb_spec (List.length rest) t); [lia|reflexivity]. }
  rewrite Z.eqb_refl. cbn [negb].
  replace (((if Nat.eqb k 0 then 0 else 1) =? 0) || ((if Nat.eqb k 0 then 0 else 1) =? 1)) with true by (destruct (Nat.eqb k 0); reflexivity).
  fold t. rewrite get_bytes_n by (rewrite firstn_length; lia). cbn [bind].
  eexists. eexists. split; [reflexivity|]. split; [|rewrite app_length; cbn [List.length]; lia].
  split; [exact I|]. split; [exact C|]. cbn [f_set fo_state]. rewrite u8_next. f_equal.
  rewrite firstn_firstn, Nat.min_id. subst rest. fold t. clear. cbn [Nat.mul].
  rewrite <- (firstn_skipn (k * t) F) at 3. destruct (Nat.le_gt_cases (k * t) (List.length F)) as [Q|Q].
  - rewrite firstn_app, firstn_firstn, firstn_length. f_equal.
    + f_equal. lia.
    + f_equal. lia.
  - rewrite (firstn_all2 F) by lia. rewrite (skipn_all2 F) by lia. rewrite !firstn_nil, app_nil_r.
    rewrite firstn_all2 by lia. reflexivity.
Qed.

Lemma follow_last f k tr : at_packet f id F T hid pre k -> (List.length (skipn (k * t) F) <= t)%nat ->
  exists f' tr', handle_transfers h use8 si (f, (Some k, tr)) = (Ok false, (f', (Some (S k), tr')))
  /\ fo_calls f' = pre ++ [mkCall hid 0 F] /\ List.length tr' = S (List.length tr)
  /\ fo_id f' = id /\ fo_state f' = FUpload (zlen F) T F (Z.of_nat k mod 256) hid.
Proof.
  intros (I & C & S0) L. unfold si.
  pose proof (uploader_transfer id F T crc k) as E. rewrite <- I in E at 2.
  rewrite (transfer_request_ok h use8 handle _ f _ _ _ k hid (Some k) tr _ _ Hh ltac:(now rewrite I) S0 E)
    by (apply packet_wf'; try assumption; lia).
  remember (skipn (k * t) F) as rest eqn:R.
  erewrite transferred_two; [|reflexivity|].
  2:{ cbn [r_data done a_data]. unfold file_packet. fold t. rewrite <- R. destruct (Nat.leb_spec (List.length rest) t); [reflexivity|lia]. }
  rewrite Z.eqb_refl. cbn [negb].
  replace (((if Nat.eqb k 0 then 4 else 2) =? 0) || ((if Nat.eqb k 0 then 4 else 2) =? 1)) with false by (destruct (Nat.eqb k 0); reflexivity).
  replace (((if Nat.eqb k 0 then 4 else 2) =? 2) || ((if Nat.eqb k 0 then 4 else 2) =? 4)) with true by (destruct (Nat.eqb k 0); reflexivity).
  rewrite app_length, LC. destruct (Nat.ltb_spec (List.length rest + 2) 2); [lia|].
  rewrite Nat.add_sub, firstn_app, Nat.sub_diag, firstn_all, firstn_O, app_nil_r.
  cbv zeta. fold t. rewrite R, firstn_skipn, Z.eqb_refl.
  eexists. eexists. split; [reflexivity|]. split; [|split; [rewrite app_length; cbn [List.length]; lia|now split]].
  unfold f_call, f_set; cbn [fo_calls]. rewrite C. reflexivity.
Qed.

Lemma follow_loop n : forall f k tr, at_packet f id F T hid pre k ->
  (List.length (skipn (k * t) F) <= (S n) * t)%nat ->
  ((S n <= 1)%nat \/ (n * t < List.length (skipn (k * t) F))%nat) ->
  exists f' tr', (forall m, (S n <= m)%nat -> transfer_loop h use8 si m (f, (Some k, tr)) = (Ok false, (f', (Some (k + S n)%nat, tr'))))
  /\ fo_calls f' = pre ++ [mkCall hid 0 F] /\ List.length tr' = (List.length tr + S n)%nat.
Proof.
  induction n as [|n IH]; intros f k tr A U V.
  - destruct (follow_last f k tr A ltac:(lia)) as (f' & tr' & E & C & L & _). exists f', tr'. split; [|split; [assumption|lia]].
    intros m M. destruct m as [|m]; [lia|]. cbn [transfer_loop]. unfold st_bind. rewrite E, Nat.add_1_r. reflexivity.
  - destruct V as [V|V]; [lia|].
    destruct (follow_more f k tr A ltac:(nia)) as (f1 & tr1 & E & A1 & L1).
    assert (Q : List.length (skipn (S k * t) F) = (List.length (skipn (k * t) F) - t)%nat) by (rewrite !skipn_length; nia).
    destruct (IH f1 (S k) tr1 A1) as (f' & tr' & E' & C & L).
    + rewrite Q. nia.
    + destruct n; [left; lia|right]. rewrite Q. nia.
    + exists f', tr'. split; [|split; [assumption|lia]]. intros m M. destruct m as [|m]; [lia|]. cbn [transfer_loop]. unfold st_bind. rewrite E.
      rewrite E' by lia. do 3 f_equal. f_equal. lia.
Qed.

Lemma follow_begin f k tr : fo_state f = FLoaded -> fo_id f = id -> fo_calls f = pre ->
  exists f' tr', begin_upload h use8 si hid (f, (k, tr)) = (Ok tt, (f', (Some O, tr')))
  /\ at_packet f' id F T hid pre 0 /\ List.length tr' = S (List.length tr).
Proof.
  intros S0 I C. unfold si.
  pose proof (uploader_initiate id F T crc k ltac:(lia)) as E. rewrite <- I in E at 2.
  pose proof (zlen_nonneg F) as P.
  rewrite (begin_request h use8 handle _ f hid k tr _ _ Hh ltac:(now rewrite I) S0 E).
  2:{ apply done_wf; [apply is_bytes_app; split; [apply le_bytes|repeat constructor; unfold is_u8; lia]|cbn; lia]. }
  unfold initiated; cbn [r_status r_data done a_status a_data GSC_SUCCESS Z.eqb].
  rewrite buf_of_at, get_u32_le. cbn [bind]. rewrite get_u8_at. cbn [bind].
  eexists. eexists. split; [reflexivity|]. split; [|rewrite app_length; cbn [List.length]; lia].
  split; [exact I|]. split; [exact C|]. cbn [f_set fo_state Nat.mul firstn]. f_equal.
  unfold u32. change (2 ^ 32) with 4294967296 in LF. rewrite Z.mod_small; lia.
Qed.

Lemma follow_upload f k tr : fo_state f = FLoaded -> fo_id f = id -> fo_calls f = pre ->
  exists f1 f2 n trn w1, begin_upload h use8 si hid (f, (k, tr)) = (Ok tt, (f1, w1)) /\ fo_calls f1 = pre
  /\ (forall m, (n <= m)%nat -> transfer_loop h use8 si m (f1, w1) = (Ok false, (f2, (Some n, trn))))
  /\ fo_calls f2 = pre ++ [mkCall hid 0 F]
  /\ List.length trn = (List.length tr + 1 + n)%nat /\ Z.of_nat n = pieces (zlen F) T.
Proof.
  intros S0 I C0.
  destruct (follow_begin f k tr S0 I C0) as (f1 & tr1 & E1 & A & L1).
  set (n := (Z.to_nat (pieces (zlen F) T) - 1)%nat).
  assert (P : 1 <= pieces (zlen F) T /\ pieces (zlen F) T * T >= zlen F /\ (pieces (zlen F) T = 1 \/ (pieces (zlen F) T - 1) * T < zlen F)).
  { unfold pieces. pose proof (zlen_nonneg F). destruct (Z.eqb_spec (zlen F) 0); [lia|]. nia. }
  assert (N : Z.of_nat (S n) = pieces (zlen F) T) by (unfold n; lia).
  assert (K : Z.of_nat t = T) by (unfold t; lia).
  assert (LFn : Z.of_nat (List.length F) = zlen F) by reflexivity.
  destruct (follow_loop n f1 0 tr1 A) as (f2 & trn & E2 & C & L2).
  - change (skipn (0 * t) F) with F. apply Nat2Z.inj_le. rewrite Nat2Z.inj_mul. lia.
  - change (skipn (0 * t) F) with F. destruct P as (P1 & P2 & [P3|P3]); [left; lia|right]. apply Nat2Z.inj_lt. rewrite Nat2Z.inj_mul. lia.
  - exists f1, f2, (S n), trn, (Some O, tr1).
    split; [exact E1|]. split; [apply A|]. split; [exact E2|]. split; [exact C|].
    split; [|exact N]. rewrite L2, L1. lia.
Qed.
End Follow.

Theorem upload_complete h use8 handle id F T crc hid :
  is_u32 handle -> sendable use8 id -> is_bytes F -> zlen F < 2 ^ 32 -> 1 <= T <= 255 ->
  is_bytes crc -> List.length crc = 2%nat -> forall tr,
  let si := served handle (uploader id F T crc) in 
  exists f0 f1 f2 n trn w0 w1, file_open h use8 si id (None, tr) = (Ok f0, w0)
  /\ begin_upload h use8 si hid (f0, w0) = (Ok tt, (f1, w1)) /\ fo_calls f1 = []
  /\ (forall m, (n <= m)%nat -> transfer_loop h use8 si m (f1, w1) = (Ok false, (f2, (Some n, trn))))
  /\ fo_calls f2 = [mkCall hid 0 F]
  /\ List.length trn = (List.length tr + 2 + n)%nat /\ Z.of_nat n = pieces (zlen F) T.
Proof.
  intros Hh Hid BF LF HT BC LC tr si.
  assert (B2 : answer_wf (done [2])) by (apply done_wf; [repeat constructor; unfold is_u8; lia|cbn; lia]).
  pose proof (file_open_request h use8 handle (uploader id F T crc) id None tr _ _ Hh Hid (uploader_state id F T crc None) B2) as E0.
  fold si in E0. cbn [done a_status a_addl a_data synced r_status r_data GSC_SUCCESS Z.eqb] in E0. unfold synced in E0. cbn [r_status r_data GSC_SUCCESS Z.eqb] in E0.
  rewrite u8_at in E0. cbn [bind Z.eqb Pos.eqb] in E0.
  destruct (follow_upload h use8 handle id F T crc hid [] Hh Hid BF LF HT BC LC (mkFile id FLoaded []) None (tr ++ [(state_request id, done [2])]) eq_refl eq_refl eq_refl)
    as (f1 & f2 & n & trn & w1 & E1 & C1 & E2 & C2 & L & N).
  exists (mkFile id FLoaded []), f1, f2, n, trn, (None, tr ++ [(state_request id, done [2])]), w1.
  split; [exact E0|]. split; [exact E1|]. split; [exact C1|]. split; [exact E2|]. split; [exact C2|].
  split; [|exact N]. rewrite L, app_length. cbn [List.length]. lia.
Qed.
