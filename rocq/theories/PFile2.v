(** File upload against any adapter. *)
From Verif Require Import Base MBuffer SBuffer PBase PBuffer PReader MEip SEip PEip PRouter SObj PObj MFile SFile PFile.
Ltac Zify.zify_post_hook ::= Z.div_mod_to_equations.

Definition as_calls (hid : nat) (calls : list (Z * bytes)) : list hcall :=
  map (fun '(s, c) => mkCall hid s c) calls.
Lemma as_calls_app hid a b : as_calls hid (a ++ b) = as_calls hid a ++ as_calls hid b.
Proof. apply map_app. Qed.

Definition tracks (f : fobj) (id size T : Z) (hid : nat) (pre : list hcall) (k : nat) (content : bytes) (calls : list (Z * bytes)) : Prop :=
  fo_id f = id /\ fo_state f = FUpload size T content (Z.of_nat k mod 256) hid /\ fo_calls f = pre ++ as_calls hid calls.

Lemma strict_bytes_short n pre rest : (List.length rest < n)%nat -> get_bytes strict n (at_ pre rest) = Undef UbOobRead.
Proof.
  intros L. pose proof (strict_short (fun h => get_bytes h n) n (at_ pre rest) (reader_bytes n) (moves_bytes n)) as S.
  apply S; unfold at_; cbn [bdata bpos]; rewrite ?app_length; lia.
Qed.

Section Any.
Context {D : Type}.
Variables (use8 : bool) (handle : Z) (dev : device D) (id size T : Z) (hid : nat) (pre : list hcall).
Hypothesis Hh : is_u32 handle.
Hypothesis Hid : sendable use8 id.
Hypothesis DW : device_wf dev.
Hypothesis HT : 0 <= T.

Lemma any_step f d tr l k content calls a d' :
  tracks f id size T hid pre k content calls -> uploading size T l k content calls ->
  dev d (transfer_request id (Z.of_nat k)) = (a, d') ->
  exists o f', handle_transfers strict use8 (served handle dev) (f, (d, tr))
     = (o, (f', (d', tr ++ [(transfer_request id (Z.of_nat k), a)])))
  /\ match o with
     | Ok true => exists k' content' calls', uploading size T (l ++ [a]) k' content' calls'
                    /\ tracks f' id size T hid pre k' content' calls'
     | Ok false => exists calls', uploaded size T (l ++ [a]) calls' /\ fo_calls f' = pre ++ as_calls hid calls'
     | _ => f' = f
     end.
Proof.
  intros (I & S0 & C) U E. pose proof (DW d (transfer_request id (Z.of_nat k))) as W. rewrite E in W. cbn [fst] in W.
  rewrite <- I in E.
  rewrite (transfer_request_ok strict use8 handle dev f size T content k hid d tr a d' Hh ltac:(now rewrite I) S0 E W).
  rewrite I in *. destruct (Z.eq_dec (a_status a) 0) as [Z0|NZ].
  - destruct (a_data a) as [|n [|ty rest]] eqn:Ed.
    + unfold transferred; cbn [r_status r_data]. rewrite Z0. cbn [GSC_SUCCESS Z.eqb].
      change (get_u8 strict (buf_of [])) with (@Undef (Z * buffer) UbOobRead). cbn [bind].
      eexists. eexists. split; [reflexivity|reflexivity].
    + unfold transferred; cbn [r_status r_data]. rewrite Z0. cbn [GSC_SUCCESS Z.eqb]. rewrite u8_at. cbn [bind].
      change (get_u8 strict (at_ [n] [])) with (@Undef (Z * buffer) UbOobRead). cbn [bind].
      eexists. eexists. split; [reflexivity|reflexivity].
    + rewrite (transferred_two strict f size T content (Z.of_nat k mod 256) hid (mkResp 207 (a_status a) (a_addl a) (n :: ty :: rest) []) n ty rest Z0 eq_refl).
      destruct (Z.eqb_spec n (Z.of_nat k mod 256)) as [->|N]; cbn [negb].
      2:{ eexists. eexists. split; [reflexivity|]. eexists. split; [eapply ed_number; eauto|].
          unfold f_call; cbn [fo_calls]. rewrite C, as_calls_app, app_assoc. reflexivity. }
      destruct (Z.eqb_spec ty 0) as [T0|T0], (Z.eqb_spec ty 1) as [T1|T1]; cbn [orb];
        try (destruct (Nat.le_gt_cases (Z.to_nat T) (List.length rest)) as [L|L];
             [rewrite get_bytes_n by assumption; cbn [bind]; eexists; eexists; split; [reflexivity|];
              exists (S k), (content ++ firstn (Z.to_nat T) rest), calls; split;
              [apply (up_piece size T l k content calls a ty _ (skipn (Z.to_nat T) rest) U Z0); try tauto;
               [rewrite Ed, firstn_skipn; reflexivity|unfold zlen; rewrite firstn_length; lia]
              |unfold tracks, f_set; cbn [fo_id fo_state fo_calls]; rewrite u8_next; now repeat split]
             |rewrite strict_bytes_short by assumption; cbn [bind]; eexists; eexists; split; [reflexivity|reflexivity]]).
      destruct ((ty =? 2) || (ty =? 4)) eqn:TY; [|eexists; eexists; split; [reflexivity|reflexivity]].
      assert (TY' : ty = 2 \/ ty = 4) by (apply orb_true_iff in TY as [TY|TY]; apply Z.eqb_eq in TY; tauto). clear TY.
      destruct (Nat.ltb_spec (List.length rest) 2) as [L|L]; [eexists; eexists; split; [reflexivity|reflexivity]|].
      destruct (destruct2 (skipn (List.length rest - 2) rest)) as (c1 & c2 & Q0); [rewrite skipn_length; lia|].
      assert (Q : rest = firstn (List.length rest - 2) rest ++ [c1; c2]) by (rewrite <- Q0; symmetry; apply firstn_skipn).
      remember (firstn (List.length rest - 2) rest) as piece. cbv zeta.
      eexists. eexists. split; [reflexivity|]. unfold f_call, f_set; cbn [fo_calls fo_id fo_state].
      destruct (Z.eqb_spec (zlen (content ++ piece)) size) as [Sz|Sz]; eexists.
      * split; [eapply (ed_ok size T l k content calls a ty piece c1 c2 U Z0); try assumption; now rewrite Ed, Q
               |rewrite C, as_calls_app, app_assoc; reflexivity].
      * split; [eapply (ed_size size T l k content calls a ty piece c1 c2 U Z0); try assumption; now rewrite Ed, Q
               |rewrite C, as_calls_app, app_assoc; reflexivity].
  - unfold transferred; cbn [r_status r_data]. apply Z.eqb_neq in NZ as NZ'. unfold GSC_SUCCESS. rewrite NZ'.
    eexists. eexists. split; [reflexivity|]. exists k, content, (calls ++ [(a_status a, [])]).
    split; [now apply up_error|]. unfold tracks, f_call; cbn [fo_id fo_state fo_calls].
    rewrite C, as_calls_app, app_assoc. now repeat split.
Qed.

Lemma any_loop n : forall f d tr l k content calls,
  tracks f id size T hid pre k content calls -> uploading size T l k content calls ->
  exists o f' d' ts, transfer_loop strict use8 (served handle dev) n (f, (d, tr)) = (o, (f', (d', tr ++ ts)))
  /\ Forall (fun e => exists m, fst e = transfer_request id m) ts
  /\ match o with
     | Ok true => exists k' content' calls', uploading size T (l ++ map snd ts) k' content' calls'
                    /\ tracks f' id size T hid pre k' content' calls'
     | Ok false => exists calls', uploaded size T (l ++ map snd ts) calls' /\ fo_calls f' = pre ++ as_calls hid calls'
     | _ => exists l0 a k' content' calls', l ++ map snd ts = l0 ++ [a]
              /\ uploading size T l0 k' content' calls' /\ tracks f' id size T hid pre k' content' calls'
     end.
Proof.
  induction n as [|n IH]; intros f d tr l k content calls R U.
  - exists (Ok true), f, d, []. cbn [transfer_loop map]. rewrite !app_nil_r. split; [reflexivity|]. split; [constructor|].
    exists k, content, calls. now split.
  - destruct (dev d (transfer_request id (Z.of_nat k))) as [a d1] eqn:E.
    destruct (any_step f d tr l k content calls a d1 R U E) as (o & f1 & E1 & M).
    cbn [transfer_loop]. unfold st_bind. rewrite E1. destruct o as [[|]| | |].
    + destruct M as (k1 & c1 & calls1 & U1 & R1).
      destruct (IH f1 d1 (tr ++ [(transfer_request id (Z.of_nat k), a)]) (l ++ [a]) k1 c1 calls1 R1 U1) as (o & f' & d' & ts & E2 & F2 & M2).
      exists o, f', d', ((transfer_request id (Z.of_nat k), a) :: ts). cbn [map snd].
      split; [etransitivity; [exact E2|]; rewrite <- app_assoc; reflexivity|]. split; [constructor; [eexists; reflexivity|assumption]|].
      replace (l ++ a :: map snd ts) with ((l ++ [a]) ++ map snd ts) by (rewrite <- app_assoc; reflexivity). exact M2.
    + destruct M as (calls' & U1 & C1). exists (Ok false), f1, d1, [(transfer_request id (Z.of_nat k), a)].
      split; [reflexivity|]. split; [constructor; [eexists; reflexivity|constructor]|]. cbn [map snd]. exists calls'. now split.
    + subst f1. exists (Throw e), f, d1, [(transfer_request id (Z.of_nat k), a)].
      split; [reflexivity|]. split; [constructor; [eexists; reflexivity|constructor]|]. cbn [map snd]. exists l, a, k, content, calls. split; [reflexivity|]. split; assumption.
    + subst f1. exists (Undef u), f, d1, [(transfer_request id (Z.of_nat k), a)].
      split; [reflexivity|]. split; [constructor; [eexists; reflexivity|constructor]|]. cbn [map snd]. exists l, a, k, content, calls. split; [reflexivity|]. split; assumption.
    + subst f1. exists Abort, f, d1, [(transfer_request id (Z.of_nat k), a)].
      split; [reflexivity|]. split; [constructor; [eexists; reflexivity|constructor]|]. cbn [map snd]. exists l, a, k, content, calls. split; [reflexivity|]. split; assumption.
Qed.
End Any.

Lemma uploading_calls size T l k content calls : uploading size T l k content calls ->
  calls = map (fun a => (a_status a, [])) (filter (fun a => negb (a_status a =? 0)) l).
Proof.
  induction 1 as [|l k content calls a ty piece more U IH Z0 Ed Ty L|l k content calls a U IH NZ]; [reflexivity| |];
    rewrite filter_app, map_app; cbn [filter].
  - rewrite Z0. cbn [Z.eqb negb map]. now rewrite app_nil_r.
  - apply Z.eqb_neq in NZ. rewrite NZ. cbn [negb map]. now rewrite <- IH.
Qed.

Lemma upload_any {D} use8 handle (dev : device D) f hid d tr a d1 size T more n :
  is_u32 handle -> sendable use8 (fo_id f) -> device_wf dev ->
  fo_state f = FLoaded ->
  dev d (initiate_request (fo_id f)) = (a, d1) -> a_status a = 0 ->
  is_u32 size -> a_data a = le 4 size ++ T :: more ->
  exists o f' d' ts, upload strict use8 (served handle dev) hid n (f, (d, tr))
                     = (o, (f', (d', tr ++ (initiate_request (fo_id f), a) :: ts)))
  /\ Forall (fun e => exists m, fst e = transfer_request (fo_id f) m) ts
  /\ match o with
     | Ok true => exists k content calls, uploading size T (map snd ts) k content calls
                    /\ fo_calls f' = fo_calls f ++ as_calls hid calls
     | Ok false => exists calls, uploaded size T (map snd ts) calls /\ fo_calls f' = fo_calls f ++ as_calls hid calls
     | _ => exists l0 b k content calls, map snd ts = l0 ++ [b]
              /\ uploading size T l0 k content calls /\ fo_calls f' = fo_calls f ++ as_calls hid calls
     end.
Proof.
  intros H S DW L E Z0 Us Ed. pose proof (DW d (initiate_request (fo_id f))) as W. rewrite E in W. cbn [fst] in W.
  assert (HT : 0 <= T).
  { destruct W as (_ & _ & _ & B & _). rewrite Ed in B. apply Forall_app in B as [_ B]. inversion B. unfold is_u8 in *. lia. }
  unfold upload, st_bind.
  rewrite (begin_request strict use8 handle dev f hid d tr a d1 H S L E W).
  unfold initiated; cbn [r_status r_data]. rewrite Z0, Ed. cbn [GSC_SUCCESS Z.eqb]. rewrite buf_of_at, get_u32_le. cbn [bind].
  rewrite get_u8_at. cbn [bind].
  assert (Q : u32 size = size) by (unfold u32, is_u32 in *; lia). try rewrite Q.
  replace (size mod 256 ^ 4) with size by (unfold is_u32 in Us; change (256 ^ 4) with 4294967296; lia).
  destruct (any_loop use8 handle dev (fo_id f) size T hid (fo_calls f) H S DW HT n
              (f_set f (FUpload size T [] 0 hid)) d1 (tr ++ [(initiate_request (fo_id f), a)]) [] 0 [] [])
    as (o & f' & d' & ts & E' & F' & M).
  - unfold tracks, f_set; cbn [fo_id fo_state fo_calls]. rewrite app_nil_r. now repeat split.
  - constructor.
  - exists o, f', d', ts. split; [etransitivity; [exact E'|]; rewrite <- app_assoc; reflexivity|]. split; [assumption|].
    cbn [app] in M. destruct o as [[|]| | |].
    + destruct M as (k & c & calls & U & _ & _ & R). exists k, c, calls. now split.
    + exact M.
    + destruct M as (l0 & b & k & c & calls & Q' & U & _ & _ & R). exists l0, b, k, c, calls. split; [assumption|]. split; assumption.
    + destruct M as (l0 & b & k & c & calls & Q' & U & _ & _ & R). exists l0, b, k, c, calls. split; [assumption|]. split; assumption.
    + destruct M as (l0 & b & k & c & calls & Q' & U & _ & _ & R). exists l0, b, k, c, calls. split; [assumption|]. split; assumption.
Qed.

(** ** What the handler is told *)
Lemma uploading_error size T l k content calls s c : uploading size T l k content calls -> In (s, c) calls -> s <> 0 /\ c = [].
Proof.
  intros U I. rewrite (uploading_calls _ _ _ _ _ _ U) in I. apply in_map_iff in I as (a & Q & I).
  apply filter_In in I as [_ N]. inversion Q; subst. apply negb_true_iff, Z.eqb_neq in N. now split.
Qed.

(** the pieces carried by the successful answers *)
Lemma uploading_pieces size T l k content calls : uploading size T l k content calls ->
  exists ps, content = concat ps /\ List.length ps = k
  /\ Forall2 (fun p a => exists n ty more, a_data a = n :: ty :: p ++ more) ps
             (filter (fun a => a_status a =? 0) l).
Proof.
  induction 1 as [|l k content calls a ty piece more U IH Z0 Ed Ty L|l k content calls a U IH NZ].
  - exists []. repeat split; constructor.
  - destruct IH as (ps & -> & Lp & F). exists (ps ++ [piece]). split; [rewrite concat_app; cbn; now rewrite app_nil_r|].
    split; [rewrite app_length, Lp; cbn; lia|]. rewrite filter_app. cbn [filter]. rewrite Z0. cbn [Z.eqb].
    apply Forall2_app; [assumption|]. constructor; [|constructor]. do 3 eexists. exact Ed.
  - destruct IH as (ps & -> & Lp & F). exists ps. split; [reflexivity|]. split; [assumption|].
    rewrite filter_app. cbn [filter]. apply Z.eqb_neq in NZ. rewrite NZ, app_nil_r. assumption.
Qed.

Lemma upload_told {D} use8 handle (dev : device D) f hid d tr a d1 size T more n o f' d' tr' cs c :
  is_u32 handle -> sendable use8 (fo_id f) -> device_wf dev ->
  fo_state f = FLoaded ->
  dev d (initiate_request (fo_id f)) = (a, d1) -> a_status a = 0 ->
  is_u32 size -> a_data a = le 4 size ++ T :: more ->
  upload strict use8 (served handle dev) hid n (f, (d, tr)) = (o, (f', (d', tr'))) ->
  fo_calls f' = fo_calls f ++ cs -> In c cs ->
  hc_handler c = hid /\
  ((hc_status c <> 0 /\ hc_content c = []) \/
  (hc_status c = 0 /\ zlen (hc_content c) = size /\ exists ps ts, hc_content c = concat ps /\ tr' = tr ++ (initiate_request (fo_id f), a) :: ts
   /\ Forall2 (fun p b => exists n ty rest, a_data b = n :: ty :: p ++ rest) ps
              (filter (fun b => a_status b =? 0) (map snd ts)))).
Proof.
  intros H S DW L E Z0 Us Ed X Ec I.
  destruct (upload_any use8 handle dev f hid d tr a d1 size T more n H S DW L E Z0 Us Ed) as (o1 & f1 & d2 & ts & X1 & _ & M).
  rewrite X in X1. inversion X1; subst o1 f1 d2 tr'; clear X1.
  assert (K0 : forall calls, fo_calls f' = fo_calls f ++ as_calls hid calls -> hc_handler c = hid /\ In (hc_status c, hc_content c) calls).
  { intros calls Q. rewrite Ec in Q. apply app_inv_head in Q. rewrite Q in I. apply in_map_iff in I as ([s' c'] & Q' & I'). subst c. now split. }
  assert (HID : hc_handler c = hid).
  { destruct o as [[|]| | |]; [destruct M as (? & ? & ? & _ & R)|destruct M as (? & _ & R)|destruct M as (? & ? & ? & ? & ? & _ & _ & R)..];
      apply (K0 _ R). }
  split; [exact HID|].
  assert (K : forall calls, fo_calls f' = fo_calls f ++ as_calls hid calls -> In (hc_status c, hc_content c) calls) by (intros ? R; apply (K0 _ R)).
  clear K0 HID. destruct c as [hid' s F]. cbn [hc_status hc_content] in *.
  destruct o as [[|]| | |].
  - destruct M as (k & c & calls & U & R). left. eapply uploading_error; eauto.
  - destruct M as (calls & U & R). specialize (K _ R). inversion U as [l k c cl b ty piece c1 c2 U' Zb Eb Ty Sz|l k c cl b ty piece c1 c2 U' Zb Eb Ty Sz|l k c cl b n' ty rest U' Zb Eb Ty]; subst;
      apply in_app_iff in K as [K|[K|[]]]; try (left; eapply uploading_error; eauto; fail).
    + inversion K; subst. right. split; [reflexivity|]. split; [reflexivity|].
      destruct (uploading_pieces _ _ _ _ _ _ U') as (ps & -> & Lp & F2). exists (ps ++ [piece]), ts.
      split; [rewrite concat_app; cbn; now rewrite app_nil_r|]. split; [reflexivity|].
      match goal with Q : _ ++ [b] = map snd ts |- _ => rewrite <- Q | Q : map snd ts = _ ++ [b] |- _ => rewrite Q end. rewrite filter_app. cbn [filter]. rewrite Zb. cbn [Z.eqb].
      apply Forall2_app; [assumption|]. constructor; [|constructor]. do 3 eexists. exact Eb.
    + inversion K; subst. left. split; [lia|reflexivity].
    + inversion K; subst. left. split; [lia|reflexivity].
  - destruct M as (l0 & b & k & c & calls & _ & U & R). left. eapply uploading_error; eauto.
  - destruct M as (l0 & b & k & c & calls & _ & U & R). left. eapply uploading_error; eauto.
  - destruct M as (l0 & b & k & c & calls & _ & U & R). left. eapply uploading_error; eauto.
Qed.

Lemma uploading_count size T l k content calls : uploading size T l k content calls -> List.length calls = errors l.
Proof. intros U. rewrite (uploading_calls _ _ _ _ _ _ U). apply map_length. Qed.
Lemma uploaded_count size T l calls : uploaded size T l calls -> List.length calls = S (errors l).
Proof.
  unfold errors. intros [l' k c cl b ty piece c1 c2 U' Zb Eb Ty Sz|l' k c cl b ty piece c1 c2 U' Zb Eb Ty Sz|l' k c cl b n' ty rest U' Zb Eb Ty];
    rewrite app_length, (uploading_count _ _ _ _ _ _ U'), filter_app, app_length; cbn [filter]; rewrite Zb; cbn [Z.eqb negb List.length]; unfold errors; lia.
Qed.
Lemma upload_count {D} use8 handle (dev : device D) f hid d tr a d1 size T more n o f' d' tr' :
  is_u32 handle -> sendable use8 (fo_id f) -> device_wf dev ->
  fo_state f = FLoaded ->
  dev d (initiate_request (fo_id f)) = (a, d1) -> a_status a = 0 ->
  is_u32 size -> a_data a = le 4 size ++ T :: more ->
  upload strict use8 (served handle dev) hid n (f, (d, tr)) = (o, (f', (d', tr'))) ->
  exists ts, tr' = tr ++ (initiate_request (fo_id f), a) :: ts
  /\ (o = Ok false -> List.length (fo_calls f') = (List.length (fo_calls f) + S (errors (map snd ts)))%nat)
  /\ (o = Ok true -> List.length (fo_calls f') = (List.length (fo_calls f) + errors (map snd ts))%nat)
  /\ (List.length (fo_calls f') <= List.length (fo_calls f) + S (errors (map snd ts)))%nat.
Proof.
  intros H S DW L E Z0 Us Ed X.
  destruct (upload_any use8 handle dev f hid d tr a d1 size T more n H S DW L E Z0 Us Ed) as (o1 & f1 & d2 & ts & X1 & _ & M).
  rewrite X in X1. inversion X1; subst o1 f1 d2 tr'; clear X1. exists ts. split; [reflexivity|].
  assert (A : forall calls, List.length (as_calls hid calls) = List.length calls) by (intros; apply map_length).
  assert (P : forall l b, (errors l <= errors (l ++ [b]))%nat) by (intros; unfold errors; rewrite filter_app, app_length; lia).
  destruct o as [[|]| | |].
  - destruct M as (k & c & calls & U & R). rewrite R, app_length, A, (uploading_count _ _ _ _ _ _ U). repeat split; try discriminate; lia.
  - destruct M as (calls & U & R). rewrite R, app_length, A, (uploaded_count _ _ _ _ U). repeat split; try discriminate; lia.
  - destruct M as (l0 & b & k & c & calls & Q & U & R). rewrite R, app_length, A, Q, (uploading_count _ _ _ _ _ _ U). specialize (P l0 b). repeat split; try discriminate; lia.
  - destruct M as (l0 & b & k & c & calls & Q & U & R). rewrite R, app_length, A, Q, (uploading_count _ _ _ _ _ _ U). specialize (P l0 b). repeat split; try discriminate; lia.
  - destruct M as (l0 & b & k & c & calls & Q & U & R). rewrite R, app_length, A, Q, (uploading_count _ _ _ _ _ _ U). specialize (P l0 b). repeat split; try discriminate; lia.
Qed.

(** An Initiate_Upload that is refused. *)
Lemma upload_refused {D} h use8 handle (dev : device D) f hid d tr a d1 n :
  is_u32 handle -> sendable use8 (fo_id f) -> device_wf dev -> fo_state f = FLoaded ->
  dev d (initiate_request (fo_id f)) = (a, d1) -> a_status a <> 0 ->
  upload h use8 (served handle dev) hid (S n) (f, (d, tr))
  = (Ok false, (mkFile (fo_id f) FLoaded (fo_calls f ++ [mkCall hid (a_status a) []]), (d1, tr ++ [(initiate_request (fo_id f), a)]))).
Proof.
  intros H S' DW L E NZ. pose proof (DW d (initiate_request (fo_id f))) as W. rewrite E in W. cbn [fst] in W.
  unfold upload, st_bind. rewrite (begin_request h use8 handle dev f hid d tr a d1 H S' L E W).
  unfold initiated; cbn [r_status]. apply Z.eqb_neq in NZ. unfold GSC_SUCCESS. rewrite NZ.
  unfold f_call. rewrite L. cbn [app transfer_loop]. unfold st_bind, handle_transfers. cbn [fo_state]. reflexivity.
Qed.

(** ** The other states *)
Definition no_upload (s : fstate) : Prop := match s with FUpload _ _ _ _ _ => False | _ => True end.
Lemma transfers_idle {W} h use8 (si : session_if W) f w : state_code (fo_state f) <> 5 ->
  handle_transfers h use8 si (f, w) = (Ok false, (f, w)).
Proof. unfold handle_transfers. destruct (fo_state f); cbn [state_code]; intros N; try reflexivity. lia. Qed.
Lemma begin_idle {W} h use8 (si : session_if W) hid f w : state_code (fo_state f) <> 2 ->
  begin_upload h use8 si hid (f, w) = (Ok tt, (f, w)).
Proof. unfold begin_upload. destruct (fo_state f); cbn [state_code]; intros N; try reflexivity. lia. Qed.

Lemma scripted_wf l : Forall answer_wf l -> forall q, answer_wf (fst (scripted l q)).
Proof. intros F q. destruct F; cbn; [|assumption]. unfold answer_wf; cbn. repeat split; try constructor; try lia. Qed.


(** A device that accepts an upload and then refuses every transfer. *)
Definition broken : device (list answer) :=
  fun d q => (if q_service q =? 75 then done (le 4 10 ++ [5]) else failed 16, d).
Lemma broken_loop n : forall f tr k, tracks f 200 10 5 9 [] 0 [] (repeat (16, []) k) ->
  exists f' tr', transfer_loop strict false (served 1 broken) n (f, ([], tr)) = (Ok true, (f', ([], tr')))
  /\ tracks f' 200 10 5 9 [] 0 [] (repeat (16, []) (k + n)) /\ List.length tr' = (List.length tr + n)%nat.
Proof.
  induction n as [|n IH]; intros f tr k (I & S0 & C).
  - exists f, tr. rewrite !Nat.add_0_r. split; [reflexivity|]. split; [now split|reflexivity].
  - cbn [transfer_loop]. unfold st_bind.
    rewrite (transfer_request_ok strict false 1 broken f 10 5 [] 0 9 [] tr (failed 16) []); try assumption.
    + unfold transferred. cbn [failed a_status a_data a_addl r_status GSC_SUCCESS Z.eqb].
      destruct (IH (f_call f (mkCall 9 16 [])) (tr ++ [(transfer_request (fo_id f) (Z.of_nat 0), failed 16)]) (S k)) as (f' & tr' & E & R & L).
      * unfold tracks, f_call; cbn [fo_id fo_state fo_calls]. split; [assumption|]. split; [assumption|].
        rewrite C. change (repeat (16, []) (S k)) with ((16, @nil Z) :: repeat (16, []) k). rewrite repeat_cons, as_calls_app. reflexivity.
      * exists f', tr'. split; [exact E|]. rewrite Nat.add_succ_r. split; [exact R|]. rewrite L, app_length. cbn [List.length]. lia.
    + unfold is_u32; lia.
    + rewrite I. split; [unfold is_u16; lia|discriminate].
    + rewrite I. reflexivity.
    + unfold answer_wf; cbn. repeat match goal with |- _ /\ _ => split end; try constructor; unfold is_u8; lia.
Qed.
Lemma as_calls_repeat n : as_calls 9 (repeat (16, []) n) = repeat (mkCall 9 16 []) n.
Proof. induction n; cbn; [reflexivity|]. now f_equal. Qed.
Lemma failing_device : exists (dev : device (list answer)) d, device_wf dev /\
  forall n, exists f' w, upload strict false (served 1 dev) 9 n (mkFile 200 FLoaded [], (d, [])) = (Ok true, (f', w))
  /\ fo_calls f' = repeat (mkCall 9 16 []) n /\ List.length (snd w) = S n.
Proof.
  exists broken, []. split.
  - intros d q. cbn. destruct (q_service q =? 75); unfold answer_wf; cbn; repeat match goal with |- _ /\ _ => split end; repeat constructor; unfold is_u8; lia.
  - intros n. unfold upload, st_bind.
    assert (E : begin_upload strict false (served 1 broken) 9 (mkFile 200 FLoaded [], ([], []))
            = (Ok tt, (mkFile 200 (FUpload 10 5 [] 0 9) [], ([], [(initiate_request 200, done (le 4 10 ++ [5]))])))) by (vm_compute; reflexivity).
    rewrite E. destruct (broken_loop n (mkFile 200 (FUpload 10 5 [] 0 9) []) [(initiate_request 200, done (le 4 10 ++ [5]))] 0) as (f' & tr' & E' & (I & S0 & C) & L).
    + now repeat split.
    + exists f', ([], tr'). split; [exact E'|]. cbn [Nat.add] in C. rewrite C, as_calls_repeat. split; [reflexivity|]. cbn [snd]. rewrite L. reflexivity.
Qed.

(** The upload state is never left. *)
Lemma upload_code h use8 {W} (si : session_if W) n : forall f w o f' w', state_code (fo_state f) = 5 ->
  transfer_loop h use8 si n (f, w) = (o, (f', w')) -> state_code (fo_state f') = 5.
Proof.
  assert (ST : forall f w o f' w', state_code (fo_state f) = 5 ->
     handle_transfers h use8 si (f, w) = (o, (f', w')) -> state_code (fo_state f') = 5).
  { intros f w o f' w' S0 E. unfold handle_transfers in E. destruct (fo_state f) as [| | | |size T c k hid] eqn:Q; cbn [state_code] in S0; try lia.
    destruct (send_request _ _ _ _ _ _ _ _) as [r w1]. destruct (bind r _) as [[b f1]|e|u|] eqn:B; inversion E; subst; try (rewrite Q; reflexivity).
    destruct r as [r| | |]; try discriminate. cbn [bind] in B. unfold transferred in B.
    destruct (r_status r =? GSC_SUCCESS); [|inversion B; subst; cbn; now rewrite Q].
    destruct (get_u8 h _) as [[x b1]| | |]; try discriminate. cbn [bind] in B.
    destruct (get_u8 h b1) as [[y b2]| | |]; try discriminate. cbn [bind] in B.
    destruct (negb (x =? k)); [inversion B; subst; cbn; now rewrite Q|].
    destruct ((y =? 0) || (y =? 1)).
    - destruct (get_bytes _ _ _) as [[z b3]| | |]; try discriminate. inversion B; subst. reflexivity.
    - destruct ((y =? 2) || (y =? 4)); [|discriminate]. destruct (Nat.ltb _ _); [discriminate|].
      destruct (get_bytes _ _ _) as [[z b3]| | |]; try discriminate. inversion B; subst. reflexivity. }
  induction n as [|n IH]; intros f w o f' w' S0 E.
  - inversion E; subst. assumption.
  - cbn [transfer_loop] in E. unfold st_bind in E. destruct (handle_transfers h use8 si (f, w)) as [o1 [f1 w1]] eqn:E1.
    specialize (ST _ _ _ _ _ S0 E1). destruct o1 as [[|]| | |]; try (inversion E; subst; assumption).
    eapply IH; [exact ST|exact E].
Qed.

Lemma upload_again {D} use8 handle (dev : device D) f hid d tr a d1 size T more n o f' w hid2 :
  is_u32 handle -> sendable use8 (fo_id f) -> device_wf dev ->
  fo_state f = FLoaded ->
  dev d (initiate_request (fo_id f)) = (a, d1) -> a_status a = 0 ->
  is_u32 size -> a_data a = le 4 size ++ T :: more ->
  upload strict use8 (served handle dev) hid n (f, (d, tr)) = (o, (f', w)) ->
  begin_upload strict use8 (served handle dev) hid2 (f', w) = (Ok tt, (f', w)).
Proof.
  intros H S DW L E Z0 Us Ed X. apply begin_idle. unfold upload, st_bind in X.
  pose proof (DW d (initiate_request (fo_id f))) as W. rewrite E in W. cbn [fst] in W.
  rewrite (begin_request strict use8 handle dev f hid d tr a d1 H S L E W) in X.
  unfold initiated in X; cbn [r_status r_data] in X. rewrite Z0, Ed in X. cbn [GSC_SUCCESS Z.eqb] in X. rewrite buf_of_at, get_u32_le in X. cbn [bind] in X.
  rewrite get_u8_at in X. cbn [bind] in X. rewrite (upload_code strict use8 (served handle dev) n _ _ o f' w (eq_refl : state_code (fo_state (f_set f (FUpload _ _ _ _ _))) = 5) X). lia.
Qed.

Lemma upload_after_refusal {D} h use8 handle (dev : device D) f hid hid2 d tr a d1 n :
  is_u32 handle -> sendable use8 (fo_id f) -> device_wf dev -> fo_state f = FLoaded ->
  dev d (initiate_request (fo_id f)) = (a, d1) -> a_status a <> 0 ->
  exists f' w, upload h use8 (served handle dev) hid (S n) (f, (d, tr)) = (Ok false, (f', w))
  /\ fo_state f' = FLoaded
  /\ exists q b, snd (snd (snd (begin_upload h use8 (served handle dev) hid2 (f', w))))
               = snd w ++ [(q, b)] /\ q = initiate_request (fo_id f).
Proof.
  intros H S' DW L E NZ. eexists. eexists. split; [eapply upload_refused; eassumption|]. split; [reflexivity|].
  destruct (dev d1 (initiate_request (fo_id f))) as [b d2] eqn:E2.
  pose proof (DW d1 (initiate_request (fo_id f))) as W. rewrite E2 in W. cbn [fst] in W.
  exists (initiate_request (fo_id f)), b. split; [|reflexivity]. cbn [snd].
  rewrite (begin_request h use8 handle dev (mkFile (fo_id f) FLoaded (fo_calls f ++ [mkCall hid (a_status a) []])) hid2 d1 _ b d2 H S' eq_refl E2 W).
  destruct (initiated _ _ _ _); reflexivity.
Qed.

Lemma upload_handler h use8 {W} (si : session_if W) n hid : forall f w o f' w', 
  (forall hid', In hid' (map hc_handler (fo_calls f)) -> hid' = hid) ->
  (forall size T c k hid', fo_state f = FUpload size T c k hid' -> hid' = hid) -> state_code (fo_state f) = 5 ->
  transfer_loop h use8 si n (f, w) = (o, (f', w')) -> forall c, In c (fo_calls f') -> hc_handler c = hid.
Proof.
  assert (ST : forall f w o f' w', 
     (forall hid', In hid' (map hc_handler (fo_calls f)) -> hid' = hid) ->
     (forall size T c k hid', fo_state f = FUpload size T c k hid' -> hid' = hid) -> state_code (fo_state f) = 5 ->
     handle_transfers h use8 si (f, w) = (o, (f', w')) ->
     (forall hid', In hid' (map hc_handler (fo_calls f')) -> hid' = hid)
     /\ (forall size T c k hid', fo_state f' = FUpload size T c k hid' -> hid' = hid) /\ state_code (fo_state f') = 5).
  { intros f w o f' w' A B S0 E. pose proof E as E0. unfold handle_transfers in E. destruct (fo_state f) as [| | | |size T c k hid0] eqn:Q; cbn [state_code] in S0; try lia.
    pose proof (B _ _ _ _ _ eq_refl) as ->.
    assert (Z5 : state_code (fo_state f') = 5).
    { apply (upload_code h use8 si 1 f w (match o with Ok true => Ok true | Ok false => Ok false | _ => o end) f' w'); [now rewrite Q|].
      cbn [transfer_loop]. unfold st_bind. rewrite E0. destruct o as [[|]| | |]; reflexivity. }
    assert (CASES : (fo_calls f' = fo_calls f \/ exists s c, fo_calls f' = fo_calls f ++ [mkCall hid s c])
       /\ forall size' T' c' k' hid', fo_state f' = FUpload size' T' c' k' hid' -> hid' = hid).
    { destruct (send_request _ _ _ _ _ _ _ _) as [r w1]. destruct (bind r _) as [[b f1]|e|u|] eqn:X; inversion E; subst; try (split; [now left|]; intros; rewrite Q in *; eapply B; eauto; fail).
      destruct r as [r| | |]; try discriminate. cbn [bind] in X. unfold transferred in X.
      destruct (r_status r =? GSC_SUCCESS); [|inversion X; subst; split; [right; eexists; eexists; reflexivity|intros; cbn in *; rewrite Q in *; eapply B; eauto]].
      destruct (get_u8 h _) as [[x b1]| | |]; try discriminate. cbn [bind] in X.
      destruct (get_u8 h b1) as [[y b2]| | |]; try discriminate. cbn [bind] in X.
      destruct (negb (x =? k)); [inversion X; subst; split; [right; eexists; eexists; reflexivity|intros; cbn in *; rewrite Q in *; eapply B; eauto]|].
      destruct ((y =? 0) || (y =? 1)).
      - destruct (get_bytes _ _ _) as [[z b3]| | |]; try discriminate. inversion X; subst. split; [now left|]. cbn. intros ? ? ? ? ? Q'; now inversion Q'.
      - destruct ((y =? 2) || (y =? 4)); [|discriminate]. destruct (Nat.ltb _ _); [discriminate|].
        destruct (get_bytes _ _ _) as [[z b3]| | |]; try discriminate. inversion X; subst. cbn.
        split; [right; destruct (zlen (c ++ z) =? size); eexists; eexists; reflexivity|]. intros ? ? ? ? ? Q'; now inversion Q'. }
    destruct CASES as [CA SA]. split; [|split; assumption].
    intros hid' I'. destruct CA as [CA|(s & c0 & CA)]; rewrite CA in I'; [now apply A|].
    rewrite map_app in I'. apply in_app_iff in I' as [I'|[I'|[]]]; [now apply A|now symmetry]. }
  induction n as [|n IH]; intros f w o f' w' A B S0 E c I.
  - inversion E; subst. apply A. now apply in_map.
  - cbn [transfer_loop] in E. unfold st_bind in E. destruct (handle_transfers h use8 si (f, w)) as [o1 [f1 w1]] eqn:E1.
    destruct (ST _ _ _ _ _ A B S0 E1) as (A1 & B1 & S1). destruct o1 as [[|]| | |]; try (inversion E; subst; apply A1; now apply in_map).
    eapply IH; [exact A1|exact B1|exact S1|exact E|exact I].
Qed.

Lemma second_upload : exists F T, is_bytes F /\ 1 <= T <= 255 /\
  let si := served 1 (uploader 200 F T [170; 85]) in
  exists f1 w1, upload strict false si 9 5 (mkFile 200 FLoaded [], (None, [])) = (Ok false, (f1, w1))
  /\ fo_calls f1 = [mkCall 9 0 F]
  /\ forall n, exists o f2 w2, upload strict false si 10 n (f1, w1) = (o, (f2, w2))
     /\ forall c, In c (fo_calls f2) -> hc_handler c = 9%nat.
Proof.
  exists [1; 2; 3], 2. split; [repeat constructor; unfold is_u8; lia|]. split; [lia|]. cbv zeta.
  eexists. eexists. split; [vm_compute; reflexivity|]. split; [reflexivity|]. intros n.
  unfold upload, st_bind. rewrite begin_idle by (cbn; lia).
  match goal with |- exists o f2 w2, ?X = _ /\ _ => destruct X as [o [f2 w2]] eqn:E end.
  exists o, f2, w2. split; [reflexivity|]. eapply (upload_handler strict false _ n 9); [| | |exact E].
  - cbn. intuition.
  - cbn. intros ? ? ? ? ? Q. now inversion Q.
  - reflexivity.
Qed.
