(** A client cannot tell a device behind a TCP connection from the device. *)
From Verif Require Import Base MBuffer SBuffer PBase PBuffer MEip SEip PPath PPathT PEip PRouter PConnOpen SObj PObj
  MSocket SSocket PSocket MFile SFile PFile MIdent MParam MFault SHost.
Ltac Zify.zify_post_hook ::= Z.div_mod_to_equations.

Lemma reply_packet_wf handle service a : is_u32 handle -> 0 <= service < 128 -> answer_wf a ->
  well_formed (reply_packet handle service a).
Proof.
  intros H S (W1 & W2 & W3 & W4 & W5). destruct (words_bytes _ W2) as [B1 B2]. unfold reply_packet.
  set (r := response_bytes (service + 128) 0 (a_status a) (a_addl a) (a_data a)).
  assert (Br : is_bytes r).
  { unfold r, response_bytes. apply is_bytes_app; split; [|apply is_bytes_app; now split].
    pose proof (zlen_nonneg (a_addl a)). unfold is_u8 in *. repeat constructor; unfold is_u8; lia. }
  assert (Lr : zlen r < 65000).
  { unfold r, response_bytes. rewrite !zlen_app, B2, !zlen_cons, zlen_nil. lia. }
  set (d := le 4 0 ++ le 2 0 ++ cpf_bytes [mkItem 0 0 []; mkItem 178 (zlen r) r]).
  assert (E : d = [0;0;0;0;0;0;2;0;0;0;0;0;178;0] ++ le 2 (zlen r) ++ r).
  { unfold d, cpf_bytes, items_bytes, item_bytes. cbn [map concat it_type it_data]. rewrite !app_nil_r. reflexivity. }
  assert (Bd : is_bytes d).
  { rewrite E. apply is_bytes_app; split; [repeat constructor; unfold is_u8; lia|].
    apply is_bytes_app; split; [apply le_bytes|assumption]. }
  cbv zeta. fold r. fold d. split; [apply packet_wf; [unfold is_u16; lia|assumption|unfold is_u32; lia|assumption]|].
  unfold packet; cbn [e_length e_data]. apply Z.mod_small. split; [apply zlen_nonneg|].
  rewrite E, !zlen_app. unfold zlen at 1 2. rewrite le_length. cbn [List.length]. lia.
Qed.

Lemma played_snoc {D} handle (dev : device D) d log wire :
  played handle dev d (log ++ [wire]) = serves handle dev (played handle dev d log) wire.
Proof. unfold played. rewrite fold_left_app. reflexivity. Qed.

Lemma wo_refl handle w : idle w -> went_on handle w w.
Proof. intros I. split; [exact I|]. exists []. rewrite app_nil_r. split; [reflexivity|constructor]. Qed.
Lemma wo_trans handle w1 w2 w3 : went_on handle w1 w2 -> went_on handle w2 w3 -> went_on handle w1 w3.
Proof.
  intros (_ & n1 & E1 & F1) (I & n2 & E2 & F2). split; [exact I|]. exists (n1 ++ n2).
  rewrite E2, E1, app_assoc. split; [reflexivity|]. apply Forall_app. now split.
Qed.
Lemma wo_idle handle w w' : went_on handle w w' -> idle w'.
Proof. intros (I & _). exact I. Qed.
#[local] Hint Resolve wo_refl wo_trans wo_idle : core.

Section Host.
Context {D : Type}.
Variables (p : peer) (handle : Z) (dev : device D) (d : D).
Hypothesis HP : hosts p handle dev d.
Hypothesis HD : device_wf dev.
Hypothesis HH : is_u32 handle.

Definition like {A} (m : st net A) (m' : st (D * trace) A) : Prop :=
  forall w, idle w -> same_run handle dev d m m' w.
Definition like_with {A X} (m : st (X * net) A) (m' : st (X * (D * trace)) A) : Prop :=
  forall x w, idle w -> same_run_with handle dev d m m' x w.

Lemma asked_in_request use8 service i data :
  i <> Ids0 -> is_u8 service -> ids_sendable use8 i -> is_bytes data -> zlen data <= 60000 ->
  asked_in handle (encaps_pack (request_packet handle use8 service (build i) data []))
  = Some (mkReq service (ids_list i) data).
Proof.
  intros N S I B L.
  destruct (request_on_wire use8 service i data [] handle) as [E1 E2]; try assumption.
  - apply I.
  - constructor.
  - pose proof (request_items_len use8 service i data) as R.
    rewrite (proj1 (request_recover use8 service i data N)) in R.
    unfold request_bytes in R. rewrite !zlen_app in R. pose proof (path_len use8 i) as P.
    rewrite !zlen_cons, !zlen_nil in R. lia.
  - unfold asked_in. rewrite E1, Z.eqb_refl. now apply asked_request.
Qed.

Lemma like_request h use8 service i data :
  i <> Ids0 -> 0 <= service < 128 -> ids_sendable use8 i -> is_bytes data -> zlen data <= 60000 ->
  like (send_request h (live_session h p handle) use8 service (build i) data [])
       (send_request h (served handle dev) use8 service (build i) data []).
Proof.
  intros N S I B L w (NR & DR1 & DR2).
  pose proof (asked_in_request use8 service i data N ltac:(unfold is_u8; lia) I B L) as Q.
  destruct (HP (n_sent w) _ _ Q) as [P1 P2]. cbn [q_service] in P1.
  set (q := mkReq service (ids_list i) data) in *.
  unfold same_run. set (s := played handle dev d (n_sent w)) in *.
  destruct (dev (fst s) q) as [a d'] eqn:E. cbn [fst] in P1.
  pose proof (HD (fst s) q) as Wa. rewrite E in Wa. cbn [fst] in Wa.
  set (pk := request_packet handle use8 service (build i) data []) in *.
  destruct (stream_app (n_in w) (p (n_sent w) (encaps_pack pk)) DR2) as (T1 & T2 & _).
  destruct (sar_good h p handle pk (reply_packet handle service a) w) with (rest := @nil Z)
    as (w' & X1 & X2 & X3 & X4 & X5).
  - unfold sends_all. rewrite NR. exact Logic.I.
  - now apply reply_packet_wf.
  - unfold incoming. rewrite T1, DR1, P1, app_nil_r. reflexivity.
  - exists w'. destruct s as [ds tr] eqn:Es. cbn [fst] in E.
    rewrite (served_request h use8 handle dev service i data ds tr a d' N HH S I B L E Wa).
    cbn [fst snd]. split; [|split].
    + unfold send_request, live_session; cbn [si_exchange si_handle]. fold pk. rewrite X1.
      replace (verdict handle (reply_packet handle service a)) with (Ok (reply_packet handle service a)).
      * rewrite reply_packet_ok by assumption. reflexivity.
      * unfold verdict, acceptable, reply_packet, packet; cbn [e_status e_handle].
        rewrite !Z.eqb_refl, orb_true_r. reflexivity.
    + split; [split; [rewrite X5, NR; reflexivity|]; split; [exact X2|]; rewrite X3; unfold incoming; rewrite T2; exact P2|].
      exists [encaps_pack pk]. split; [exact X4|]. constructor; [rewrite Q; discriminate|constructor].
    + rewrite X4, played_snoc. fold s. unfold serves. rewrite Q. subst s. rewrite Es. cbn [fst snd].
      fold q. rewrite E. reflexivity.
Qed.

Lemma like_bind {A B} (m : st net A) m' (k : A -> st net B) k' :
  like m m' -> (forall a, like (k a) (k' a)) -> like (st_bind m k) (st_bind m' k').
Proof.
  intros M K w I. destruct (M w I) as (w' & E1 & I1 & P1). unfold same_run, st_bind. rewrite E1.
  destruct (m' (played handle dev d (n_sent w))) as [[a|e|u|] s'] eqn:E; cbn [fst snd] in *;
    try (exists w'; split; [reflexivity|split; [exact I1|exact P1]]).
  destruct (K a w' (proj1 I1)) as (w2 & E2 & I2 & P2). rewrite P1 in E2, P2. exists w2. eauto.
Qed.
Lemma like_pure {A} (o : outcome A) : like (fun w => (o, w)) (fun w => (o, w)).
Proof. intros w I. exists w. cbn. auto. Qed.
Lemma like_map {A B} (m : st net A) m' (f : outcome A -> outcome B) : like m m' ->
  like (fun w => let '(o, w) := m w in (f o, w)) (fun w => let '(o, w) := m' w in (f o, w)).
Proof.
  intros M w I. destruct (M w I) as (w' & E1 & I1 & P1). unfold same_run. rewrite E1.
  exists w'. destruct (m' (played handle dev d (n_sent w))) as [o s']. cbn [fst snd] in *. auto.
Qed.

(** ** Clients that keep a state *)
Lemma like_with_bind {A B X} (m : st (X * net) A) m' (k : A -> st (X * net) B) k' :
  like_with m m' -> (forall a, like_with (k a) (k' a)) -> like_with (st_bind m k) (st_bind m' k').
Proof.
  intros M K x w I. destruct (M x w I) as (w' & E1 & I1 & P1). unfold same_run_with, st_bind. rewrite E1.
  destruct (m' (x, played handle dev d (n_sent w))) as [[a|e|u|] [x' s']] eqn:E; cbn [fst snd] in *;
    try (exists w'; split; [reflexivity|split; [exact I1|exact P1]]).
  destruct (K a x' w' (proj1 I1)) as (w2 & E2 & I2 & P2). rewrite P1 in E2, P2. exists w2. eauto.
Qed.
Lemma like_with_pure {A X} (f : X -> outcome A * X) :
  like_with (fun '(x, w) => (fst (f x), (snd (f x), w))) (fun '(x, w) => (fst (f x), (snd (f x), w))).
Proof. intros x w I. exists w. cbn. auto. Qed.
Lemma like_with_ret {A X} (o : outcome A) : like_with (X := X) (fun s => (o, s)) (fun s => (o, s)).
Proof. intros x w I. exists w. cbn. auto. Qed.
Lemma like_with_lift {A} (m : st net A) m' : like m m' -> like_with (lift m) (lift m').
Proof.
  intros M x w I. destruct (M w I) as (w' & E1 & I1 & P1). unfold same_run_with, lift. rewrite E1.
  exists w'. destruct (m' (played handle dev d (n_sent w))) as [o s']. cbn [fst snd] in *. auto.
Qed.
(** one request, whose answer changes the state *)
Lemma like_with_step {A B X} (m : st net A) m' (x : X) (f : outcome A -> outcome (B * X)) : like m m' ->
  forall w, idle w ->
  same_run_with handle dev d
    (fun '(x, w) => let '(o, w) := m w in
       match f o with Ok (b, x') => (Ok b, (x', w)) | Throw e => (Throw e, (x, w))
                    | Undef u => (Undef u, (x, w)) | Abort => (Abort, (x, w)) end)
    (fun '(x, w) => let '(o, w) := m' w in
       match f o with Ok (b, x') => (Ok b, (x', w)) | Throw e => (Throw e, (x, w))
                    | Undef u => (Undef u, (x, w)) | Abort => (Abort, (x, w)) end) x w.
Proof.
  intros M w I. destruct (M w I) as (w' & E1 & I1 & P1). unfold same_run_with. rewrite E1.
  exists w'. destruct (m' (played handle dev d (n_sent w))) as [o s']. cbn [fst snd] in *.
  destruct (f o) as [[b x']|e|u|]; cbn [fst snd]; auto.
Qed.

(** ** The clients of the library *)
Variables (h : heap) (use8 : bool).
Notation live := (live_session h p handle).
Notation direct := (served handle dev).

Lemma like3 service c n a data : 0 <= service < 128 -> 0 <= c < 256 -> 0 <= a < 256 -> sendable use8 n ->
  is_bytes data -> zlen data <= 60000 ->
  like (send_request h live use8 service (epath3 c n a) data [])
       (send_request h direct use8 service (epath3 c n a) data []).
Proof.
  intros. apply (like_request h use8 service (Ids3 c n a)); try assumption; [discriminate|now apply sendable3].
Qed.
Lemma like2 service c n data : 0 <= service < 128 -> 0 <= c < 256 -> sendable use8 n ->
  is_bytes data -> zlen data <= 60000 ->
  like (send_request h live use8 service (epath2 c n) data [])
       (send_request h direct use8 service (epath2 c n) data []).
Proof.
  intros. apply (like_request h use8 service (Ids2 c n)); try assumption; [discriminate|now apply sendable2].
Qed.

Ltac small := match goal with |- is_bytes _ => repeat constructor | |- zlen _ <= _ => unfold zlen; cbn [List.length]; lia end.

Lemma like_ask2 service c n : 0 <= service < 128 -> 0 <= c < 256 -> sendable use8 n ->
  like (ask h use8 live service (epath2 c n)) (ask h use8 direct service (epath2 c n)).
Proof. intros. unfold ask. apply like_map with (f := fun o => _). apply like2; try assumption; small. Qed.
Lemma like_ask3 service c n a : 0 <= service < 128 -> 0 <= c < 256 -> 0 <= a < 256 -> sendable use8 n ->
  like (ask h use8 live service (epath3 c n a)) (ask h use8 direct service (epath3 c n a)).
Proof. intros. unfold ask. apply like_map with (f := fun o => _). apply like3; try assumption; small. Qed.

Lemma like_identity n : like (identity_read h use8 live n) (identity_read h use8 direct n).
Proof.
  unfold identity_read. apply like_map with (f := fun o => _). apply like2; try small.
  unfold GET_ATTRIBUTE_ALL; lia. unfold IDENTITY_CLASS_ID; lia.
  split; unfold is_u16; intros; lia.
Qed.

Lemma like_scaling id n : sendable use8 id -> forall first, 0 <= first -> first + Z.of_nat n <= 256 ->
  like (ask_scaling h use8 live id first n) (ask_scaling h use8 direct id first n).
Proof.
  intros S. induction n as [|n IH]; intros first F1 F2; cbn [ask_scaling]; [apply like_pure|].
  apply like_bind; [apply like_ask3; try assumption; unfold GET_ATTRIBUTE_SINGLE, PARAMETER_CLASS_ID; lia|]. intros x.
  apply like_bind; [apply IH; lia|]. intros r. apply like_pure.
Qed.

Lemma like_param id full : sendable use8 id ->
  like (param_read h use8 live id full) (param_read h use8 direct id full).
Proof.
  intros S. unfold param_read.
  apply like_bind; [apply like_ask3; try assumption; unfold GET_ATTRIBUTE_SINGLE, PARAMETER_CLASS_ID, ATTR_DATA_SIZE; lia|].
  intros x. apply like_bind; [apply like_pure|]. intros size.
  apply like_bind; [apply like_ask2; try assumption; unfold GET_ATTRIBUTE_ALL, PARAMETER_CLASS_ID; lia|]. intros y.
  apply like_bind; [apply like_pure|]. intros o. destruct (full && pa_scalable o); [|apply like_pure].
  apply like_bind; [apply like_scaling; [assumption|vm_compute; discriminate..]|]. intros z. apply like_pure.
Qed.

Lemma like_update x w : sendable use8 (pa_id x) -> idle w ->
  same_run_with handle dev d (update_value h use8 live) (update_value h use8 direct) x w.
Proof.
  intros S I. unfold same_run_with, update_value. destruct (pa_router x); [|exists w; cbn; auto].
  pose proof (like_ask3 GET_ATTRIBUTE_SINGLE PARAMETER_CLASS_ID (pa_id x) ATTR_VALUE) as M.
  destruct (M ltac:(unfold GET_ATTRIBUTE_SINGLE; lia) ltac:(unfold PARAMETER_CLASS_ID; lia)
              ltac:(unfold ATTR_VALUE; lia) S w I) as (w' & E1 & I1 & P1).
  rewrite E1. exists w'.
  destruct (ask h use8 direct _ _ (played handle dev d (n_sent w))) as [o s']. cbn [fst snd] in *.
  destruct (bind o _) as [[v b]|e|u|]; cbn [fst snd]; auto.
Qed.

Lemma like_detail n : sendable use8 n -> like (fault_detail h use8 live n) (fault_detail h use8 direct n).
Proof.
  intros S. unfold fault_detail. apply like_bind; [|intros; apply like_pure].
  apply like_ask3; try assumption; unfold GET_ATTRIBUTE_SINGLE; lia.
Qed.
Lemma like_fault_object id : sendable use8 id ->
  like (fault_object_read h use8 live id) (fault_object_read h use8 direct id).
Proof.
  intros S. unfold fault_object_read. apply like_bind; [|intros; apply like_pure].
  apply like_ask3; try assumption; unfold GET_ATTRIBUTE_SINGLE, DPI_FAULT_CLASS_ID; lia.
Qed.

Lemma like_file_open id : sendable use8 id -> like (file_open h use8 live id) (file_open h use8 direct id).
Proof.
  intros S. unfold file_open. apply like_map with (f := fun o => _). apply like3; try assumption; try small.
  - unfold GET_ATTRIBUTE_SINGLE; lia.
  - unfold FILE_OBJECT_CLASS_ID; lia.
  - unfold FILE_ATTR_STATE; lia.
Qed.

Lemma one_byte (b : buffer) v : bdata b = [] -> is_u8 v ->
  is_bytes (bdata (put_u8 b v)) /\ zlen (bdata (put_u8 b v)) <= 60000.
Proof.
  intros E V. unfold put_u8, push. cbn [bdata]. rewrite E. split; [apply Forall_cons; [exact V|constructor]|].
  unfold zlen. cbn [List.length app]. lia.
Qed.

Definition file_like {A} (m : st (fobj * net) A) m' : Prop :=
  forall f w, file_ok use8 f -> idle w -> same_run_with handle dev d m m' f w
  /\ file_ok use8 (fst (snd (m' (f, played handle dev d (n_sent w))))).
Lemma file_like_bind {A B} (m : st (fobj * net) A) m' (k : A -> st (fobj * net) B) k' :
  file_like m m' -> (forall a, file_like (k a) (k' a)) -> file_like (st_bind m k) (st_bind m' k').
Proof.
  intros M K f w S I. destruct (M f w S I) as ((w' & E1 & I1 & P1) & F). unfold same_run_with, st_bind. rewrite E1.
  destruct (m' (f, played handle dev d (n_sent w))) as [[a|e|u|] [x' s']] eqn:E; cbn [fst snd] in *;
    try (split; [exists w'; split; [reflexivity|split; [exact I1|exact P1]]|exact F]).
  destruct (K a x' w' F (proj1 I1)) as ((w2 & E2 & I2 & P2) & F2). rewrite P1 in E2, P2, F2.
  split; [exists w2; eauto|exact F2].
Qed.
Lemma file_like_ret {A} (o : outcome A) : file_like (fun s => (o, s)) (fun s => (o, s)).
Proof. intros f w S I. split; [|exact S]. exists w. cbn. auto. Qed.

Lemma initiated_ok hid f r f' : file_ok use8 f -> initiated h hid f r = Ok f' -> file_ok use8 f'.
Proof.
  intros [S N]. unfold initiated. destruct (r_status r =? GSC_SUCCESS); [|now intros [= <-]].
  destruct (get_u32 h (buf_of (r_data r))) as [[size b]|e|u|]; try discriminate. cbn [bind].
  destruct (get_u8 h b) as [[t b']|e|u|]; try discriminate. cbn [bind]. intros [= <-].
  split; [exact S|]. cbn. unfold is_u8; lia.
Qed.
Lemma transferred_ok f size tsize content number hid r more f' : file_ok use8 f -> is_u8 number ->
  transferred h f size tsize content number hid r = Ok (more, f') -> file_ok use8 f'.
Proof.
  intros [S N] U. unfold transferred. destruct (r_status r =? GSC_SUCCESS); [|now intros [= _ <-]].
  destruct (get_u8 h (buf_of (r_data r))) as [[num b]|e|u|]; try discriminate. cbn [bind].
  destruct (get_u8 h b) as [[ty b']|e|u|]; try discriminate. cbn [bind].
  destruct (negb (num =? number)); [now intros [= _ <-]|].
  destruct ((ty =? 0) || (ty =? 1)).
  { destruct (get_bytes h _ b') as [[x b2]|e|u|]; try discriminate. cbn [bind]. intros [= _ <-].
    split; [exact S|]. cbn. unfold is_u8, u8; lia. }
  destruct ((ty =? 2) || (ty =? 4)); [|discriminate]. destruct (Nat.ltb _ 4); [discriminate|].
  destruct (get_bytes h _ b') as [[x b2]|e|u|]; try discriminate. cbn [bind]. intros [= _ <-].
  split; [exact S|exact U].
Qed.

Lemma like_begin hid : file_like (begin_upload h use8 live hid) (begin_upload h use8 direct hid).
Proof.
  intros f w K I. pose proof K as [S _]. unfold same_run_with, begin_upload.
  destruct (fo_state f); try (split; [exists w; cbn; auto|exact K]).
  pose proof (like2 INITIATE_UPLOAD FILE_OBJECT_CLASS_ID (fo_id f) (bdata (put_u8 (buf_of []) MAX_TRANSFER_SIZE))) as M.
  destruct (one_byte (buf_of []) MAX_TRANSFER_SIZE eq_refl) as [B1 B2]; [unfold is_u8, MAX_TRANSFER_SIZE; lia|].
  destruct (M ltac:(unfold INITIATE_UPLOAD; lia) ltac:(unfold FILE_OBJECT_CLASS_ID; lia) S B1 B2 w I)
    as (w' & E1 & I1 & P1).
  rewrite E1.
  destruct (send_request h direct use8 _ _ _ _ (played handle dev d (n_sent w))) as [o s']. cbn [fst snd] in *.
  destruct (bind o _) as [f'|e|u|] eqn:E; cbn [fst snd]; (split; [exists w'; auto|try exact K]).
  destruct o as [r|e|u|]; try discriminate. cbn [bind] in E. eapply initiated_ok; eassumption.
Qed.
Lemma like_transfers : file_like (handle_transfers h use8 live) (handle_transfers h use8 direct).
Proof.
  intros f w K I. pose proof K as [S N]. unfold same_run_with, handle_transfers.
  destruct (fo_state f) as [| | | |size tsize content number hid]; try (split; [exists w; cbn; auto|exact K]).
  pose proof (like2 UPLOAD_TRANSFER FILE_OBJECT_CLASS_ID (fo_id f) (bdata (put_u8 (buf_of []) number))) as M.
  destruct (one_byte (buf_of []) number eq_refl N) as [B1 B2].
  destruct (M ltac:(unfold UPLOAD_TRANSFER; lia) ltac:(unfold FILE_OBJECT_CLASS_ID; lia) S B1 B2 w I)
    as (w' & E1 & I1 & P1).
  rewrite E1.
  destruct (send_request h direct use8 _ _ _ _ (played handle dev d (n_sent w))) as [o s']. cbn [fst snd] in *.
  destruct (bind o _) as [[more f']|e|u|] eqn:E; cbn [fst snd]; (split; [exists w'; auto|try exact K]).
  destruct o as [r|e|u|]; try discriminate. cbn [bind] in E. eapply transferred_ok; eassumption.
Qed.
Lemma like_loop n : file_like (transfer_loop h use8 live n) (transfer_loop h use8 direct n).
Proof.
  induction n as [|n IH]; cbn [transfer_loop]; [apply file_like_ret|].
  apply file_like_bind; [apply like_transfers|]. intros [|]; [exact IH|apply file_like_ret].
Qed.
Lemma like_upload hid n : file_like (upload h use8 live hid n) (upload h use8 direct hid n).
Proof. apply file_like_bind; [apply like_begin|]. intros _. apply like_loop. Qed.
End Host.

(** ** Fault clients: the parameter numbers need 16-bit segments *)
Section Fault.
Context {D : Type}.
Variables (p : peer) (handle : Z) (dev : device D) (d : D).
Hypothesis HP : hosts p handle dev d.
Hypothesis HD : device_wf dev.
Hypothesis HH : is_u32 handle.
Variable h : heap.
Notation live := (live_session h p handle).
Notation direct := (served handle dev).

Lemma like_fault number want :
  like handle dev d (fault_read h false live number want) (fault_read h false direct number want).
Proof.
  unfold fault_read. destruct (fault_params number) as [[[[pc pv] pu] pf]|] eqn:E; [|apply like_pure].
  assert (W : is_u16 pc /\ is_u16 pv /\ is_u16 pu /\ is_u16 pf).
  { unfold fault_params in E. unfold is_u16.
    repeat match type of E with match ?x with _ => _ end = _ => destruct x; try discriminate end;
      injection E as <- <- <- <-; lia. }
  destruct W as (W1 & W2 & W3 & W4).
  assert (L : forall n, is_u16 n -> like handle dev d (fault_detail h false live n) (fault_detail h false direct n)).
  { intros n N. apply like_detail; try assumption. split; [assumption|discriminate]. }
  apply like_bind; [auto|]. intros code. destruct (negb (code =? 0) && want); [|apply like_pure].
  apply like_bind; [auto|]. intros v. apply like_bind; [auto|]. intros c. apply like_bind; [auto|]. intros f. apply like_pure.
Qed.
Lemma like_command c : is_u8 c -> like handle dev d (write_command h false live c) (write_command h false direct c).
Proof.
  intros C. unfold write_command. apply like_map with (f := fun o => _).
  destruct (one_byte buf_new c eq_refl C) as [B1 B2].
  apply like3; try assumption; unfold SET_ATTRIBUTE_SINGLE, DPI_FAULT_CLASS_ID; try lia.
  split; unfold is_u16; [lia|discriminate].
Qed.
Lemma like_fault_loop want n : forall number,
  like_with handle dev d (fault_loop h false live want number n) (fault_loop h false direct want number n).
Proof.
  induction n as [|n IH]; intros number; cbn [fault_loop]; [apply like_with_ret|].
  apply like_with_bind; [apply like_with_lift, like_fault|]. intros f.
  destruct (fd_code (fa_details f) =? 0); [apply like_with_ret|].
  apply like_with_bind; [apply like_with_ret|]. intros t.
  apply like_with_bind.
  { intros x w I. exists w. cbn. auto. }
  intros _. apply like_with_bind; [apply IH|]. intros k. apply like_with_ret.
Qed.
Lemma like_faults clear want :
  like_with handle dev d (handle_faults h false live clear want) (handle_faults h false direct clear want).
Proof.
  unfold handle_faults. apply like_with_bind; [apply like_fault_loop|]. intros n.
  destruct (clear && Nat.ltb 0 n); [|apply like_with_ret]. apply like_with_lift, like_command. unfold is_u8, CLEAR_FAULT_QUEUE; lia.
Qed.
End Fault.

(** ** Sessions *)
Lemma register_unasked handle : asked_in handle (encaps_pack register_packet) = None.
Proof. reflexivity. Qed.

Lemma host_peer_hosts {D} split handle (dev : device D) d :
  (forall l, stream (split l) = l /\ ending_of (split l) = Silent) ->
  hosts (host_peer split handle dev d) handle dev d /\ registers (host_peer split handle dev d) handle.
Proof.
  intros S. split.
  - intros log wire q Q. unfold host_peer. rewrite Q. apply S.
  - intros log. unfold host_peer. rewrite register_unasked.
    destruct (list_eq_dec Z.eq_dec _ _) as [E|E]; [apply S|now elim E].
Qed.
Lemma bytewise_ok l : stream (bytewise l) = l /\ ending_of (bytewise l) = Silent.
Proof.
  induction l as [|b l [IH1 IH2]]; [split; reflexivity|].
  unfold bytewise in *. cbn [map List.concat app stream ending_of]. rewrite IH1. auto.
Qed.

Lemma register_idle {D} h p handle (dev : device D) d w : is_u32 handle -> registers p handle -> idle w ->
  exists w', session_register h p w = (Ok handle, w') /\ idle w'
    /\ n_sent w' = n_sent w ++ [encaps_pack register_packet]
    /\ played handle dev d (n_sent w') = played handle dev d (n_sent w).
Proof.
  intros H R (NR & DR1 & DR2). destruct (R (n_sent w)) as [P1 P2].
  destruct (stream_app (n_in w) (p (n_sent w) (encaps_pack register_packet)) DR2) as (T1 & T2 & _).
  destruct (register_good h p w (packet 101 handle 0 [1; 0; 0; 0]) []) as (w' & X1 & X2 & X3 & X4 & X5).
  - unfold sends_all. rewrite NR. exact Logic.I.
  - split; [|reflexivity]. apply packet_wf; [unfold is_u16; lia|assumption|unfold is_u32; lia|].
    repeat (apply Forall_cons; [unfold is_u8; lia|]). constructor.
  - reflexivity.
  - unfold incoming. rewrite T1, DR1, P1, app_nil_r. reflexivity.
  - exists w'. split; [exact X1|]. split; [|split; [exact X4|]].
    + split; [rewrite X5, NR; reflexivity|]. split; [exact X2|]. rewrite X3. unfold incoming. rewrite T2. exact P2.
    + rewrite X4, played_snoc. unfold serves. rewrite register_unasked. reflexivity.
Qed.

(** ** A whole upload *)
Lemma failed_wf c : is_u8 c -> answer_wf (failed c).
Proof.
  intros C. unfold answer_wf, failed; cbn [a_status a_addl a_data].
  repeat match goal with |- _ /\ _ => split end; try assumption; try constructor; unfold zlen; cbn; lia.
Qed.
Lemma uploader_wf id F T crc : is_bytes F -> 1 <= T <= 255 -> is_bytes crc -> List.length crc = 2%nat ->
  device_wf (uploader id F T crc).
Proof.
  intros BF TT BC LC k q. unfold uploader.
  repeat match goal with
         | |- answer_wf (fst (match ?x with _ => _ end)) => destruct x
         | |- answer_wf (fst (_, _)) => cbn [fst]
         | |- answer_wf (fst (if ?x then _ else _)) => destruct x
         | |- answer_wf (failed _) => apply failed_wf; unfold is_u8; lia
         end.
  all: first [ apply packet_wf'; [assumption..|lia]
             | apply done_wf; [apply Forall_cons; [unfold is_u8; lia|apply Forall_nil]|unfold zlen; cbn; lia]
             | apply done_wf;
               [apply is_bytes_app; split; [apply le_bytes|apply Forall_cons; [unfold is_u8; lia|apply Forall_nil]]
               |rewrite zlen_app; unfold zlen; rewrite le_length; cbn; lia] ].
Qed.

Lemma loop_more {W} h use8 (si : session_if W) n : forall s s', transfer_loop h use8 si n s = (Ok false, s') ->
  forall m, (n <= m)%nat -> transfer_loop h use8 si m s = (Ok false, s').
Proof.
  induction n as [|n IH]; intros s s' E m L; [discriminate|].
  destruct m as [|m]; [lia|]. cbn [transfer_loop] in *. unfold st_bind in *.
  destruct (handle_transfers h use8 si s) as [[[|]|e|u|] s1]; try discriminate; [|exact E].
  apply IH; [exact E|lia].
Qed.
Lemma file_open_ok {W} h use8 (si : session_if W) id w f w' : sendable use8 id ->
  file_open h use8 si id w = (Ok f, w') -> file_ok use8 f.
Proof.
  intros S. unfold file_open. destruct (send_request _ _ _ _ _ _ _ w) as [[r|e|u|] w1]; try discriminate.
  cbn [bind]. unfold synced. destruct (r_status r =? GSC_SUCCESS); [|discriminate].
  destruct (get_u8 h (buf_of (r_data r))) as [[c b]|e|u|]; try discriminate. cbn [bind].
  repeat match goal with |- context [if ?x then _ else _] => destruct x end; cbn [bind]; intros [= <- <-];
    split; try exact S; exact Logic.I.
Qed.

Lemma upload_session p handle h use8 id F T crc hid :
  is_u32 handle -> sendable use8 id -> is_bytes F -> zlen F < 2 ^ 32 -> 1 <= T <= 255 ->
  is_bytes crc -> List.length crc = 2%nat ->
  registers p handle -> hosts p handle (uploader id F T crc) None ->
  exists w1 f0 w2 f2 w3 w4 n,
    session_register h p (mkNet [] [] []) = (Ok handle, w1)
    /\ file_open h use8 (live_session h p handle) id w1 = (Ok f0, w2)
    /\ (forall m, (n <= m)%nat -> upload h use8 (live_session h p handle) hid m (f0, w2) = (Ok false, (f2, w3)))
    /\ fo_calls f2 = [mkCall hid 0 F] /\ Z.of_nat n = pieces (zlen F) T
    /\ session_destroy p handle w3 = (Ok tt, w4).
Proof.
  intros H S BF LF TT BC LC R HP.
  assert (I0 : idle (mkNet [] [] [])) by (split; [reflexivity|split; reflexivity]).
  pose proof (uploader_wf id F T crc BF TT BC LC) as HD.
  destruct (register_idle h p handle (uploader id F T crc) None _ H R I0) as (w1 & E1 & I1 & _ & P1).
  destruct (upload_complete h use8 handle id F T crc hid H S BF LF TT BC LC [])
    as (f0 & f1 & f2 & n & trn & u0 & u1 & X1 & X2 & X3 & X4 & X5 & X6 & X7).
  destruct (like_file_open p handle _ None HP HD H h use8 id S w1 I1) as (w2 & E2 & I2 & P2).
  rewrite P1 in E2, P2. change (file_open h use8 (served handle (uploader id F T crc)) id
    (played handle (uploader id F T crc) None (n_sent (mkNet [] [] []))) = (Ok f0, u0)) in X1.
  rewrite X1 in E2, P2. cbn [fst snd] in E2, P2.
  assert (XU : upload h use8 (served handle (uploader id F T crc)) hid n (f0, u0) = (Ok false, (f2, (Some n, trn)))).
  { unfold upload, st_bind. rewrite X2. apply X4. lia. }
  pose proof (file_open_ok h use8 _ id _ _ _ S X1) as K.
  destruct (like_upload p handle _ None HP HD H h use8 hid n f0 w2 K (proj1 I2)) as ((w3 & E3 & I3 & P3) & _).
  rewrite P2, XU in E3. cbn [fst snd] in E3.
  destruct (destroy_ok p handle w3) as (w4 & E4 & _).
  { unfold sends_all. rewrite (proj1 (proj1 I3)). exact Logic.I. }
  exists w1, f0, w2, f2, w3, w4, n. repeat match goal with |- _ /\ _ => split end; try assumption.
  intros m L. unfold upload, st_bind in *.
  destruct (begin_upload h use8 (live_session h p handle) hid (f0, w2)) as [[b|e|u|] s1]; try discriminate.
  eapply loop_more; eassumption.
Qed.
