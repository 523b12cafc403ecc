(** What a peer can make the library hold: discovery, implicit messages, and a
    file that never ends. *)
From Verif Require Import Base MBuffer SBuffer PBase PBuffer MEip SEip PEip PRouter MSocket SSocket PSocket SObj PObj SExn PExn MFile SFile PFile MIdent MParam MDisc SDisc MConn PReuse SBound PBound.
Local Open Scope outcome_scope.

(** ** Discovery *)

Lemma items_count l : 4 * zlen l <= items_size l.
Proof.
  induction l as [|i l IH]; [cbn; lia|]. cbn [items_size]. pose proof (zlen_nonneg (it_data i)).
  unfold zlen in *. cbn [List.length]. lia.
Qed.
Lemma expand_size h data items : is_bytes data -> (2 <= List.length data)%nat -> cp_expand h data = (items, Ok tt) ->
  Forall (fun i => is_bytes (it_data i)) items /\ items_size items + 2 <= zlen data.
Proof.
  intros B L E. apply cp_accept in E as (count & rest & _ & W & -> & _); [|exact B|exact L]. split.
  - eapply Forall_impl; [|exact W]. intros i (_ & _ & _ & X). exact X.
  - rewrite !zlen_app, items_bytes_size. pose proof (zlen_nonneg rest). assert (X : zlen (le 2 count) = 2) by (unfold zlen; now rewrite le_length). lia.
Qed.
Lemma item_entry h i it e : is_bytes (it_data it) -> disc_item h i it = Ok e -> named e.
Proof.
  intros B E. unfold disc_item in E. cbv zeta in E.
  apply bind_Ok in E as ([x1 b1] & E1 & E). apply steady_u16 in E1; [|exact B].
  apply bind_Ok in E as ([x2 b2] & E2 & E). apply steady_endpoint in E2; [|now rewrite E1].
  apply bind_Ok in E as ([x3 b3] & E3 & E). apply identity_bounds in E3; [|now rewrite E2, E1].
  injection E as <-. exact E3.
Qed.
Lemma items_entries h items : forall i acc l, Forall (fun it => is_bytes (it_data it)) items -> disc_items h i items acc = Ok l ->
  exists new, l = acc ++ new /\ List.length new = List.length items
    /\ Forall named new.
Proof.
  induction items as [|it items IH]; intros i acc l B E; cbn [disc_items] in E.
  - exists []. rewrite app_nil_r. split; [congruence|]. split; [reflexivity|constructor].
  - inversion B as [|? ? B1 B2]; subst. apply bind_Ok in E as (e & E1 & E). apply item_entry in E1; [|exact B1].
    destruct (IH _ _ _ B2 E) as (new & -> & Ln & F). exists (e :: new). rewrite <- app_assoc. split; [reflexivity|].
    cbn [List.length]. split; [congruence|]. now constructor.
Qed.
Lemma zeros_bytes n : is_bytes (zeros n).
Proof. unfold zeros. apply Forall_forall. intros x K. apply repeat_spec in K. subst. unfold is_u8. lia. Qed.
Lemma udp_bytes size d r data : dgram_bytes d -> fst (udp_receive size (d :: r)) = Ok data -> is_bytes data /\ List.length data = size.
Proof.
  intros B E. destruct d as [l|e]; [|discriminate]. rewrite udp_ok in E. cbn [fst] in E. assert (X : data = firstn size (l ++ zeros size)) by congruence.
  subst data. split.
  - apply firstn_bytes, is_bytes_app. split; [exact B|apply zeros_bytes].
  - rewrite firstn_length, app_length. unfold zeros. rewrite repeat_length. lia.
Qed.
Lemma reply_entries h data acc l : is_bytes data -> List.length data = EIP_MAX_PACKET_SIZE -> disc_reply h data acc = Ok l ->
  exists new, l = acc ++ new /\ zlen new <= 119 /\ Forall named new.
Proof.
  intros B L E. unfold disc_reply in E. apply bind_Ok in E as (items & E1 & E).
  destruct (cp_expand h (skipn HEADER_SIZE data)) as [its [[]| | |]] eqn:X; cbn [finished] in E1; try discriminate.
  assert (its = items) by congruence. subst its.
  assert (Ld : List.length (skipn HEADER_SIZE data) = Z.to_nat 480) by (rewrite skipn_length, L; reflexivity).
  apply expand_size in X as [F S]; [|now apply skipn_bytes|rewrite Ld; cbn; lia].
  destruct (items_entries _ _ _ _ _ F E) as (new & -> & Ln & Fn). exists new. split; [reflexivity|]. split; [|exact Fn].
  pose proof (items_count items). unfold zlen in *. rewrite Ld in S. lia.
Qed.
Lemma loop_entries h ds : forall acc l, Forall dgram_bytes ds -> disc_loop h acc ds = Ok l ->
  exists new, l = acc ++ new /\ zlen new <= 119 * zlen ds /\ Forall named new.
Proof.
  assert (STOP : forall acc l : list entry, Ok acc = Ok l -> forall n, 0 <= n ->
    exists new, l = acc ++ new /\ zlen new <= 119 * n /\ Forall named new).
  { intros acc l E n Hn. exists []. rewrite app_nil_r. split; [congruence|]. split; [unfold zlen; cbn [List.length]; lia|constructor]. }
  induction ds as [|d r IH]; intros acc l F E; cbn [disc_loop] in E.
  - apply STOP; [|cbn; lia]. cbn in E. exact E.
  - inversion F as [|? ? Fd Fr]; subst.
    destruct (fst (udp_receive EIP_MAX_PACKET_SIZE (d :: r))) as [data| | |] eqn:U; cbn [bind] in E.
    + destruct (udp_bytes _ _ _ _ Fd U) as [B L].
      destruct (disc_reply h data acc) as [acc'|e|u|] eqn:R.
      * destruct (reply_entries _ _ _ _ B L R) as (n1 & -> & L1 & F1). destruct (IH _ _ Fr E) as (n2 & -> & L2 & F2).
        exists (n1 ++ n2). rewrite app_assoc. split; [reflexivity|]. split; [rewrite zlen_app; unfold zlen in *; cbn [List.length]; lia|].
        apply Forall_app. split; assumption.
      * cbn [disc_catch] in E. apply STOP; [|apply zlen_nonneg]. destruct e; try discriminate. destruct (negb (_ =? _)); [discriminate|exact E].
      * discriminate.
      * discriminate.
    + cbn [disc_catch] in E. apply STOP; [|apply zlen_nonneg]. destruct e; try discriminate. destruct (negb (_ =? _)); [discriminate|exact E].
    + discriminate.
    + discriminate.
Qed.
Lemma discover_size h k broadcast ds l sent : Forall dgram_bytes ds -> discover h k broadcast ds = (Ok l, sent) ->
  zlen l <= 119 * zlen ds /\ Forall named l.
Proof.
  intros F E. unfold discover in E. destruct (dk_socket k); [discriminate|]. destruct (dk_broadcast k); [discriminate|].
  apply (f_equal fst) in E. cbn [fst] in E. apply bind_Ok in E as (x & _ & E).
  destruct (loop_entries _ _ _ _ F E) as (new & -> & L & Fn). cbn [app]. auto.
Qed.

(** ** Implicit messages *)

Lemma second_size (i0 i1 : cpitem) items : nth_error items 0 = Some i0 -> nth_error items 1 = Some i1 ->
  zlen (it_data i1) + 8 <= items_size items.
Proof.
  destruct items as [|a [|b l]]; intros A B; try discriminate. cbn [nth_error] in *. assert (b = i1) by congruence. subst b.
  cbn [items_size]. pose proof (zlen_nonneg (it_data a)). pose proof (items_count l). pose proof (zlen_nonneg l). lia.
Qed.
Lemma io_size h c data c' ev : io_receive h c data = Ok (c', ev) ->
  zlen ev <= 1 /\ Forall (fun e => match e with EvData _ _ _ d => zlen d <= zlen data | _ => True end) ev.
Proof.
  intros E. unfold io_receive in E. cbv zeta in E.
  apply bind_Ok in E as ([hdr b1] & _ & E). apply bind_Ok in E as ([seq b2] & _ & E).
  destruct (negb (buf_valid b2)); [discriminate|].
  destruct (io_t2oFixed c && negb (zlen (skipn (bpos b2) data) =? io_t2oSize c)); injection E as <- <-.
  - split; [cbn; lia|constructor].
  - split; [cbn; lia|]. constructor; [|constructor]. unfold zlen. rewrite skipn_length. lia.
Qed.
Lemma readable_size h d m o m' : dgram_bytes d -> on_readable h d m = (o, m') ->
  List.length (m_map m') = List.length (m_map m)
  /\ exists new, m_log m' = m_log m ++ new /\ zlen new <= 1 /\ Forall small new.
Proof.
  intros B E.
  assert (SAME : m' = m -> List.length (m_map m') = List.length (m_map m)
    /\ exists new, m_log m' = m_log m ++ new /\ zlen new <= 1 /\ Forall small new).
  { intros ->. split; [reflexivity|]. exists []. rewrite app_nil_r. split; [reflexivity|]. split; [cbn; lia|constructor]. }
  unfold on_readable in E. destruct (fst (udp_receive (Z.to_nat 8192) [d])) as [data| | |] eqn:U; try (apply SAME; congruence).
  destruct (udp_bytes _ _ _ _ B U) as [Bd L].
  match type of E with (match ?x with _ => _ end = _) => destruct x as [m1| | |] eqn:X end; try (apply SAME; congruence).
  assert (m1 = m') by congruence. subst m1. apply bind_Ok in X as (items & E1 & X).
  destruct (cp_expand h data) as [its [[]| | |]] eqn:Y; cbn [finished] in E1; try discriminate.
  assert (its = items) by congruence. subst its.
  apply expand_size in Y as [_ S]; [|exact Bd|rewrite L; lia].
  destruct (nth_error items 0) as [i0|] eqn:N0; [|discriminate]. apply bind_Ok in X as ([id b] & _ & X). cbv zeta in X.
  destruct (map_find (u16 id) (m_map m)) as [c|]; [|apply SAME; congruence].
  destruct (nth_error items 1) as [i1|] eqn:N1; [|discriminate]. apply bind_Ok in X as ([c' ev] & R & X). injection X as <-.
  apply io_size in R as [L1 F]. pose proof (second_size _ _ _ N0 N1) as S1. unfold zlen in S at 1. rewrite L in S.
  cbn [add_log set_map m_map m_log]. split; [unfold map_update; now rewrite map_length|]. exists ev. split; [reflexivity|]. split; [exact L1|].
  eapply Forall_impl; [|exact F]. intros [oid hd sq dd| |] K; cbn [small]; try exact Logic.I. lia.
Qed.

(** ** A file without end *)

Lemma endless_loop h use8 handle id hid n : is_u32 handle -> sendable use8 id ->
  forall k f tr content, fo_id f = id -> fo_state f = FUpload 1 255 content (Z.of_nat k mod 256) hid ->
  exists f' tr', transfer_loop h use8 (served handle endless) n (f, (tt, tr)) = (Ok true, (f', (tt, tr')))
    /\ zlen (held f') = zlen content + 255 * Z.of_nat n /\ announced_size f' = Some 1 /\ fo_calls f' = fo_calls f.
Proof.
  intros H S. induction n as [|n IH]; intros k f tr content Ef Es; cbn [transfer_loop].
  - exists f, tr. split; [reflexivity|]. unfold held, announced_size. rewrite Es. split; [lia|]. auto.
  - unfold st_bind. subst id.
    rewrite (transfer_request_ok h use8 handle endless f 1 255 content k hid tt tr (done ([Z.of_nat k mod 256; 1] ++ repeat 7 255)) tt);
      [|assumption|assumption|assumption|cbn [endless transfer_request]; now rewrite Z.mod_mod by lia|apply done_wf].
    2: { constructor; [unfold is_u8; lia|]. constructor; [unfold is_u8; lia|]. apply Forall_forall. intros x K. apply repeat_spec in K. subst. unfold is_u8. lia. }
    2: { cbn. lia. }
    rewrite (transferred_two _ _ _ _ _ _ _ _ (Z.of_nat k mod 256) 1 (repeat 7 255)) by reflexivity.
    rewrite Z.eqb_refl. cbn [negb]. change ((1 =? 0) || (1 =? 1)) with true. cbv iota.
    change (Z.to_nat 255) with 255%nat. rewrite get_bytes_n by (rewrite repeat_length; lia). cbn [bind]. rewrite firstn_all2 by (rewrite repeat_length; lia).
    rewrite u8_next.
    match goal with |- context [(?g, (tt, ?t))] => match g with f_set _ _ => destruct (IH (Datatypes.S k) g t (content ++ repeat 7 255) eq_refl eq_refl) as (f' & tr' & E & L & A & C) end end.
    exists f', tr'. split; [exact E|]. rewrite zlen_app in L. assert (X : zlen (repeat 7 255) = 255) by (unfold zlen; rewrite repeat_length; reflexivity).
    split; [lia|]. auto.
Qed.
Lemma endless_upload h use8 handle id hid n tr : is_u32 handle -> sendable use8 id ->
  exists f tr1 f' tr', file_open h use8 (served handle endless) id (tt, tr) = (Ok f, (tt, tr1))
    /\ upload h use8 (served handle endless) hid n (f, (tt, tr1)) = (Ok true, (f', (tt, tr')))
    /\ announced_size f' = Some 1 /\ zlen (held f') = 255 * Z.of_nat n /\ fo_calls f' = [].
Proof.
  intros H S.
  destruct (file_open_state h use8 handle endless id tt tr (done [2]) tt 2 [] H S eq_refl) as (r & O & f & -> & C & Ef & Ec); try reflexivity.
  { apply done_wf; [constructor; [unfold is_u8; lia|constructor]|cbn; lia]. }
  assert (Es : fo_state f = FLoaded) by (destruct (fo_state f); try discriminate C; reflexivity).
  exists f, (tr ++ [(state_request id, done [2])]). subst id.
  assert (B : begin_upload h use8 (served handle endless) hid (f, (tt, tr ++ [(state_request (fo_id f), done [2])]))
     = (Ok tt, (f_set f (FUpload 1 255 [] 0 hid), (tt, (tr ++ [(state_request (fo_id f), done [2])]) ++ [(initiate_request (fo_id f), done (le 4 1 ++ [255]))])))).
  { rewrite (begin_request h use8 handle endless f hid tt _ (done (le 4 1 ++ [255])) tt); [|assumption|assumption|assumption|reflexivity|].
    - reflexivity.
    - apply done_wf; [|cbn; lia]. apply is_bytes_app. split; [apply le_bytes|constructor; [unfold is_u8; lia|constructor]]. }
  destruct (endless_loop h use8 handle (fo_id f) hid n H S 0%nat (f_set f (FUpload 1 255 [] 0 hid)) ((tr ++ [(state_request (fo_id f), done [2])]) ++ [(initiate_request (fo_id f), done (le 4 1 ++ [255]))]) [] eq_refl eq_refl)
    as (f' & tr' & E & L & A & K).
  exists f', tr'. split; [exact O|]. split; [unfold upload, st_bind; match goal with |- context [begin_upload ?a ?b ?c ?d ?e] => replace (begin_upload a b c d e) with (Ok tt, (f_set f (FUpload 1 255 [] 0 hid), (tt, (tr ++ [(state_request (fo_id f), done [2])]) ++ [(initiate_request (fo_id f), done (le 4 1 ++ [255]))]))) by (symmetry; exact B) end; exact E|]. split; [exact A|]. split; [exact L|]. now rewrite K.
Qed.

Lemma endless_wf : device_wf endless.
Proof.
  assert (F : answer_wf (failed 8)) by (unfold answer_wf; cbn; unfold is_u8, is_words, is_bytes; repeat match goal with |- _ /\ _ => split end; try lia; constructor).
  assert (E : forall q, fst (endless tt q) = failed 8 \/ exists d, fst (endless tt q) = done d /\ is_bytes d /\ zlen d <= 60000).
  { intros [sv ids data]. unfold endless.
    repeat match goal with |- context [match ?x with _ => _ end] => destruct x end; try (left; reflexivity); right; eexists; (split; [reflexivity|]).
    all: try (split; [repeat constructor; unfold is_u8; lia|cbn; lia]).
  }
  intros [] q. destruct (E q) as [->|(d & -> & B & L)]; [exact F|]. now apply done_wf.
Qed.
Lemma endless_refutes : exists dev : device unit, device_wf dev /\ forall h use8 handle hid id tr n, is_u32 handle -> sendable use8 id ->
  exists f tr1 f' tr', file_open h use8 (served handle dev) id (tt, tr) = (Ok f, (tt, tr1))
    /\ upload h use8 (served handle dev) hid n (f, (tt, tr1)) = (Ok true, (f', (tt, tr')))
    /\ announced_size f' = Some 1 /\ zlen (held f') = 255 * Z.of_nat n /\ fo_calls f' = [].
Proof. exists endless. split; [exact endless_wf|]. intros. now apply endless_upload. Qed.
