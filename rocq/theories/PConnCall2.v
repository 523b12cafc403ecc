(** Results of opening and closing, destinations, delivery of datagrams. *)
From Coq Require Import Ascii String.
From Verif Require Import Base MBuffer SBuffer PBase PBuffer PReader PBufferT MEip SEip PEip PRouter
  MSocket SSocket PSocket MConnReq SConnReq PConnReq MConn SConn PConnOpen PConnMap PIo PConnCall.
Ltac Zify.zify_post_hook ::= Z.div_mod_to_equations.
Local Open Scope outcome_scope.

(** ** Opening *)
Lemma multiplier_ok m : 0 <= m < 32 -> fo_multiplier m = Ok ((4 * 2 ^ m) mod 256).
Proof.
  intros M. unfold fo_multiplier. destruct (Z.leb_spec 32 m); [lia|]. unfold u8. rewrite Z.shiftl_mul_pow2 by lia. reflexivity.
Qed.
Lemma multiplier_good m : 0 <= m <= 5 -> fo_multiplier m = Ok (4 * 2 ^ m).
Proof.
  intros M. rewrite multiplier_ok by lia. rewrite Z.mod_small; [reflexivity|].
  assert (m = 0 \/ m = 1 \/ m = 2 \/ m = 3 \/ m = 4 \/ m = 5) as D by lia.
  repeat destruct D as [D|D]; subst; cbn; lia.
Qed.

Lemma insert_lock g m m1 k c oid : mgr_inv g m -> m_map m1 = m_map m -> k = u16 (io_t2oId c) -> io_oid c = g_oid g ->
  map_find k (m_map m) = None ->
  let m' := set_map m1 (map_insert k c (m_map m)) in
  lock oid m' = if Nat.eqb oid (g_oid g) then Some c else lock oid m.
Proof.
  intros I M K O F. cbv zeta.
  assert (I' : mgr_inv (mkGlobals (g_serial g) (g_o2t g) (g_t2o g) (S (g_oid g))) (set_map m1 (map_insert k c (m_map m)))).
  { rewrite <- M. apply inv_insert; try assumption. destruct I as [A B C D]. constructor; rewrite M; assumption. }
  apply find_none in F.
  destruct (Nat.eqb_spec oid (g_oid g)) as [->|N].
  - apply (lock_iff _ _ _ c I'). split; [assumption|]. cbn [set_map m_map]. apply insert_in; [assumption|]. left. now rewrite K.
  - apply (lock_same g _ _ _ _ I I'). intros k1 c1 E1. cbn [set_map m_map]. rewrite insert_in by assumption.
    split; [auto|]. intros [E|E]; [inv E; congruence|assumption].
Qed.
Lemma insert_collides g m m1 k c oid : mgr_inv g m -> m_map m1 = m_map m -> map_find k (m_map m) <> None ->
  lock oid (set_map m1 (map_insert k c (m_map m))) = lock oid m.
Proof.
  intros I M F. assert (In k (keys (m_map m))) as K.
  { destruct (map_find k (m_map m)) as [c'|] eqn:E; [|contradiction]. apply find_in in E. eapply in_keys; eauto. }
  rewrite insert_same by (try assumption; apply (mi_sorted g m I)). unfold lock. cbn [set_map m_map]. reflexivity.
Qed.

Lemma fresh_dead g m : mgr_inv g m -> lock (g_oid g) m = None.
Proof.
  intros I. apply lock_none. intros J. apply in_map_iff in J as ([k c] & E & J). cbn [snd] in E.
  pose proof (mi_fresh g m I k c J). lia.
Qed.

(** Everything about a returned pointer. *)
Lemma open_returns {S} h use8 (si : session_if S) host env large c g m (s : S) oid g' m' s' :
  mgr_inv g m ->
  forward_open h use8 si host env large c (g, m, s) = (Ok (Some oid), (g', m', s')) ->
  lock oid m = None /\ m_log m' = m_log m /\ exists resp r mult dest data s1,
    send_request h si use8 (fo_service large) CM_PATH data [] s = (Ok resp, s1) /\ s' = s1
    /\ r_status resp = 0 /\ fo_expand h (r_data resp) = Ok r
    /\ fo_multiplier (c_multiplier c) = Ok mult /\ fo_dest h (v_aton env) host (r_items resp) = Ok dest
    /\ let io := fo_connection large c r mult oid (v_now env) dest in
       ((forall k c', In (k, c') (m_map m) -> u16 (io_t2oId c') <> u16 (f_t2oId r)) ->
          forall o, lock o m' = if Nat.eqb o oid then Some io else lock o m)
       /\ ((exists k c', In (k, c') (m_map m) /\ u16 (io_t2oId c') = u16 (f_t2oId r)) ->
          forall o, lock o m' = lock o m).
Proof.
  intros I E. destruct (Z.eq_dec (g_serial g) 2147483647) as [G|G].
  { unfold forward_open in E. rewrite (prepare_overflow large (m_inc m) c g G) in E. discriminate. }
  destruct (open_request h use8 si host env large c g m s G) as (g1 & c' & O & F). rewrite F in E. clear F.
  assert (I1 : mgr_inv g1 m) by (apply (inv_later g); [assumption|lia]).
  destruct (send_request _ _ _ _ _ _ _ _) as [[resp|?|?|] s1] eqn:Q; [|discriminate..].
  destruct (fo_answer _ _ _ _ _ _ _) as [o1 [g2 m2]] eqn:A. inv E.
  apply answer_some in A as (r & mult & dest & m1 & S0 & X & Mu & De & -> & -> & M & L & In1 & ->).
  split; [now apply fresh_dead|]. split; [exact L|].
  exists resp, r, mult, dest, (fo_bytes (fo_width large) c'), s'.
  repeat (split; [assumption||reflexivity|]). cbv zeta. split.
  - intros H o. apply insert_lock; try assumption; try reflexivity. apply find_none. intros J.
    apply in_map_iff in J as ([k cc] & Ek & J). cbn [fst] in Ek. subst k.
    apply (H _ _ J). symmetry. exact (mi_key g1 m I1 _ _ J).
  - intros (k & cc & J & Ek) o. apply (insert_collides g1); try assumption.
    rewrite find_none. intros Nn. apply Nn. pose proof (mi_key g1 m I1 _ _ J). rewrite <- Ek, <- H. eapply in_keys; eauto.
Qed.

(** An accepting target: the open returns a pointer. *)
Lemma open_accepted {S} h use8 (si : session_if S) host env large c g m (s : S) resp r rsv rest dest :
  g_serial g <> 2147483647 ->
  (forall data, exists s', send_request h si use8 (fo_service large) CM_PATH data [] s = (Ok resp, s')) ->
  r_status resp = 0 -> fo_response_wf r -> r_data resp = fo_reply_bytes r rsv rest ->
  0 <= c_multiplier c < 32 -> fo_dest h (v_aton env) host (r_items resp) = Ok dest -> v_udp env = None -> v_bind env = None ->
  fst (forward_open h use8 si host env large c (g, m, s)) = Ok (Some (g_oid g)).
Proof.
  intros G Q S0 W D M De U B.
  destruct (open_request h use8 si host env large c g m s G) as (g1 & c' & O & F). rewrite F. clear F.
  destruct (Q (fo_bytes (fo_width large) c')) as [s' ->].
  unfold fo_answer. rewrite S0, D, fo_expand_good by assumption. cbn [Z.eqb negb bind].
  rewrite multiplier_ok by assumption. cbn [bind]. rewrite De. cbn [bind]. rewrite U. cbn [checked bind]. cbv zeta.
  rewrite B. unfold find_or_create_socket. rewrite O. destruct (existsb _ _); reflexivity.
Qed.

Lemma open_fails {S} h use8 (si : session_if S) host env large c g m (s : S) o g' m' s' :
  forward_open h use8 si host env large c (g, m, s) = (o, (g', m', s')) -> (forall oid, o <> Ok (Some oid)) ->
  m_map m' = m_map m /\ m_log m' = m_log m.
Proof.
  intros E N. destruct (Z.eq_dec (g_serial g) 2147483647) as [G|G].
  { unfold forward_open in E. rewrite (prepare_overflow large (m_inc m) c g G) in E. inv E. auto. }
  destruct (open_request h use8 si host env large c g m s G) as (g1 & c' & O & F). rewrite F in E. clear F.
  destruct (send_request _ _ _ _ _ _ _ _) as [[resp|?|?|] s1] eqn:Q; [|inv E; auto..].
  destruct (fo_answer _ _ _ _ _ _ _) as [o1 [g2 m2]] eqn:A. inv E. eapply answer_none; eauto.
Qed.
(** the three ways of failing named in the property *)
Lemma open_refused {S} h use8 (si : session_if S) host env large c g m (s : S) :
  g_serial g <> 2147483647 ->
  (forall data, exists o s', send_request h si use8 (fo_service large) CM_PATH data [] s = (o, s')
     /\ match o with
        | Ok resp => r_status resp <> 0
                     \/ (exists e, v_bind env = Some e) /\ existsb (same_key (ep_of_host (v_aton env) host EIP_DEFAULT_IMPLICIT_PORT)) (m_socks m) = false
        | _ => True
        end) ->
  forall oid, fst (forward_open h use8 si host env large c (g, m, s)) <> Ok (Some oid).
Proof.
  intros G Q oid.
  destruct (open_request h use8 si host env large c g m s G) as (g1 & c' & O & F). rewrite F. clear F.
  destruct (Q (fo_bytes (fo_width large) c')) as (o & s' & -> & H). destruct o as [resp|?|?|]; cbn [fst]; try discriminate.
  destruct (fo_answer h env host large c resp (g1, m)) as [o1 [g2 m2]] eqn:A. cbn [fst]. intros ->.
  destruct H as [H|[[e B] X]].
  - apply answer_some in A as (r & mult & dest & m1 & S0 & _). contradiction.
  - unfold fo_answer in A. destruct (negb _); [discriminate|]. destruct (bind _ _) as [[r io]|?|?|]; [|discriminate..].
    cbv zeta in A. unfold find_or_create_socket in A. rewrite X, B in A. discriminate.
Qed.

(** ** Destination *)
Definition zero_octet (a : Z) : bool :=
  match to_string a with String c r => Bool.eqb (Ascii.eqb c "0") (a =? 0) | EmptyString => false end.
Lemma octets_checked : forallb zero_octet (map Z.of_nat (seq 0 256)) = true.
Proof. vm_compute. reflexivity. Qed.
Lemma octet_zero a r s : is_u8 a -> (to_string a ++ r)%string = String "0" s -> a = 0.
Proof.
  intros A E. assert (Z0 : zero_octet a = true).
  { apply (proj1 (forallb_forall _ _) octets_checked). apply in_map_iff. exists (Z.to_nat a).
    unfold is_u8 in A. split; [lia|]. apply in_seq. lia. }
  unfold zero_octet in Z0. destruct (to_string a) as [|c t]; [discriminate|]. cbn [append] in E. inv E.
  change (Ascii.eqb "0" "0") with true in Z0. destruct (Z.eqb_spec a 0); [assumption|discriminate].
Qed.
Lemma append_nil s : (s ++ "")%string = s.
Proof. induction s as [|c s IH]; cbn [append]; [reflexivity|now rewrite IH]. Qed.
Lemma dotted_zero a b c d : is_u8 a -> is_u8 b -> is_u8 c -> is_u8 d ->
  (dotted a b c d = "0.0.0.0"%string <-> a = 0 /\ b = 0 /\ c = 0 /\ d = 0).
Proof.
  intros A B C D. split; [|intros (-> & -> & -> & ->); reflexivity].
  unfold dotted. intros E.
  pose proof (octet_zero _ _ _ A E). subst a. change (to_string 0) with "0"%string in E. cbn [append] in E. injection E as E.
  pose proof (octet_zero _ _ _ B E). subst b. change (to_string 0) with "0"%string in E. cbn [append] in E. injection E as E.
  pose proof (octet_zero _ _ _ C E). subst c. change (to_string 0) with "0"%string in E. cbn [append] in E. injection E as E.
  rewrite <- (append_nil (to_string d)) in E. pose proof (octet_zero _ _ _ D E). auto.
Qed.

Lemma find_first (items pre post : list cpitem) i ty : items = pre ++ i :: post -> it_type i = ty ->
  Forall (fun x => it_type x <> ty) pre -> find (fun i => it_type i =? ty) items = Some i.
Proof.
  intros -> T F. induction F as [|x pre X _ IH]; cbn [app find].
  - now rewrite T, Z.eqb_refl.
  - destruct (Z.eqb_spec (it_type x) ty); [contradiction|assumption].
Qed.
Lemma find_never (items : list cpitem) ty : Forall (fun x => it_type x <> ty) items ->
  find (fun i => it_type i =? ty) items = None.
Proof.
  induction 1 as [|x l X _ IH]; cbn [find]; [reflexivity|]. destruct (Z.eqb_spec (it_type x) ty); [contradiction|assumption].
Qed.

Lemma dest_item h aton host pre i post f a b c d p pad rest :
  it_type i = 32768 -> Forall (fun x => it_type x <> 32768) pre ->
  is_u16 f -> is_u16 p -> is_u8 a -> is_u8 b -> is_u8 c -> is_u8 d -> List.length pad = 8%nat ->
  it_data i = be16 f ++ be16 p ++ [a; b; c; d] ++ pad ++ rest ->
  fo_dest h aton host (pre ++ i :: post)
  = Ok (if (a =? 0) && (b =? 0) && (c =? 0) && (d =? 0) then ep_of_host aton host p else the_endpoint f a b c d p).
Proof.
  intros T F W1 W2 A B C D P E. unfold fo_dest.
  rewrite (find_first _ pre post i O2T_SOCKADDR_INFO eq_refl T F). rewrite E, buf_of_at.
  rewrite get_endpoint_ignores_pad by assumption. cbn [bind]. f_equal. cbn [the_endpoint ep_host ep_port].
  destruct (String.eqb_spec (dotted a b c d) "0.0.0.0") as [Z0|Z0].
  - apply dotted_zero in Z0 as (-> & -> & -> & ->); [reflexivity|assumption..].
  - destruct ((a =? 0) && (b =? 0) && (c =? 0) && (d =? 0)) eqn:Q; [|reflexivity]. exfalso. apply Z0.
    apply dotted_zero; [assumption..|]. lia.
Qed.
Lemma dest_default h aton host items : Forall (fun x => it_type x <> 32768) items ->
  fo_dest h aton host items = Ok (ep_of_host aton host 2222).
Proof. intros F. unfold fo_dest. rewrite (find_never _ O2T_SOCKADDR_INFO F). reflexivity. Qed.
Lemma dest_short aton host pre i post : it_type i = 32768 -> Forall (fun x => it_type x <> 32768) pre ->
  (List.length (it_data i) < 16)%nat -> fo_dest strict aton host (pre ++ i :: post) = Undef UbOobRead.
Proof.
  intros T F L. unfold fo_dest. rewrite (find_first _ pre post i O2T_SOCKADDR_INFO eq_refl T F).
  rewrite (strict_short get_endpoint 16 _ reader_endpoint moves_endpoint); cbn [buf_of bdata bpos]; [reflexivity|lia|lia].
Qed.

(** ** Closing *)
Lemma erase_lock g m oid c o : mgr_inv g m -> lock oid m = Some c ->
  lock o (set_map m (map_erase (u16 (io_t2oId c)) (m_map m))) = if Nat.eqb o oid then None else lock o m.
Proof.
  intros I L. pose proof (inv_erase g m (u16 (io_t2oId c)) I) as I'.
  apply (lock_iff g) in L as [E J]; [|assumption]. subst oid.
  destruct (Nat.eqb_spec o (io_oid c)) as [->|N].
  - apply lock_none. intros K. apply in_map_iff in K as ([k' c'] & Eo & K). cbn [snd] in Eo.
    cbn [set_map m_map] in K. apply erase_in in K as [K Nk]. cbn [fst] in Nk. apply Nk.
    pose proof (lock_some g m _ _ I K) as L1. pose proof (lock_some g m _ _ I J) as L2. rewrite Eo in L1.
    assert (c' = c) by congruence. subst c'. exact (mi_key g m I _ _ K).
  - apply (lock_same g g _ _ _ I I'). intros k' c' Eo. cbn [set_map m_map]. rewrite erase_in. cbn [fst].
    split; [|tauto]. intros K. split; [assumption|]. intros ->. apply N. rewrite <- Eo. f_equal.
    pose proof (sorted_nodup _ (mi_sorted g m I)) as Nd.
    apply (find_iff _ _ _ Nd) in K. apply (find_iff _ _ _ Nd) in J. congruence.
Qed.

Lemma close_ok {S} h use8 (si : session_if S) g m (s : S) oid c resp s' : mgr_inv g m -> lock oid m = Some c ->
  send_request h si use8 78 CM_PATH (fc_pack (u16 (io_serial c)) (io_vendor c) (io_orig c) (io_path c)) [] s = (Ok resp, s') ->
  exists m', forward_close h use8 si (lock oid m) (m, s) = (Ok tt, (m', s'))
    /\ m_log m' = m_log m /\ forall o, lock o m' = if Nat.eqb o oid then None else lock o m.
Proof.
  intros I L Q. rewrite L. unfold forward_close. rewrite Q. cbv zeta.
  pose proof L as L0. apply (lock_iff g) in L0 as [E J]; [|assumption].
  assert (F : map_find (u16 (io_t2oId c)) (m_map m) = Some c).
  { apply find_iff; [|assumption]. apply sorted_nodup. exact (mi_sorted g m I). }
  rewrite F. eexists. split; [reflexivity|]. split; [reflexivity|]. intros o. now apply (erase_lock g).
Qed.
Lemma close_fails {S} h use8 (si : session_if S) m (s : S) oid c o s' : lock oid m = Some c ->
  send_request h si use8 78 CM_PATH (fc_pack (u16 (io_serial c)) (io_vendor c) (io_orig c) (io_path c)) [] s = (o, s') ->
  (forall resp, o <> Ok resp) ->
  snd (forward_close h use8 si (lock oid m) (m, s)) = (m, s')
  /\ fst (forward_close h use8 si (lock oid m) (m, s)) <> Ok tt.
Proof.
  intros L Q N. rewrite L. unfold forward_close. rewrite Q.
  destruct o; [exfalso; eapply N; eauto|..]; split; (reflexivity || discriminate).
Qed.
Lemma close_fails_same {S} h use8 (si : session_if S) m (s : S) oid c o s' : lock oid m = Some c ->
  send_request h si use8 78 CM_PATH (fc_pack (u16 (io_serial c)) (io_vendor c) (io_orig c) (io_path c)) [] s = (o, s') ->
  (forall resp, o <> Ok resp) ->
  forward_close h use8 si (lock oid m) (m, s) = (omap (fun _ => tt) o, (m, s')).
Proof.
  intros L Q N. rewrite L. unfold forward_close. rewrite Q. destruct o; [exfalso; eapply N; eauto|reflexivity..].
Qed.
Lemma close_dead {S} h use8 (si : session_if S) m (s : S) oid : lock oid m = None ->
  forward_close h use8 si (lock oid m) (m, s) = (Ok tt, (m, s)).
Proof. intros ->. reflexivity. Qed.

(** What goes to the target. *)
Lemma close_sends h use8 handle answer g m log oid c : mgr_inv g m -> lock oid m = Some c -> is_u32 handle ->
  is_u16 (io_serial c) -> is_u16 (io_vendor c) -> is_u32 (io_orig c) -> is_bytes (io_path c) -> zlen (io_path c) <= 60000 ->
  exists p, snd (snd (forward_close h use8 (recording handle answer) (lock oid m) (m, log))) = log ++ [p]
    /\ parse_rr (encaps_pack p) = Some (mkRR handle 0 [(0, []); (178, request_pack use8 78 CM_PATH
         (fc_bytes (io_serial c) (io_vendor c) (io_orig c) ((zlen (io_path c) / 2) mod 256) (io_path c)))])
    /\ parse_request (request_pack use8 78 CM_PATH
         (fc_bytes (io_serial c) (io_vendor c) (io_orig c) ((zlen (io_path c) / 2) mod 256) (io_path c)))
       = Some (78, path_bytes (segments use8 (Ids2 6 1)),
           fc_bytes (io_serial c) (io_vendor c) (io_orig c) ((zlen (io_path c) / 2) mod 256) (io_path c)).
Proof.
  intros I L H W1 W2 W3 W4 W5. rewrite L. unfold forward_close.
  rewrite send_recorded, fc_pack_bytes. rewrite (u16_small (io_serial c)) by assumption.
  set (d := fc_bytes _ _ _ _ _). eexists. split.
  - destruct (bind _ _); reflexivity.
  - assert (Bd : is_bytes d /\ zlen d <= 65000).
    { unfold d, fc_bytes. split.
      - rewrite !is_bytes_app, !is_bytes_cons. assert (is_u8 0) by (unfold is_u8; lia).
        repeat match goal with |- _ /\ _ => split end; try apply le_bytes; try apply is_bytes_nil; try assumption. unfold is_u8. lia.
      - rewrite !zlen_app. unfold zlen in *. rewrite !le_length. cbn [List.length]. lia. }
    destruct Bd as [Bd Ld].
    apply cm_packet; try assumption. unfold is_u8. lia.
Qed.

(** ** Datagrams *)
Lemma seen_udp l r : fst (udp_receive (Z.to_nat 8192) (Dgram l :: r)) = Ok (seen l).
Proof. reflexivity. Qed.
Lemma zeros_bytes n : is_bytes (zeros n).
Proof. unfold zeros. apply Forall_forall. intros x I. apply repeat_spec in I. subst. unfold is_u8. lia. Qed.
Lemma seen_bytes l : is_bytes l -> is_bytes (seen l).
Proof.
  intros B. unfold seen. apply is_bytes_app. split; [|apply zeros_bytes].
  pose proof (firstn_skipn (Z.to_nat 8192) l) as E. rewrite <- E in B. apply is_bytes_app in B. exact (proj1 B).
Qed.
Lemma seen_length l : List.length (seen l) = Z.to_nat 8192.
Proof. unfold seen, zeros. rewrite app_length, firstn_length, repeat_length. lia. Qed.

Lemma carries_iff h l items : is_bytes l -> (carries l items <-> cp_expand h (seen l) = (items, Ok tt)).
Proof.
  intros B. unfold carries. symmetry. apply cp_accept; [now apply seen_bytes|]. rewrite seen_length. lia.
Qed.
Lemma carries_fun l a b : is_bytes l -> carries l a -> carries l b -> a = b.
Proof. intros B Ha Hb. apply (carries_iff strict l a B) in Ha. apply (carries_iff strict l b B) in Hb. congruence. Qed.

Lemma front_len c : Z.of_nat (head_len c) = front c.
Proof. unfold head_len, front. rewrite has_seq_mod. destruct (io_t2oRTF c), (io_trigger c mod 4 =? 0); reflexivity. Qed.

(** A datagram whose first item names a connection. *)
Lemma readable_items h l m i0 items X rest : is_bytes l -> carries l (i0 :: items) -> is_u32 X ->
  it_data i0 = le 4 X ++ rest ->
  on_readable h (Dgram l) m
  = match map_find (u16 X) (m_map m) with
    | None => (Ok tt, m)
    | Some c =>
      match items with
      | [] => (Throw OutOfRange, m)
      | i1 :: _ =>
        match io_receive h c (it_data i1) with
        | Ok (c', ev) => (Ok tt, add_log (set_map m (map_update (u16 X) c' (m_map m))) ev)
        | Throw e => (Throw e, m)
        | Undef u => (Undef u, m)
        | Abort => (Abort, m)
        end
      end
    end.
Proof.
  intros B C V E. apply (carries_iff h) in C; [|assumption]. unfold on_readable.
  rewrite seen_udp, C. cbn [finished bind nth_error].
  rewrite E, buf_of_at, get_u32_le, u32_small by assumption. cbn [bind]. cbv zeta.
  destruct (map_find _ _) as [c|]; [|reflexivity]. destruct items as [|i1 items]; [reflexivity|]. cbn [nth_error].
  destruct (io_receive h c (it_data i1)) as [[c' ev]|?|?|]; reflexivity.
Qed.

Lemma update_lock g m k c c' o : mgr_inv g m -> map_find k (m_map m) = Some c -> io_static c' = io_static c ->
  forall ev, lock o (add_log (set_map m (map_update k c' (m_map m))) ev) = if Nat.eqb o (io_oid c) then Some c' else lock o m.
Proof.
  intros I F St ev. pose proof (static_oid _ _ St) as O. pose proof (static_t2o _ _ St) as T.
  pose proof (inv_update g m k c c' I F O T) as I'. pose proof (find_in _ _ _ F) as J.
  change (lock o (add_log _ ev)) with (lock o (set_map m (map_update k c' (m_map m)))).
  destruct (Nat.eqb_spec o (io_oid c)) as [->|N].
  - apply (lock_iff g _ _ _ I'). split; [assumption|]. cbn [set_map m_map]. apply update_in. right.
    rewrite T, <- (mi_key g m I _ _ J). split; [reflexivity|]. eapply in_keys; eauto.
  - apply (lock_same g g _ _ _ I I'). intros k1 c1 Eo. cbn [set_map m_map]. rewrite update_in. cbn [fst]. split.
    + intros K. left. split; [assumption|]. intros ->. apply N. rewrite <- Eo. f_equal.
      apply (find_iff _ _ _ (sorted_nodup _ (mi_sorted g m I))) in K. congruence.
    + intros [[K _]|[K _]]; [assumption|]. inv K. congruence.
Qed.

(** Delivery, by the low 16 bits of the id. *)
Lemma delivery g h l m i0 i1 items X rest : mgr_inv g m -> is_bytes l -> carries l (i0 :: i1 :: items) -> is_u32 X ->
  it_data i0 = le 4 X ++ rest ->
  (forall o c, lock o m = Some c -> u16 (io_t2oId c) <> u16 X) /\ on_readable h (Dgram l) m = (Ok tt, m)
  \/ exists c, u16 (io_t2oId c) = u16 X /\ lock (io_oid c) m = Some c
     /\ (forall o c', lock o m = Some c' -> u16 (io_t2oId c') = u16 X -> c' = c)
     /\ match io_receive h c (it_data i1) with
        | Ok (c', ev) => exists m', on_readable h (Dgram l) m = (Ok tt, m') /\ m_log m' = m_log m ++ ev
            /\ forall o, lock o m' = if Nat.eqb o (io_oid c) then Some c' else lock o m
        | Throw e => on_readable h (Dgram l) m = (Throw e, m)
        | Undef u => on_readable h (Dgram l) m = (Undef u, m)
        | Abort => on_readable h (Dgram l) m = (Abort, m)
        end.
Proof.
  intros I B C V E. rewrite (readable_items h l m i0 (i1 :: items) X rest B C V E).
  pose proof (sorted_nodup _ (mi_sorted g m I)) as Nd.
  destruct (map_find (u16 X) (m_map m)) as [c|] eqn:F.
  - right. pose proof (find_in _ _ _ F) as J. exists c. split; [symmetry; exact (mi_key g m I _ _ J)|].
    split; [exact (lock_some g m _ _ I J)|]. split.
    + intros o c' L K. apply (lock_iff g) in L as [_ L]; [|assumption]. rewrite K in L.
      apply (find_iff _ _ _ Nd) in L. congruence.
    + destruct (io_receive h c (it_data i1)) as [[c' ev]|?|?|] eqn:R; try reflexivity.
      eexists. split; [reflexivity|]. split; [reflexivity|]. intros o.
      apply (update_lock g); try assumption. eapply receive_static; eauto.
  - left. split; [|reflexivity]. intros o c L K. apply (lock_iff g) in L as [_ L]; [|assumption]. rewrite K in L.
    apply (find_iff _ _ _ Nd) in L. congruence.
Qed.

(** Exactly the datagrams that are handled without an exception or a read
    outside the buffers. *)
Definition harmless (l : bytes) (m : mgr) : Prop :=
  exists i0 items X rest, carries l (i0 :: items) /\ is_u32 X /\ it_data i0 = le 4 X ++ rest
    /\ forall o c, lock o m = Some c -> u16 (io_t2oId c) = u16 X ->
         exists i1 items', items = i1 :: items' /\ front c <= zlen (it_data i1).
Lemma readable_ok_iff g l m : mgr_inv g m -> is_bytes l ->
  (fst (on_readable strict (Dgram l) m) = Ok tt <-> harmless l m).
Proof.
  intros I B. pose proof (sorted_nodup _ (mi_sorted g m I)) as Nd. split.
  - intros E. unfold on_readable in E. rewrite seen_udp in E.
    destruct (cp_expand strict (seen l)) as [items o] eqn:C. destruct o as [[]|?|?|]; cbn [finished bind fst] in E; try discriminate.
    apply (carries_iff strict) in C; [|assumption].
    destruct items as [|i0 items]; cbn [nth_error fst] in E; [discriminate|].
    assert (W0 : item_wf i0). { destruct C as (? & ? & _ & W & _). now inversion W. }
    destruct W0 as (_ & _ & _ & B0).
    destruct (le_lt_dec 4 (List.length (it_data i0))) as [L|L].
    2:{ rewrite (strict_short get_u32 4 _ reader_u32 moves_u32) in E; cbn [buf_of bdata bpos] in *; [discriminate|lia|lia]. }
    destruct (take_le_front 4 _ B0 L) as (X & rest & E0 & V & _ & _). change (256 ^ Z.of_nat 4) with (2 ^ 32) in V.
    exists i0, items, X, rest. split; [assumption|]. split; [exact V|]. split; [assumption|].
    intros o c Lk K. apply (lock_iff g) in Lk as [_ Lk]; [|assumption]. rewrite K in Lk. apply (find_iff _ _ _ Nd) in Lk.
    rewrite E0, buf_of_at, get_u32_le, u32_small in E by exact V. cbn [bind] in E. cbv zeta in E. rewrite Lk in E.
    destruct items as [|i1 items]; cbn [nth_error fst] in E; [discriminate|].
    exists i1, items. split; [reflexivity|].
    destruct (le_lt_dec (head_len c) (List.length (it_data i1))) as [L1|L1].
    + rewrite <- front_len. unfold zlen. lia.
    + destruct (receive_short strict c (it_data i1) L1) as [u R]. rewrite R in E. discriminate.
  - intros (i0 & items & X & rest & C & V & E & H).
    rewrite (readable_items strict l m i0 items X rest B C V E).
    destruct (map_find (u16 X) (m_map m)) as [c|] eqn:F; [|reflexivity].
    pose proof (find_in _ _ _ F) as J. pose proof (mi_key g m I _ _ J) as K.
    destruct (H _ _ (lock_some g m _ _ I J) (eq_sym K)) as (i1 & items' & -> & L).
    assert (B1 : is_bytes (it_data i1)).
    { destruct C as (? & ? & _ & W & _). inversion W as [|? ? _ W']; subst. inversion W' as [|? ? W1 _]; subst. now destruct W1 as (_ & _ & _ & ?). }
    pose proof (receive_total strict c (it_data i1) B1) as R. rewrite <- front_len in L. unfold zlen in L.
    destruct (Nat.ltb_spec (List.length (it_data i1)) (head_len c)); [lia|].
    destruct (_ && _).
    + rewrite R. reflexivity.
    + destruct R as (hdr & seq & ->). reflexivity.
Qed.
