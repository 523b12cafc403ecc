(** Repeated and mistyped datagrams. *)
From Verif Require Import Base MBuffer SBuffer PBase MEip SEip MSocket MConnReq SConnReq MConn SConn PConnMap PConnOpen PIo PConnCall PConnCall2 PConnTop.

Lemma receive_again h c d c' ev : io_receive h c d = Ok (c', ev) -> io_receive h c' d = Ok (c', ev).
Proof.
  unfold io_receive. intros E. cbv zeta in *.
  apply bind_Ok in E as ([hdr b1] & E1 & E). apply bind_Ok in E as ([seq b2] & E2 & E).
  assert (S : io_t2oRTF c' = io_t2oRTF c /\ io_trigger c' = io_trigger c /\ io_t2oFixed c' = io_t2oFixed c
              /\ io_t2oSize c' = io_t2oSize c /\ io_oid c' = io_oid c /\ (ev <> [] -> io_set_tcount c' 0 = c')).
  { destruct (negb (buf_valid b2)); [discriminate|]. destruct (io_t2oFixed c && _); inv E; cbn; repeat split; congruence. }
  destruct S as (S1 & S2 & S3 & S4 & S5 & S6). rewrite S1, S2, S3, S4, S5, E1. cbn [bind]. rewrite E2. cbn [bind].
  destruct (negb (buf_valid b2)); [discriminate|]. destruct (io_t2oFixed c && _); inv E; reflexivity.
Qed.
Lemma find_update k c c' l : map_find k l = Some c -> map_find k (map_update k c' l) = Some c'.
Proof.
  unfold map_find, map_update. induction l as [|[k1 c1] l IH]; cbn [find map fst]; [discriminate|].
  destruct (k1 =? k) eqn:E; cbn [find fst]; [rewrite Z.eqb_refl; reflexivity|rewrite E; exact IH].
Qed.
Lemma update_twice k c l : map_update k c (map_update k c l) = map_update k c l.
Proof.
  unfold map_update. rewrite map_map. apply map_ext. intros [k1 c1]. cbn [fst]. destruct (k1 =? k) eqn:E; cbn [fst]; [rewrite Z.eqb_refl|rewrite E]; reflexivity.
Qed.
(** The same datagram once more has the same effect once more. *)
Lemma readable_again h l m m' : on_readable h (Dgram l) m = (Ok tt, m') ->
  exists ev, m_log m' = m_log m ++ ev /\ on_readable h (Dgram l) m' = (Ok tt, add_log m' ev).
Proof.
  unfold on_readable. intros E. destruct (fst _) as [data|e|u|]; [|discriminate..].
  match type of E with match ?x with _ => _ end = _ => destruct x as [m1|e|u|] eqn:F; [|discriminate..] end. inv E.
  apply bind_Ok in F as (items & F1 & F). rewrite F1. cbn [bind].
  destruct (nth_error items 0) as [i0|]; [|discriminate]. apply bind_Ok in F as ([id b] & F2 & F). rewrite F2. cbn [bind]. cbv zeta in *.
  assert (Nil : forall m, add_log m [] = m) by (intros []; unfold add_log; cbn; now rewrite app_nil_r).
  destruct (map_find (u16 id) (m_map m)) as [c|] eqn:Fm.
  - destruct (nth_error items 1) as [i1|]; [|discriminate]. apply bind_Ok in F as ([c' ev] & F3 & F). inv F.
    exists ev. split; [reflexivity|]. cbn [add_log set_map m_map]. rewrite (find_update _ _ _ _ Fm), (receive_again _ _ _ _ _ F3). cbn [bind].
    unfold set_map, add_log at 1 3; cbn. now rewrite update_twice.
  - inv F. exists []. rewrite app_nil_r, Fm, Nil. split; reflexivity.
Qed.
(** Only the connection id and the data of the second item matter. *)
Lemma readable_alike h l l' m i0 i1 items j0 j1 items' X rest rest' :
  is_bytes l -> is_bytes l' -> carries l (i0 :: i1 :: items) -> carries l' (j0 :: j1 :: items') -> is_u32 X ->
  it_data i0 = le 4 X ++ rest -> it_data j0 = le 4 X ++ rest' -> it_data i1 = it_data j1 ->
  on_readable h (Dgram l) m = on_readable h (Dgram l') m.
Proof.
  intros B B' C C' V E E' D. rewrite (readable_items h l m i0 (i1 :: items) X rest), (readable_items h l' m j0 (j1 :: items') X rest') by assumption.
  now rewrite D.
Qed.
(** [n] copies of a datagram, one after the other *)
Fixpoint copies (h : heap) (l : bytes) (n : nat) (m : mgr) : outcome unit * mgr :=
  match n with
  | O => (Ok tt, m)
  | S n => let '(o, m') := on_readable h (Dgram l) m in
           match o with Ok _ => copies h l n m' | _ => (o, m') end
  end.
Lemma copies_all h l n m m' ev : on_readable h (Dgram l) m = (Ok tt, m') -> m_log m' = m_log m ++ ev ->
  exists m'', copies h l n m' = (Ok tt, m'') /\ m_log m'' = m_log m' ++ concat (repeat ev n).
Proof.
  revert m m'. induction n as [|n IH]; intros m m' E L; cbn [copies repeat concat].
  - exists m'. rewrite app_nil_r. split; reflexivity.
  - destruct (readable_again h l m m' E) as (ev' & L' & E'). assert (ev' = ev) by (rewrite L in L'; exact (app_inv_head _ _ _ (eq_sym L'))). subst ev'.
    rewrite E'. destruct (IH m' (add_log m' ev) E' eq_refl) as (m'' & F & G). exists m''. split; [exact F|]. rewrite G. cbn [add_log m_log]. now rewrite app_assoc.
Qed.
(** [gram] with other item types *)
Definition untyped (X : Z) (payload : bytes) : bytes :=
  le 2 2 ++ (le 2 0 ++ le 2 4 ++ le 4 X) ++ (le 2 0 ++ le 2 (zlen payload) ++ payload).
Lemma stale_refuted : exists g m m1 m2 m3 m4 c, reachable (list encaps) g m /\ lock 0 m = Some c /\ io_trigger c mod 4 = 1 /\ io_t2oId c = 0x10007
  /\ on_readable strict (Dgram (gram 0x10007 (le 2 5 ++ [8]))) m = (Ok tt, m1)
  /\ on_readable strict (Dgram (gram 0x10007 (le 2 5 ++ [8]))) m1 = (Ok tt, m2)
  /\ on_readable strict (Dgram (gram 0x10007 (le 2 4 ++ [7]))) m2 = (Ok tt, m3)
  /\ on_readable strict (Dgram (untyped 0x10007 (le 2 6 ++ [9]))) m3 = (Ok tt, m4)
  /\ m_log m4 = m_log m ++ [EvData 0 0 5 [8]; EvData 0 0 5 [8]; EvData 0 0 4 [7]; EvData 0 0 6 [9]].
Proof.
  exists (w_g after1), (w_m after1 0%nat). do 5 eexists. split; [exact after1_reach|].
  split; [vm_compute; reflexivity|]. split; [vm_compute; reflexivity|]. split; [reflexivity|].
  do 4 (split; [vm_compute; reflexivity|]). vm_compute. reflexivity.
Qed.
