(** Memory behaviour of the decoders: a decoder never throws, never changes
    the data, never moves the cursor back; if the cursor ends inside the data
    the result does not depend on the memory after the buffer, and without
    such memory the cursor cannot leave the data. *)
From Verif Require Import Base MBuffer SBuffer PBase PBuffer.
Ltac Zify.zify_post_hook ::= Z.div_mod_to_equations.
Local Open Scope outcome_scope.

Definition reader A := heap -> buffer -> outcome (A * buffer).

Record reader_ok {A} (m : reader A) : Prop := {
  ro_result : forall h b, (exists a b', m h b = Ok (a, b')) \/ m h b = Undef UbOobRead;
  ro_data : forall h b a b', m h b = Ok (a, b') -> bdata b' = bdata b /\ (bpos b <= bpos b')%nat;
  ro_indep : forall h b a b', m h b = Ok (a, b') -> (bpos b' <= List.length (bdata b))%nat ->
             forall h', m h' b = Ok (a, b');
  ro_strict : forall b a b', m strict b = Ok (a, b') ->
              (bpos b <= List.length (bdata b))%nat -> (bpos b' <= List.length (bdata b))%nat
}.

Lemma reader_fetch : reader_ok fetch.
Proof.
  constructor; unfold fetch; intros.
  - destruct (nth_error (bdata b) (bpos b)); [eauto|].
    destruct (h (bdata b) (bpos b)); eauto.
  - destruct (nth_error (bdata b) (bpos b)); [inv H; cbn [bdata bpos]; auto|].
    destruct (h (bdata b) (bpos b)); inv H; cbn [bdata bpos]; auto.
  - destruct (nth_error (bdata b) (bpos b)) eqn:E.
    + assumption.
    + destruct (h (bdata b) (bpos b)); inv H. cbn [bpos] in H0.
      apply nth_error_None in E. lia.
  - destruct (nth_error (bdata b) (bpos b)) eqn:E; [|discriminate].
    inv H. cbn [bpos]. assert (Hx : nth_error (bdata b) (bpos b) <> None) by congruence.
    apply nth_error_Some in Hx. lia.
Qed.

Lemma reader_ret {A} (a : A) : reader_ok (fun _ b => Ok (a, b)).
Proof.
  constructor; intros; try (inv H); eauto.
Qed.

Lemma reader_bind {A B} (m : reader A) (k : A -> reader B) :
  reader_ok m -> (forall a, reader_ok (k a)) ->
  reader_ok (fun h b => bind (m h b) (fun p => k (fst p) h (snd p))).
Proof.
  intros Hm Hk. constructor.
  - intros h b. destruct (ro_result m Hm h b) as [(a & b' & E)|E]; rewrite E; cbn [bind fst snd].
    + apply (ro_result _ (Hk a)).
    + now right.
  - intros h b a b' E. apply bind_Ok in E as ((x & b1) & E1 & E2). cbn [fst snd] in E2.
    apply (ro_data m Hm) in E1 as [D1 P1]. apply (ro_data _ (Hk x)) in E2 as [D2 P2].
    split; [congruence|lia].
  - intros h b a b' E L h'. apply bind_Ok in E as ((x & b1) & E1 & E2). cbn [fst snd] in E2.
    destruct (ro_data m Hm _ _ _ _ E1) as [D1 P1].
    destruct (ro_data _ (Hk x) _ _ _ _ E2) as [D2 P2].
    rewrite (ro_indep m Hm _ _ _ _ E1) by lia. cbn [bind fst snd].
    apply (ro_indep _ (Hk x) _ _ _ _ E2). rewrite D1. lia.
  - intros b a b' E L. apply bind_Ok in E as ((x & b1) & E1 & E2). cbn [fst snd] in E2.
    destruct (ro_data m Hm _ _ _ _ E1) as [D1 P1].
    pose proof (ro_strict m Hm _ _ _ E1 L) as L1.
    rewrite <- D1 in L1 |- *. exact (ro_strict _ (Hk x) _ _ _ E2 L1).
Qed.

Lemma reader_ext {A} (m m' : reader A) :
  (forall h b, m h b = m' h b) -> reader_ok m -> reader_ok m'.
Proof.
  intros E [R1 R2 R3 R4]. constructor.
  - intros h b. rewrite <- E. apply R1.
  - intros h b a b' H. rewrite <- E in H. eauto.
  - intros h b a b' H L h'. rewrite <- E in *. eauto.
  - intros b a b' H L. rewrite <- E in *. eauto.
Qed.

Lemma reader_bind' {A B} (m : reader A) (k : A -> reader B) :
  reader_ok m -> (forall a, reader_ok (k a)) ->
  reader_ok (fun h b => bind (m h b) (fun '(a, b1) => k a h b1)).
Proof.
  intros Hm Hk. eapply reader_ext; [|apply (reader_bind m k Hm Hk)].
  intros h b; cbn beta. destruct (m h b) as [[? ?]| | |]; reflexivity.
Qed.

Lemma reader_omap {A B} (m : reader A) (f : A -> B) :
  reader_ok m -> reader_ok (fun h b => omap (fun p => (f (fst p), snd p)) (m h b)).
Proof.
  intros Hm. eapply reader_ext; [|apply (reader_bind' m (fun a _ b => Ok (f a, b)) Hm)].
  - intros h b; cbn beta. unfold omap. destruct (m h b) as [[? ?]| | |]; reflexivity.
  - intros a; apply (reader_ret (f a)).
Qed.

Ltac reader :=
  repeat first
    [ apply reader_fetch
    | assumption
    | match goal with |- reader_ok (fun h b => bind (?m h b) (fun '(a, b1) => @?k h a b1)) =>
        apply (reader_bind' m (fun a h b1 => k h a b1)); [|intros ?] end
    | match goal with |- reader_ok (fun _ b => Ok (?a, b)) => apply (reader_ret a) end ].

Lemma reader_u8 : reader_ok get_u8.
Proof. exact reader_fetch. Qed.
Lemma reader_s8 : reader_ok get_s8.
Proof. unfold get_s8. reader. Qed.
Lemma reader_u16 : reader_ok get_u16.
Proof. unfold get_u16. reader. Qed.
Lemma reader_s16 : reader_ok get_s16.
Proof. pose proof reader_u16. unfold get_s16. reader. Qed.
Lemma reader_u32 : reader_ok get_u32.
Proof. unfold get_u32. reader. Qed.
Lemma reader_s32 : reader_ok get_s32.
Proof. pose proof reader_u32. unfold get_s32. reader. Qed.
Lemma reader_u64 : reader_ok get_u64.
Proof. unfold get_u64. reader. Qed.
Lemma reader_s64 : reader_ok get_s64.
Proof. pose proof reader_u64. unfold get_s64. reader. Qed.

Lemma reader_bytes n : reader_ok (fun h => get_bytes h n).
Proof.
  induction n as [|n IH]; cbn [get_bytes].
  - apply (reader_ret []).
  - apply (reader_bind' fetch); [apply reader_fetch|intros x].
    apply (reader_bind' (fun h => get_bytes h n)); [exact IH|intros xs].
    apply (reader_ret (x :: xs)).
Qed.
Lemma reader_words n : reader_ok (fun h => get_words h n).
Proof.
  induction n as [|n IH]; cbn [get_words].
  - apply (reader_ret []).
  - apply (reader_bind' fetch); [apply reader_fetch|intros x0].
    apply (reader_bind' fetch); [apply reader_fetch|intros x1].
    apply (reader_bind' (fun h => get_words h n)); [exact IH|intros xs].
    apply (reader_ret (_ :: xs)).
Qed.
Lemma reader_short : reader_ok get_short_string.
Proof.
  unfold get_short_string.
  apply (reader_bind' get_u8); [apply reader_u8|intros len].
  apply (reader_bind' (fun h => get_bytes h (Z.to_nat len))); [apply reader_bytes|intros d].
  apply (reader_ret (short_string d)).
Qed.
Lemma reader_string : reader_ok get_cip_string.
Proof.
  unfold get_cip_string.
  apply (reader_bind' get_u16); [apply reader_u16|intros len].
  apply (reader_bind' (fun h => get_bytes h (Z.to_nat len))); [apply reader_bytes|intros d].
  apply (reader_ret (cip_string d)).
Qed.
Lemma reader_rev : reader_ok get_rev.
Proof. pose proof reader_u8. unfold get_rev. reader. Qed.
Lemma reader_endpoint : reader_ok get_endpoint.
Proof.
  unfold get_endpoint.
  apply (reader_bind' get_s16); [apply reader_s16|intros f].
  apply (reader_bind' get_u16); [apply reader_u16|intros p].
  apply (reader_bind' get_u32); [apply reader_u32|intros a].
  apply (reader_bind' (fun h => get_bytes h 8)); [apply reader_bytes|intros z].
  apply (reader_ret (ep_of_addr (mkAddr (htons (u16 f)) p a))).
Qed.

Lemma reader_read t : reader_ok (fun h => read h t).
Proof.
  unfold read. destruct t;
  [ apply (reader_omap get_u8 ShInt), reader_u8
  | apply (reader_omap get_s8 ShInt), reader_s8
  | apply (reader_omap get_u16 ShInt), reader_u16
  | apply (reader_omap get_s16 ShInt), reader_s16
  | apply (reader_omap get_u32 ShInt), reader_u32
  | apply (reader_omap get_s32 ShInt), reader_s32
  | apply (reader_omap get_u64 ShInt), reader_u64
  | apply (reader_omap get_s64 ShInt), reader_s64
  | apply (reader_omap get_u32 ShInt), reader_u32
  | apply (reader_omap get_u64 ShInt), reader_u64
  | apply (reader_omap (fun h => get_bytes h n) ShBytes), reader_bytes
  | apply (reader_omap (fun h => get_words h n) ShWords), reader_words
  | apply (reader_omap get_short_string (fun s => ShStr (str_length s) (str_data s))), reader_short
  | apply (reader_omap get_cip_string (fun s => ShStr (str_length s) (str_data s))), reader_string
  | apply (reader_omap get_rev (fun s => ShRev (rev_major s) (rev_minor s))), reader_rev
  | apply (reader_omap get_endpoint ShEp), reader_endpoint ].
Qed.

Lemma reader_reads ts : reader_ok (fun h => reads h ts).
Proof.
  induction ts as [|t ts IH]; cbn [reads].
  - apply (reader_ret []).
  - apply (reader_bind' (fun h => read h t)); [apply reader_read|intros v].
    apply (reader_bind' (fun h => reads h ts)); [exact IH|intros vs].
    apply (reader_ret (v :: vs)).
Qed.

(** ** Widths *)
Definition moves {A} (m : reader A) (w : nat) : Prop :=
  forall h b a b', m h b = Ok (a, b') -> bpos b' = (bpos b + w)%nat.

Lemma moves_fetch : moves fetch 1.
Proof.
  intros h b a b'. unfold fetch. destruct (nth_error _ _); [intros E; inv E; cbn; lia|].
  destruct (h _ _); intros E; inv E; cbn; lia.
Qed.
Lemma moves_ret {A} (a : A) : moves (fun _ b => Ok (a, b)) 0.
Proof. intros h b x b' E; inv E; lia. Qed.
Lemma moves_bind {A B} (m : reader A) (k : A -> reader B) w1 w2 :
  moves m w1 -> (forall a, moves (k a) w2) ->
  moves (fun h b => bind (m h b) (fun '(a, b1) => k a h b1)) (w1 + w2).
Proof.
  intros Hm Hk h b a b' E. apply bind_Ok in E as ((x & b1) & E1 & E2).
  apply Hm in E1. apply Hk in E2. lia.
Qed.
Lemma moves_eq {A} (m : reader A) w w' : moves m w -> w = w' -> moves m w'.
Proof. intros H <-; exact H. Qed.
Lemma moves_omap {A B} (m : reader A) (f : A -> B) w :
  moves m w -> moves (fun h b => omap (fun p => (f (fst p), snd p)) (m h b)) w.
Proof.
  intros H h b a b' E. unfold omap in E. apply bind_Ok in E as ((x & b1) & E1 & E2).
  inv E2. cbn [snd]. eauto.
Qed.

Lemma moves_s8 : moves get_s8 1.
Proof.
  eapply moves_eq; [apply (moves_bind fetch (fun a _ b => Ok (s8 (u8 a), b)) 1 0 moves_fetch)|reflexivity].
  intros a; apply (moves_ret (s8 (u8 a))).
Qed.
Lemma moves_u16 : moves get_u16 2.
Proof.
  intros h b a b' E. unfold get_u16 in E.
  apply bind_Ok in E as ((x0 & b0) & E0 & E). apply bind_Ok in E as ((x1 & b1) & E1 & E).
  apply moves_fetch in E0, E1. inv E. lia.
Qed.
Lemma moves_u32 : moves get_u32 4.
Proof.
  intros h b a b' E. unfold get_u32 in E.
  apply bind_Ok in E as ((x0 & b0) & E0 & E). apply bind_Ok in E as ((x1 & b1) & E1 & E).
  apply bind_Ok in E as ((x2 & b2) & E2 & E). apply bind_Ok in E as ((x3 & b3) & E3 & E).
  apply moves_fetch in E0, E1, E2, E3. inv E. lia.
Qed.
Lemma moves_u64 : moves get_u64 8.
Proof.
  intros h b a b' E. unfold get_u64 in E.
  apply bind_Ok in E as ((x0 & b0) & E0 & E). apply bind_Ok in E as ((x1 & b1) & E1 & E).
  apply bind_Ok in E as ((x2 & b2) & E2 & E). apply bind_Ok in E as ((x3 & b3) & E3 & E).
  apply bind_Ok in E as ((x4 & b4) & E4 & E). apply bind_Ok in E as ((x5 & b5) & E5 & E).
  apply bind_Ok in E as ((x6 & b6) & E6 & E). apply bind_Ok in E as ((x7 & b7) & E7 & E).
  apply moves_fetch in E0, E1, E2, E3, E4, E5, E6, E7. inv E. lia.
Qed.
Lemma moves_s16 : moves get_s16 2.
Proof.
  intros h b a b' E. unfold get_s16 in E.
  apply bind_Ok in E as ((x0 & b0) & E0 & E). apply moves_u16 in E0. inv E. lia.
Qed.
Lemma moves_s32 : moves get_s32 4.
Proof.
  intros h b a b' E. unfold get_s32 in E.
  apply bind_Ok in E as ((x0 & b0) & E0 & E). apply moves_u32 in E0. inv E. lia.
Qed.
Lemma moves_s64 : moves get_s64 8.
Proof.
  intros h b a b' E. unfold get_s64 in E.
  apply bind_Ok in E as ((x0 & b0) & E0 & E). apply moves_u64 in E0. inv E. lia.
Qed.
Lemma moves_bytes n : moves (fun h => get_bytes h n) n.
Proof.
  induction n as [|n IH]; intros h b a b' E; cbn [get_bytes] in E.
  - inv E; lia.
  - apply bind_Ok in E as ((x0 & b0) & E0 & E). apply bind_Ok in E as ((x1 & b1) & E1 & E).
    apply moves_fetch in E0. apply IH in E1. inv E. lia.
Qed.
Lemma moves_words n : moves (fun h => get_words h n) (2 * n).
Proof.
  induction n as [|n IH]; intros h b a b' E; cbn [get_words] in E.
  - inv E; lia.
  - apply bind_Ok in E as ((x0 & b0) & E0 & E). apply bind_Ok in E as ((x1 & b1) & E1 & E).
    apply bind_Ok in E as ((x2 & b2) & E2 & E).
    apply moves_fetch in E0, E1. apply IH in E2. inv E. lia.
Qed.
Lemma moves_rev : moves get_rev 2.
Proof.
  intros h b a b' E. unfold get_rev in E.
  apply bind_Ok in E as ((x0 & b0) & E0 & E). apply bind_Ok in E as ((x1 & b1) & E1 & E).
  apply moves_fetch in E0, E1. inv E. lia.
Qed.
Lemma moves_endpoint : moves get_endpoint 16.
Proof.
  intros h b a b' E. unfold get_endpoint in E.
  apply bind_Ok in E as ((x0 & b0) & E0 & E). apply bind_Ok in E as ((x1 & b1) & E1 & E).
  apply bind_Ok in E as ((x2 & b2) & E2 & E). apply bind_Ok in E as ((x3 & b3) & E3 & E).
  apply moves_s16 in E0. apply moves_u16 in E1. apply moves_u32 in E2.
  apply (moves_bytes 8) in E3. inv E. lia.
Qed.

Lemma moves_read t w : fixed_width t = Some w -> moves (fun h => read h t) w.
Proof.
  destruct t; cbn [fixed_width]; intros E; inv E; unfold read.
  - apply (moves_omap get_u8 ShInt), moves_fetch.
  - apply (moves_omap get_s8 ShInt), moves_s8.
  - apply (moves_omap get_u16 ShInt), moves_u16.
  - apply (moves_omap get_s16 ShInt), moves_s16.
  - apply (moves_omap get_u32 ShInt), moves_u32.
  - apply (moves_omap get_s32 ShInt), moves_s32.
  - apply (moves_omap get_u64 ShInt), moves_u64.
  - apply (moves_omap get_s64 ShInt), moves_s64.
  - apply (moves_omap get_u32 ShInt), moves_u32.
  - apply (moves_omap get_u64 ShInt), moves_u64.
  - apply (moves_omap (fun h => get_bytes h w) ShBytes), moves_bytes.
  - apply (moves_omap (fun h => get_words h n) ShWords), moves_words.
  - apply (moves_omap get_rev (fun s => ShRev (rev_major s) (rev_minor s))), moves_rev.
  - apply (moves_omap get_endpoint ShEp), moves_endpoint.
Qed.

(** ** Out of bounds *)
Lemma strict_short {A} (m : reader A) w b :
  reader_ok m -> moves m w -> (bpos b <= List.length (bdata b))%nat ->
  (List.length (bdata b) < bpos b + w)%nat -> m strict b = Undef UbOobRead.
Proof.
  intros R M V S. destruct (ro_result m R strict b) as [(a & b' & E)|E]; [|exact E].
  exfalso. pose proof (ro_strict m R _ _ _ E V). apply M in E. lia.
Qed.

Lemma buf_valid_spec b : buf_valid b = true <-> (bpos b <= List.length (bdata b))%nat.
Proof. unfold buf_valid, buf_size. apply Nat.leb_le. Qed.
Lemma buf_valid_false b : buf_valid b = false <-> (List.length (bdata b) < bpos b)%nat.
Proof. unfold buf_valid, buf_size. rewrite Nat.leb_gt. reflexivity. Qed.
Lemma buf_empty_spec b : buf_empty b = true <-> (List.length (bdata b) <= bpos b)%nat.
Proof. unfold buf_empty, buf_size. apply Nat.leb_le. Qed.

(** isValid after decoding tells exactly whether all reads were in bounds. *)
Lemma valid_iff_strict {A} (m : reader A) h b a b' :
  reader_ok m -> buf_valid b = true -> m h b = Ok (a, b') ->
  (buf_valid b' = true <-> m strict b = Ok (a, b')).
Proof.
  intros R V E. apply buf_valid_spec in V.
  destruct (ro_data m R _ _ _ _ E) as [D P].
  rewrite buf_valid_spec, D. split.
  - intros L. exact (ro_indep m R _ _ _ _ E L strict).
  - intros E'. exact (ro_strict m R _ _ _ E' V).
Qed.

Lemma invalid_stays {A} (m : reader A) h b a b' :
  reader_ok m -> buf_valid b = false -> m h b = Ok (a, b') -> buf_valid b' = false.
Proof.
  intros R V E. apply buf_valid_false in V. apply buf_valid_false.
  destruct (ro_data m R _ _ _ _ E) as [D P]. rewrite D. lia.
Qed.

(** A result obtained without touching foreign memory holds for all memories. *)
Lemma strict_any {A} (m : reader A) b a b' h :
  reader_ok m -> buf_valid b = true -> m strict b = Ok (a, b') -> m h b = Ok (a, b').
Proof.
  intros R V E. apply buf_valid_spec in V.
  apply (ro_indep m R _ _ _ _ E). exact (ro_strict m R _ _ _ E V).
Qed.

(** ** Sequences *)
Lemma reads_at h vs : Forall wf_value vs -> forall pre rest,
  reads h (map type_of vs) (at_ pre (concat (map layout vs) ++ rest))
  = Ok (map shows vs, at_ (pre ++ concat (map layout vs)) rest).
Proof.
  induction 1 as [|v vs W Ws IH]; intros pre rest; cbn [map concat reads app].
  - now rewrite app_nil_r.
  - rewrite <- app_assoc, read_write_at by assumption. cbn [bind].
    rewrite IH. cbn [bind]. now rewrite <- app_assoc.
Qed.

Lemma run_ops_queue h ops q out q' : queue_run ops q out q' -> Forall op_wf ops ->
  Forall wf_value q -> forall pre,
  exists pre', run_ops h ops (at_ pre (concat (map layout q)))
               = Ok (out, at_ pre' (concat (map layout q'))).
Proof.
  induction 1 as [q | v ops q out q' H IH | v ops q out q' H IH]; intros Wo Wq pre.
  - exists pre. reflexivity.
  - inv Wo. cbn [run_ops]. cbn [op_wf] in *. rewrite write_layout by assumption.
    destruct (IH H3) with (pre := pre) as (pre' & E).
    { apply Forall_app; split; [assumption|repeat constructor; assumption]. }
    exists pre'. rewrite <- E. f_equal. unfold at_; cbn [bdata bpos].
    rewrite map_app, concat_app. cbn [map concat]. rewrite app_nil_r, <- app_assoc. reflexivity.
  - inv Wo. inv Wq. cbn [run_ops map concat].
    rewrite read_write_at by assumption. cbn [bind].
    destruct (IH H3 H5) with (pre := pre ++ layout v) as (pre' & E).
    exists pre'. rewrite E. reflexivity.
Qed.
