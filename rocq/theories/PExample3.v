(** Proofs: what the identity and the discovery examples write. *)
From Verif Require Import Base MBuffer SBuffer PBase MEip SEip SObj PObj MFile MIdent MParam SParam PParam SText PText MSocket MDisc SDisc PDisc
  MExample SExample.

Lemma chars_text l : is_bytes l -> chars (text_of l) = l.
Proof.
  unfold text_of. induction 1 as [|x l H F IH]; [reflexivity|]. cbn [map string_of_list_ascii chars]. rewrite IH. f_equal.
  unfold is_u8 in H. rewrite nat_ascii_embedding by lia. lia.
Qed.
Lemma str_append_assoc (a : string) : forall b c, ((a ++ b) ++ c = a ++ b ++ c)%string.
Proof. induction a as [|x a IH]; intros b c; cbn; [reflexivity|]. now rewrite IH. Qed.
Lemma identity_shown o i : ident_wf i -> shows_identity o i ->
  identity_line i (to_string (id_vendor o) ++ to_string (id_type o) ++ to_string (id_code o) ++ rev_to_string (id_revision o)
           ++ to_string (id_status o) ++ to_string (id_serial o) ++ text_of (str_std (id_name o)))%string.
Proof.
  intros W (-> & -> & -> & -> & -> & -> & ->). unfold ident_wf in W. decompose [and] W.
  exists (to_string (i_vendor i)), (to_string (i_type i)), (to_string (i_code i)), (to_string (i_major i)), (to_string (i_minor i)),
    (to_string (i_status i)), (to_string (i_serial i)), (text_of (i_name i)).
  unfold is_u16, is_u8, is_u32 in *.
  split; [repeat (apply Forall2_cons; [apply to_string_numeral; lia|]); apply Forall2_nil|].
  split; [now apply chars_text|]. unfold rev_to_string; cbn [rev_major rev_minor]. now rewrite !str_append_assoc.
Qed.
Lemma identity_run D h handle (dev : device D) d tr a d' i rest :
  is_u32 handle -> dev d (identity_request 1) = (a, d') -> answer_wf a -> a_status a = 0 ->
  a_data a = ident_bytes i ++ rest -> ident_wf i ->
  exists s, identity_example h (served handle dev) (d, tr) = (Ok s, (d', tr ++ [(identity_request 1, a)])) /\ identity_line i s.
Proof.
  intros H E W S0 A I. destruct (identity_reads h false handle dev H 1 d tr a d' i rest E W S0 A I) as (o & R & _ & Sh).
  eexists. split; [|exact (identity_shown o i I Sh)]. unfold identity_example, st_bind. now rewrite R.
Qed.
Lemma device_shown u e : unit_wf u -> shows_unit u e -> unit_line u (device_line e).
Proof.
  intros W ((_ & _ & _ & _ & _ & _ & N) & A). unfold unit_wf, ident_wf in W. decompose [and] W. unfold device_line. rewrite N, A.
  exists (text_of (i_name (u_ident u))), (to_string (u_a u)), (to_string (u_b u)), (to_string (u_c u)), (to_string (u_d u)), (to_string (u_port u)).
  unfold is_u16, is_u8 in *. split; [now apply chars_text|].
  split; [repeat (apply Forall2_cons; [apply to_string_numeral; lia|]); apply Forall2_nil|].
  unfold ep_to_string, the_endpoint, dotted; cbn [ep_host ep_port]. now rewrite !str_append_assoc.
Qed.
Lemma fits_wf l us : fits l us -> Forall unit_wf us.
Proof.
  intros (_ & header & items & _ & F & _). clear -F. induction F as [|u i us items (_ & U & _) F IH]; constructor; assumption.
Qed.
Lemma discovery_run h aton k ls uss rest :
  open k -> Forall2 fits ls uss -> timeout rest ->
  exists lines, discovery_example h aton k (map Dgram ls ++ rest)
    = (Ok lines, [(ep_addr (ep_of_host aton "172.28.255.255" 44818), list_identity_request)])
  /\ Forall2 unit_line (List.concat uss) lines.
Proof.
  intros O F T. destruct (discover_reports h k (ep_of_host aton "172.28.255.255" 44818) ls uss rest O (fits_all _ _ F) T) as (es & E & Sh).
  exists (map device_line es). unfold discovery_example. rewrite E. split; [reflexivity|].
  assert (W : Forall unit_wf (List.concat uss)).
  { clear -F. induction F as [|l us ls uss A F IH]; [constructor|]. cbn [List.concat]. apply Forall_app. split; [now apply fits_wf with l|assumption]. }
  clear -W Sh. induction Sh as [|u e us es A Sh IH]; [constructor|]. inv W. constructor; [now apply device_shown|now apply IH].
Qed.
Lemma discovery_throws h aton k ds e : fst (discover h k (ep_of_host aton "172.28.255.255" 44818) ds) = Throw e ->
  fst (discovery_example h aton k ds) = Throw e.
Proof. intros E. unfold discovery_example. destruct (discover _ _ _ _) as [o s]. cbn [fst] in *. now rewrite E. Qed.
Lemma identity_ambiguous : exists i j s, i <> j /\ ident_wf i /\ ident_wf j /\ identity_line i s /\ identity_line j s.
Proof.
  exists (mkIdent 1 12 3 1 1 0 5 [80]), (mkIdent 11 2 3 1 1 0 5 [80]), "11231.105P"%string.
  assert (W : ident_wf (mkIdent 1 12 3 1 1 0 5 [80]) /\ ident_wf (mkIdent 11 2 3 1 1 0 5 [80])).
  { split; unfold ident_wf, is_u8, is_u16, is_u32; cbn; repeat match goal with |- _ /\ _ => split end; try lia; repeat constructor; cbn; lia. }
  split; [discriminate|]. split; [apply W|]. split; [apply W|].
  pose proof (identity_shown (mkIdentity 1 1 12 3 (mkRev 1 1) 0 5 (short_string [80])) _ (proj1 W) ltac:(repeat split)) as A.
  pose proof (identity_shown (mkIdentity 1 11 2 3 (mkRev 1 1) 0 5 (short_string [80])) _ (proj2 W) ltac:(repeat split)) as B.
  split; [exact A|exact B].
Qed.
