(** Property C78: texts and comparisons. *)
From Verif Require Import Base MBuffer SBuffer PBase MEip MYaskawa SEip SText PText MStatus PStatus.
Local Open Scope Z_scope.

(** Every number is shown as its decimal numeral. *)
Theorem C78_number : forall x, 0 <= x -> numeral (to_string x) x.
Proof. exact to_string_numeral. Qed.
Print Assumptions C78_number.
Example C78_number_example : to_string 65535 = "65535"%string /\ numeral "65535" 65535 /\ ~ numeral "065535" 65535 /\ numeral "0" 0.
Proof.
  split; [reflexivity|]. split; [split; [discriminate|split; [reflexivity|intros r E; discriminate E]]|].
  split; [intros (_ & _ & E); now specialize (E _ eq_refl)|]. split; [discriminate|split; [reflexivity|intros r E; now inv E]].
Qed.

(** Two paths have the same text exactly if they put the same bytes on the wire. *)
Theorem C78_path : forall p q : epath, path_u16 p -> path_u16 q ->
  (epath_to_string p = epath_to_string q <-> epath_pack false p = epath_pack false q).
Proof. exact path_text_iff. Qed.
Print Assumptions C78_path.
(** For the paths a program can build, that is equality, except that the default
    path looks like the path of class 0. *)
Theorem C78_built : forall i j : ids, ids_wf i -> ids_wf j ->
  (epath_to_string (build i) = epath_to_string (build j)
   <-> epath_eqb (build i) (build j) = true \/ (i = Ids0 /\ j = Ids1 0) \/ (i = Ids1 0 /\ j = Ids0)).
Proof. exact build_same_text. Qed.
Print Assumptions C78_built.
Example C78_path_example : ids_wf (Ids2 4 100) /\ ids_wf (Ids2 41 0)
  /\ epath_to_string (build (Ids2 4 100)) <> epath_to_string (build (Ids2 41 0))
  /\ epath_eqb (build Ids0) (build (Ids1 0)) = false
  /\ epath_to_string (build Ids0) = epath_to_string (build (Ids1 0)).
Proof.
  split; [repeat constructor; unfold is_u16; cbn; lia|]. split; [repeat constructor; unfold is_u16; cbn; lia|].
  repeat split; discriminate.
Qed.

(** The text shows the ids that the path has, by name. *)
Theorem C78_path_text : forall i : ids, ids_wf i -> path_shape (named_ids i) (epath_to_string (build i)).
Proof. exact path_text_shape. Qed.
Print Assumptions C78_path_text.
Example C78_path_text_example : epath_to_string (build (Ids3 4 100 3)) = "[classId=4 objectId=100 attributeId=3]"%string.
Proof. reflexivity. Qed.

(** The same for the 8-bit paths, which show what the 16-bit ones show. *)
Theorem C78_yaskawa : forall p q : ypath, ypath_u8 p -> ypath_u8 q ->
  (ypath_to_string p = ypath_to_string q <-> ypath_pack p = ypath_pack q)
  /\ (ypath_eqb p q = true <-> p = q).
Proof. intros p q P Q. split; [now apply ypath_text_iff|apply ypath_eqb_iff]. Qed.
Print Assumptions C78_yaskawa.
Theorem C78_yaskawa_text : forall i : ids, ypath_to_string (ybuild i) = epath_to_string (build i).
Proof. exact yaskawa_text. Qed.
Print Assumptions C78_yaskawa_text.
Example C78_yaskawa_example : ypath_u8 (ybuild (Ids3 130 1 100))
  /\ ypath_to_string (ybuild (Ids3 130 1 100)) = "[classId=130 objectId=1 attributeId=100]"%string.
Proof. split; [repeat split; cbn; lia|reflexivity]. Qed.

(** Revisions are shown as major.minor and are equal exactly if their texts are. *)
Theorem C78_revision : forall a b : revision,
  is_u8 (rev_major a) -> is_u8 (rev_minor a) -> is_u8 (rev_major b) -> is_u8 (rev_minor b) ->
  (rev_eqb a b = true <-> a = b) /\ (rev_to_string a = rev_to_string b <-> rev_eqb a b = true)
  /\ exists x y, numeral x (rev_major a) /\ numeral y (rev_minor a) /\ rev_to_string a = (x ++ "." ++ y)%string.
Proof. intros a b ? ? ? ?. split; [apply rev_eqb_iff|]. split; [now apply rev_text_iff|now apply rev_shape]. Qed.
Print Assumptions C78_revision.
Example C78_revision_example : rev_to_string (mkRev 1 21) = "1.21"%string
  /\ rev_to_string (mkRev 12 1) <> rev_to_string (mkRev 1 21).
Proof. split; [reflexivity|discriminate]. Qed.

(** End points: equality is equality of all members; the text determines host and
    port, for every host text (even one that contains colons); end points made
    from a host text are equal exactly if their texts are; the text of an address
    determines the address. *)
Theorem C78_end_point : forall a b : endpoint,
  (ep_eqb a b = true <-> a = b)
  /\ (0 <= ep_port a -> 0 <= ep_port b ->
      (ep_to_string a = ep_to_string b <-> ep_host a = ep_host b /\ ep_port a = ep_port b))
  /\ (0 <= ep_port a -> exists p, numeral p (ep_port a) /\ ep_to_string a = (ep_host a ++ ":" ++ p)%string).
Proof. intros a b. split; [apply ep_eqb_iff|]. split; [apply ep_text_iff|apply ep_shape]. Qed.
Print Assumptions C78_end_point.
Theorem C78_host : forall aton h p h' p', 0 <= p -> 0 <= p' ->
  (ep_to_string (ep_of_host aton h p) = ep_to_string (ep_of_host aton h' p')
   <-> ep_eqb (ep_of_host aton h p) (ep_of_host aton h' p') = true).
Proof. exact ep_host_iff. Qed.
Print Assumptions C78_host.
(** The host text of an address: its bytes, in the order of the network. *)
Theorem C78_address_text : forall a : sockaddr, is_u32 (sa_addr a) -> exists w x y z, Forall2 numeral [w; x; y; z] (le 4 (sa_addr a))
  /\ ep_host (ep_of_addr a) = (w ++ "." ++ x ++ "." ++ y ++ "." ++ z)%string.
Proof. exact addr_shape. Qed.
Print Assumptions C78_address_text.
Theorem C78_address : forall a b : sockaddr, is_u32 (sa_addr a) -> is_u32 (sa_addr b) ->
  ep_host (ep_of_addr a) = ep_host (ep_of_addr b) -> sa_addr a = sa_addr b.
Proof. exact addr_text. Qed.
Print Assumptions C78_address.
Example C78_end_point_example : ep_host (ep_of_addr (mkAddr 2 4783 16842762)) = "10.0.1.1"%string
  /\ ep_to_string (ep_of_addr (mkAddr 2 4783 16842762)) = "10.0.1.1:44818"%string
  /\ ep_to_string (ep_of_host (fun _ => None) "a:1" 2) <> ep_to_string (ep_of_host (fun _ => None) "a" 12).
Proof. repeat split; discriminate. Qed.

(** C80. What the log message about a refused request says: the additional statuses are hexadecimal numerals in brackets,
    the general status is one character. *)
Theorem C80_text r : is_u8 (r_status r) -> Forall is_u16 (r_addl r) -> exists ds, Forall2 hex_numeral ds (r_addl r)
  /\ status_text r = ("Message Router error=0x" ++ String (ascii_of_nat (Z.to_nat (r_status r))) (" additional statuses " ++ bracketed ds))%string.
Proof. exact (fun A B => status_shape r (conj A B)). Qed.
Print Assumptions C80_text.
(** The message still tells refusals apart. *)
Theorem C80_determines r r' : is_u8 (r_status r) -> Forall is_u16 (r_addl r) -> is_u8 (r_status r') -> Forall is_u16 (r_addl r') ->
  (status_text r = status_text r' <-> r_status r = r_status r' /\ r_addl r = r_addl r').
Proof. exact (fun A B A' B' => status_determines r r' (conj A B) (conj A' B')). Qed.
Print Assumptions C80_determines.
(** Full claim: behind [0x] stands the hexadecimal numeral of the general status. It does for no status. *)
Theorem C80_never r s t : is_u8 (r_status r) -> Forall is_u16 (r_addl r) -> hex_numeral s (r_status r) ->
  status_text r <> ("Message Router error=0x" ++ s ++ " additional statuses " ++ t)%string.
Proof. exact (fun A B => status_not_hex r s t (conj A B)). Qed.
Print Assumptions C80_never.
Theorem C80_refuted : exists r, is_u8 (r_status r) /\ r_status r <> 0 /\ Forall is_u16 (r_addl r)
  /\ forall s t, hex_numeral s (r_status r) -> status_text r <> ("Message Router error=0x" ++ s ++ " additional statuses " ++ t)%string.
Proof. exact status_refuted. Qed.
Print Assumptions C80_refuted.
(** Status 0x35 looks like 5. *)
Example C80_text_example : status_text (mkResp 0x8E 0x35 [0x0100; 0; 0xFFFF] [] []) = "Message Router error=0x5 additional statuses [0x100][0x0][0xffff]"%string.
Proof. reflexivity. Qed.
Example C80_numeral_example : hex_numeral "35" 0x35 /\ hex_numeral "5" 5 /\ ~ hex_numeral "05" 5.
Proof.
  split; [|split].
  - split; [discriminate|]. split; [reflexivity|]. discriminate.
  - split; [discriminate|]. split; [reflexivity|]. discriminate.
  - intros (_ & _ & H). specialize (H "5"%string eq_refl). discriminate.
Qed.
