(** Property theorems: discovery of devices (C62, C63). *)
From Verif Require Import Base MBuffer SBuffer PBase MEip SEip MIdent SParam MSocket MDisc SDisc PDisc.
Local Open Scope Z_scope.

(** C62. Full statement: for every list of replies, the result shows, in order of
    arrival, every device announced in them, and one ListIdentity request was
    sent to the broadcast address. Proved for replies of at most 504 bytes (any
    number of them, any number of devices in each, any identities and
    addresses, however the memory behind the buffers looks); a longer reply is
    cut ([C62_refuted], [C62_too_long]). *)
Theorem C62_partial : forall (h : heap) (k : dkernel) (broadcast : endpoint) ls uss rest,
  open k -> Forall2 fits ls uss -> timeout rest ->
  exists es, discover h k broadcast (map Dgram ls ++ rest) = (Ok es, [(ep_addr broadcast, list_identity_request)])
    /\ Forall2 shows_unit (concat uss) es.
Proof. intros h k ep ls uss rest O F. apply discover_reports; [exact O|now apply fits_all]. Qed.
Print Assumptions C62_partial.
Example C62_example :
  open dk_fine /\ Forall2 fits [reply [drive]; reply [plc]] [[drive]; [plc]] /\ timeout [DErr 11; Dgram [1]]
  /\ exists a b, discover strict dk_fine lan [Dgram (reply [drive]); Dgram (reply [plc]); DErr 11; Dgram [1]]
                 = (Ok [a; b], [(mkAddr 2 4783 4278298816, [99;0;0;0;0;0;0;0;0;0;0;0;0;0;0;0;0;0;0;0;0;0;0;0])])
     /\ ep_host (en_address a) = "192.168.1.9"%string /\ id_serial (en_identity b) = 305419896.
Proof.
  split; [repeat split|]. split; [repeat (constructor; [apply fits_reply; auto|]); constructor|]. split; [right; eauto|].
  eexists _, _. split; [vm_compute; reflexivity|]. split; reflexivity.
Qed.

(** Every reply of the same form that is longer than 504 bytes: not all of its
    devices are reported, even if the call ends normally. *)
Theorem C62_too_long : forall (h : heap) (k : dkernel) (broadcast : endpoint) header items es,
  open k -> List.length header = 24%nat -> Forall item_wf items -> zlen items < 65536 ->
  let l := header ++ cpf_bytes items in
  (Z.to_nat 504 < List.length l)%nat ->
  fst (discover h k broadcast [Dgram l]) = Ok es -> (List.length es < List.length items)%nat.
Proof. exact too_long_lost. Qed.
Print Assumptions C62_too_long.
(** The first item ends with byte 504: the call ends normally, the second
    device is lost. *)
Example C62_too_long_example :
  let items := [item_of 12 (unit_bytes plc ++ zeros 438); item_of 12 (unit_bytes drive ++ [3])] in
  let l := zeros 24 ++ cpf_bytes items in
  Forall item_wf items /\ List.length l = 544%nat
  /\ option_map (@List.length entry) (match fst (discover strict dk_fine lan [Dgram l]) with Ok es => Some es | _ => None end)
     = Some 1%nat.
Proof.
  cbv zeta. split; [|split; vm_compute; reflexivity].
  assert (B : forall l, Forall (fun x => 0 <= x < 256) l -> zlen l < 65536 -> item_wf (item_of 12 l)).
  { intros l F L. unfold item_wf, item_of. cbn [it_type it_length it_data]. split; [unfold is_u16; lia|].
    unfold u16. rewrite Z.mod_small by (pose proof (zlen_nonneg l); lia). auto. }
  constructor; [apply B|constructor; [apply B|constructor]]; try (vm_compute; reflexivity).
  - apply Forall_app. split; [repeat constructor; cbn; lia|].
    apply Forall_forall. intros x I. apply repeat_spec in I. lia.
  - repeat constructor; cbn; lia.
Qed.
Theorem C62_refuted : exists k broadcast l us items, open k /\ Forall2 announcement us items
  /\ (exists header, List.length header = 24%nat /\ l = header ++ cpf_bytes items)
  /\ forall (h : heap) es, fst (discover h k broadcast [Dgram l]) = Ok es -> ~ Forall2 shows_unit us es.
Proof. exact long_refuted. Qed.
Print Assumptions C62_refuted.
(** The type of an item is not looked at: an item that is not an identity item
    (0x0C) is reported as a device as well. *)
Theorem C62_type_refuted : exists k broadcast l it, open k /\ it_type it <> 12 /\ item_wf it
  /\ l = zeros 24 ++ cpf_bytes [it]
  /\ forall h : heap, exists e, fst (discover h k broadcast [Dgram l]) = Ok [e].
Proof.
  exists dk_fine, lan, (zeros 24 ++ cpf_bytes [item_of 32768 (unit_bytes plc ++ [3])]), (item_of 32768 (unit_bytes plc ++ [3])).
  split; [repeat split|]. split; [discriminate|]. split; [|split; [reflexivity|]].
  - apply (item_ok 32768 plc); [unfold is_u16; lia|auto].
  - intros h. destruct (type_reported h dk_fine lan (zeros 24) 32768 plc) as (e & E & _); [repeat split|reflexivity|unfold is_u16; lia|auto|].
    exists e. exact E.
Qed.
Print Assumptions C62_type_refuted.

(** C63. Everything that can happen once the request is sent, for every sequence
    of datagrams and errors: the well-formed replies in front, then a timeout,
    another error, or a reply that does not consist of devices. *)
Theorem C63_all : forall k broadcast ds, open k -> Forall dgram_bytes ds ->
  exists ls uss rest, ds = map Dgram ls ++ rest /\ Forall2 announces ls uss
    /\ let '(o, sent) := discover strict k broadcast ds in
       sent = [(ep_addr broadcast, list_identity_request)] /\
       (timeout rest /\ (exists es, o = Ok es /\ Forall2 shows_unit (concat uss) es)
        \/ (exists e r, e <> 11 /\ rest = DErr e :: r /\ o = Throw (SystemError e))
        \/ (exists l r, rest = Dgram l :: r /\ (forall us, ~ announces l us) /\ o = Undef UbOobRead)).
Proof. exact discover_all. Qed.
Print Assumptions C63_all.
Example C63_all_example : open dk_fine /\ Forall dgram_bytes [Dgram [1; 2; 3]; DErr 104].
Proof. split; [repeat split|]. repeat constructor; cbn; lia. Qed.

(** Normal end only on the timeout, whatever was received. *)
Theorem C63_normal_end : forall (h : heap) k broadcast ds es, fst (discover h k broadcast ds) = Ok es ->
  exists ls rest, ds = map Dgram ls ++ rest /\ timeout rest.
Proof. exact discover_ok_timeout. Qed.
Print Assumptions C63_normal_end.
Example C63_normal_example :
  fst (discover strict dk_fine lan [Dgram (zeros 26); DErr 11; DErr 104]) = Ok [].
Proof. vm_compute. reflexivity. Qed.

(** Errors are passed on: those of recvfrom, and those before it except a failed
    sendto. *)
Theorem C63_receive_error : forall (h : heap) k broadcast ls uss e rest,
  open k -> Forall2 announces ls uss -> e <> 11 ->
  fst (discover h k broadcast (map Dgram ls ++ DErr e :: rest)) = Throw (SystemError e).
Proof. exact discover_error. Qed.
Print Assumptions C63_receive_error.
Example C63_receive_example : open dk_fine /\ 104 <> 11
  /\ fst (discover strict dk_fine lan (map Dgram [reply [plc]] ++ DErr 104 :: [Dgram (reply [drive])])) = Throw (SystemError 104).
Proof. split; [repeat split|]. split; [discriminate|]. vm_compute. reflexivity. Qed.
Theorem C63_socket_error : forall (h : heap) k broadcast ds e,
  dk_socket k = Some e \/ dk_socket k = None /\ dk_broadcast k = Some e ->
  discover h k broadcast ds = (Throw (SystemError e), []).
Proof. intros h k ep ds e [E|[E F]]; [now apply discover_socket|now apply discover_broadcast]. Qed.
Print Assumptions C63_socket_error.
Example C63_socket_example :
  discover strict (mkDK (Some 24) None (mkSend 24 0)) lan [Dgram [1]] = (Throw (SystemError 24), [])
  /\ discover strict (mkDK None (Some 13) (mkSend 24 0)) lan [Dgram [1]] = (Throw (SystemError 13), []).
Proof. split; reflexivity. Qed.
Theorem C63_send_short : forall (h : heap) k broadcast ds,
  dk_socket k = None -> dk_broadcast k = None -> 0 <= s_count (dk_send k) < 24 ->
  discover h k broadcast ds
  = (Throw (SystemError (s_errno (dk_send k))), [(ep_addr broadcast, firstn (Z.to_nat (s_count (dk_send k))) list_identity_request)]).
Proof. exact discover_send_partial. Qed.
Print Assumptions C63_send_short.
Example C63_send_short_example :
  let k := mkDK None None (mkSend 10 105) in
  0 <= s_count (dk_send k) < 24 /\ fst (discover strict k lan [Dgram [1]]) = Throw (SystemError 105).
Proof. split; [cbn; lia|vm_compute; reflexivity]. Qed.
Example C63_example :
  fst (discover strict dk_fine lan [Dgram (reply [plc]); DErr 104]) = Throw (SystemError 104)
  /\ fst (discover strict (mkDK None (Some 13) (mkSend 24 0)) lan []) = Throw (SystemError 13)
  /\ fst (discover strict dk_fine lan [Dgram bad_reply; Dgram (reply [plc])]) = Undef UbOobRead
  /\ fst (discover (fun _ _ => Some 0) dk_fine lan [Dgram (reply [plc]); Dgram (zeros 24 ++ [1; 0; 12; 0; 255; 1])])
     = Throw (RuntimeError RtCommonPacketFormat)
  /\ (forall us, ~ announces bad_reply us).
Proof.
  split; [reflexivity|]. split; [reflexivity|]. split; [vm_compute; reflexivity|]. split; [vm_compute; reflexivity|].
  intros us A. destruct (reply_shown strict bad_reply us [] A) as (es & E & _).
  destruct (bad_reply_fails strict) as (e & X & H). rewrite X in E. destruct H; subst e; discriminate.
Qed.

(** A failed sendto is not noticed: the call ends normally without a device. *)
Theorem C63_send_refuted : exists k broadcast, s_count (dk_send k) = -1 /\ s_errno (dk_send k) = 101
  /\ forall h : heap, discover h k broadcast [] = (Ok [], []).
Proof.
  exists (mkDK None None (mkSend (-1) 101)), lan. split; [reflexivity|]. split; [reflexivity|]. intros h. now apply discover_send_failed.
Qed.
Print Assumptions C63_send_refuted.
(** One malformed reply, before or after a well-formed one, and no device is
    reported. *)
Theorem C63_malformed_refuted : exists k broadcast l us bad, open k /\ us <> [] /\ fits l us /\
  forall h : heap, (forall es, fst (discover h k broadcast [Dgram l; Dgram bad]) <> Ok es)
         /\ (forall es, fst (discover h k broadcast [Dgram bad; Dgram l]) <> Ok es).
Proof. exact malformed_refuted. Qed.
Print Assumptions C63_malformed_refuted.
