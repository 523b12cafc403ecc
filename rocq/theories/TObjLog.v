(** Property of the messages of the object clients: C97. *)
From Verif Require Import Base PBase MBuffer SBuffer MEip SEip SObj PObj MLog SText MMsg SMsg SErrno PErrno MFile SFile PFile MIdent MParam MFault MYaskawa MFileLog SFileLog PFileLog2 MObjLog SObjLog PObjLog PObjLog2.
Local Open Scope Z_scope.

(** ** C97 requests and refusals in the log *)

(** The messages are added to the log; nothing else is different. *)
Theorem C97_same : forall W h use8 (si : session_if W) w l,
  (forall n, exists o w' lg, identity_read h use8 si n w = (o, w') /\ identity_logged h use8 si n (w, l) = (o, (w', l ++ lg)))
  /\ (forall id full, exists o w' lg, param_read h use8 si id full w = (o, w') /\ param_logged h use8 si id full (w, l) = (o, (w', l ++ lg)))
  /\ (forall p, exists o p' w' lg, update_value h use8 si (p, w) = (o, (p', w')) /\ update_logged h use8 si (p, (w, l)) = (o, (p', (w', l ++ lg))))
  /\ (forall id, exists o w' lg, fault_object_read h use8 si id w = (o, w') /\ fault_object_logged h use8 si id (w, l) = (o, (w', l ++ lg)))
  /\ (forall c, exists o w' lg, write_command h use8 si c w = (o, w') /\ command_logged h use8 si c (w, l) = (o, (w', l ++ lg)))
  /\ (forall clear want c, exists o c' w' lg, handle_faults h use8 si clear want (c, w) = (o, (c', w'))
        /\ handle_logged h use8 si clear want (c, (w, l)) = (o, (c', (w', l ++ lg)))).
Proof.
  intros W h use8 si w l. split; [intros n; apply drops_identity|]. split; [intros id full; apply drops_param|].
  split; [intros p; apply drops_update|]. split; [intros id; apply drops_fault_object|]. split; [intros c; apply drops_command|].
  intros clear want c. apply drops_handle.
Qed.
Print Assumptions C97_same.

(** The messages up to level INFO tell the exchanges with the adapter: each
    request, and each refusal behind its request. *)
Theorem C97_identity : forall D h use8 handle (dev : device D) n d tr l o d' tr' l',
  is_u32 handle -> device_wf dev -> identity_logged h use8 (served handle dev) n ((d, tr), l) = (o, ((d', tr'), l')) ->
  exists new lg, tr' = tr ++ new /\ l' = l ++ lg /\ tells (seen lg) new.
Proof.
  intros D h use8 handle dev n d tr l o d' tr' l' H W E.
  exact (told_identity h use8 handle dev H W is_seen (fun _ _ => eq_refl) (fun _ => eq_refl) n _ _ _ E).
Qed.
Print Assumptions C97_identity.
Theorem C97_parameter : forall D h use8 handle (dev : device D) id full d tr l o d' tr' l',
  is_u32 handle -> device_wf dev -> sendable use8 id ->
  param_logged h use8 (served handle dev) id full ((d, tr), l) = (o, ((d', tr'), l')) ->
  exists new lg, tr' = tr ++ new /\ l' = l ++ lg /\ tells (seen lg) new.
Proof.
  intros D h use8 handle dev id full d tr l o d' tr' l' H W I E.
  refine (told_param h use8 handle dev H W is_seen (fun _ _ => eq_refl) (fun _ => eq_refl) id full _ I _ _ _ E).
  intros [lv m] F. cbn in F. now subst lv.
Qed.
Print Assumptions C97_parameter.
Theorem C97_update : forall D h use8 handle (dev : device D) p d tr l o p' d' tr' l',
  is_u32 handle -> device_wf dev -> sendable use8 (pa_id p) ->
  update_logged h use8 (served handle dev) (p, ((d, tr), l)) = (o, (p', ((d', tr'), l'))) ->
  exists new lg, tr' = tr ++ new /\ l' = l ++ lg /\ tells (seen lg) new.
Proof.
  intros D h use8 handle dev p d tr l o p' d' tr' l' H W I E. unfold update_logged in E. destruct (pa_router p).
  - destruct (ask_logged _ _ _ _ _ _ _) as [o1 [[d1 tr1] l1]] eqn:A.
    assert (T : exists new lg, tr1 = tr ++ new /\ l1 = l ++ lg /\ tells (seen lg) new).
    { refine (told_attr h use8 handle dev H W is_seen (fun _ _ => eq_refl) (fun _ => eq_refl) (pa_id p) ATTR_VALUE _ I _ _ _ _ _ A);
        unfold ATTR_VALUE, PARAMETER_CLASS_ID; lia. }
    destruct (bind o1 _) as [[v b]| | |]; inv E; exact T.
  - inv E. exists [], []. rewrite !app_nil_r. repeat split. constructor.
Qed.
Print Assumptions C97_update.
Theorem C97_fault_object : forall D h use8 handle (dev : device D) id d tr l o d' tr' l',
  is_u32 handle -> device_wf dev -> sendable use8 id ->
  fault_object_logged h use8 (served handle dev) id ((d, tr), l) = (o, ((d', tr'), l')) ->
  exists new lg, tr' = tr ++ new /\ l' = l ++ lg /\ tells (seen lg) new.
Proof.
  intros D h use8 handle dev id d tr l o d' tr' l' H W I E.
  exact (told_fault_object h use8 handle dev H W is_seen (fun _ _ => eq_refl) (fun _ => eq_refl) id I _ _ _ E).
Qed.
Print Assumptions C97_fault_object.
Theorem C97_command : forall D h use8 handle (dev : device D) c d tr l o d' tr' l',
  is_u32 handle -> device_wf dev -> is_u8 c ->
  command_logged h use8 (served handle dev) c ((d, tr), l) = (o, ((d', tr'), l')) ->
  exists new lg, tr' = tr ++ new /\ l' = l ++ lg /\ tells (seen lg) new.
Proof.
  intros D h use8 handle dev c d tr l o d' tr' l' H W I E.
  exact (told_command h use8 handle dev H W is_seen (fun _ _ => eq_refl) (fun _ => eq_refl) c I _ _ _ E).
Qed.
Print Assumptions C97_command.
(** Among the messages of the fault manager is one about the number of faults. *)
Theorem C97_faults : forall D h handle (dev : device D) clear want c d tr l o c' d' tr' l',
  is_u32 handle -> device_wf dev ->
  handle_logged h false (served handle dev) clear want (c, ((d, tr), l)) = (o, (c', ((d', tr'), l'))) ->
  exists new lg, tr' = tr ++ new /\ l' = l ++ lg /\ tells (filter (fun m => negb (is_count m)) (seen lg)) new.
Proof.
  intros D h handle dev clear want c d tr l o c' d' tr' l' H W E.
  destruct (told_handle h handle dev H W (fun m => is_seen m && negb (is_count m)) (fun _ _ => eq_refl) (fun _ => eq_refl) (fun _ => eq_refl)
              clear want _ _ _ E) as (new & lg & A & B & T).
  exists new, lg. split; [exact A|]. split; [exact B|]. unfold seen. now rewrite filter_filter_and.
Qed.
Print Assumptions C97_faults.

(** Parameter 7 (two bytes, type 0xC7, scalable, name "Hz"): the multiplier is
    refused. *)
Definition param_reply : bytes := [5; 0; 0; 4; 0; 199; 2; 2; 72; 122; 0; 0; 0; 0; 9; 0; 1; 0; 0; 0; 0; 0; 0; 0; 0; 0; 0; 0; 0; 0; 0; 0; 0; 0; 0; 0; 1].
Definition param_log (l : list answer) : list message :=
  snd (snd (param_logged strict false (served 7 scripted) 7 true ((l, []), []))).
Example C97_parameter_example :
  param_log [done [2]; done param_reply; mkAns 20 [259] []] =
  [(DEBUG, "Read data from parameter ID=7"); (INFO, "Send request: service=0xe epath=[classId=15 objectId=7 attributeId=6]");
   (INFO, "Send request: service=0x1 epath=[classId=15 objectId=7]");
   (DEBUG, "Parameter object ID=7 has descriptor=0x4 scalable=1 readonly=0");
   (INFO, "Send request: service=0xe epath=[classId=15 objectId=7 attributeId=13]");
   (ERROR, "Message Router error=0x" ++ String (ascii_of_nat 20) " additional statuses [0x103]")]%string
  /\ skipn 8 (param_log [done [2]; done param_reply; done [1; 0]; done [1; 0]; done [1; 0]; done [0; 0]])
     = [(DEBUG, "Read Parameter Object ID=7 ValueSize=2 ValueType=0xc7 Name=Hz"%string)]
  /\ device_wf (fun (_ : unit) (_ : request) => (done [2], tt)) /\ sendable false 7 /\ sendable true 7.
Proof.
  split; [vm_compute; reflexivity|]. split; [vm_compute; reflexivity|]. split.
  - intros d q. apply done_wf; [repeat constructor; unfold is_u8; lia|vm_compute; discriminate].
  - split; (split; [unfold is_u16; lia|lia]).
Qed.

(** The other messages of parameter objects, with any session: the number of
    the parameter, its flags, and at the end its size, type and name. An object
    that is not read completely is not said to be. *)
Theorem C97_attributes : forall W h use8 (si : session_if W) id full w l o w' l', is_u16 id ->
  param_logged h use8 si id full (w, l) = (o, (w', l')) ->
  exists lg, l' = l ++ lg /\ debug_told id o (at_level DEBUG lg).
Proof. exact @param_debugs. Qed.
Print Assumptions C97_attributes.
Example C97_attributes_example : exists p, debug_told 7 (Ok p)
  (at_level DEBUG (param_log [done [2]; done param_reply; done [1; 0]; done [1; 0]; done [1; 0]; done [0; 0]])) /\ pa_scalable p = true.
Proof.
  destruct (param_logged strict false (served 7 scripted) 7 true (([done [2]; done param_reply; done [1; 0]; done [1; 0]; done [1; 0]; done [0; 0]], []), []))
    as [o [w l]] eqn:E.
  destruct (C97_attributes _ _ _ _ 7 _ _ _ _ _ _ ltac:(unfold is_u16; lia) E) as (lg & L & T).
  unfold param_log. rewrite E. cbn [snd]. vm_compute in E. injection E as <- _ <-. cbn [app] in L. subst lg. eexists. split; [exact T|reflexivity].
Qed.

(** With any session: a call of the fault manager that returns has counted the
    faults it has given to the listener. *)
Theorem C97_count : forall W h use8 (si : session_if W) clear want c w l o c' w' l',
  handle_logged h use8 si clear want (c, (w, l)) = (o, (c', (w', l'))) ->
  exists new lg, c' = c ++ new /\ l' = l ++ lg /\ count_told new o (filter is_count lg).
Proof. exact @handle_counts. Qed.
Print Assumptions C97_count.
(** One fault (code 4), no second; the queue is cleared. *)
Example C97_faults_example :
  let '(o, (c, (_, l))) := handle_logged strict false (served 7 scripted) true false ([], (([done [4; 0]; done [0; 0]; done []], []), [])) in
  o = Ok tt /\ List.length c = 1%nat
  /\ l = [(INFO, "Send request: service=0xe epath=[classId=15 objectId=7 attributeId=1]");
          (INFO, "Send request: service=0xe epath=[classId=15 objectId=8 attributeId=1]");
          (INFO, "There read 1 faults in the queue");
          (INFO, "Send request: service=0x10 epath=[classId=151 objectId=0 attributeId=3]")]%string.
Proof. vm_compute. repeat split. Qed.

(** The Yaskawa router. *)
Theorem C97_yaskawa : forall D h handle (dev : device D) service c n a data d tr l o d' tr' l',
  is_u32 handle -> device_wf dev -> 0 <= service < 128 -> is_u8 c -> is_u8 n -> is_u8 a -> is_bytes data -> zlen data <= 60000 ->
  ysend_logged h (served handle dev) service (ypath3 c n a) data [] ((d, tr), l) = (o, ((d', tr'), l')) ->
  exists m x, l' = l ++ [m] /\ tr' = tr ++ [(mkReq service [(KClass, c); (KInst, n); (KAttr, a)] data, x)]
  /\ tells_request m (mkReq service [(KClass, c); (KInst, n); (KAttr, a)] data)
  /\ ysend_request h (served handle dev) service (ypath3 c n a) data [] (d, tr) = (o, (d', tr')).
Proof. exact @yaskawa_told. Qed.
Print Assumptions C97_yaskawa.
Example C97_yaskawa_example :
  snd (snd (ysend_logged strict (served 7 scripted) 14 (ypath3 4 100 3) [] [] (([done [1]], []), [])))
  = [(INFO, "Send request: service=0xe epath=[classId=4 objectId=100 attributeId=3]"%string)].
Proof. vm_compute. reflexivity. Qed.

(** Full claim: every refusal a client gets is in the log. It is not true of file
    objects: the state is refused, an exception is thrown, nothing is said. *)
Theorem C97_sync_refuted : exists answers o d' tr' l',
  file_open_logged strict false (served 7 scripted) 258 ((answers, []), []) = (o, ((d', tr'), l'))
  /\ o = Throw (RuntimeError RtRequestFailed) /\ map (fun x => a_status (snd x)) tr' = [8] /\ at_level ERROR l' = [].
Proof. exists [failed 8]. eexists _, _, _, _. split; [vm_compute; reflexivity|]. repeat split. Qed.
Print Assumptions C97_sync_refuted.
(** Full claim: the log shows the request that was sent. With 8-bit segments it
    does not if the number does not fit: the log says 258, the adapter is asked
    for 2. *)
Theorem C97_segments_refuted : exists n answers o d' q a m, is_u16 n
  /\ fault_object_logged strict true (served 7 scripted) n ((answers, []), []) = (o, ((d', [(q, a)]), [m])) /\ a_status a = 0
  /\ ~ tells_request m q /\ q_path q = [(KClass, 151); (KInst, 2); (KAttr, 0)]
  /\ m = (INFO, "Send request: service=0xe epath=[classId=151 objectId=258 attributeId=0]"%string).
Proof.
  exists 258, [done (zeros 30)]. eexists _, _, _, _, _. split; [unfold is_u16; lia|]. split; [vm_compute; reflexivity|].
  split; [reflexivity|]. split; [exact segments_wrong|]. split; reflexivity.
Qed.
Print Assumptions C97_segments_refuted.
(** Full claim: every fault given to the listener is counted in the log. It is
    not if a later request is refused. *)
Theorem C97_count_refuted : exists l o c' w' l',
  handle_logged strict false (served 7 scripted) true false ([], ((l, []), [])) = (o, (c', (w', l')))
  /\ List.length c' = 1%nat /\ filter is_count l' = [].
Proof. exists [done [4; 0]; failed 8]. eexists _, _, _, _. split; [vm_compute; reflexivity|]. split; reflexivity. Qed.
Print Assumptions C97_count_refuted.
