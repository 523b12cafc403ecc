(** Properties of the identity and parameter object clients: C56 - C61, C74, C75. *)
From Coq Require Import QArith Qabs SpecFloat.
From Verif Require Import Base MBuffer SBuffer PBase PBuffer PReader PTrunc MEip SEip SObj PObj MFile PFile MIdent MParam SParam
  PParam PParam2 PParam3 PScale SFloat PScale2 PScale3 MReal SReal PReal.
Local Open Scope Z_scope.

(** ** C56 identity attributes *)
Theorem C56_attributes : forall D h use8 handle (dev : device D) n d tr a d' i rest,
  is_u32 handle -> dev d (identity_request 1) = (a, d') -> answer_wf a -> a_status a = 0 ->
  a_data a = ident_bytes i ++ rest -> ident_wf i ->
  exists o, identity_read h use8 (served handle dev) n (d, tr) = (Ok o, (d', tr ++ [(identity_request 1, a)]))
  /\ id_instance o = n /\ shows_identity o i.
Proof. intros D h use8 handle dev n d tr a d' i rest H. exact (identity_reads h use8 handle dev H n d tr a d' i rest). Qed.
Print Assumptions C56_attributes.

Theorem C56_error : forall D h use8 handle (dev : device D) n d tr a d',
  is_u32 handle -> dev d (identity_request 1) = (a, d') -> answer_wf a -> a_status a <> 0 ->
  exists e, identity_read h use8 (served handle dev) n (d, tr)
            = (Throw (RuntimeError e), (d', tr ++ [(identity_request 1, a)])).
Proof. intros D h use8 handle dev n d tr a d' H. exact (identity_error h use8 handle dev H n d tr a d'). Qed.
Print Assumptions C56_error.

Definition demo_ident : ident := mkIdent 1 12 65 2 1 96 3266996192 [80; 111; 119; 101; 114].
Definition fixed (a : answer) : device unit := fun _ _ => (a, tt).
Example C56_example :
  ident_wf demo_ident
  /\ fst (identity_read strict false (served 7 (fixed (done (ident_bytes demo_ident)))) 1 (tt, []))
     = Ok (mkIdentity 1 1 12 65 (mkRev 2 1) 96 3266996192 (mkStr 5 [80; 111; 119; 101; 114])).
Proof.
  split; [|vm_compute; reflexivity].
  unfold ident_wf, demo_ident, is_u16, is_u8, is_u32, is_bytes, zlen; cbn.
  repeat match goal with |- _ /\ _ => split end; try lia. repeat constructor; lia.
Qed.
Example C56_error_example :
  fst (identity_read strict true (served 7 (fixed (failed 8))) 1 (tt, [])) = Throw (RuntimeError RtRequestFailed).
Proof. vm_compute; reflexivity. Qed.

(** An identity made without a session is empty, and after any calls of the
    setters each getter returns what was last set. *)
Theorem C56_setters : forall n l,
  id_instance (fold_left identity_set l (identity_new n)) = n
  /\ shows_identity (fold_left identity_set l (identity_new n)) (ident_of l).
Proof. exact set_shows. Qed.
Print Assumptions C56_setters.
Example C56_setters_example :
  shows_identity (identity_new 3) (mkIdent 0 0 0 0 0 0 0 [])
  /\ ident_of [SetVendor 5; SetName [80]; SetRevision (mkRev 2 1); SetVendor 7; SetSerial 9; SetCode 65; SetType 12; SetStatus 96]
     = mkIdent 7 12 65 2 1 96 9 [80].
Proof. repeat split. Qed.

(** ** C57 identity instance *)

(** The request always names instance 1: the object claims to be instance [n]
    and holds the attributes of instance 1. *)
Theorem C57_refuted : exists n (dev : device unit) o tr, is_u16 n
  /\ dev tt (identity_request n) = (done (ident_bytes (mkIdent 2 2 2 2 2 2 2 [])), tt)
  /\ identity_read strict false (served 7 dev) n (tt, []) = (Ok o, (tt, tr))
  /\ ~ shows_identity o (mkIdent 2 2 2 2 2 2 2 []) /\ ~ In (identity_request n) (map fst tr).
Proof.
  exists 2, (fun _ q => (done (match q with
                               | mkReq 1 [(KClass, 1); (KInst, 2)] [] => ident_bytes (mkIdent 2 2 2 2 2 2 2 [])
                               | _ => ident_bytes (mkIdent 1 1 1 1 1 1 1 [])
                               end), tt)).
  eexists. eexists. split; [unfold is_u16; lia|]. split; [reflexivity|]. split; [vm_compute; reflexivity|].
  split; [intros (E & _); discriminate E|]. cbn. intros [E|[]]. discriminate E.
Qed.
Print Assumptions C57_refuted.

(** Exactly which requests are made: one, for instance 1, whatever [n] is. *)
Theorem C57_always_one : forall D h use8 handle (dev : device D) n d tr a d',
  is_u32 handle -> dev d (identity_request 1) = (a, d') -> answer_wf a ->
  snd (identity_read h use8 (served handle dev) n (d, tr)) = (d', tr ++ [(identity_request 1, a)]).
Proof.
  intros D h use8 handle dev n d tr a d' H E W.
  rewrite (identity_read_served h use8 handle dev H n d tr a d' E W). reflexivity.
Qed.
Print Assumptions C57_always_one.
Example C57_example :
  snd (identity_read strict false (served 7 (fixed (done [1; 2]))) 500 (tt, [])) = (tt, [(identity_request 1, done [1; 2])]).
Proof. vm_compute; reflexivity. Qed.

(** ** C58 parameter attributes *)
Theorem C58_attributes : forall h use8 handle id full p more tr,
  is_u32 handle -> sendable use8 id -> pdev_wf p -> is_bytes more -> zlen more <= 50000 ->
  exists q, param_read h use8 (served handle (parameter_device id full p more)) id full (tt, tr)
            = (Ok q, (tt, tr ++ parameter_trace id full p more))
  /\ shows_parameter q id full p.
Proof. exact parameter_reads. Qed.
Print Assumptions C58_attributes.

(** An error answer to any of the requests ends the construction with an
    exception; the later requests are not made. *)
Theorem C58_error : forall h use8 handle id full p more T1 q a0 T2 a tr,
  is_u32 handle -> sendable use8 id -> pdev_wf p -> is_bytes more -> zlen more <= 50000 ->
  parameter_trace id full p more = T1 ++ (q, a0) :: T2 -> answer_wf a -> a_status a <> 0 ->
  exists e, param_read h use8 (served handle scripted) id full (map snd T1 ++ [a], tr)
            = (Throw (RuntimeError e), ([], tr ++ T1 ++ [(q, a)])).
Proof.
  intros h use8 handle id full p more T1 q a0 T2 a tr H I P B L E W S0. exists RtRequestFailed.
  exact (parameter_fails h use8 handle id full p more H I P B L T1 q a0 T2 a tr E W S0).
Qed.
Print Assumptions C58_error.

(** a 2-byte parameter in tenths of a Hertz with all the attributes *)
Definition demo_pdev : pdev :=
  mkPdev [10; 0] [32; 15] 22 199 2 [70; 114; 101; 113] [72; 122] [] [0; 0] [255; 255] [1; 0] (repeat 0 16) 1 2 3 (-4) 1.
Lemma demo_wf : pdev_wf demo_pdev.
Proof.
  unfold pdev_wf, demo_pdev, text_wf, is_u16, is_u8, is_s16, zlen; cbn.
  repeat match goal with |- _ /\ _ => split end; try lia; repeat constructor; unfold is_u8; lia.
Qed.
Example C58_example :
  param_read strict false (served 7 (parameter_device 300 true demo_pdev [9])) 300 true (tt, [])
  = (Ok (mkParam 300 true true true 300 [10; 0] 199 [70; 114; 101; 113] [72; 122] [] [0; 0] [255; 255] [1; 0] 1 2 3 (-4) 1 true),
     (tt, parameter_trace 300 true demo_pdev [9]))
  /\ List.length (parameter_trace 300 true demo_pdev [9]) = 6%nat
  /\ fst (param_read strict false (served 7 scripted) 300 true
            ([done [2]; done (all_bytes true demo_pdev []); done [1; 0]; failed 9], []))
     = Throw (RuntimeError RtRequestFailed).
Proof. repeat split; vm_compute; reflexivity. Qed.

(** A parameter made without a session, after any calls of the setters. *)
Theorem C58_setters : forall id full size l,
  made_by_hand (fold_left pa_apply l (param_new id full size)) id full size l.
Proof. exact set_by_hand. Qed.
Print Assumptions C58_setters.
Example C58_setters_example :
  fold_left pa_apply [SetMult 5; SetScalable true; SetPName [65]; SetMult 7; SetOffset (-3); SetPrecision 2] (param_new 9 true 2)
  = mkParam 9 true true false 0 [0; 0] 0 [65] [] [] [0; 0] [0; 0] [0; 0] 7 1 1 (-3) 2 false.
Proof. reflexivity. Qed.

(** ** C59 engineering units *)

(** Over exact numbers: the documented formula and its inverse. *)
Theorem C59_formula : forall p x, pa_scalable p = true ->
  (actual_to_eng exact p x == eng_formula (pa_mult p) (pa_div p) (pa_base p) (pa_offset p) (pa_precision p) x)%Q.
Proof. exact to_eng_formula. Qed.
Print Assumptions C59_formula.
Theorem C59_inverse_partial : forall p x, pa_scalable p = true ->
  pa_mult p <> 0 /\ pa_base p <> 0 /\ pa_div p <> 0 /\ 0 <= pa_precision p -> pa_mult p * pa_base p < 2 ^ 31 ->
  (exists y, eng_to_actual exact p (actual_to_eng exact p x) = Ok y /\ (y == x)%Q)
  /\ (exists y, eng_to_actual exact p x = Ok y /\ (actual_to_eng exact p y == x)%Q).
Proof. intros p x S0 K O. split; [exact (inverse_1 p x S0 K O)|exact (inverse_2 p x S0 K O)]. Qed.
Print Assumptions C59_inverse_partial.
(** In every arithmetic: the identity for parameters that are not scalable. *)
Theorem C59_identity : forall A p (x : num A), pa_scalable p = false ->
  actual_to_eng A p x = x /\ eng_to_actual A p x = Ok x.
Proof. exact identity_any. Qed.
Print Assumptions C59_identity.

Definition scaled (mult dv bs off prec : Z) : param :=
  mkParam 1 true true false 1 [0; 0] 199 [] [] [] [0; 0] [0; 0] [0; 0] mult dv bs off prec true.
Example C59_example :
  (actual_to_eng exact (scaled 1 2 3 (-4) 1) (inject_Z 10) == 9 # 10)%Q
  /\ (exists y, eng_to_actual exact (scaled 1 2 3 (-4) 1) (9 # 10) = Ok y /\ y == inject_Z 10)%Q
  /\ actual_to_eng double (param_new 1 true 2) (of_int double 10) = of_int double 10.
Proof. split; [reflexivity|]. split; [eexists; split; [vm_compute; reflexivity|reflexivity]|]. reflexivity. Qed.

(** In double arithmetic, for values of up to 32 bits and up to 11 decimals:
    the double nearest to the exact value while the product of the numerator
    has at most 53 bits, and in general a relative error below 2^-51. *)
Theorem C59_double_nearest : forall p v, pa_scalable p = true -> attributes_ok p -> Z.abs v < 2 ^ 32 ->
  Z.abs ((v + pa_offset p) * pa_mult p * pa_base p) < 2 ^ 53 ->
  nearest (actual_to_eng double p (of_int double v)) (actual_to_eng exact p (inject_Z v)).
Proof. exact double_nearest. Qed.
Print Assumptions C59_double_nearest.
Theorem C59_double_close : forall p v, pa_scalable p = true -> attributes_ok p -> Z.abs v < 2 ^ 32 ->
  let x := actual_to_eng exact p (inject_Z v) in
  let y := actual_to_eng double p (of_int double v) in
  finite y /\ (Qabs (x - sfq y) <= Qabs x * (1 # 2 ^ 51))%Q.
Proof. exact double_close. Qed.
Print Assumptions C59_double_close.
(** -6/10 is rounded to -0x1.3333333333333p-1 *)
Example C59_double_example : attributes_ok (scaled 1 2 3 (-14) 1)
  /\ actual_to_eng double (scaled 1 2 3 (-14) 1) (of_int double 10) = S754_finite true 5404319552844595 (-53)
  /\ (actual_to_eng exact (scaled 1 2 3 (-14) 1) (inject_Z 10) == -6 # 10)%Q.
Proof. split; [unfold attributes_ok, is_u16, is_s16; cbn; lia|]. split; vm_compute; reflexivity. Qed.

(** There and back in double arithmetic: the number given, up to a relative
    error below 2^-49 (of the number plus the offset). *)
Theorem C59_double_inverse : forall p v, pa_scalable p = true -> attributes_ok p ->
  0 < pa_mult p * pa_base p < 2 ^ 31 -> Z.abs v < 2 ^ 32 ->
  exists r, eng_to_actual double p (actual_to_eng double p (of_int double v)) = Ok r /\ finite r
    /\ (Qabs (inject_Z v - sfq r) <= inject_Z (Z.abs v + Z.abs (pa_offset p)) * (1 # 2 ^ 49))%Q.
Proof. intros p v S0 A M. exact (there_and_back p v (conj S0 (conj A M))). Qed.
Print Assumptions C59_double_inverse.
(** 1 / 49 * 49 *)
Example C59_double_inverse_example : attributes_ok (scaled 1 49 1 0 0)
  /\ eng_to_actual double (scaled 1 49 1 0 0) (actual_to_eng double (scaled 1 49 1 0 0) (of_int double 1))
     = Ok (S754_finite false 9007199254740991 (-53)).
Proof. split; [unfold attributes_ok, is_u16, is_s16; cbn; lia|vm_compute; reflexivity]. Qed.

(** The product of multiplier and base overflows int ... *)
Theorem C59_refuted : exists p, pa_scalable p = true /\ is_u16 (pa_mult p) /\ is_u16 (pa_base p) /\ pa_div p = 1
  /\ forall x : num double, eng_to_actual double p x = Undef UbSignedOverflow.
Proof.
  exists (scaled 65535 1 65535 0 0). cbn. unfold is_u16. repeat split; try lia.
Qed.
Print Assumptions C59_refuted.
Theorem C59_overflow : forall A p (x : num A), pa_scalable p = true -> 2 ^ 31 <= pa_mult p * pa_base p ->
  eng_to_actual A p x = Undef UbSignedOverflow.
Proof. exact overflow_any. Qed.
Print Assumptions C59_overflow.
Example C59_overflow_example : eng_to_actual exact (scaled 32768 1 65535 0 0) (inject_Z 1) = Ok (1 # 2147450880)%Q
  /\ eng_to_actual exact (scaled 32769 1 65535 0 0) (inject_Z 1) = Undef UbSignedOverflow.
Proof. split; vm_compute; reflexivity. Qed.
(** ... and in double arithmetic the inverse is not exact: 1/49*49 is not 1. *)
Theorem C59_inexact_refuted : exists p, pa_scalable p = true /\ pa_mult p = 1 /\ pa_base p = 1 /\ pa_div p = 49
  /\ exists y, eng_to_actual double p (actual_to_eng double p (of_int double 1)) = Ok y /\ y <> of_int double 1.
Proof.
  exists (scaled 1 49 1 0 0). repeat (split; [reflexivity|]).
  eexists. split; [vm_compute; reflexivity|vm_compute; discriminate].
Qed.
Print Assumptions C59_inexact_refuted.

(** ** C60 updateValue *)
Theorem C60_update : forall D h use8 handle (dev : device D) id p d tr a d',
  is_u32 handle -> sendable use8 id -> pa_router p = true -> pa_id p = id ->
  dev d (attribute_request id 1) = (a, d') -> answer_wf a -> a_status a = 0 -> zlen (pa_value p) <= zlen (a_data a) ->
  exists q, update_value h use8 (served handle dev) (p, (d, tr))
            = (Ok tt, (q, (d', tr ++ [(attribute_request id 1, a)])))
  /\ pa_value q = firstn (List.length (pa_value p)) (a_data a) /\ same_but_value p q.
Proof. intros D h use8 handle dev id p d tr a d' H I. exact (update_good h use8 handle dev id H I p d tr a d'). Qed.
Print Assumptions C60_update.
Theorem C60_error : forall D h use8 handle (dev : device D) id p d tr a d',
  is_u32 handle -> sendable use8 id -> pa_router p = true -> pa_id p = id ->
  dev d (attribute_request id 1) = (a, d') -> answer_wf a -> a_status a <> 0 ->
  exists e, update_value h use8 (served handle dev) (p, (d, tr))
            = (Throw (RuntimeError e), (p, (d', tr ++ [(attribute_request id 1, a)]))).
Proof. intros D h use8 handle dev id p d tr a d' H I. exact (update_error h use8 handle dev id H I p d tr a d'). Qed.
Print Assumptions C60_error.
Theorem C60_no_reply : forall W h use8 (si : session_if W) p w e w',
  pa_router p = true -> (forall q, si_exchange si q w = (Throw e, w')) ->
  update_value h use8 si (p, w) = (Throw e, (p, w')).
Proof.
  intros W h use8 si p w e w' R F. unfold update_value. rewrite R. unfold ask, send_request. rewrite F. reflexivity.
Qed.
Print Assumptions C60_no_reply.

Definition demo_param : param := mkParam 300 true true true 300 [10; 0] 199 [70] [72; 122] [] [0; 0] [255; 255] [1; 0] 1 2 3 (-4) 1 true.
Example C60_example :
  fst (snd (update_value strict false (served 7 (fixed (done [7; 8; 9]))) (demo_param, (tt, []))))
  = mkParam 300 true true true 300 [7; 8] 199 [70] [72; 122] [] [0; 0] [255; 255] [1; 0] 1 2 3 (-4) 1 true
  /\ fst (update_value strict false (served 7 (fixed (failed 5))) (demo_param, (tt, []))) = Throw (RuntimeError RtRequestFailed)
  /\ update_value strict false (mkSession 7 (fun _ (w : nat) => (Throw (SystemError 110), S w))) (demo_param, 3%nat)
     = (Throw (SystemError 110), (demo_param, 4%nat)).
Proof. repeat split; vm_compute; reflexivity. Qed.

(** A successful answer with fewer bytes than the value has is not an
    exception but a read outside the reply, and an object built without a
    session has no router to ask. *)
Theorem C60_refuted : exists p a, pa_router p = true /\ answer_wf a /\ a_status a = 0
  /\ fst (update_value strict false (served 7 (fixed a)) (p, (tt, []))) = Undef UbOobRead.
Proof.
  exists demo_param, (done [7]). split; [reflexivity|]. split; [|split; vm_compute; reflexivity].
  apply done_wf; [repeat constructor; unfold is_u8; lia|cbn; lia].
Qed.
Print Assumptions C60_refuted.
Theorem C60_no_router : forall W h use8 (si : session_if W) id full size w,
  update_value h use8 si (param_new id full size, w) = (Undef UbNullDeref, (param_new id full size, w)).
Proof. reflexivity. Qed.
Print Assumptions C60_no_router.
Example C60_no_router_example :
  fst (update_value strict false (served 7 (fixed (done [7; 8; 9]))) (param_new 300 true 2, (tt, []))) = Undef UbNullDeref.
Proof. reflexivity. Qed.

(** ** C61 truncated replies *)

(** Every truncation of an identity reads outside the reply; whatever lies
    behind it, no exception is thrown. *)
Theorem C61_identity_truncated : forall D use8 handle (dev : device D) n d tr a d' i k,
  is_u32 handle -> dev d (identity_request 1) = (a, d') -> answer_wf a -> a_status a = 0 -> ident_wf i ->
  a_data a = firstn k (ident_bytes i) -> (k < List.length (ident_bytes i))%nat ->
  fst (identity_read strict use8 (served handle dev) n (d, tr)) = Undef UbOobRead
  /\ forall h e, fst (identity_read h use8 (served handle dev) n (d, tr)) <> Throw e.
Proof.
  intros D use8 handle dev n d tr a d' i k H E W S0 I A K. split.
  - exact (identity_truncated use8 handle dev n d tr a d' i k H E W S0 I A K).
  - intros h e. exact (identity_short_no_throw h use8 handle dev H n d tr a d' e E W S0).
Qed.
Print Assumptions C61_identity_truncated.

(** The same for the three kinds of reply to a parameter object. *)
Theorem C61_size_missing : forall D use8 handle (dev : device D) id full d tr a d',
  is_u32 handle -> sendable use8 id -> dev d (attribute_request id 6) = (a, d') -> answer_wf a -> a_status a = 0 ->
  a_data a = [] ->
  fst (param_read strict use8 (served handle dev) id full (d, tr)) = Undef UbOobRead.
Proof. exact @size_missing. Qed.
Print Assumptions C61_size_missing.
Theorem C61_attributes_truncated : forall D use8 handle (dev : device D) id full p k d tr a1 d1 a2 d2 rest,
  is_u32 handle -> sendable use8 id -> pdev_wf p ->
  dev d (attribute_request id 6) = (a1, d1) -> answer_wf a1 -> a_status a1 = 0 -> a_data a1 = zlen (d_value p) :: rest ->
  dev d1 (all_request id) = (a2, d2) -> answer_wf a2 -> a_status a2 = 0 ->
  a_data a2 = firstn k (all_bytes full p []) -> (k < List.length (all_bytes full p []))%nat ->
  fst (param_read strict use8 (served handle dev) id full (d, tr)) = Undef UbOobRead.
Proof. exact @attributes_truncated. Qed.
Print Assumptions C61_attributes_truncated.
Theorem C61_scaling_truncated : forall use8 handle id p more a3 a4 a5 a6 tr,
  is_u32 handle -> sendable use8 id -> pdev_wf p -> is_bytes more -> zlen more <= 50000 -> d_scalable p = true ->
  Forall (fun a => answer_wf a /\ a_status a = 0) [a3; a4; a5; a6] ->
  zlen (a_data a3) + zlen (a_data a4) + zlen (a_data a5) + zlen (a_data a6) < 8 ->
  fst (param_read strict use8 (served handle scripted) id true
         ([done [zlen (d_value p)]; done (all_bytes true p more); a3; a4; a5; a6], tr)) = Undef UbOobRead.
Proof. exact scaling_truncated. Qed.
Print Assumptions C61_scaling_truncated.
Theorem C61_no_exception : forall D h use8 handle (dev : device D) id full d tr e,
  is_u32 handle -> sendable use8 id ->
  (forall d q, answer_wf (fst (dev d q)) /\ a_status (fst (dev d q)) = 0) ->
  fst (param_read h use8 (served handle dev) id full (d, tr)) <> Throw e.
Proof. exact @parameter_no_throw. Qed.
Print Assumptions C61_no_exception.
(** Such a device is [fixed (done [])]; the replies of the theorems above are in [C61_example] below. *)

Theorem C61_refuted : exists i k, ident_wf i /\ (k < List.length (ident_bytes i))%nat
  /\ fst (identity_read strict false (served 7 (fixed (done (firstn k (ident_bytes i))))) 1 (tt, [])) = Undef UbOobRead
  /\ exists p j, pdev_wf p /\ (j < List.length (all_bytes true p []))%nat
  /\ fst (param_read strict false (served 7 scripted) 300 true ([done [zlen (d_value p)]; done (firstn j (all_bytes true p []))], []))
     = Undef UbOobRead.
Proof.
  exists demo_ident, 16%nat. split; [exact (proj1 C56_example)|]. split; [vm_compute; lia|]. split; [vm_compute; reflexivity|].
  exists demo_pdev, 20%nat. split; [exact demo_wf|]. split; [vm_compute; lia|vm_compute; reflexivity].
Qed.
Print Assumptions C61_refuted.

(** with 170s behind the reply, a truncated identity is accepted *)
Example C61_example :
  fst (identity_read strict false (served 7 (fixed (done (firstn 16 (ident_bytes demo_ident))))) 1 (tt, [])) = Undef UbOobRead
  /\ fst (identity_read (fun _ _ => Some 170) false (served 7 (fixed (done (firstn 16 (ident_bytes demo_ident))))) 1 (tt, []))
     = Ok (mkIdentity 1 1 12 65 (mkRev 2 1) 96 3266996192 (mkStr 5 [80; 170; 170; 170; 170]))
  /\ fst (param_read strict false (served 7 scripted) 300 true ([done [2]; done (firstn 20 (all_bytes true demo_pdev []))], []))
     = Undef UbOobRead
  /\ fst (param_read strict false (served 7 scripted) 300 true
        ([done [2]; done (all_bytes true demo_pdev []); done [1; 0]; done [1; 0]; done [1; 0]; done [1]], [])) = Undef UbOobRead
  /\ fst (param_read strict false (served 7 scripted) 300 true ([done []], [])) = Undef UbOobRead.
Proof. repeat split; vm_compute; reflexivity. Qed.

(** ** C74 typed getters *)
Theorem C74_getters : forall h t v rest, in_type t v -> encode_value h t (le (width t) v ++ rest) = Ok v.
Proof. exact encode_value_of. Qed.
Print Assumptions C74_getters.
Theorem C74_engineering : forall A h t p v rest, in_type t v ->
  get_eng A h t p (le (width t) v ++ rest) = Ok (actual_to_eng A p (of_int A v)).
Proof. exact get_eng_le. Qed.
Print Assumptions C74_engineering.
Theorem C74_wide : forall t d, (List.length d < width t)%nat -> encode_value strict t d = Undef UbOobRead.
Proof. exact encode_short. Qed.
Print Assumptions C74_wide.
Theorem C74_refuted : exists t d, d = pa_value demo_param /\ encode_value strict t d = Undef UbOobRead.
Proof. exists IU32, [10; 0]. split; reflexivity. Qed.
Print Assumptions C74_refuted.
Example C74_example : encode_value strict IS16 [254; 255] = Ok (-2) /\ encode_value strict IU16 [254; 255] = Ok 65534
  /\ encode_value strict IU32 [254; 255] = Undef UbOobRead
  /\ omap (fun x => Qeq_bool x (-9 # 10)) (get_eng exact strict IS16 (scaled 1 2 3 (-4) 1) [254; 255]) = Ok true.
Proof. repeat split; vm_compute; reflexivity. Qed.

(** ** C75 limits in engineering units *)

(** Over exact numbers the setters store the integer part of the actual value
    if the type holds it; otherwise the conversion is undefined. *)
Theorem C75_stored : forall t p x a v, eng_to_actual exact p x = Ok a -> integer_part a v -> in_type t v ->
  set_eng exact t p x = Ok (le (width t) v).
Proof. exact set_eng_fits. Qed.
Print Assumptions C75_stored.
Theorem C75_too_big : forall t p x a v, eng_to_actual exact p x = Ok a -> integer_part a v -> ~ in_type t v ->
  set_eng exact t p x = Undef UbFloatToInt.
Proof. exact set_eng_too_big. Qed.
Print Assumptions C75_too_big.
(** The engineering value of a number of the type is stored as that number and
    only the chosen limit changes. *)
Theorem C75_round_trip_partial : forall t p x v,
  (pa_scalable p = true -> (pa_mult p <> 0 /\ pa_base p <> 0 /\ pa_div p <> 0 /\ 0 <= pa_precision p)
                           /\ pa_mult p * pa_base p < 2 ^ 31) ->
  in_type t v -> (x == actual_to_eng exact p (inject_Z v))%Q ->
  (exists q, set_eng_min exact t p x = Ok q /\ encode_value strict t (pa_min q) = Ok v
     /\ pa_max q = pa_max p /\ pa_default q = pa_default p /\ same_but_limits p q)
  /\ (exists q, set_eng_max exact t p x = Ok q /\ encode_value strict t (pa_max q) = Ok v
     /\ pa_min q = pa_min p /\ pa_default q = pa_default p /\ same_but_limits p q)
  /\ (exists q, set_eng_default exact t p x = Ok q /\ encode_value strict t (pa_default q) = Ok v
     /\ pa_min q = pa_min p /\ pa_max q = pa_max p /\ same_but_limits p q).
Proof.
  intros t p x v S0 T E. pose proof (set_eng_roundtrip t p x v S0 T E) as R.
  pose proof (encode_value_of strict t v [] T) as G. rewrite app_nil_r in G.
  unfold set_eng_min, set_eng_max, set_eng_default. rewrite R. cbn [omap bind].
  repeat match goal with |- _ /\ _ => split end; eexists; (split; [reflexivity|]); cbn; (split; [exact G|]); repeat split.
Qed.
Print Assumptions C75_round_trip_partial.
(** In double arithmetic the truncation loses whole units: for a parameter in
    hundredths, 0.29 is stored as 28, and for divisor 49 the engineering value
    of 1 is stored as 0. *)
Definition point29 : num double := SFdiv 53 1024 (of_int double 29) (of_int double 100).
Theorem C75_refuted : exists p p',
  set_eng double IU16 p point29 = Ok [28; 0] /\ actual_to_eng double p (of_int double 29) = point29
  /\ set_eng double IU16 p' (actual_to_eng double p' (of_int double 1)) = Ok [0; 0].
Proof. exists (scaled 1 1 1 0 2), (scaled 1 49 1 0 0). repeat split; vm_compute; reflexivity. Qed.
Print Assumptions C75_refuted.
(** That is the worst case: the engineering value of a number is stored as
    that number or as the next one towards zero; of a parameter that is not
    scalable it is stored as the number itself. *)
Theorem C75_double : forall t p v, pa_scalable p = true -> attributes_ok p ->
  0 < pa_mult p * pa_base p < 2 ^ 31 -> Z.abs v < 2 ^ 32 -> in_type t v ->
  exists v', set_eng double t p (actual_to_eng double p (of_int double v)) = Ok (le (width t) v')
    /\ in_type t v' /\ Z.abs v' <= Z.abs v /\ Z.abs (v - v') <= 1.
Proof. intros t p v S0 A M. exact (set_eng_double t p v (conj S0 (conj A M))). Qed.
Print Assumptions C75_double.
Theorem C75_double_unscaled : forall t p v, pa_scalable p = false -> Z.abs v < 2 ^ 53 -> in_type t v ->
  set_eng double t p (actual_to_eng double p (of_int double v)) = Ok (le (width t) v).
Proof. exact set_eng_unscaled. Qed.
Print Assumptions C75_double_unscaled.
Example C75_double_example : attributes_ok (scaled 1 1 1 (-3) 2) /\ in_type IS16 (-20000)
  /\ set_eng double IS16 (scaled 1 1 1 (-3) 2) (actual_to_eng double (scaled 1 1 1 (-3) 2) (of_int double (-20000)))
     = Ok (le 2 (-20000))
  /\ set_eng double IU16 (param_new 1 true 2) (actual_to_eng double (param_new 1 true 2) (of_int double 40000)) = Ok (le 2 40000).
Proof. split; [unfold attributes_ok, is_u16, is_s16; cbn; lia|]. split; [unfold in_type; cbn; lia|]. split; vm_compute; reflexivity. Qed.
Example C75_example :
  set_eng exact IU16 (scaled 1 1 1 0 2) (29 # 100) = Ok [29; 0] /\ set_eng exact IS8 (scaled 1 1 1 0 0) (-7 # 2) = Ok [253]
  /\ set_eng exact IU8 (scaled 1 1 1 0 0) (256 # 1) = Undef UbFloatToInt.
Proof. repeat split; vm_compute; reflexivity. Qed.

(** ** C74, C75 for REAL and LREAL *)

(** The getters give the number of the IEEE 754 pattern. *)
Theorem C74_real : forall h t neg E F rest, 0 <= E <= rtop t -> 0 <= F < 2 ^ rfrac t ->
  exists f, encode_real h t (le (rwidth t) (pattern t neg E F) ++ rest) = Ok f
    /\ if E =? rtop t then f = if F =? 0 then S754_infinity neg else S754_nan
       else finite f /\ (sfq f == ieee_number t neg E F)%Q.
Proof. exact real_read. Qed.
Print Assumptions C74_real.
(** Engineering values are computed from exactly that number. *)
Theorem C74_real_engineering : forall h t p neg E F rest, 0 <= E < rtop t -> 0 <= F < 2 ^ rfrac t ->
  exists f, get_eng_real h t p (le (rwidth t) (pattern t neg E F) ++ rest) = Ok (actual_to_eng double p f)
    /\ finite f /\ (sfq f == ieee_number t neg E F)%Q.
Proof. exact real_eng. Qed.
Print Assumptions C74_real_engineering.
Theorem C74_real_wide : forall t d, (List.length d < rwidth t)%nat -> encode_real strict t d = Undef UbOobRead.
Proof. exact short_real. Qed.
Print Assumptions C74_real_wide.
(** -0.15625 and 2^-149 *)
Example C74_real_example :
  le 4 (pattern RReal true 124 2097152) = [0; 0; 32; 190] /\ (ieee_number RReal true 124 2097152 == -5 # 32)%Q
  /\ (ieee_number RReal false 0 1 == 1 # 2 ^ 149)%Q
  /\ encode_real strict RReal [0; 0; 32; 190; 7] = Ok (S754_finite true 10485760 (-26))
  /\ get_eng_real strict RReal (param_new 1 true 4) [0; 0; 32; 190] = Ok (S754_finite true 5629499534213120 (-55))
  /\ encode_real strict RLreal [0; 0; 32; 190] = Undef UbOobRead.
Proof. repeat split; vm_compute; reflexivity. Qed.
(** Limits of parameters that are not scalable are stored exactly (also
    infinite ones and both zeros). *)
Theorem C75_real : forall t p neg E F f, pa_scalable p = false ->
  0 <= E <= rtop t -> 0 <= F < 2 ^ rfrac t -> (E = rtop t -> F = 0) ->
  get_eng_real strict t p (le (rwidth t) (pattern t neg E F)) = Ok f ->
  set_eng_real t p f = Ok (le (rwidth t) (pattern t neg E F)).
Proof. exact real_kept. Qed.
Print Assumptions C75_real.
(** Limits that are no number are stored as no number. *)
Theorem C75_nan : forall t p neg F f, pa_scalable p = false -> 0 < F < 2 ^ rfrac t ->
  get_eng_real strict t p (le (rwidth t) (pattern t neg (rtop t) F)) = Ok f ->
  exists neg' F', 0 < F' < 2 ^ rfrac t /\ set_eng_real t p f = Ok (le (rwidth t) (pattern t neg' (rtop t) F')).
Proof. exact nan_kept. Qed.
Print Assumptions C75_nan.
Example C75_nan_example : le 4 (pattern RReal true 255 1) = [1; 0; 128; 255]
  /\ get_eng_real strict RReal (param_new 1 true 4) [1; 0; 128; 255] = Ok S754_nan
  /\ set_eng_real RReal (param_new 1 true 4) S754_nan = Ok [0; 0; 192; 127].
Proof. repeat split; vm_compute; reflexivity. Qed.
Example C75_real_example :
  set_eng_real RReal (param_new 1 true 4) (S754_finite true 5629499534213120 (-55)) = Ok [0; 0; 32; 190]
  /\ set_eng_real RReal (param_new 1 true 4) point29 = Ok [225; 122; 148; 62]
  /\ set_eng_real RReal (scaled 1 1 1 0 2) point29 = Ok [0; 0; 232; 65].
Proof. repeat split; vm_compute; reflexivity. Qed.
