(** Upload handlers that use the file object: C91. *)
From Verif Require Import Base MBuffer SBuffer PBase MEip SEip SObj PObj MFile SFile PFile MSync SSync PSync MNest SNest PNest.

(** ** C91 handlers that use the file object *)

(** Handlers that make no calls: as described by C51 - C54, C73 and C89. *)
Theorem C91_idle : forall W h use8 (si : session_if W) H n x g s, idle_handlers H ->
  fst (hrun h use8 si H (S n) x (g, s)) = fst (fop_run h use8 si x s)
  /\ snd (snd (hrun h use8 si H (S n) x (g, s))) = snd (fop_run h use8 si x s).
Proof. exact @idle_same. Qed.
Print Assumptions C91_idle.
Example C91_idle_example : @idle_handlers unit (fun _ _ => HDone).
Proof. intros c s. reflexivity. Qed.

(** A call that calls a handler ends as the handler does: with its exception, or
    after the call the handler has made on the object as it then is (an
    exception of that call leaves the handler, too). *)
Theorem C91_called : forall W h use8 (si : session_if W) H n x g f w b f' w' c,
  fop_run h use8 si x (f, w) = (Ok b, (f', w')) -> fo_calls f' = fo_calls f ++ [c] ->
  match H c (f', w') with
  | HDone => snd (hrun h use8 si H (S n) x (g, (f, w))) = (g, (f', w')) /\ fst (hrun h use8 si H (S n) x (g, (f, w))) = Ok b
  | HThrow e => snd (hrun h use8 si H (S n) x (g, (f, w))) = (g, (f', w')) /\ fst (hrun h use8 si H (S n) x (g, (f, w))) = Throw e
  | HDo y k => (forall o s, k o s = match o with Throw e => HThrow e | _ => HDone end) ->
               snd (hrun h use8 si H (S n) x (g, (f, w))) = snd (hrun h use8 si H n y (g, (f', w')))
               /\ fst (hrun h use8 si H (S n) x (g, (f, w))) = omap (fun _ => b) (fst (hrun h use8 si H n y (g, (f', w'))))
  end.
Proof. exact @called. Qed.
Print Assumptions C91_called.
(** An error is told; the handler throws, or makes a transfer. *)
Example C91_called_example :
  let s0 := (mkFile 200 (FUpload 3 2 [] 0 9) [], ([failed 16; done [0; 4; 1; 2; 3; 9; 9]], [])) in
  exists f' w', fop_run strict false (served 1 scripted) FoTransfer s0 = (Ok true, (f', w'))
  /\ fo_calls f' = fo_calls (fst s0) ++ [mkCall 9 16 []]
  /\ fst (hrun strict false (served 1 scripted) (fun _ _ => HThrow OutOfRange) 5 FoTransfer (0%nat, s0)) = Throw OutOfRange
  /\ fo_calls (fst (snd (snd (hrun strict false (served 1 scripted)
        (fun c _ => if hc_status c =? 0 then HDone else HDo FoTransfer (fun o _ => match o with Throw e => HThrow e | _ => HDone end)) 5 FoTransfer (0%nat, s0)))))
     = [mkCall 9 16 []; mkCall 9 0 [1; 2; 3]].
Proof. cbv zeta. do 2 eexists. split; [vm_compute; reflexivity|]. repeat split; vm_compute; reflexivity. Qed.

(** The size of the stack matters only when it is exhausted. *)
Theorem C91_stack : forall W h use8 (si : session_if W) H n x s m, (n <= m)%nat ->
  fst (hrun h use8 si H n x s) <> Abort -> hrun h use8 si H m x s = hrun h use8 si H n x s.
Proof. exact @deeper. Qed.
Print Assumptions C91_stack.

(** Whatever handlers do, when the calls of the user have returned or thrown the
    object and the session are as after a sequence of calls without handlers,
    in which those of the user occur in order. *)
Theorem C91_flat : forall W h use8 (si : session_if W) H n l g s,
  Forall goes_on (fst (hruns h use8 si H n l (g, s))) ->
  exists l' os, within l l' /\ fops_run h use8 si l' s = (os, snd (snd (hruns h use8 si H n l (g, s)))) /\ Forall goes_on os.
Proof. exact @history_flat. Qed.
Print Assumptions C91_flat.
(** Three refusals: the handler asks again each time. *)
Definition patient : list answer := [failed 16; failed 2; failed 16; done [3; 0; 0; 0; 2]; done [0; 4; 1; 2; 3; 9; 9]].
Example C91_flat_example :
  let si := served 1 scripted in let s0 := (mkFile 200 FLoaded [], (patient, [])) in
  let r := hruns strict false si (retry 9) 10 [FoBegin 9; FoTransfer] (0%nat, s0) in
  fst r = [Ok false; Ok false]
  /\ snd (snd r) = snd (fops_run strict false si [FoBegin 9; FoBegin 9; FoBegin 9; FoBegin 9; FoTransfer] s0)
  /\ fo_calls (fst (snd (snd r))) = [mkCall 9 16 []; mkCall 9 2 []; mkCall 9 16 []; mkCall 9 0 [1; 2; 3]]
  /\ fst (hrun strict false si (retry 9) 3 (FoBegin 9) (0%nat, s0)) = Abort
  /\ hrun strict false si (retry 9) 4 (FoBegin 9) (0%nat, s0) = hrun strict false si (retry 9) 10 (FoBegin 9) (0%nat, s0).
Proof. cbv zeta. repeat split; vm_compute; reflexivity. Qed.

(** Full statement: nothing goes wrong that would not go wrong with calls made
    by the user alone ([C91_refuted]: not so). Here for handlers that do not
    synchronise the object, or do so last and make no transfers. *)
Theorem C91_safe_partial : forall W h use8 (si : session_if W) H n x g s u, kind_handlers H ->
  fst (hrun h use8 si H n x (g, s)) = Undef u ->
  exists l os s', fops_run h use8 si l s = (os ++ [Undef u], s').
Proof. exact @kind_safe. Qed.
Print Assumptions C91_safe_partial.
(** A handler that asks again; one that synchronises at the end; a transfer with
    a reply that is too short, made by a handler. *)
Definition closing {W} (c : hcall) (_ : fobj * W) : hact W :=
  if hc_status c =? 0 then HDo FoSync (fun _ _ => HDone) else HDone.
Definition pushing {W} (c : hcall) (_ : fobj * W) : hact W := HDo FoTransfer (fun _ _ => HDone).
Example C91_safe_example :
  @kind_handlers unit (retry 9) /\ @kind_handlers unit closing /\ @kind_handlers unit pushing
  /\ fst (hrun strict false (served 1 scripted) pushing 5 FoTransfer
            (0%nat, (mkFile 200 (FUpload 3 2 [] 0 9) [], ([failed 16; done [0]], [])))) = Undef UbOobRead.
Proof.
  split; [left; intros c s; unfold retry; destruct (_ =? 0); constructor; [discriminate|constructor]|].
  split; [right; intros c s; unfold closing; destruct (_ =? 0); constructor; intros; exact I|].
  split; [left; intros c s; unfold pushing; constructor; [discriminate|constructor]|]. vm_compute. reflexivity.
Qed.

(** Against an adapter that follows the protocol: such handlers meet nothing
    undefined, *)
Theorem C91_adapter : forall h use8 handle id F T crc,
  is_u32 handle -> sendable use8 id -> is_bytes F -> zlen F < 2 ^ 32 -> 1 <= T <= 255 ->
  is_bytes crc -> List.length crc = 2%nat ->
  forall H n l g f k tr u, fo_id f = id -> state_code (fo_state f) <> 5 -> kind_handlers H ->
  ~ In (Undef u) (fst (hruns h use8 (served handle (uploader id F T crc)) H n l (g, (f, (k, tr))))).
Proof. exact nested_safe. Qed.
Print Assumptions C91_adapter.
(** and whatever handlers do, they are told the file or an error, and the file
    at most once per beginUpload, theirs included. *)
Theorem C91_told : forall h use8 handle id F T crc,
  is_u32 handle -> sendable use8 id -> is_bytes F -> zlen F < 2 ^ 32 -> 1 <= T <= 255 ->
  is_bytes crc -> List.length crc = 2%nat ->
  forall H n l g f k tr os g' f' w', fo_id f = id -> state_code (fo_state f) <> 5 ->
  hruns h use8 (served handle (uploader id F T crc)) H n l (g, (f, (k, tr))) = (os, (g', (f', w'))) -> Forall goes_on os ->
  exists l' cs, within l l' /\ fo_id f' = id /\ fo_calls f' = fo_calls f ++ cs /\ Forall (told F) cs
  /\ (List.length (filter succeeded cs) <= List.length (begins l'))%nat
  /\ Forall (fun c => In (hc_handler c) (begins l')) cs.
Proof. exact nested_told. Qed.
Print Assumptions C91_told.
(** A handler that synchronises last, so that the next beginUpload is heard. *)
Example C91_told_example :
  let r := hruns strict false (served 1 (uploader 200 [1; 2; 3] 2 [170; 85])) closing 3
             [FoBegin 9; FoTransfer; FoTransfer; FoBegin 10; FoTransfer; FoTransfer; FoTransfer] (0%nat, (mkFile 200 FLoaded [], (None, []))) in
  fst r = [Ok false; Ok true; Ok false; Ok false; Ok true; Ok false; Ok false]
  /\ fo_calls (fst (snd (snd r))) = [mkCall 9 0 [1; 2; 3]; mkCall 10 0 [1; 2; 3]] /\ fo_state (fst (snd (snd r))) = FLoaded.
Proof. cbv zeta. repeat split; vm_compute; reflexivity. Qed.

(** A handler that begins again when it is refused: one more request for each
    refusal, one handler call for each, and the upload is under way as if it had
    been accepted at once. *)
Theorem C91_retry : forall h use8 handle hid a rest size T more refusals, is_u32 handle ->
  Forall (fun r => answer_wf r /\ a_status r <> 0) refusals -> answer_wf a -> a_status a = 0 -> is_u32 size -> a_data a = le 4 size ++ T :: more ->
  forall n f g tr, sendable use8 (fo_id f) -> fo_state f = FLoaded -> (List.length refusals < n)%nat ->
  hrun h use8 (served handle scripted) (retry hid) n (FoBegin hid) (g, (f, (refusals ++ a :: rest, tr)))
  = (Ok false, (S g, (mkFile (fo_id f) (FUpload size T [] 0 hid) (fo_calls f ++ map (fun r => mkCall hid (a_status r) []) refusals),
                      (rest, tr ++ map (fun r => (initiate_request (fo_id f), r)) (refusals ++ [a]))))).
Proof. exact asks_again. Qed.
Print Assumptions C91_retry.
(** An adapter that goes on refusing exhausts any stack. *)
Theorem C91_for_ever : forall D h use8 handle (dev : device D) hid, is_u32 handle -> device_wf dev ->
  forall n f g d tr, sendable use8 (fo_id f) -> fo_state f = FLoaded -> (forall d, a_status (fst (dev d (initiate_request (fo_id f)))) <> 0) ->
  exists f' d' tr', hrun h use8 (served handle dev) (retry hid) n (FoBegin hid) (g, (f, (d, tr))) = (Abort, (g, (f', (d', tr'))))
  /\ List.length tr' = (List.length tr + n)%nat /\ List.length (fo_calls f') = (List.length (fo_calls f) + n)%nat.
Proof. exact @asks_for_ever. Qed.
Print Assumptions C91_for_ever.
Example C91_for_ever_example : device_wf (fun (_ : unit) _ => (failed 16, tt)) /\ a_status (failed 16) <> 0 /\ sendable false 200 /\ is_u32 1.
Proof.
  split; [intros d q; split; [cbn; unfold is_u8; lia|]; repeat split; try constructor; cbn; lia|]. split; [discriminate|]. split; [split; [unfold is_u16; lia|discriminate]|unfold is_u32; lia].
Qed.

(** A handler called by a transfer that synchronises the object and then makes
    any further call uses itself after it was destroyed. *)
Theorem C91_dangling : forall W h use8 (si : session_if W) H n b b2 f w f' w' c r s2 k y k2 g,
  fop_run h use8 si FoTransfer (f, w) = (Ok b, (f', w')) -> fo_calls f' = fo_calls f ++ c :: r ->
  H c (f', w') = HDo FoSync k -> fop_run h use8 si FoSync (f', w') = (Ok b2, s2) -> k (Ok b2) s2 = HDo y k2 ->
  fst (hrun h use8 si H (S (S n)) FoTransfer (g, (f, w))) = Undef UbDangling.
Proof. exact @dangling. Qed.
Print Assumptions C91_dangling.
(** In particular no handler can fetch the next version of the file itself, with
    an adapter that follows the protocol; the same calls made by the user after
    the transfers are fine. *)
Definition again_at_once {W} (c : hcall) (_ : fobj * W) : hact W :=
  HDo FoSync (fun _ _ => HDo (FoBegin 10) (fun _ _ => HDone)).
Theorem C91_refuted : exists id F T crc (calls : list fop),
  is_bytes F /\ 1 <= T <= 255 /\ is_bytes crc /\ List.length crc = 2%nat
  /\ (let si := served 1 (uploader id F T crc) in
      last (fst (hruns strict false si again_at_once 100 calls (0%nat, (mkFile id FLoaded [], (None, []))))) Abort = Undef UbDangling
      /\ fst (fops_run strict false si (calls ++ [FoSync; FoBegin 10]) (mkFile id FLoaded [], (None, [])))
         = [Ok false; Ok true; Ok false; Ok false; Ok false]).
Proof.
  exists 200, [1; 2; 3], 2, [170; 85], [FoBegin 9; FoTransfer; FoTransfer].
  split; [repeat (apply Forall_cons; [unfold is_u8; lia|]); constructor|]. split; [lia|].
  split; [repeat (apply Forall_cons; [unfold is_u8; lia|]); constructor|]. split; [reflexivity|].
  cbv zeta. split; vm_compute; reflexivity.
Qed.
Print Assumptions C91_refuted.
