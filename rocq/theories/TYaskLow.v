(** Requests with Yaskawa paths when there is not enough memory: C124. *)
From Verif Require Import Base MBuffer SBuffer MEip SEip SObj MYaskawa MSocket SSocket PSocket MMem SMem MLow SLow PLow SSessLow MYaskLow PYaskLow PHost.

(** With enough memory, requests are as in the rest of the model. *)
Theorem C124_enough : forall info warning h p handle service path data extra fs w, enough fs ->
  exists fs', enough fs' /\ ym_request info warning h p handle service path data extra (fs, w)
    = (Done (fst (ysend_request h (live_session h p handle) service path data extra w)),
       (fs', snd (ysend_request h (live_session h p handle) service path data extra w))).
Proof. intros info warning h p handle service path data extra fs w E. now apply (sim_yrequest info warning h p handle service path data extra fs w). Qed.
Print Assumptions C124_enough.
(** Whatever memory there is: a request that is not ended by std::bad_alloc, and does not end the program, ends as there. *)
Theorem C124_ends : forall info warning h p handle service path data extra fs w o fs' w',
  ym_request info warning h p handle service path data extra (fs, w) = (Done o, (fs', w')) -> o <> Abort ->
  ysend_request h (live_session h p handle) service path data extra w = (o, w').
Proof. intros info warning h p handle service path data extra fs w. apply (sim_yrequest info warning h p handle service path data extra fs w). Qed.
Print Assumptions C124_ends.
(** Where every reply has been read, a request that ends has the reply to itself, and every reply has been read again. *)
Theorem C124_next : forall info warning h p reply handle service path data extra fs fs' w w' o, answering p reply -> n_results w = [] -> unread w [] ->
  ym_request info warning h p handle service path data extra (fs, w) = (Done o, (fs', w')) -> o <> Abort ->
  let q := yrequest_packet handle service path data extra in
  o = taken h handle (reply (n_sent w) (encaps_pack q)) /\ unread w' [] /\ sent_now w w' q.
Proof. exact yrequest_next. Qed.
Print Assumptions C124_next.
(** Where a reply has been left unread, a request that ends has that one, and leaves its own unread. *)
Theorem C124_late : forall info warning h p reply handle service path data extra fs fs' w w' o r0, answering p reply -> n_results w = [] -> well_formed r0 ->
  unread w (encaps_pack r0) ->
  ym_request info warning h p handle service path data extra (fs, w) = (Done o, (fs', w')) -> o <> Abort ->
  let q := yrequest_packet handle service path data extra in
  o = taken h handle r0 /\ unread w' (encaps_pack (reply (n_sent w) (encaps_pack q))) /\ sent_now w w' q.
Proof. exact yrequest_late. Qed.
Print Assumptions C124_late.
(** The places where memory can run out, and what each leaves: nothing is sent if the text of the path or the packet cannot
    be made; a message that cannot be copied ends the program; everything else is the exchange (C112) and the reply. *)
Theorem C124_places : forall info warning h p handle service path data extra f0 f1 f2 fs w,
  ym_request info warning h p handle service path data extra (f0 :: f1 :: f2 :: fs, w)
  = told info f0 f1 (f2 :: fs) w (fun r => if hd false r then (NoMemory, (tl r, w))
      else answered h (m_exchange warning h p handle (yrequest_packet handle service path data extra) (tl r, w))).
Proof. exact yrequest_exact. Qed.
Print Assumptions C124_places.

(** A device whose answers say how many packets came before. *)
Definition counts (log : list bytes) (_ : bytes) : encaps := reply_packet 1 14 (mkAns 0 [] [Z.of_nat (List.length log) mod 16]).
Definition counter : peer := fun log data => [Data (encaps_pack (counts log data))].
Lemma counter_answers : answering counter counts.
Proof.
  intros log data. unfold counter. cbn [stream ending_of]. rewrite app_nil_r. split; [|now split].
  unfold counts. apply reply_packet_wf; [unfold is_u32; lia|lia|].
  assert (L : 0 <= Z.of_nat (List.length log) mod 16 < 16) by (apply Z.mod_pos_bound; lia).
  unfold answer_wf, is_u8. cbn [a_status a_addl a_data]. split; [lia|]. split; [constructor|]. split; [reflexivity|].
  split; [repeat constructor; unfold is_u8; lia|cbn; lia].
Qed.
(** Attribute 3 of an assembly. *)
Definition reading (instance : Z) (x : list bool * net) := ym_request false true strict counter 1 14 (ypath3 4 instance 3) [] [] x.
Definition read1 := reading 151 ([false; false; false; true], mkNet [] [] []).
(** An assembly is read without memory for the reply; another one that is read then has the data of the first. *)
Theorem C124_value_refuted : exists p reply fs w1 f1 f2 w2 r, answering p reply
  /\ ym_request false true strict p 1 14 (ypath3 4 151 3) [] [] (fs, mkNet [] [] []) = (NoMemory, (f1, w1))
  /\ ym_request false true strict p 1 14 (ypath3 4 101 3) [] [] ([], w1) = (Done (Ok r), (f2, w2))
  /\ Ok r = taken strict 1 (reply [] (encaps_pack (yrequest_packet 1 14 (ypath3 4 151 3) [] [])))
  /\ Ok r <> taken strict 1 (reply (n_sent w1) (encaps_pack (yrequest_packet 1 14 (ypath3 4 101 3) [] []))).
Proof.
  exists counter, counts, [false; false; false; true], (snd (snd read1)), (fst (snd read1)). do 3 eexists.
  split; [exact counter_answers|]. split; [vm_compute; reflexivity|]. split; [vm_compute; reflexivity|]. split; [vm_compute; reflexivity|].
  intros E. vm_compute in E. discriminate.
Qed.
Print Assumptions C124_value_refuted.
(** The message about a request ends the program, before anything is sent. *)
Theorem C124_message_refuted : exists p reply fs fs' w, answering p reply
  /\ ym_request true true strict p 1 14 (ypath3 4 151 3) [] [] (fs, w) = (Done Abort, (fs', w))
  /\ exists r w', ysend_request strict (live_session strict p 1) 14 (ypath3 4 151 3) [] [] w = (Ok r, w').
Proof.
  exists counter, counts, [false; true], [], (mkNet [] [] []). split; [exact counter_answers|]. split; [reflexivity|]. do 2 eexists. vm_compute. reflexivity.
Qed.
Print Assumptions C124_message_refuted.

(** Hypotheses: the session at its start; after a request whose reply was not read; failures at each place. *)
Example C124_next_case : answering counter counts /\ n_results (mkNet [] [] []) = [] /\ unread (mkNet [] [] []) []
  /\ enough [false; false] /\ exists r x, reading 151 ([false; false], mkNet [] [] []) = (Done (Ok r), x) /\ r_data r = [0].
Proof.
  split; [exact counter_answers|]. split; [reflexivity|]. split; [split; reflexivity|]. split; [intros b [<-|[<-|[]]]; reflexivity|].
  do 2 eexists. split; vm_compute; reflexivity.
Qed.
Example C124_late_case : n_results (snd (snd read1)) = [] /\ well_formed (counts [] [])
  /\ unread (snd (snd read1)) (encaps_pack (counts [] []))
  /\ exists r x, reading 101 ([], snd (snd read1)) = (Done (Ok r), x) /\ r_data r = [0].
Proof.
  split; [vm_compute; reflexivity|]. split; [apply (counter_answers [] [])|]. split; [split; vm_compute; reflexivity|].
  do 2 eexists. split; vm_compute; reflexivity.
Qed.
Example C124_places_case : fst (reading 151 ([true; false; false], mkNet [] [] [])) = NoMemory /\ fst (reading 151 ([false; true; false], mkNet [] [] [])) = NoMemory
  /\ n_sent (snd (snd (reading 151 ([false; true; false], mkNet [] [] [])))) = [].
Proof. repeat split; vm_compute; reflexivity. Qed.
