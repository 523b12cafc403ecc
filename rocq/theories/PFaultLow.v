(** Proofs about the fault manager when there is not enough memory. *)
From Verif Require Import Base MBuffer SBuffer MEip SEip SObj MFile MIdent MParam MFault SFault MMem MLow SLow PLow MFileLow SFileLow MFaultLow SFaultLow.
Local Open Scope Z_scope.
Ltac inv H := inversion H; subst; clear H.

Section Sim.
Variables info error : bool.
Variable h : heap.
Variable use8 : bool.
Context {W : Type}.
Variable si : session_if W.
Variable req : Z -> epath -> bytes -> low W response.
Hypothesis R : asks_as h use8 si req.

Lemma sim_refused {A} : sim (@fm_refused error W A) (st_throw (RuntimeError RtRequestFailed)).
Proof. apply sim_skip; [apply sim_message|]. intros []. apply sim_skip; [apply sim_need|]. intros []. apply sim_lift. Qed.
Lemma sim_asks service path data : sim (req service path data) (send_request h si use8 service path data []).
Proof. intros fs w. exact (R service path data fs w). Qed.
Lemma sim_detail n : sim (fm_detail error h req n) (fault_detail h use8 si n).
Proof.
  apply (sim_ext _ (st_bind (send_request h si use8 GET_ATTRIBUTE_SINGLE (epath3 15 n 1) [] []) (fun r =>
    if r_status r =? GSC_SUCCESS then st_lift (omap fst (get_u16 h (buf_of (r_data r)))) else st_throw (RuntimeError RtRequestFailed)))).
  - apply sim_bind; [apply sim_asks|]. intros r. destruct (r_status r =? GSC_SUCCESS); [|apply sim_refused].
    apply sim_skip; [apply sim_need|]. intros []. apply sim_lift.
  - intros w. unfold fault_detail, ask, st_bind. destruct (send_request h si use8 GET_ATTRIBUTE_SINGLE (epath3 15 n 1) [] [] w) as [[r|e|u|] w1]; cbn [bind]; try reflexivity.
    now destruct (r_status r =? GSC_SUCCESS).
Qed.
Lemma sim_read number want : sim (fm_read error h req number want) (fault_read h use8 si number want).
Proof.
  unfold fm_read, fault_read. destruct (fault_params number) as [[[[a b] c] d]|].
  - apply sim_bind; [apply sim_detail|]. intros code. destruct (negb (code =? 0) && want); [|apply sim_ret].
    do 3 (apply sim_bind; [apply sim_detail|]; intros ?). apply sim_skip; [apply sim_need|]. intros []. apply sim_ret.
  - apply sim_skip; [apply sim_need|]. intros []. apply sim_lift.
Qed.
Lemma sim_command c : sim (fm_command error req c) (write_command h use8 si c).
Proof.
  apply (sim_ext _ (st_bind (send_request h si use8 SET_ATTRIBUTE_SINGLE (epath3 DPI_FAULT_CLASS_ID 0 3) (bdata (put_u8 buf_new c)) []) (fun r =>
    if negb (r_status r =? GSC_SUCCESS) then st_throw (RuntimeError RtRequestFailed) else st_ret tt))).
  - apply sim_skip; [apply sim_need|]. intros []. apply sim_bind; [apply sim_asks|]. intros r. destruct (negb _); [apply sim_refused|apply sim_ret].
  - intros w. unfold write_command, st_bind. destruct (send_request h si use8 SET_ATTRIBUTE_SINGLE _ _ [] w) as [[r|e|u|] w1]; cbn [bind]; try reflexivity.
    now destruct (negb _).
Qed.
Lemma sim_up {A} (L : low W A) M : sim L M -> sim (fm_lift L) (lift M).
Proof.
  intros H fs [c w]. destruct (H fs w) as [A1 B]. unfold fm_lift, lift. split.
  - intros o fs' w' E N. destruct (L (fs, w)) as [o1 [f1 w1]]. inv E. now rewrite (A1 _ _ _ eq_refl N).
  - intros En. destruct (B En) as (f1 & X & ->). exists f1. split; [exact X|]. now destruct (M w).
Qed.
Lemma sim_faults want : forall n number, sim (fm_loop error h req want number n) (fault_loop h use8 si want number n).
Proof.
  induction n as [|n IH]; intros number; cbn [fm_loop fault_loop]; [apply sim_ret|].
  apply sim_bind; [apply sim_up, sim_read|]. intros f. destruct (fd_code (fa_details f) =? 0); [apply sim_ret|].
  apply sim_skip; [apply sim_need|]. intros []. apply sim_skip; [apply sim_need|]. intros [].
  apply sim_bind; [apply sim_lift|]. intros d. apply sim_bind; [apply sim_lift|]. intros []. apply sim_bind; [apply IH|]. intros k. apply sim_ret.
Qed.
Lemma sim_handle clear want : sim (fm_handle info error h req clear want) (handle_faults h use8 si clear want).
Proof.
  apply sim_skip; [apply sim_need|]. intros []. apply sim_bind; [apply sim_faults|]. intros k.
  apply sim_skip; [destruct (Nat.ltb 0 k); [apply sim_message|apply sim_ret]|]. intros []. destruct (clear && _); [apply sim_up, sim_command|apply sim_ret].
Qed.

(** the main model only adds to the calls *)
Lemma loop_adds want : forall n number c w, exists l, fst (snd (fault_loop h use8 si want number n (c, w))) = c ++ l.
Proof.
  induction n as [|n IH]; intros number c w; cbn [fault_loop]; [exists []; now rewrite app_nil_r|].
  unfold st_bind at 1, lift. destruct (fault_read h use8 si number want w) as [[f|e|u|] w1]; try (exists []; now rewrite app_nil_r).
  destruct (fd_code _ =? 0); [exists []; now rewrite app_nil_r|]. unfold st_bind at 1, st_lift.
  destruct (fault_description _) as [d|e|u|]; try (exists []; now rewrite app_nil_r). unfold st_bind at 1, notify. unfold st_bind.
  destruct (IH (number + 1) (c ++ [mkFault (fa_details f) d]) w1) as [l E].
  destruct (fault_loop h use8 si want (number + 1) n _) as [[k|e|u|] [c2 w2]]; cbn [fst snd st_ret] in *; subst c2;
    (exists (mkFault (fa_details f) d :: l); now rewrite <- app_assoc).
Qed.
Lemma loop_prefix want : forall n number c w fs r fs' c' w', fm_loop error h req want number n (fs, (c, w)) = (r, (fs', (c', w'))) ->
  exists rest, fst (snd (fault_loop h use8 si want number n (c, w))) = c' ++ rest.
Proof.
  induction n as [|n IH]; intros number c w fs r fs' c' w' E.
  { inv E. exists []. now rewrite app_nil_r. }
  assert (D : forall c1, c1 = c -> exists rest, fst (snd (fault_loop h use8 si want number (Datatypes.S n) (c, w))) = c1 ++ rest).
  { intros c1 ->. apply loop_adds. }
  cbn [fm_loop] in E. unfold l_bind at 1, fm_lift in E.
  destruct (sim_read number want fs w) as [Hr _].
  destruct (fm_read error h req number want (fs, w)) as [[o|] [f1 w1]]; [|inv E; now apply D].
  destruct o as [f|e|u|]; try (inv E; now apply D). specialize (Hr _ _ _ eq_refl).
  destruct (fd_code (fa_details f) =? 0) eqn:Z0; [inv E; now apply D|].
  unfold l_bind at 1, l_need in E. destruct (hd false f1); [inv E; now apply D|]. unfold l_bind at 1 in E. destruct (hd false (tl f1)); [inv E; now apply D|].
  unfold l_bind at 1, l_lift, st_lift in E. destruct (fault_description _) as [d|e|u|] eqn:Fd; try (inv E; now apply D). clear D.
  cbn [fault_loop]. unfold st_bind at 1, lift. rewrite Hr, Z0 by discriminate. unfold st_bind at 1, st_lift. rewrite Fd.
  unfold l_bind at 1, notify in E. unfold st_bind at 1, notify. unfold st_bind at 1.
  unfold l_bind in E. destruct (fm_loop error h req want (number + 1) n _) as [r1 [f2 [c2 w2]]] eqn:E1.
  assert (Ec : c' = c2) by (destruct r1 as [[k|e|u|]|]; now inv E). subst c2. destruct (IH _ _ _ _ _ _ _ _ E1) as [rest X]. exists rest.
  destruct (fault_loop h use8 si want (number + 1) n _) as [[k|e|u|] [c3 w3]]; exact X.
Qed.
(** the calls of the whole are those of the loop *)
Lemma handle_calls clear want c w : fst (snd (handle_faults h use8 si clear want (c, w))) = fst (snd (fault_loop h use8 si want 1 10 (c, w))).
Proof.
  unfold handle_faults, st_bind. destruct (fault_loop h use8 si want 1 10 (c, w)) as [[k|e|u|] [c1 w1]]; try reflexivity.
  destruct (clear && _); [|reflexivity]. unfold lift. now destruct (write_command _ _ _ _ w1).
Qed.
Lemma handle_parts clear want fs c w r fs' c' w' : fm_handle info error h req clear want (fs, (c, w)) = (r, (fs', (c', w'))) ->
  exists rest, fst (snd (handle_faults h use8 si clear want (c, w))) = c' ++ rest.
Proof.
  rewrite handle_calls. unfold fm_handle. unfold l_bind at 1, l_need. destruct (hd false fs); [intros E; inv E; apply loop_adds|].
  unfold l_bind at 1. destruct (fm_loop error h req want 1 10 (tl fs, (c, w))) as [r1 [f1 [c1 w1]]] eqn:E1.
  pose proof (loop_prefix _ _ _ _ _ _ _ _ _ _ E1) as P. intros E. enough (c' = c1) as -> by exact P.
  destruct r1 as [[k|e|u|]|]; try now inv E. unfold l_bind, l_message, l_ret in E.
  destruct (Nat.ltb 0 k), info, (hd false f1), clear; cbn [andb] in E; unfold fm_lift in E; try (now inv E);
    destruct (fm_command _ _ _ _) as [? [? ?]]; now inv E.
Qed.
End Sim.

(** ** with notes *)
Notation note := (Z * epath * bytes)%type.
Section Gen.
Context {X X' : Type}.
Variable ins : list note -> X -> X'.
(** the same with notes of requests for which [P] holds *)
Definition notes {A} (P : note -> Prop) (L : low X A) (L' : low X' A) : Prop :=
  forall fs l x, exists new, Forall P new /\ L' (fs, ins l x) = (let '(r, (fs', x')) := L (fs, x) in (r, (fs', ins (l ++ new) x'))).
Lemma notes_none {A} P (L : low X A) L' : (forall fs l x, L' (fs, ins l x) = (let '(r, (fs', x')) := L (fs, x) in (r, (fs', ins l x')))) -> notes P L L'.
Proof. intros H fs l x. exists []. split; [constructor|]. rewrite H. destruct (L (fs, x)) as [r [f1 w1]]. now rewrite app_nil_r. Qed.
Lemma notes_bind {A B} P (L : low X A) L' (k : A -> low X B) k' : notes P L L' -> (forall a, notes P (k a) (k' a)) -> notes P (l_bind L k) (l_bind L' k').
Proof.
  intros H K fs l x. destruct (H fs l x) as (n1 & F1 & E1). unfold l_bind. rewrite E1. destruct (L (fs, x)) as [[[a|e|u|]|] [f1 w1]]; try (exists n1; now split).
  destruct (K a f1 (l ++ n1) w1) as (n2 & F2 & ->). exists (n1 ++ n2). split; [now apply Forall_app|]. destruct (k a (f1, w1)) as [r [f2 w2]]. now rewrite app_assoc.
Qed.
Lemma notes_ret {A} P (a : A) : notes P (l_ret a) (l_ret a). Proof. now apply notes_none. Qed.
Lemma notes_need P : notes P l_need l_need. Proof. now apply notes_none. Qed.
Lemma notes_message P b : notes P (l_message b) (l_message b). Proof. apply notes_none. intros fs l w. unfold l_message. now destruct b. Qed.
Lemma notes_lift {A} P (o : outcome A) : notes P (l_lift (st_lift o)) (l_lift (st_lift o)). Proof. now apply notes_none. Qed.
Lemma notes_throw {A} P e : notes P (l_lift (@st_throw _ A e)) (l_lift (st_throw e)). Proof. now apply notes_none. Qed.
End Gen.
Section Notes.
Variables info error : bool.
Variable h : heap.
Context {W : Type}.
Variable req : Z -> epath -> bytes -> low W response.
Notation ins1 := (fun (l : list note) (w : W) => (l, w)).
Notation ins2 := (fun (l : list note) (x : list fault * W) => (fst x, (l, snd x))).
Lemma notes_req (P : note -> Prop) service path data : P (service, path, data) -> notes ins1 P (req service path data) (noted req service path data).
Proof.
  intros H fs l w. exists [(service, path, data)]. split; [now constructor|]. unfold noted. now destruct (req service path data (fs, w)) as [o [f1 w1]].
Qed.
Lemma notes_refused {A} P : notes ins1 P (@fm_refused error W A) (fm_refused error).
Proof. apply notes_bind; [apply notes_message|]. intros []. apply notes_bind; [apply notes_need|]. intros []. apply notes_throw. Qed.
Lemma notes_detail n : notes ins1 reads (fm_detail error h req n) (fm_detail error h (noted req) n).
Proof.
  apply notes_bind; [now apply notes_req|]. intros r. destruct (_ =? _); [|apply notes_refused]. apply notes_bind; [apply notes_need|]. intros []. apply notes_lift.
Qed.
Lemma notes_read number want : notes ins1 reads (fm_read error h req number want) (fm_read error h (noted req) number want).
Proof.
  unfold fm_read. destruct (fault_params number) as [[[[a b] c] d]|].
  - apply notes_bind; [apply notes_detail|]. intros code. destruct (_ && _); [|apply notes_ret].
    do 3 (apply notes_bind; [apply notes_detail|]; intros ?). apply notes_bind; [apply notes_need|]. intros []. apply notes_ret.
  - apply notes_bind; [apply notes_need|]. intros []. apply notes_throw.
Qed.
Lemma notes_up {A} P (L : low W A) L' : notes ins1 P L L' -> notes ins2 P (fm_lift L) (fm_lift L').
Proof.
  intros H fs l [c w]. destruct (H fs l w) as (n & F & E). exists n. split; [exact F|]. unfold fm_lift. cbn [fst snd]. rewrite E. now destruct (L (fs, w)) as [r [f1 w1]].
Qed.
Lemma notes_loop want : forall n number, notes ins2 reads (fm_loop error h req want number n) (fm_loop error h (noted req) want number n).
Proof.
  induction n as [|n IH]; intros number; cbn [fm_loop]; [apply notes_ret|].
  apply notes_bind; [apply notes_up, notes_read|]. intros f. destruct (_ =? 0); [apply notes_ret|].
  apply notes_bind; [apply notes_need|]. intros []. apply notes_bind; [apply notes_need|]. intros []. apply notes_bind; [apply notes_lift|]. intros d.
  apply notes_bind; [|intros []; apply notes_bind; [apply IH|]; intros k; apply notes_ret].
  apply notes_none. now intros fs l [c w].
Qed.
Lemma command_note c fs l w r fs' l' w' : fm_command error (noted req) c (fs, (l, w)) = (r, (fs', (l', w'))) ->
  l' = l \/ l' = l ++ [(SET_ATTRIBUTE_SINGLE, epath3 DPI_FAULT_CLASS_ID 0 3, bdata (put_u8 buf_new c))].
Proof.
  unfold fm_command. unfold l_bind at 1, l_need. destruct (hd false fs); [intros E; inv E; now left|]. unfold l_bind at 1, noted.
  destruct (req _ _ _ (tl fs, w)) as [o [f1 w1]]. intros E. right. destruct o as [[x|e|u|]|]; try now inv E. destruct (negb _); [|now inv E].
  unfold fm_refused, l_bind, l_message, l_need, l_lift, st_throw in E. destruct error; repeat match type of E with context [hd false ?y] => destruct (hd false y) end; now inv E.
Qed.
Lemma handle_notes use8 (si : session_if W) clear want fs w r fs' c' l' w' : asks_as h use8 si req ->
  fm_handle info error h (noted req) clear want (fs, ([], ([], w))) = (r, (fs', (c', (l', w')))) ->
  exists rs last, l' = rs ++ last /\ Forall reads rs
  /\ (last = [] \/ last = [(SET_ATTRIBUTE_SINGLE, epath3 DPI_FAULT_CLASS_ID 0 3, [CLEAR_FAULT_QUEUE])] /\ clear = true /\ c' <> []
                   /\ c' = fst (snd (handle_faults h use8 si clear want ([], w)))).
Proof.
  intros R E. unfold fm_handle in E. unfold l_bind at 1, l_need in E. destruct (hd false fs).
  { inv E. exists [], []. split; [reflexivity|]. split; [constructor|now left]. }
  unfold l_bind at 1 in E. destruct (notes_loop want 10 1 (tl fs) [] ([], w)) as (rs & F & E1). cbn [fst snd] in E1. rewrite E1 in E. clear E1.
  destruct (fm_loop error h req want 1 10 (tl fs, ([], w))) as [o [f1 [c1 w1]]] eqn:E1. cbn [fst snd app] in E.
  assert (Q : l' = rs -> exists rs0 last, l' = rs0 ++ last /\ Forall reads rs0
    /\ (last = [] \/ last = [(SET_ATTRIBUTE_SINGLE, epath3 DPI_FAULT_CLASS_ID 0 3, [CLEAR_FAULT_QUEUE])] /\ clear = true /\ c' <> []
                   /\ c' = fst (snd (handle_faults h use8 si clear want ([], w))))).
  { intros ->. exists rs, []. rewrite app_nil_r. split; [reflexivity|]. split; [exact F|now left]. }
  destruct o as [[k|e|u|]|]; try (inv E; now apply Q).
  assert (M : forall f2 (r2 : mres unit) x2, (if clear && Nat.ltb 0 k then fm_lift (fm_command error (noted req) CLEAR_FAULT_QUEUE) else l_ret tt) (f2, (c1, (rs, w1))) = (r2, x2) ->
    (r, (fs', (c', (l', w')))) = (r2, x2) -> exists rs0 last, l' = rs0 ++ last /\ Forall reads rs0
    /\ (last = [] \/ last = [(SET_ATTRIBUTE_SINGLE, epath3 DPI_FAULT_CLASS_ID 0 3, [CLEAR_FAULT_QUEUE])] /\ clear = true /\ c' <> []
                   /\ c' = fst (snd (handle_faults h use8 si clear want ([], w))))).
  { intros f2 r2 x2 E2 Q2. inv Q2. destruct (clear && Nat.ltb 0 k) eqn:CK; [|inv E2; now apply Q]. apply andb_true_iff in CK as [C K]. unfold fm_lift in E2.
    destruct (fm_command error (noted req) CLEAR_FAULT_QUEUE (f2, (rs, w1))) as [r3 [f3 [l3 w3]]] eqn:E3. inv E2.
    destruct (command_note _ _ _ _ _ _ _ _ E3) as [->| ->]; [now apply Q|]. exists rs. eexists. split; [reflexivity|]. split; [exact F|right]. split; [reflexivity|]. split; [reflexivity|].
    rewrite handle_calls. destruct (sim_faults error h use8 si req R want 10 1 (tl fs) ([], w)) as [S _]. rewrite (S _ _ _ E1) by discriminate. split; [|reflexivity].
    apply Nat.ltb_lt in K. intros ->. pose proof (S _ _ _ E1 ltac:(discriminate)) as S1.
    assert (G : forall n number c w0 k0 c2 w2, fault_loop h use8 si want number n (c, w0) = (Ok k0, (c2, w2)) -> List.length c2 = (List.length c + k0)%nat).
    { clear. induction n as [|n IH]; intros number c w0 k0 c2 w2 E; cbn [fault_loop] in E; [inv E; lia|].
      unfold st_bind at 1, lift in E. destruct (fault_read h use8 si number want w0) as [[f|e|u|] w1]; try discriminate.
      destruct (fd_code _ =? 0); [inv E; lia|]. unfold st_bind at 1, st_lift in E. destruct (fault_description _) as [d|e|u|]; try discriminate.
      unfold st_bind at 1, notify in E. unfold st_bind in E.
      destruct (fault_loop h use8 si want (number + 1) n _) as [[k1|e|u|] [c3 w3]] eqn:E1; try discriminate. inv E. rewrite (IH _ _ _ _ _ _ E1), app_length. cbn. lia. }
    specialize (G _ _ _ _ _ _ _ S1). cbn in G. lia. }
  unfold l_bind, l_message, l_ret in E. destruct (Nat.ltb 0 k) eqn:K.
  - destruct info; [destruct (hd false f1)|]; [inv E; now apply Q|..].
    + exact (M _ _ _ E eq_refl).
    + exact (M _ _ _ E eq_refl).
  - exact (M _ _ _ E eq_refl).
Qed.
End Notes.

(** ** failing allocations are heeded *)
Lemma heeds_ret {W A} (a : A) : heeds (@l_ret W A a).
Proof. intros fs w b fs' w' E. inv E. exists []. now split. Qed.
Lemma heeds_lift {W A} (M : st W A) : heeds (l_lift M).
Proof. intros fs w b fs' w' E. unfold l_lift in E. destruct (M w) as [o w1]. inv E. exists []. now split. Qed.
Lemma heeds_need {W} : heeds (@l_need W).
Proof.
  intros fs w b fs' w' E. unfold l_need in E. destruct fs as [|[|] r]; cbn in E; inv E; [now exists []|]. exists [false]. split; [reflexivity|repeat constructor].
Qed.
Lemma heeds_message {W} s : heeds (@l_message W s).
Proof.
  intros fs w b fs' w' E. unfold l_message in E. destruct s; [|inv E; now exists []]. destruct fs as [|[|] r]; cbn in E; inv E; [now exists []|].
  exists [false]. split; [reflexivity|repeat constructor].
Qed.
Lemma heeds_bind {W A B} (L : low W A) (k : A -> low W B) : heeds L -> (forall a, heeds (k a)) -> heeds (l_bind L k).
Proof.
  intros H K fs w b fs' w' E. unfold l_bind in E. destruct (L (fs, w)) as [[[a|e|u|]|] [f1 w1]] eqn:E1; try discriminate.
  destruct (H _ _ _ _ _ E1) as (m1 & -> & F1). destruct (K _ _ _ _ _ _ E) as (m2 & -> & F2). exists (m1 ++ m2). split; [now rewrite app_assoc|now apply Forall_app].
Qed.
Lemma heeds_up {W A} (L : low W A) : heeds L -> heeds (fm_lift L).
Proof.
  intros H fs [c w] b fs' w' E. unfold fm_lift in E. destruct (L (fs, w)) as [o [f1 w1]] eqn:E1. inv E. eapply H; eauto.
Qed.
Lemma handle_heeds info error h W (req : Z -> epath -> bytes -> low W response) clear want : (forall service path data, heeds (req service path data)) ->
  heeds (fm_handle info error h req clear want).
Proof.
  intros R.
  assert (X : forall A, heeds (@fm_refused error W A)).
  { intros A. apply heeds_bind; [apply heeds_message|]. intros []. apply heeds_bind; [apply heeds_need|]. intros []. apply heeds_lift. }
  assert (D : forall n, heeds (fm_detail error h req n)).
  { intros n. apply heeds_bind; [apply R|]. intros r. destruct (_ =? _); [|apply X]. apply heeds_bind; [apply heeds_need|]. intros []. apply heeds_lift. }
  assert (Rd : forall n, heeds (fm_read error h req n want)).
  { intros n. unfold fm_read. destruct (fault_params n) as [[[[a b] c] d]|].
    - apply heeds_bind; [apply D|]. intros code. destruct (_ && _); [|apply heeds_ret].
      do 3 (apply heeds_bind; [apply D|]; intros ?). apply heeds_bind; [apply heeds_need|]. intros []. apply heeds_ret.
    - apply heeds_bind; [apply heeds_need|]. intros []. apply heeds_lift. }
  assert (L : forall n number, heeds (fm_loop error h req want number n)).
  { induction n as [|n IH]; intros number; cbn [fm_loop]; [apply heeds_ret|]. apply heeds_bind; [apply heeds_up, Rd|]. intros f. destruct (_ =? 0); [apply heeds_ret|].
    do 2 (apply heeds_bind; [apply heeds_need|]; intros []). apply heeds_bind; [apply heeds_lift|]. intros d. apply heeds_bind; [apply heeds_lift|]. intros [].
    apply heeds_bind; [apply IH|]. intros k. apply heeds_ret. }
  apply heeds_bind; [apply heeds_need|]. intros []. apply heeds_bind; [apply L|]. intros k.
  apply heeds_bind; [destruct (Nat.ltb 0 k); [apply heeds_message|apply heeds_ret]|]. intros []. destruct (clear && _); [|apply heeds_ret].
  apply heeds_up. apply heeds_bind; [apply heeds_need|]. intros []. apply heeds_bind; [apply R|]. intros r. destruct (negb _); [apply X|apply heeds_ret].
Qed.
