(** Proofs: fault listeners that throw or use the session. *)
From Verif Require Import Base MBuffer SBuffer MEip SEip SObj MFile MIdent MParam MFault SFault PFault MFaultCall SFaultCall.
Local Open Scope Z_scope.
Ltac inv H := inversion H; subst; clear H.

Section Any.
Context {W : Type}.
Variables (h : heap) (use8 : bool) (si : session_if W).

Lemma silent_loop listener want : (forall c f (w : W), listener c f w = (Ok tt, w)) ->
  forall n number x, call_loop h use8 si listener want number n x = fault_loop h use8 si want number n x.
Proof.
  intros S. induction n as [|n IH]; intros number [c w]; cbn [call_loop fault_loop]; [reflexivity|]. unfold st_bind at 1. unfold lift.
  symmetry. unfold st_bind at 1. destruct (fault_read h use8 si number want w) as [[f|e|u|] w1]; try reflexivity. destruct (_ =? 0); [reflexivity|].
  unfold st_bind, st_lift. destruct (fault_description _) as [d|e|u|]; try reflexivity. unfold notify, call_listener. rewrite S. now rewrite IH.
Qed.
Lemma silent listener clear want x : (forall c f (w : W), listener c f w = (Ok tt, w)) ->
  call_faults h use8 si listener clear want x = handle_faults h use8 si clear want x.
Proof. intros S. unfold call_faults, handle_faults, st_bind. now rewrite silent_loop. Qed.

Lemma plain_adds want : forall n number c w, exists l, fst (snd (fault_loop h use8 si want number n (c, w))) = c ++ l.
Proof.
  induction n as [|n IH]; intros number c w; cbn [fault_loop]; [exists []; now rewrite !app_nil_r|].
  unfold st_bind at 1, lift. destruct (fault_read h use8 si number want w) as [[f|e|u|] w1]; try (exists []; now rewrite !app_nil_r).
  destruct (fd_code _ =? 0); [exists []; now rewrite !app_nil_r|]. unfold st_bind at 1, st_lift.
  destruct (fault_description _) as [d|e|u|]; try (exists []; now rewrite !app_nil_r). unfold st_bind at 1, notify. unfold st_bind.
  destruct (IH (number + 1) (c ++ [mkFault (fa_details f) d]) w1) as [l E].
  destruct (fault_loop h use8 si want (number + 1) n _) as [[k|e|u|] [c2 w2]]; cbn [fst snd st_ret] in *; subst c2;
    (exists (mkFault (fa_details f) d :: l); now rewrite <- app_assoc).
Qed.
Definition expected {A} (m : st (list fault * W) A) (x : list fault * W) (o : outcome A) (c F t : list fault) (e : option exn) (w1 : W) : Prop :=
  match e with
  | None => t = F /\ m x = (o, (c ++ F, w1))
  | Some e => exists w', m x = (Throw e, (c ++ t, w'))
  end.
Ltac stop E T X Nil := injection E as <- E <-; apply Nil in E; subst; cbn [taken] in T; injection T as <- <-; rewrite app_nil_r; split; reflexivity.
Lemma refusing_loop v want : forall n number c w o F w1 t e, fault_loop h use8 si want number n (c, w) = (o, (c ++ F, w1)) -> taken v c F = (t, e) ->
  expected (call_loop h use8 si (refusing v) want number n) (c, w) o c F t e w1.
Proof.
  assert (Nil : forall (c F : list fault), c = c ++ F -> F = []).
  { intros c F E. apply (app_inv_head c). now rewrite app_nil_r. }
  unfold expected. induction n as [|n IH]; intros number c w o F w1 t e E T.
  { cbn [fault_loop call_loop] in *. unfold st_ret in *. injection E as <- E <-. apply Nil in E. subst F. cbn [taken] in T. injection T as <- <-. rewrite app_nil_r. now split. }
  remember (call_loop h use8 si (refusing v) want number (Datatypes.S n) (c, w)) as res eqn:X. cbn [call_loop] in X. cbn [fault_loop] in E.
  unfold st_bind at 1, lift in E. unfold st_bind at 1, lift in X.
  destruct (fault_read h use8 si number want w) as [[f|x|u|] w2]; try (stop E T X Nil).
  destruct (_ =? 0); [unfold st_ret in *; stop E T X Nil|]. unfold st_bind at 1, st_lift in E. unfold st_bind at 1, st_lift in X.
  destruct (fault_description _) as [d|x|u|]; try (stop E T X Nil).
  unfold st_bind at 1, notify in E. unfold st_bind at 1, call_listener, refusing in X.
  destruct (plain_adds want n (number + 1) (c ++ [mkFault (fa_details f) d]) w2) as [F1 A]. unfold st_bind in E.
  destruct (fault_loop h use8 si want (number + 1) n (c ++ [mkFault (fa_details f) d], w2)) as [o1 [c1 w3]] eqn:E1. cbn [fst snd] in A. subst c1.
  assert (EF : F = mkFault (fa_details f) d :: F1 /\ w1 = w3 /\ o = bind o1 (fun k => Ok (Datatypes.S k))).
  { destruct o1 as [k|x|u|]; unfold st_ret in E; injection E as <- E <-; rewrite <- app_assoc in E; apply app_inv_head in E; now subst. }
  destruct EF as (-> & -> & ->). clear E. cbn [taken] in T. destruct (v c (mkFault (fa_details f) d)) as [x|].
  { injection T as <- <-. subst res. now eexists. }
  destruct (taken v (c ++ [mkFault (fa_details f) d]) F1) as [t1 x1] eqn:T1. injection T as <- <-. specialize (IH _ _ _ _ _ _ _ _ E1 T1).
  unfold st_bind in X. change (fun (c0 : list fault) (f0 : fault) (w0 : W) => (match v c0 f0 with Some e0 => Throw e0 | None => Ok tt end, w0)) with (@refusing W v) in X.
  destruct x1 as [e|].
  - destruct IH as [w' IH]. rewrite IH in X. subst res. exists w'. now rewrite <- app_assoc.
  - destruct IH as [-> IH]. split; [reflexivity|]. rewrite IH in X. subst res. rewrite <- app_assoc. now destruct o1 as [k|x|u|].
Qed.
Lemma refusing_all v clear want c w o F w1 t e : handle_faults h use8 si clear want (c, w) = (o, (c ++ F, w1)) -> taken v c F = (t, e) ->
  expected (call_faults h use8 si (refusing v) clear want) (c, w) o c F t e w1.
Proof.
  unfold handle_faults, st_bind. intros E T. destruct (plain_adds want 10 1 c w) as [F1 A].
  destruct (fault_loop h use8 si want 1 10 (c, w)) as [o1 [c1 w2]] eqn:E1. cbn [fst snd] in A. subst c1.
  assert (EF : F = F1).
  { apply (app_inv_head c). destruct o1 as [k|x|u|]; try now inv E. destruct (clear && _); [|now inv E]. unfold lift in E. destruct (write_command _ _ _ _ w2) as [o2 w3]. now inv E. }
  subst F1. pose proof (refusing_loop v want _ _ _ _ _ _ _ _ _ E1 T) as R. unfold expected in *. unfold call_faults, st_bind. destruct e as [e|].
  - destruct R as [w' ->]. now eexists.
  - destruct R as [-> ->]. split; [reflexivity|]. destruct o1 as [k|x|u|]; exact E.
Qed.
End Any.

Section Served.
Context {D : Type}.
Variables (h : heap) (handle : Z) (dev : device D).
Hypothesis H : is_u32 handle.
Notation si := (served handle dev).
Lemma refusing_reads v want n : forall number calls d (tr : trace), 1 <= number -> number + Z.of_nat n <= 11 ->
  exists o calls' d' reads, call_loop h false si (refusing v) want number n (calls, (d, tr)) = (o, (calls', (d', tr ++ reads))) /\ Forall reading reads.
Proof.
  induction n as [|n IH]; intros number calls d tr N1 N2; cbn [call_loop].
  - eexists _, _, _, []. rewrite app_nil_r. split; [reflexivity|constructor].
  - unfold st_bind at 1. unfold lift. destruct (fault_read_reads h handle dev H want number d tr ltac:(lia)) as (o & d1 & new & E & P & _).
    match goal with |- context [fault_read ?a ?b ?c ?e ?f ?g] => replace (fault_read a b c e f g) with (o, (d1, tr ++ new)) by (symmetry; exact E) end.
    destruct o as [f|e|u|]; try (eexists _, _, d1, new; split; [reflexivity|exact P]).
    destruct (_ =? 0); [eexists _, _, d1, new; split; [reflexivity|exact P]|]. unfold st_bind at 1, st_lift.
    destruct (fault_description _) as [ds|e|u|]; try (eexists _, _, d1, new; split; [reflexivity|exact P]).
    unfold st_bind at 1, call_listener, refusing. destruct (v calls _) as [e|]; [eexists _, _, d1, new; split; [reflexivity|exact P]|].
    unfold st_bind at 1. destruct (IH (number + 1) (calls ++ [mkFault (fa_details f) ds]) d1 (tr ++ new) ltac:(lia) ltac:(lia)) as (o & c2 & d2 & reads & E2 & P2).
    match goal with |- context [call_loop ?a ?b ?c ?e ?f ?g ?i ?j] => replace (call_loop a b c e f g i j) with (o, (c2, (d2, (tr ++ new) ++ reads))) by (symmetry; exact E2) end.
    exists (bind o (fun k => Ok (S k))), c2, d2, (new ++ reads). split; [rewrite <- app_assoc; now destruct o|now apply Forall_app].
Qed.
Lemma refusing_kept v clear want c d (tr : trace) o F w1 t e calls d' tr' :
  handle_faults h false si clear want (c, (d, tr)) = (o, (c ++ F, w1)) -> taken v c F = (t, Some e) ->
  call_faults h false si (refusing v) clear want (c, (d, tr)) = (Throw e, (calls, (d', tr'))) ->
  calls = c ++ t /\ exists reads, tr' = tr ++ reads /\ Forall reading reads.
Proof.
  intros E T C. unfold handle_faults, st_bind in E. destruct (plain_adds h false si want 10 1 c (d, tr)) as [F1 A].
  destruct (fault_loop h false si want 1 10 (c, (d, tr))) as [o1 [c1 w2]] eqn:E1. cbn [fst snd] in A. subst c1.
  assert (EF : F = F1).
  { apply (app_inv_head c). destruct o1 as [k|x|u|]; try now inv E. destruct (clear && _); [|now inv E]. unfold lift in E. destruct (write_command _ _ _ _ w2) as [o2 w3]. now inv E. }
  subst F1. destruct (refusing_loop h false si v want _ _ _ _ _ _ _ _ _ E1 T) as [w' X].
  destruct (refusing_reads v want 10 1 c d tr ltac:(lia) ltac:(lia)) as (o2 & c2 & d2 & reads & E2 & P). rewrite E2 in X. inv X.
  unfold call_faults, st_bind in C. rewrite E2 in C. inv C. split; [reflexivity|]. now exists reads.
Qed.
End Served.
