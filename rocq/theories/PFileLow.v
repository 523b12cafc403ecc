(** Proofs about file uploads when there is not enough memory. *)
From Verif Require Import Base MBuffer SBuffer PBuffer MEip SEip SObj MSocket MConnReq MConn MFile SFile PFile MMem MLow SLow PLow MFileLow SFileLow.
Local Open Scope Z_scope.
Ltac Zify.zify_post_hook ::= Z.div_mod_to_equations.
Ltac inv H := inversion H; subst; clear H.

Lemma sim_named {W} a b : sim (@l_named W a b) (st_ret tt).
Proof.
  intros fs w. unfold l_named, l_need. split.
  - intros o fs' w' E N. destruct a, b; cbn in E; repeat match type of E with context [hd false ?x] => destruct (hd false x) end; inv E; try reflexivity; congruence.
  - intros En. pose proof (enough_tl fs En) as E1. pose proof (enough_tl _ E1) as E2.
    destruct a, b; cbn; rewrite ?(enough_hd fs En), ?(enough_hd _ E1); eexists; (split; [|reflexivity]); auto.
Qed.
Lemma sim_log {W} a b : sim (@l_log W a b) (st_ret tt).
Proof. apply (sim_skip l_need); [apply sim_need|]. intros []. apply sim_named. Qed.

Section Sim.
Variables info warning error : bool.
Variable h : heap.
Variable use8 : bool.
Context {W : Type}.
Variable si : session_if W.
Variable req : Z -> epath -> bytes -> low W response.
Hypothesis R : asks_as h use8 si req.

Lemma sim_fl_req service path data : sim (fl_req req service path data) (fun '(f, w) => let '(o, w) := send_request h si use8 service path data [] w in (o, (f, w))).
Proof.
  intros fs [f w]. destruct (R service path data fs w) as [A B]. unfold fl_req. split.
  - intros o fs' w' E N. destruct (req service path data (fs, w)) as [o1 [f1 w1]]. inv E. now rewrite (A _ _ _ eq_refl N).
  - intros En. destruct (B En) as (f1 & X & ->). exists f1. split; [exact X|]. destruct (send_request h si use8 service path data [] w) as [o1 w1]. reflexivity.
Qed.
Lemma sim_do g : sim (@fl_do W g) (fun '(f, w) => (Ok tt, (g f, w))).
Proof. apply sim_lift. Qed.
(** a computation that depends on the state *)
Lemma sim_if {A} (L : fobj -> low (fobj * W) A) M : (forall f, sim (L f) (M f)) -> sim (fun '(fs, (f, w)) => L f (fs, (f, w))) (fun '(f, w) => M f (f, w)).
Proof. intros H fs [f w]. exact (H f fs (f, w)). Qed.

Lemma sim_transfer : sim (fl_transfer warning error h req) (handle_transfers h use8 si).
Proof.
  apply (sim_ext _ (fun '(f0, w0) =>
    match fo_state f0 with
    | FUpload size tsize content number handler =>
      st_bind (fun '(f, w) => let '(o, w) := send_request h si use8 UPLOAD_TRANSFER (epath2 FILE_OBJECT_CLASS_ID (fo_id f0)) (bdata (put_u8 (buf_of []) number)) [] w in (o, (f, w)))
        (fun r =>
         if r_status r =? GSC_SUCCESS then
           st_bind (st_lift (bind (get_u8 h (buf_of (r_data r))) (fun '(num, b) => bind (get_u8 h b) (fun '(ty, b) => Ok (num, ty, b))))) (fun '(num, ty, b) =>
           if negb (num =? number) then st_bind (fun '(f, w) => (Ok tt, (f_call f (mkCall handler GSC_INVALID_PARAMETER []), w))) (fun _ => st_ret false)
           else if (ty =? 0) || (ty =? 1) then
             st_bind (st_lift (get_bytes h (Z.to_nat tsize) b)) (fun '(d, _) =>
             st_bind (fun '(f, w) => (Ok tt, (f_set f (FUpload size tsize (content ++ d) (u8 (number + 1)) handler), w))) (fun _ => st_ret true))
           else if (ty =? 2) || (ty =? 4) then
             if Nat.ltb (List.length (r_data r)) 4 then st_lift (Throw LengthError)
             else
               st_bind (st_lift (get_bytes h (List.length (r_data r) - 4) b)) (fun '(d, _) =>
               st_bind (fun '(f, w) => (Ok tt, (f_set f (FUpload size tsize (content ++ d) number handler), w))) (fun _ =>
               if zlen (content ++ d) =? size then st_bind (fun '(f, w) => (Ok tt, (f_call f (mkCall handler GSC_SUCCESS (content ++ d)), w))) (fun _ => st_ret false)
               else st_bind (fun '(f, w) => (Ok tt, (f_call f (mkCall handler GSC_INVALID_PARAMETER []), w))) (fun _ => st_ret false)))
           else st_lift (Throw (RuntimeError RtFileTransferStatus)))
         else st_bind (fun '(f, w) => (Ok tt, (f_call f (mkCall handler (r_status r) []), w))) (fun _ => st_ret true))
    | _ => st_ret false
    end (f0, w0))).
  - unfold fl_transfer. apply (sim_if (fun f => match fo_state f with FUnknown => _ | FNonExistent => _ | FEmpty => _ | FLoaded => _ | FUpload size tsize content number handler => _ end)
      (fun f => match fo_state f with FUnknown => _ | FNonExistent => _ | FEmpty => _ | FLoaded => _ | FUpload size tsize content number handler => _ end)).
    intros f. destruct (fo_state f) as [| | | |size tsize content number handler]; try (apply sim_skip; [apply sim_log|]; intros []; apply sim_ret); [apply sim_ret|].
    apply sim_skip; [apply sim_need|]. intros [].
    apply sim_bind; [apply sim_fl_req|]. intros r. destruct (r_status r =? GSC_SUCCESS).
    + apply sim_skip; [apply sim_need|]. intros []. apply sim_bind; [apply sim_lift|]. intros [[num ty] b].
      apply sim_skip; [apply sim_log|]. intros []. destruct (negb (num =? number)).
      { apply sim_skip; [apply sim_log|]. intros []. apply sim_bind; [apply sim_do|]. intros []. apply sim_ret. }
      destruct ((ty =? 0) || (ty =? 1)).
      { apply sim_skip; [apply sim_need|]. intros []. apply sim_bind; [apply sim_lift|]. intros [d b1].
        apply sim_skip; [apply sim_need|]. intros []. apply sim_bind; [apply sim_do|]. intros []. apply sim_ret. }
      destruct ((ty =? 2) || (ty =? 4)); [|apply sim_lift]. destruct (Nat.ltb _ _); [apply sim_lift|].
      apply sim_skip; [apply sim_need|]. intros []. apply sim_bind; [apply sim_lift|]. intros [d b1].
      apply sim_skip; [apply sim_need|]. intros []. apply sim_bind; [apply sim_do|]. intros []. destruct (zlen (content ++ d) =? size).
      { apply sim_bind; [apply sim_do|]. intros []. apply sim_ret. }
      apply sim_skip; [apply sim_log|]. intros []. apply sim_bind; [apply sim_do|]. intros []. apply sim_ret.
    + apply sim_skip; [apply sim_message|]. intros []. apply sim_bind; [apply sim_do|]. intros []. apply sim_ret.
  - intros [f w]. unfold handle_transfers. destruct (fo_state f) as [| | | |size tsize content number handler]; try reflexivity.
    unfold st_bind at 1. destruct (send_request h si use8 UPLOAD_TRANSFER _ _ [] w) as [[r|e|u|] w1]; try reflexivity. cbn [bind].
    unfold transferred. destruct (r_status r =? GSC_SUCCESS); [|reflexivity]. unfold st_bind, st_lift.
    destruct (get_u8 h (buf_of (r_data r))) as [[num b]|e|u|]; try reflexivity. cbn [bind]. destruct (get_u8 h b) as [[ty b1]|e|u|]; try reflexivity. cbn [bind].
    destruct (negb (num =? number)); [reflexivity|]. destruct ((ty =? 0) || (ty =? 1)).
    { destruct (get_bytes h (Z.to_nat tsize) b1) as [[d b2]|e|u|]; reflexivity. }
    destruct ((ty =? 2) || (ty =? 4)); [|reflexivity]. destruct (Nat.ltb _ _); [reflexivity|].
    destruct (get_bytes h (List.length (r_data r) - 4) b1) as [[d b2]|e|u|]; try reflexivity. cbn [bind]. cbv zeta.
    destruct (zlen (content ++ d) =? size); reflexivity.
Qed.
Lemma sim_begin handler : sim (fl_begin info warning error h req handler) (begin_upload h use8 si handler).
Proof.
  apply sim_skip; [apply sim_need|]. intros []. apply (sim_ext _ (fun '(f0, w0) =>
    match fo_state f0 with
    | FLoaded =>
      st_bind (fun '(f, w) => let '(o, w) := send_request h si use8 INITIATE_UPLOAD (epath2 FILE_OBJECT_CLASS_ID (fo_id f0)) (bdata (put_u8 (buf_of []) MAX_TRANSFER_SIZE)) [] w in (o, (f, w)))
        (fun r =>
         if r_status r =? GSC_SUCCESS then
           st_bind (st_lift (bind (get_u32 h (buf_of (r_data r))) (fun '(size, b) => bind (get_u8 h b) (fun '(tsize, _) => Ok (size, tsize))))) (fun '(size, tsize) =>
             fun '(f, w) => (Ok tt, (f_set f (FUpload size tsize [] 0 handler), w)))
         else fun '(f, w) => (Ok tt, (f_call f (mkCall handler (r_status r) []), w)))
    | _ => st_ret tt
    end (f0, w0))).
  - apply (sim_if (fun f => match fo_state f with FUnknown => _ | FNonExistent => _ | FEmpty => _ | FLoaded => _ | FUpload size tsize content number handler => _ end)
      (fun f => match fo_state f with FUnknown => _ | FNonExistent => _ | FEmpty => _ | FLoaded => _ | FUpload size tsize content number handler => _ end)).
    intros f. destruct (fo_state f) as [| | | |size tsize content number hd0]; try apply sim_log.
    apply sim_skip; [apply sim_message|]. intros []. apply sim_skip; [apply sim_need|]. intros [].
    apply sim_bind; [apply sim_fl_req|]. intros r. destruct (r_status r =? GSC_SUCCESS).
    + apply sim_skip; [apply sim_need|]. intros []. apply sim_bind; [apply sim_lift|]. intros [size tsize].
      apply sim_skip; [apply sim_need|]. intros []. apply sim_do.
    + apply sim_skip; [apply sim_message|]. intros []. apply sim_do.
  - intros [f w]. unfold begin_upload. destruct (fo_state f) as [| | | |size tsize content number hd0]; try reflexivity.
    unfold st_bind. destruct (send_request h si use8 INITIATE_UPLOAD _ _ [] w) as [[r|e|u|] w1]; try reflexivity. cbn [bind].
    unfold initiated. destruct (r_status r =? GSC_SUCCESS); [|reflexivity]. unfold st_lift.
    destruct (get_u32 h (buf_of (r_data r))) as [[size b]|e|u|]; try reflexivity. cbn [bind]. destruct (get_u8 h b) as [[ts b1]|e|u|]; reflexivity.
Qed.
Lemma sim_open id : sim (fl_open warning h req id) (file_open h use8 si id).
Proof.
  apply (sim_ext _ (st_bind (send_request h si use8 GET_ATTRIBUTE_SINGLE (epath3 FILE_OBJECT_CLASS_ID id FILE_ATTR_STATE) [] [])
    (fun r => st_bind (st_lift (synced h r)) (fun s => st_ret (mkFile id s []))))).
  - apply sim_skip; [apply sim_need|]. intros []. apply sim_bind; [intros fs w; apply R|]. intros r.
    apply sim_skip; [destruct (_ =? _); [apply sim_need|apply sim_ret]|]. intros []. apply sim_bind; [apply sim_lift|]. intros s.
    apply sim_skip; [destruct (get_u8 h (buf_of (r_data r))) as [[c b]|e|u|]; [destruct (_ || _); [apply sim_log|]|..]; apply sim_ret|]. intros [].
    apply sim_skip; [apply sim_need|]. intros []. apply sim_ret.
  - intros w. unfold file_open, st_bind, st_lift. destruct (send_request h si use8 _ _ [] [] w) as [[r|e|u|] w1]; try reflexivity. cbn [bind].
    destruct (synced h r); reflexivity.
Qed.
End Sim.

(** ** what a call that does not end well leaves *)
Section Hoare.
Context {W : Type}.
Definition leaves {A} (L : low (fobj * W) A) (f0 : fobj) (P : A -> fobj -> Prop) (Q : fobj -> Prop) : Prop :=
  forall fs w o fs' f' w', L (fs, (f0, w)) = (o, (fs', (f', w'))) -> match o with Done (Ok a) => P a f' | _ => Q f' end.
Lemma leaves_ret {A} (a : A) f (P : A -> fobj -> Prop) (Q : fobj -> Prop) : P a f -> leaves (l_ret a) f P Q.
Proof. intros H fs w o fs' f' w' E. now inv E. Qed.
Lemma leaves_bind {A B} (L : low (fobj * W) A) (k : A -> low _ B) f P R (Q : fobj -> Prop) :
  leaves L f P Q -> (forall a f1, P a f1 -> leaves (k a) f1 R Q) -> leaves (l_bind L k) f R Q.
Proof.
  intros H K fs w o fs' f' w' E. unfold l_bind in E. destruct (L (fs, (f, w))) as [o1 [fs1 [f1 w1]]] eqn:E1. specialize (H _ _ _ _ _ _ E1).
  destruct o1 as [[a|e|u|]|]; [exact (K a f1 H _ _ _ _ _ _ E)|now inv E..].
Qed.
Lemma leaves_need f (Q : fobj -> Prop) : Q f -> leaves (@l_need (fobj * W)) f (fun _ g => g = f) Q.
Proof. intros H fs w o fs' f' w' E. unfold l_need in E. inv E. now destruct (hd false fs). Qed.
Lemma leaves_message b f (Q : fobj -> Prop) : Q f -> leaves (@l_message (fobj * W) b) f (fun _ g => g = f) Q.
Proof. intros H fs w o fs' f' w' E. unfold l_message in E. destruct b; inv E; [now destruct (hd false fs)|reflexivity]. Qed.
Lemma leaves_named a b f (Q : fobj -> Prop) : Q f -> leaves (@l_named (fobj * W) a b) f (fun _ g => g = f) Q.
Proof.
  intros H fs w o fs' f' w' E. unfold l_named, l_need in E.
  destruct a, b; cbn in E; repeat match type of E with context [hd false ?x] => destruct (hd false x) end; inv E; auto.
Qed.
Lemma leaves_log a b f (Q : fobj -> Prop) : Q f -> leaves (@l_log (fobj * W) a b) f (fun _ g => g = f) Q.
Proof. intros H. eapply leaves_bind; [apply leaves_need, H|]. intros [] f1 ->. now apply leaves_named. Qed.
Lemma leaves_st {A} (o : outcome A) f (Q : fobj -> Prop) : Q f -> leaves (@l_lift (fobj * W) A (st_lift o)) f (fun a g => g = f /\ o = Ok a) Q.
Proof. intros H fs w o1 fs' f' w' E. unfold l_lift, st_lift in E. inversion E; subst. destruct o; auto. Qed.
Lemma leaves_do g f (P : unit -> fobj -> Prop) (Q : fobj -> Prop) : P tt (g f) -> leaves (@fl_do W g) f P Q.
Proof. intros H fs w o fs' f' w' E. unfold fl_do, l_lift in E. now inv E. Qed.
Lemma leaves_req req service path data f (Q : fobj -> Prop) : Q f ->
  leaves (@fl_req W req service path data) f (fun r g => g = f /\ exists fs w x, req service path data (fs, w) = (Done (Ok r), x)) Q.
Proof.
  intros H fs w o fs' f' w' E. unfold fl_req in E. destruct (req service path data (fs, w)) as [o1 [fs1 w1]] eqn:E1. inv E.
  destruct o as [[a|e|u|]|]; auto. split; [reflexivity|]. now exists fs, w, (fs', w').
Qed.
Lemma leaves_weak {A} (L : low (fobj * W) A) f (P P' : A -> fobj -> Prop) (Q : fobj -> Prop) : leaves L f P Q -> (forall a g, P a g -> P' a g) -> leaves L f P' Q.
Proof. intros H K fs w o fs' f' w' E. specialize (H _ _ _ _ _ _ E). destruct o as [[]|]; auto. Qed.

Variables info warning error : bool.
Variable h : heap.
Variable req : Z -> epath -> bytes -> low W response.
Lemma begin_leaves handler f : leaves (fl_begin info warning error h req handler) f (fun _ _ => True) (fun g => g = f).
Proof.
  eapply leaves_bind; [now apply leaves_need|]. intros [] f1 ->.
  assert (LG : forall a b, leaves (l_log a b) f (fun _ _ => True) (fun g => g = f)) by (intros a b; eapply leaves_weak; [now apply leaves_log|auto]).
  intros fs w. cbv beta iota. destruct (fo_state f) as [| | | |size tsize content number hd0]; try (exact (LG _ _ fs w)).
  revert fs w. refine (leaves_bind (l_message info) _ f (fun _ g => g = f) (fun _ _ => True) (fun g => g = f) _ _); [now apply leaves_message|]. intros [] f1 ->. eapply leaves_bind; [now apply leaves_need|]. intros [] f1 ->.
  eapply leaves_bind; [now apply leaves_req|]. intros r f1 [-> _]. destruct (r_status r =? GSC_SUCCESS).
  - eapply leaves_bind; [now apply leaves_need|]. intros [] f1 ->. eapply leaves_bind; [now apply leaves_st|]. intros [size tsize] f1 [-> _].
    eapply leaves_bind; [now apply leaves_need|]. intros [] f1 ->. now apply leaves_do.
  - eapply leaves_bind; [now apply leaves_message|]. intros [] f1 ->. now apply leaves_do.
Qed.
Lemma transfer_leaves f size tsize content number handler : fo_state f = FUpload size tsize content number handler ->
  leaves (fl_transfer warning error h req) f
    (fun more g => exists r fs w x, req 79 (epath2 55 (fo_id f)) (bdata (put_u8 (buf_of []) number)) (fs, w) = (Done (Ok r), x)
       /\ transferred h f size tsize content number handler r = Ok (more, g))
    (fun g => g = f \/ exists r fs w x d, req 79 (epath2 55 (fo_id f)) (bdata (put_u8 (buf_of []) number)) (fs, w) = (Done (Ok r), x)
       /\ g = f_set f (FUpload size tsize (content ++ d) number handler) /\ zlen (content ++ d) <> size
       /\ transferred h f size tsize content number handler r = Ok (false, f_call g (mkCall handler 32 []))).
Proof.
  intros S. intros fs w. unfold fl_transfer. rewrite S. revert fs w.
  refine (leaves_bind l_need _ f (fun _ g => g = f) _ _ _ _); [apply leaves_need; now left|]. intros [] f1 ->. eapply leaves_bind; [apply leaves_req; now left|]. intros r f1 [-> RQ].
  unfold transferred. destruct (r_status r =? GSC_SUCCESS) eqn:ST.
  2:{ eapply leaves_bind; [apply leaves_message; now left|]. intros [] f1 ->. eapply (leaves_bind _ _ _ (fun _ g => g = f_call f (mkCall handler (r_status r) []))); [now apply leaves_do|].
      intros [] f1 ->. apply leaves_ret. destruct RQ as (a & b & c & E). exists r, a, b, c. split; [exact E|]. now rewrite ST. }
  eapply leaves_bind; [apply leaves_need; now left|]. intros [] f1 ->. eapply leaves_bind; [apply leaves_st; now left|]. intros [[num ty] b] f1 [-> E].
  destruct (get_u8 h (buf_of (r_data r))) as [[n1 b1]|e|u|] eqn:E1; try discriminate E. cbn [bind] in E. destruct (get_u8 h b1) as [[n2 b2]|e|u|] eqn:E2; try discriminate E. cbn [bind] in E. inv E.
  assert (TR : forall X, (if negb (num =? number) then Ok (false, f_call f (mkCall handler GSC_INVALID_PARAMETER []))
     else if (ty =? 0) || (ty =? 1) then bind (get_bytes h (Z.to_nat tsize) b) (fun '(d, _) => Ok (true, f_set f (FUpload size tsize (content ++ d) (u8 (number + 1)) handler)))
     else if (ty =? 2) || (ty =? 4) then
      if Nat.ltb (List.length (r_data r)) 4 then Throw LengthError
      else
        bind (get_bytes h (List.length (r_data r) - 4) b) (fun '(d, _) =>
        Ok (false, f_call (f_set f (FUpload size tsize (content ++ d) number handler)) (if zlen (content ++ d) =? size then mkCall handler GSC_SUCCESS (content ++ d) else mkCall handler GSC_INVALID_PARAMETER [])))
     else Throw (RuntimeError RtFileTransferStatus)) = X -> transferred h f size tsize content number handler r = X).
  { intros X <-. unfold transferred. rewrite ST, E1. cbn [bind]. rewrite E2. reflexivity. }
  destruct RQ as (a & bb & c & E). eapply leaves_bind; [apply leaves_log; now left|]. intros [] f1 ->.
  destruct (negb (num =? number)).
  { eapply leaves_bind; [apply leaves_log; now left|]. intros [] f1 ->. eapply (leaves_bind _ _ _ (fun _ g => g = f_call f (mkCall handler GSC_INVALID_PARAMETER []))); [now apply leaves_do|].
    intros [] f1 ->. apply leaves_ret. exists r, a, bb, c. split; [exact E|]. now apply TR. }
  destruct ((ty =? 0) || (ty =? 1)).
  { eapply leaves_bind; [apply leaves_need; now left|]. intros [] f1 ->. eapply leaves_bind; [apply leaves_st; now left|]. intros [d b3] f1 [-> E3].
    eapply leaves_bind; [apply leaves_need; now left|]. intros [] f1 ->.
    eapply (leaves_bind _ _ _ (fun _ g => g = f_set f (FUpload size tsize (content ++ d) (u8 (number + 1)) handler))); [now apply leaves_do|].
    intros [] f1 ->. apply leaves_ret. exists r, a, bb, c. split; [exact E|]. apply TR. now rewrite E3. }
  destruct ((ty =? 2) || (ty =? 4)).
  2:{ eapply leaves_weak; [apply leaves_st; now left|]. intros q g [_ X]. discriminate X. }
  destruct (Nat.ltb _ _). { eapply leaves_weak; [apply leaves_st; now left|]. intros q g [_ X]. discriminate X. }
  eapply leaves_bind; [apply leaves_need; now left|]. intros [] f1 ->. eapply leaves_bind; [apply leaves_st; now left|]. intros [d b3] f1 [-> E3].
  eapply leaves_bind; [apply leaves_need; now left|]. intros [] f1 ->. rewrite E3 in TR. cbn [bind] in TR.
  eapply (leaves_bind _ _ _ (fun _ g => g = f_set f (FUpload size tsize (content ++ d) number handler))); [now apply leaves_do|].
  intros [] f1 ->. destruct (Z.eqb_spec (zlen (content ++ d)) size) as [SZ|SZ].
  { eapply (leaves_bind _ _ _ (fun _ g => g = f_call (f_set f (FUpload size tsize (content ++ d) number handler)) (mkCall handler GSC_SUCCESS (content ++ d)))); [now apply leaves_do|].
    intros [] f1 ->. apply leaves_ret. exists r, a, bb, c. split; [exact E|]. now apply TR. }
  eapply leaves_bind; [apply leaves_log; right; exists r, a, bb, c, d; split; [exact E|split; [reflexivity|split; [exact SZ|now apply TR]]]|]. intros [] f1 ->.
  eapply (leaves_bind _ _ _ (fun _ g => g = f_call (f_set f (FUpload size tsize (content ++ d) number handler)) (mkCall handler GSC_INVALID_PARAMETER []))); [now apply leaves_do|].
  intros [] f1 ->. apply leaves_ret. exists r, a, bb, c. split; [exact E|]. now apply TR.
Qed.

(** An adapter that sends its packets again. *)
Section Again.
Variables (id : Z) (F : bytes) (T : Z) (crc : bytes) (hid : nat) (pre : list hcall).
Hypothesis HT : 1 <= T <= 255.
Hypothesis LC : List.length crc = 2%nat.
Hypothesis LF : zlen F <= 256 * T.
Hypothesis RS : resends id F (Z.to_nat T) crc req.
Let t := Z.to_nat T.
Definition coming (f : fobj) : Prop := exists k, at_packet f id F T hid pre k /\ (k = 0 \/ k * t < List.length F)%nat.
Lemma again_step f fs w o fs' f' w' : coming f -> fl_transfer warning error h req (fs, (f, w)) = (o, (fs', (f', w'))) ->
  (o = Done (Ok true) /\ coming f') \/ (o = Done (Ok false) /\ fo_calls f' = pre ++ [mkCall hid 0 F]) \/ (o <> Done (Ok true) /\ o <> Done (Ok false) /\ f' = f).
Proof.
  intros (k & (I & C & S0) & K) E. pose proof (transfer_leaves f _ _ _ _ _ S0 fs w o fs' f' w' E) as L.
  assert (KB : (k < 256)%nat) by (destruct K as [->|K]; [lia|]; unfold t, zlen in *; nia).
  assert (NB : Z.of_nat k mod 256 = Z.of_nat k) by lia.
  assert (TRr : forall r fs w x, req 79 (epath2 55 (fo_id f)) (bdata (put_u8 (buf_of []) (Z.of_nat k mod 256))) (fs, w) = (Done (Ok r), x) ->
     ((t < List.length (skipn (k * t) F))%nat /\ exists g, coming g /\ transferred h f (zlen F) T (firstn (k * Z.to_nat T) F) (Z.of_nat k mod 256) hid r = Ok (true, g))
     \/ exists g, fo_calls g = pre ++ [mkCall hid 0 F] /\ fo_state g = FUpload (zlen F) T F (Z.of_nat k mod 256) hid /\ transferred h f (zlen F) T (firstn (k * Z.to_nat T) F) (Z.of_nat k mod 256) hid r = Ok (false, g)).
  { intros r fs1 w1 x EQ. rewrite put_one, I, NB in EQ. destruct (RS (Z.of_nat k) fs1 w1 r x ltac:(lia) EQ) as [S1 D]. rewrite Nat2Z.id in D. fold t in D.
    unfold file_packet in D. remember (skipn (k * t) F) as rest eqn:RE. destruct (Nat.leb_spec (List.length rest) t) as [Q|Q].
    - right. rewrite (transferred_two h f _ _ _ _ _ r _ _ _ S1 D), Z.eqb_refl. cbn [negb].
      replace (((if Nat.eqb k 0 then 4 else 2) =? 0) || ((if Nat.eqb k 0 then 4 else 2) =? 1)) with false by (destruct (Nat.eqb k 0); reflexivity).
      replace (((if Nat.eqb k 0 then 4 else 2) =? 2) || ((if Nat.eqb k 0 then 4 else 2) =? 4)) with true by (destruct (Nat.eqb k 0); reflexivity).
      rewrite app_length, LC. destruct (Nat.ltb_spec (List.length rest + 2) 2); [lia|].
      rewrite Nat.add_sub, firstn_app, Nat.sub_diag, firstn_all, firstn_O, app_nil_r. cbv zeta. fold t. rewrite RE, firstn_skipn, Z.eqb_refl.
      eexists. split; [|split; [|reflexivity]]; [|reflexivity]. cbn. now rewrite C.
    - left. split; [exact Q|]. rewrite (transferred_two h f _ _ _ _ _ r _ _ _ S1 D), Z.eqb_refl. cbn [negb].
      replace (((if Nat.eqb k 0 then 0 else 1) =? 0) || ((if Nat.eqb k 0 then 0 else 1) =? 1)) with true by (destruct (Nat.eqb k 0); reflexivity).
      fold t. rewrite get_bytes_n by (rewrite firstn_length; lia). cbn [bind]. eexists. split; [|reflexivity].
      assert (LR : List.length rest = (List.length F - k * t)%nat) by (subst rest; apply skipn_length).
      exists (Datatypes.S k). split; [|right; cbn [Nat.mul]; lia]. split; [exact I|]. split; [exact C|]. cbn [f_set fo_state]. rewrite u8_next. f_equal.
      rewrite firstn_firstn, Nat.min_id. subst rest. fold t. clear -Q LR. cbn [Nat.mul].
      rewrite <- (firstn_skipn (k * t) F) at 3. rewrite firstn_app, firstn_firstn, firstn_length. f_equal; f_equal; lia. }
  destruct o as [[b|e|u|]|].
  - destruct L as (r & fs1 & w1 & x & EQ & TR). destruct (TRr r fs1 w1 x EQ) as [(_ & g & G & X)|(g & G & _ & X)]; rewrite TR in X; inv X; auto.
  - right; right. split; [discriminate|]. split; [discriminate|]. destruct L as [->|(r & fs1 & w1 & x & d & EQ & -> & SZ & TR)]; [reflexivity|].
    exfalso. destruct (TRr r fs1 w1 x EQ) as [(_ & g & G & X)|(g & G & _ & X)]; rewrite TR in X; inv X. cbn in G. rewrite C in G. apply app_inv_head in G. inv G.
  - right; right. split; [discriminate|]. split; [discriminate|]. destruct L as [->|(r & fs1 & w1 & x & d & EQ & -> & SZ & TR)]; [reflexivity|].
    exfalso. destruct (TRr r fs1 w1 x EQ) as [(_ & g & G & X)|(g & G & _ & X)]; rewrite TR in X; inv X. cbn in G. rewrite C in G. apply app_inv_head in G. inv G.
  - right; right. split; [discriminate|]. split; [discriminate|]. destruct L as [->|(r & fs1 & w1 & x & d & EQ & -> & SZ & TR)]; [reflexivity|].
    exfalso. destruct (TRr r fs1 w1 x EQ) as [(_ & g & G & X)|(g & G & _ & X)]; rewrite TR in X; inv X. cbn in G. rewrite C in G. apply app_inv_head in G. inv G.
  - right; right. split; [discriminate|]. split; [discriminate|]. destruct L as [->|(r & fs1 & w1 & x & d & EQ & -> & SZ & TR)]; [reflexivity|].
    exfalso. destruct (TRr r fs1 w1 x EQ) as [(_ & g & G & X)|(g & G & _ & X)]; rewrite TR in X; inv X. cbn in G. rewrite C in G. apply app_inv_head in G. inv G.
Qed.
Lemma again_calls fss : forall f w os f' w', coming f -> fl_calls warning error h req fss (f, w) = (os, (f', w')) ->
  (In (Done (Ok false)) os /\ fo_calls f' = pre ++ [mkCall hid 0 F]) \/ (~ In (Done (Ok false)) os /\ coming f').
Proof.
  induction fss as [|fs r IH]; intros f w os f' w' C E; [inv E; right; auto|]. cbn [fl_calls] in E.
  destruct (fl_transfer warning error h req (fs, (f, w))) as [o [fs1 [f1 w1]]] eqn:E1.
  destruct (again_step _ _ _ _ _ _ _ C E1) as [[-> C1]|[[-> C1]|(N1 & N2 & ->)]].
  - destruct (fl_calls warning error h req r (f1, w1)) as [os1 [f2 w2]] eqn:E2. inv E.
    destruct (IH _ _ _ _ _ C1 E2) as [[A B]|[A B]]; [left; cbn; auto|right]. split; [|exact B]. intros [X|X]; [discriminate X|auto].
  - inv E. left. cbn. auto.
  - assert (D : (o = Done Abort /\ os = [Done Abort] /\ f' = f) \/ exists os1 w2, fl_calls warning error h req r (f, w1) = (os1, (f', w2)) /\ os = o :: os1).
    { destruct (fl_calls warning error h req r (f, w1)) as [os1 [f2 w2]]. destruct o as [[[|]|e|u|]|]; try congruence; inv E; eauto. }
    destruct D as [(-> & -> & ->)|(os1 & w2 & E2 & ->)].
    + right. split; [|exact C]. intros [X|[]]. discriminate X.
    + destruct (IH _ _ _ _ _ C E2) as [[A B]|[A B]]; [left; cbn; auto|right]. split; [|exact B]. intros [X|X]; [congruence|auto].
Qed.
End Again.
End Hoare.
