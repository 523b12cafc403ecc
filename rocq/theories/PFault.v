(** Proofs about the fault classes. *)
From Coq Require Import QArith SpecFloat.
From Verif Require Import Base MBuffer SBuffer PBase PBuffer PReader PTrunc MEip SEip SObj PObj MFile PFile MIdent MParam SParam
  PParam PParam2 SFloat PFloat PScale2 MFault SFault SFaultText.
Ltac Zify.zify_post_hook ::= Z.div_mod_to_equations.
Local Open Scope outcome_scope.
Local Open Scope Z_scope.

(** ** Codes *)
Lemma map_find_In code m v : map_find code m = Some v -> In (code, v) m.
Proof.
  induction m as [|[k x] m IH]; cbn [map_find]; [discriminate|].
  destruct (Z.eqb_spec k code) as [->|N]; [intros E; inv E; now left|right; auto].
Qed.
Lemma map_find_none code m : map_find code m = None -> ~ In code (map fst m).
Proof.
  induction m as [|[k x] m IH]; cbn [map_find map fst In]; [auto|].
  destruct (Z.eqb_spec k code) as [->|N]; [discriminate|]. intros E [X|X]; [auto|now apply IH].
Qed.
Lemma known_keys : map fst fault_map = known_codes.
Proof. reflexivity. Qed.
(** no code occurs twice *)
Fixpoint distinct (l : list Z) : bool :=
  match l with
  | [] => true
  | x :: r => negb (existsb (Z.eqb x) r) && distinct r
  end.
Lemma distinct_nodup l : distinct l = true -> NoDup l.
Proof.
  induction l as [|x l IH]; cbn [distinct]; [constructor|]. intros E. apply andb_true_iff in E as [E1 E2].
  constructor; [|now apply IH]. intros I. apply negb_true_iff in E1. assert (X : existsb (Z.eqb x) l = true).
  { apply existsb_exists. exists x. split; [exact I|apply Z.eqb_refl]. } congruence.
Qed.
Lemma known_nodup : NoDup known_codes.
Proof. apply distinct_nodup. reflexivity. Qed.
(** the model's table is the catalogue, with descriptions *)
Definition short (x : Z * description) : Z * (Z * string) := (fst x, (fst (fst (snd x)), snd (fst (snd x)))).
Lemma short_map : map short fault_map = catalogue.
Proof. reflexivity. Qed.
Lemma in_catalogue code d : In (code, d) fault_map -> In (code, (fst (fst d), snd (fst d))) catalogue.
Proof. intros I. apply (in_map short) in I. rewrite short_map in I. exact I. Qed.

Lemma description_known code : In code known_codes ->
  exists d, fault_description code = Ok d /\ In (code, (fst (fst d), snd (fst d))) catalogue.
Proof.
  intros H. unfold fault_description. destruct (map_find code fault_map) as [d|] eqn:E.
  - exists d. split; [reflexivity|now apply in_catalogue, map_find_In].
  - apply map_find_none in E. now rewrite known_keys in E.
Qed.
Lemma description_unknown code : ~ In code known_codes -> fault_description code = Throw (RuntimeError RtFaultCode).
Proof.
  intros H. unfold fault_description. destruct (map_find code fault_map) as [d|] eqn:E; [|reflexivity].
  exfalso. apply H. rewrite <- known_keys. apply map_find_In in E. apply (in_map fst) in E. exact E.
Qed.
Lemma catalogue_unique code x y : In (code, x) catalogue -> In (code, y) catalogue -> x = y.
Proof.
  intros A B. pose proof known_nodup as N. unfold known_codes in N. revert N A B.
  generalize catalogue as m. induction m as [|[k z] m IH]; cbn [map fst In]; [contradiction|].
  intros N A B. inv N. destruct A as [A|A], B as [B|B]; [congruence| | |auto].
  - inv A. exfalso. apply H1. apply (in_map fst) in B. exact B.
  - inv B. exfalso. apply H1. apply (in_map fst) in A. exact A.
Qed.
Theorem description_entry code type name : In (code, (type, name)) catalogue ->
  exists text, fault_description code = Ok (type, name, text).
Proof.
  intros I. destruct (description_known code) as ([[t n] x] & E & J); [apply (in_map fst) in I; exact I|].
  cbn [fst snd] in J. pose proof (catalogue_unique _ _ _ I J) as X. inv X. now exists x.
Qed.

Lemma explanations_map : map (fun e => (fst e, snd (snd e))) fault_map = explanations.
Proof. reflexivity. Qed.
Lemma explained code text : In (code, text) explanations ->
  exists type name, In (code, (type, name)) catalogue /\ fault_description code = Ok (type, name, text).
Proof.
  rewrite <- explanations_map. intros I. apply in_map_iff in I as ([k [[t n] x]] & E & I). cbn [fst snd] in E. inv E.
  exists t, n. assert (C : In (code, (t, n)) catalogue).
  { assert (M : map (fun e => (fst e, (fst (fst (snd e)), snd (fst (snd e))))) fault_map = catalogue) by reflexivity.
    rewrite <- M. apply in_map_iff. exists (code, (t, n, text)). split; [reflexivity|exact I]. }
  split; [exact C|]. destruct (description_entry _ _ _ C) as [y E]. rewrite E. do 2 f_equal.
  unfold fault_description in E. destruct (map_find code fault_map) as [d|] eqn:F; [|discriminate]. inv E. apply map_find_In in F.
  assert (N : NoDup (map fst fault_map)) by (rewrite known_keys; apply known_nodup).
  revert N I F. generalize fault_map as m. induction m as [|[k z] m IH]; cbn [map fst In]; [contradiction|].
  intros N A B. inv N. destruct A as [A|A], B as [B|B]; [congruence| | |auto].
  - inv A. exfalso. apply H1. apply (in_map fst) in B. exact B.
  - inv B. exfalso. apply H1. apply (in_map fst) in A. exact A.
Qed.
Lemma explained_all : map fst explanations = known_codes.
Proof. reflexivity. Qed.

(** ** Engineering values *)
Lemma process_fits precision raw id : is_u16 raw -> precision = 0 \/ precision = 2 -> scale_fits (scale_object id precision) raw.
Proof.
  intros R P. unfold is_u16 in R. unfold scale_fits, fits53, denominator.
  cbn [scale_object pa_offset pa_mult pa_base pa_div pa_precision].
  destruct P as [->| ->]; change (10 ^ 0) with 1; change (10 ^ 2) with 100; change (2 ^ 53) with 9007199254740992; lia.
Qed.
Lemma process_rounds precision raw id : is_u16 raw -> precision = 0 \/ precision = 2 ->
  rounds (process precision raw id) (inject_Z raw / inject_Z (10 ^ precision)).
Proof.
  intros R P. unfold process. 
  assert (N : numerator (scale_object id precision) raw = raw) by (unfold numerator; cbn [scale_object pa_offset pa_mult pa_base]; lia).
  assert (D : denominator (scale_object id precision) = 10 ^ precision) by (unfold denominator; cbn [scale_object pa_div pa_precision]; lia).
  rewrite <- N at 2. rewrite <- D. apply eng_nearest; [reflexivity|now apply process_fits|].
  rewrite N. unfold fits53, is_u16 in *. change (2 ^ 53) with 9007199254740992. lia.
Qed.
Lemma volts_near raw id : is_u16 raw -> finite (process 0 raw id) /\ (sfq (process 0 raw id) == inject_Z raw)%Q.
Proof.
  intros R. pose proof (process_rounds 0 raw id R (or_introl eq_refl)) as K. change (10 ^ 0) with 1 in K.
  assert (E : (inject_Z raw / inject_Z 1 == inject_Z raw)%Q) by (change (inject_Z 1) with 1%Q; field).
  apply (rounds_eq _ _ _ E) in K. split; [apply K|].
  apply (rounds_exact _ _ raw 0 K); [unfold is_u16 in R; change (2 ^ 53) with 9007199254740992; lia|]. symmetry. apply dyadic_int.
Qed.
Lemma hundredths_near raw id : is_u16 raw -> nearest (process 2 raw id) (raw # 100).
Proof.
  intros R. pose proof (process_rounds 2 raw id R (or_intror eq_refl)) as K. change (10 ^ 2) with 100 in K.
  refine (proj1 (rounds_eq _ _ _ _ K)). rewrite Qmake_Qdiv. reflexivity.
Qed.

(** ** Reading a fault *)
Lemma params_ok n : 1 <= n <= 10 ->
  fault_params n = Some (code_param n, volts_param n, current_param n, freq_param n).
Proof.
  intros N.
  assert (C : n = 1 \/ n = 2 \/ n = 3 \/ n = 4 \/ n = 5 \/ n = 6 \/ n = 7 \/ n = 8 \/ n = 9 \/ n = 10) by lia.
  repeat (destruct C as [->|C]; [reflexivity|]). subst. reflexivity.
Qed.
Lemma params_none n : ~ 1 <= n <= 10 -> fault_params n = None.
Proof.
  intros N. destruct n as [|p|p]; try reflexivity.
  do 4 (destruct p; try reflexivity; try lia).
Qed.

Section Drive.
Variables (h : heap) (handle : Z).
Hypothesis H : is_u32 handle.
Notation si := (served handle drive_device).

Lemma drive_answer d n : drive_wf d -> answer_wf (done (le 2 (dr_value d n))).
Proof. intros _. apply (le_wf 2). lia. Qed.

Definition asked_value (d : drive) (n : Z) : request * answer := (attribute_request n 1, done (le 2 (dr_value d n))).

Lemma fault_detail_drive d n tr : drive_wf d -> 0 <= n < 65536 ->
  fault_detail h false si n (d, tr) = (Ok (dr_value d n), (d, tr ++ [asked_value d n])).
Proof.
  intros D N. unfold fault_detail, st_bind.
  change 15 with PARAMETER_CLASS_ID.
  assert (S0 : sendable false n) by (split; [unfold is_u16; lia|discriminate]).
  rewrite (ask_attribute h false handle drive_device n H S0 1 d tr (done (le 2 (dr_value d n))) d ltac:(lia) eq_refl (drive_answer d n D)).
  cbn [taken done a_status Z.eqb a_data]. unfold st_lift.
  pose proof (get_u16_le h [] (dr_value d n) []) as G. rewrite app_nil_r, <- buf_of_at in G. rewrite G.
  cbn [omap bind fst]. rewrite u16_small by apply D. reflexivity.
Qed.

(** the exchanges for fault n *)
Definition fault_trace (d : drive) (want : bool) (n : Z) : trace :=
  asked_value d (code_param n)
  :: (if negb (code_of d n =? 0) && want
      then [asked_value d (volts_param n); asked_value d (current_param n); asked_value d (freq_param n)] else []).
Lemma fault_trace_requests d want n : map fst (fault_trace d want n) = fault_requests d want n.
Proof. unfold fault_trace, fault_requests. cbn [map asked_value fst]. destruct (negb _ && _); reflexivity. Qed.

Lemma fault_read_drive d want n tr : drive_wf d -> 1 <= n <= 10 ->
  exists f, fault_read h false si n want (d, tr) = (Ok f, (d, tr ++ fault_trace d want n))
  /\ reports_details d want n (fa_details f).
Proof.
  intros D N. unfold fault_read. rewrite params_ok by assumption.
  assert (R : 0 <= code_param n < 65536) by (unfold code_param; destruct (n <=? 3); lia).
  assert (Rv : 0 <= volts_param n < 65536) by (unfold volts_param; lia).
  assert (Rc : 0 <= current_param n < 65536) by (unfold current_param; lia).
  assert (Rf : 0 <= freq_param n < 65536) by (unfold freq_param; lia).
  unfold st_bind at 1. rewrite fault_detail_drive by assumption. fold (code_of d n).
  unfold fault_trace. unfold reports_details.
  destruct (negb (code_of d n =? 0) && want) eqn:B.
  - unfold st_bind. rewrite fault_detail_drive by assumption. rewrite fault_detail_drive by assumption. rewrite fault_detail_drive by assumption.
    unfold st_ret. eexists. split; [f_equal; f_equal; rewrite <- !app_assoc; reflexivity|].
    cbn [fa_details fd_number fd_code fd_volts fd_current fd_frequency].
    split; [reflexivity|]. split; [reflexivity|]. split; [apply volts_near, D|]. split; apply hundredths_near, D.
  - eexists. split; [reflexivity|]. cbn [fa_details fd_number fd_code fd_volts fd_current fd_frequency]. repeat split.
Qed.

(** ** The loop *)
Definition upto (number : Z) (n : nat) : list Z := map (fun k => number + Z.of_nat k) (seq 0 n).
Lemma upto_S number n : upto number (S n) = number :: upto (number + 1) n.
Proof.
  unfold upto. cbn [seq map]. rewrite Z.add_0_r. f_equal. rewrite <- seq_shift, map_map. apply map_ext. intros k. lia.
Qed.

(** the slots whose fault is reported before an unknown code or an empty slot *)
Definition reportable (d : drive) (l : list Z) : list Z :=
  leading (fun n => negb (code_of d n =? 0) && existsb (Z.eqb (code_of d n)) known_codes) l.
(** what comes after them: the end, an empty slot or an unknown code *)
Definition stops (d : drive) (l : list Z) : outcome unit :=
  match skipn (List.length (reportable d l)) l with
  | [] => Ok tt
  | n :: _ => if code_of d n =? 0 then Ok tt else Throw (RuntimeError RtFaultCode)
  end.
Definition seen (d : drive) (l : list Z) : list Z := firstn (S (List.length (reportable d l))) l.

Lemma existsb_known c : existsb (Z.eqb c) known_codes = true <-> In c known_codes.
Proof.
  rewrite existsb_exists. split; [intros (x & I & E); apply Z.eqb_eq in E; now subst|intros I; exists c; split; [assumption|apply Z.eqb_refl]].
Qed.

Lemma fault_loop_drive d want n : drive_wf d -> forall number calls tr, 1 <= number -> number + Z.of_nat n <= 11 ->
  exists new, fault_loop h false si want number n (calls, (d, tr))
    = (bind (stops d (upto number n)) (fun _ => Ok (List.length (reportable d (upto number n)))),
       (calls ++ new, (d, tr ++ concat (map (fault_trace d want) (seen d (upto number n))))))
  /\ Forall2 (reports d want) (reportable d (upto number n)) new.
Proof.
  intros D. induction n as [|n IH]; intros number calls tr N1 N2.
  - exists []. cbn. rewrite !app_nil_r. split; [reflexivity|constructor].
  - rewrite upto_S. cbn [fault_loop]. unfold st_bind at 1. unfold lift.
    destruct (fault_read_drive d want number tr D ltac:(lia)) as (f & E & R). rewrite E.
    pose proof (proj1 (proj2 R)) as R2. rewrite R2.
    unfold stops, seen. unfold reportable. cbn [leading].
    destruct (code_of d number =? 0) eqn:Z0; cbn [negb andb].
    + cbn [List.length skipn firstn map concat bind]. rewrite Z0. exists []. rewrite !app_nil_r. split; [reflexivity|constructor].
    + destruct (existsb (Z.eqb (code_of d number)) known_codes) eqn:K.
      * apply existsb_known in K. destruct (description_known _ K) as (ds & Eds & Ids). 
        unfold st_bind at 1. unfold st_lift. rewrite Eds. unfold st_bind at 1. unfold notify.
        destruct (IH (number + 1) (calls ++ [mkFault (fa_details f) ds]) (tr ++ fault_trace d want number) ltac:(lia) ltac:(lia)) as (new & E' & F).
        unfold st_bind at 1.
        match goal with |- exists new, (let (o, s') := ?m in _) = _ /\ _ =>
          replace m with (bind (stops d (upto (number + 1) n)) (fun _ => Ok (List.length (reportable d (upto (number + 1) n)))),
             ((calls ++ [mkFault (fa_details f) ds]) ++ new, (d, (tr ++ fault_trace d want number) ++ concat (map (fault_trace d want) (seen d (upto (number + 1) n))))))
             by (symmetry; exact E') end.
        fold (reportable d (upto (number + 1) n)). cbn [List.length skipn firstn map concat].
        exists (mkFault (fa_details f) ds :: new). split.
        -- rewrite <- !app_assoc. unfold stops, seen. cbn [app].
           destruct (skipn (List.length (reportable d (upto (number + 1) n))) (upto (number + 1) n)) as [|m l]; [reflexivity|].
           destruct (code_of d m =? 0); reflexivity.
        -- constructor; [|exact F]. split; [|exact Ids]. exact R.
      * cbn [List.length skipn firstn map concat]. rewrite Z0. cbn [bind].
        unfold st_bind at 1. unfold st_lift. rewrite description_unknown.
        2:{ intros I. apply existsb_known in I. congruence. }
        exists []. rewrite !app_nil_r. split; [reflexivity|constructor].
Qed.

Lemma write_clear d tr :
  write_command h false si CLEAR_FAULT_QUEUE (d, tr)
  = (Ok tt, (mkDrive (dr_value d) (dr_commands d ++ [2]), tr ++ [(clear_request, done [])])).
Proof.
  unfold write_command, SET_ATTRIBUTE_SINGLE, DPI_FAULT_CLASS_ID, CLEAR_FAULT_QUEUE.
  assert (S0 : sendable false 0) by (split; [unfold is_u16; lia|discriminate]).
  change (bdata (put_u8 buf_new 2)) with [2].
  rewrite (served3 h false handle drive_device 16 151 0 3 [2] d tr (done []) (mkDrive (dr_value d) (dr_commands d ++ [2])));
    try assumption; try lia; try reflexivity.
  - constructor; [unfold is_u8; lia|constructor].
  - cbn; lia.
  - apply done_wf; [constructor|cbn; lia].
Qed.

Lemma handle_faults_drive d clear want tr : drive_wf d ->
  let good := reportable d slots in
  exists new,
    handle_faults h false si clear want ([], (d, tr))
    = (stops d slots,
       (new,
        let tr' := tr ++ concat (map (fault_trace d want) (seen d slots)) in
        match stops d slots with
        | Ok _ => if clear && Nat.ltb 0 (List.length good)
                  then (mkDrive (dr_value d) (dr_commands d ++ [2]), tr' ++ [(clear_request, done [])])
                  else (d, tr')
        | _ => (d, tr')
        end))
    /\ Forall2 (reports d want) good new.
Proof.
  intros D good. destruct (fault_loop_drive d want 10 D 1 [] tr ltac:(lia) ltac:(lia)) as (new & E & F).
  change (upto 1 10) with slots in E, F. exists new. split; [|exact F].
  unfold handle_faults, st_bind. 
  match goal with |- (let (o, s') := ?m in _) = _ => replace m with (bind (stops d slots) (fun _ => Ok (List.length (reportable d slots))),
      ([] ++ new, (d, tr ++ concat (map (fault_trace d want) (seen d slots))))) by (symmetry; exact E) end.
  fold good. cbv zeta. destruct (stops d slots) as [[]| | |]; cbn [bind]; try reflexivity.
  destruct (clear && Nat.ltb 0 (List.length good)); [|reflexivity].
  unfold lift. cbn [app]. rewrite write_clear. reflexivity.
Qed.
End Drive.

(** ** All codes known *)
Lemma leading_both (p q : Z -> bool) l : Forall (fun n => q n = true) (leading p l) -> leading (fun n => p n && q n) l = leading p l.
Proof.
  induction l as [|n l IH]; cbn [leading]; [reflexivity|]. destruct (p n) eqn:P; cbn [andb]; [|reflexivity].
  intros F. inv F. rewrite H1. f_equal. now apply IH.
Qed.
Lemma leading_next p l n r : skipn (List.length (leading p l)) l = n :: r -> p n = false.
Proof.
  induction l as [|m l IH]; cbn [leading]; [discriminate|]. destruct (p m) eqn:P; cbn [List.length skipn]; [exact IH|].
  intros E. now inv E.
Qed.

Lemma known_reportable d : all_known d -> reportable d slots = recorded d /\ stops d slots = Ok tt /\ seen d slots = examined d.
Proof.
  intros K. assert (E : reportable d slots = recorded d).
  { apply leading_both. eapply Forall_impl; [|exact K]. intros n I. now apply existsb_known. }
  split; [exact E|]. unfold stops, seen, examined. rewrite E. split; [|reflexivity].
  destruct (skipn (List.length (recorded d)) slots) as [|n r] eqn:X; [reflexivity|].
  apply leading_next in X. apply negb_false_iff in X. now rewrite X.
Qed.

Theorem faults_known h handle d clear want tr : is_u32 handle -> drive_wf d -> all_known d ->
  exists calls d' new,
    handle_faults h false (served handle drive_device) clear want ([], (d, tr)) = (Ok tt, (calls, (d', tr ++ new)))
    /\ Forall2 (reports d want) (recorded d) calls
    /\ map fst new = concat (map (fault_requests d want) (examined d))
                     ++ (if clear && negb (Nat.eqb (List.length (recorded d)) 0) then [clear_request] else [])
    /\ dr_value d' = dr_value d
    /\ dr_commands d' = dr_commands d ++ (if clear && negb (Nat.eqb (List.length (recorded d)) 0) then [2] else []).
Proof.
  intros H D K. destruct (handle_faults_drive h handle H d clear want tr D) as (calls & E & F).
  destruct (known_reportable d K) as (K1 & K2 & K3). rewrite K1, K2, K3 in *. cbv zeta in E.
  replace (Nat.ltb 0 (List.length (recorded d))) with (negb (Nat.eqb (List.length (recorded d)) 0)) in E
    by (destruct (List.length (recorded d)); reflexivity).
  assert (M : map fst (concat (map (fault_trace d want) (examined d))) = concat (map (fault_requests d want) (examined d))).
  { rewrite concat_map, map_map. f_equal. apply map_ext. apply fault_trace_requests. }
  destruct (clear && negb (Nat.eqb (List.length (recorded d)) 0)).
  - eexists calls, _, (concat (map (fault_trace d want) (examined d)) ++ [(clear_request, done [])]).
    split; [rewrite app_assoc; exact E|]. split; [exact F|]. split; [rewrite map_app, M; reflexivity|]. split; reflexivity.
  - exists calls, d, (concat (map (fault_trace d want) (examined d))).
    split; [exact E|]. split; [exact F|]. rewrite !app_nil_r. auto.
Qed.

(** ** A code that is not in the table *)
Theorem faults_unknown h handle d clear want tr good n rest : is_u32 handle -> drive_wf d ->
  recorded d = good ++ n :: rest -> Forall (fun n => In (code_of d n) known_codes) good -> ~ In (code_of d n) known_codes ->
  exists calls new,
    handle_faults h false (served handle drive_device) clear want ([], (d, tr))
      = (Throw (RuntimeError RtFaultCode), (calls, (d, tr ++ new)))
    /\ Forall2 (reports d want) good calls
    /\ map fst new = concat (map (fault_requests d want) (good ++ [n])).
Proof.
  intros H D R G U. destruct (handle_faults_drive h handle H d clear want tr D) as (calls & E & F).
  assert (X : forall l, leading (fun n => negb (code_of d n =? 0)) l = good ++ n :: rest ->
     reportable d l = good /\ exists r, l = good ++ n :: r).
  { clear -G U. induction good as [|m good IH]; intros l L; (destruct l as [|a l]; [discriminate|]); unfold reportable; cbn [leading] in *.
    - destruct (negb (code_of d a =? 0)); [|discriminate]. inv L. cbn [andb].
      destruct (existsb (Z.eqb (code_of d n)) known_codes) eqn:X; [apply existsb_known in X; contradiction|]. split; [reflexivity|now exists l].
    - destruct (negb (code_of d a =? 0)); [|discriminate]. inv L. apply Forall_cons_iff in G as [G1 G2]. apply existsb_known in G1. rewrite G1. cbn [andb].
      destruct (IH G2 l ltac:(assumption)) as (E1 & r & ->). split; [f_equal; exact E1|]. now exists r. }
  destruct (X slots R) as (E1 & r & E2).
  assert (NZ : code_of d n =? 0 = false).
  { destruct (code_of d n =? 0) eqn:Z0; [|reflexivity]. apply Z.eqb_eq in Z0. exfalso. apply U. rewrite Z0. left. reflexivity. }
  assert (ST : stops d slots = Throw (RuntimeError RtFaultCode)).
  { unfold stops. rewrite E1. rewrite E2, skipn_app, skipn_all, Nat.sub_diag. cbn [app skipn]. now rewrite NZ. }
  assert (SE : seen d slots = good ++ [n]).
  { unfold seen. rewrite E1, E2. rewrite firstn_app. rewrite firstn_all2 by lia. f_equal.
    replace (S (List.length good) - List.length good)%nat with 1%nat by lia. reflexivity. }
  rewrite E1, ST, SE in *. cbv zeta in E.
  exists calls, (concat (map (fault_trace d want) (good ++ [n]))). split; [exact E|]. split; [exact F|].
  rewrite concat_map, map_map. f_equal. apply map_ext. apply fault_trace_requests.
Qed.

(** ** A single fault *)
Theorem fault_one h handle d want n tr : is_u32 handle -> drive_wf d -> 1 <= n <= 10 ->
  exists f new, fault_read h false (served handle drive_device) n want (d, tr) = (Ok f, (d, tr ++ new))
  /\ reports_details d want n (fa_details f) /\ fa_description f = (0, EmptyString, EmptyString)
  /\ map fst new = fault_requests d want n.
Proof.
  intros H D N. destruct (fault_read_drive h handle H d want n tr D N) as (f & E & R).
  exists f, (fault_trace d want n). split; [exact E|]. split; [exact R|]. split; [|apply fault_trace_requests].
  clear - E. unfold fault_read in E. destruct (fault_params n) as [[[[pc pv] pu] pf]|]; [|discriminate].
  unfold st_bind in E. destruct (fault_detail h false _ pc _) as [[c|?|?|] w]; [|discriminate..].
  destruct (negb (c =? 0) && want); [|inv E; reflexivity].
  destruct (fault_detail h false _ pv w) as [[v|?|?|] w1]; [|discriminate..].
  destruct (fault_detail h false _ pu w1) as [[v1|?|?|] w2]; [|discriminate..].
  destruct (fault_detail h false _ pf w2) as [[v2|?|?|] w3]; [|discriminate..]. inv E. reflexivity.
Qed.
Theorem fault_number_bad {W} h use8 (si : session_if W) n want w : ~ 1 <= n <= 10 ->
  fault_read h use8 si n want w = (Throw (RuntimeError RtFaultNumber), w).
Proof. intros N. unfold fault_read. rewrite params_none by assumption. reflexivity. Qed.

(** ** Error answers, any device *)
Lemma fault_detail_error {D} h use8 handle (dev : device D) n d tr a d' : is_u32 handle -> sendable use8 n ->
  dev d (attribute_request n 1) = (a, d') -> answer_wf a -> a_status a <> 0 ->
  fault_detail h use8 (served handle dev) n (d, tr) = (Throw (RuntimeError RtRequestFailed), (d', tr ++ [(attribute_request n 1, a)])).
Proof.
  intros H S0 E W N. unfold fault_detail, st_bind. change 15 with PARAMETER_CLASS_ID.
  rewrite (ask_attribute h use8 handle dev n H S0 1 d tr a d' ltac:(lia) E W). rewrite taken_error by assumption. reflexivity.
Qed.
Theorem faults_error {D} h handle (dev : device D) d clear want tr a d' : is_u32 handle ->
  dev d (attribute_request 7 1) = (a, d') -> answer_wf a -> a_status a <> 0 ->
  handle_faults h false (served handle dev) clear want ([], (d, tr))
  = (Throw (RuntimeError RtRequestFailed), ([], (d', tr ++ [(attribute_request 7 1, a)]))).
Proof.
  intros H E W N. unfold handle_faults. cbn [fault_loop]. unfold st_bind at 1 2. unfold lift, fault_read. cbn [fault_params]. unfold st_bind at 1.
  rewrite (fault_detail_error h false handle dev 7 d tr a d'); try assumption; [reflexivity|].
  split; [unfold is_u16; lia|discriminate].
Qed.

(** ** The fault object *)
Definition fault_reader : reader fault_object := fun h b =>
  '(code, b) <- get_u16 h b ;;
  '(port, b) <- get_u8 h b ;;
  '(dev, b) <- get_u8 h b ;;
  '(text, b) <- get_bytes h 16 b ;;
  '(timer, b) <- get_u64 h b ;;
  '(flags, b) <- get_u16 h b ;;
  Ok (mkFO code port dev (cip_string text) timer (negb (Z.land flags 1 =? 0)) (negb (Z.land flags 2 =? 0)), b).
Lemma decode_reader h d : decode_fault h d = omap fst (fault_reader h (buf_of d)).
Proof.
  unfold decode_fault, fault_reader.
  repeat match goal with
  | |- bind ?m _ = omap fst (bind ?m _) => destruct m as [[? ?]| | |]; cbn [bind omap]; try reflexivity
  end.
Qed.
Lemma reader_fault : reader_ok fault_reader.
Proof.
  unfold fault_reader. apply (reader_bind' get_u16); [apply reader_u16|intros x1]. apply (reader_bind' get_u8); [apply reader_u8|intros x2].
  apply (reader_bind' get_u8); [apply reader_u8|intros x3]. apply (reader_bind' (fun h => get_bytes h 16)); [apply reader_bytes|intros x4].
  apply (reader_bind' get_u64); [apply reader_u64|intros x5]. apply (reader_bind' get_u16); [apply reader_u16|intros x6].
  match goal with |- reader_ok (fun _ b => Ok (?x, b)) => apply (reader_ret x) end.
Qed.
Lemma prefix_fault : prefix_ok fault_reader.
Proof.
  unfold fault_reader. apply (prefix_bind get_u16); [apply prefix_u16|intros x1]. apply (prefix_bind get_u8); [apply prefix_u8|intros x2].
  apply (prefix_bind get_u8); [apply prefix_u8|intros x3]. apply (prefix_bind (fun h => get_bytes h 16)); [apply prefix_bytes|intros x4].
  apply (prefix_bind get_u64); [apply prefix_u64|intros x5]. apply (prefix_bind get_u16); [apply prefix_u16|intros x6].
  match goal with |- prefix_ok (fun _ b => Ok (?x, b)) => apply (prefix_ret x) end.
Qed.
Lemma fault_reader_at h f rest : fault_info_wf f ->
  exists o, fault_reader h (at_ [] (fault_bytes f ++ rest)) = Ok (o, at_ (fault_bytes f) rest) /\ shows_fault o f.
Proof.
  intros (F1 & F2 & F3 & F4 & F5 & F6 & F7). unfold fault_reader, fault_bytes.
  rewrite <- !app_assoc. cbn [app].
  rewrite get_u16_le. cbn [bind]. rewrite u16_small by assumption.
  rewrite get_u8_at. cbn [bind]. rewrite get_u8_at. cbn [bind].
  change 16%nat with (Z.to_nat 16). rewrite get_bytes_z by (now rewrite F5). cbn [bind].
  rewrite get_u64_le. cbn [bind]. rewrite get_u16_le. cbn [bind]. rewrite u64_small, u16_small by assumption.
  eexists. split; [f_equal; f_equal; f_equal; rewrite <- !app_assoc; reflexivity|].
  unfold shows_fault. cbn [fo2_code fo2_port fo2_device fo2_text fo2_timer fo2_valid fo2_real].
  repeat match goal with |- _ /\ _ => split end; try reflexivity.
  - unfold cip_string. cbn [str_length]. rewrite F5. reflexivity.
  - apply (land_bit (fi_flags f) 0); lia.
  - apply (land_bit (fi_flags f) 1); lia.
Qed.
Lemma decode_fault_at h f rest : fault_info_wf f ->
  exists o, decode_fault h (fault_bytes f ++ rest) = Ok o /\ shows_fault o f.
Proof.
  intros F. destruct (fault_reader_at h f rest F) as (o & E & S0). exists o. split; [|exact S0].
  rewrite decode_reader, buf_of_at, E. reflexivity.
Qed.

Section Object.
Context {D : Type}.
Variables (h : heap) (use8 : bool) (handle : Z) (dev : device D) (id : Z).
Hypotheses (H : is_u32 handle) (I : sendable use8 id).

Lemma ask_fault d tr a d' : dev d (fault_request id) = (a, d') -> answer_wf a ->
  ask h use8 (served handle dev) GET_ATTRIBUTE_SINGLE (epath3 DPI_FAULT_CLASS_ID id 0) (d, tr)
  = (taken a, (d', tr ++ [(fault_request id, a)])).
Proof.
  intros E W. unfold ask.
  rewrite (served3 h use8 handle dev GET_ATTRIBUTE_SINGLE DPI_FAULT_CLASS_ID id 0 [] d tr a d'); try assumption;
    try (unfold DPI_FAULT_CLASS_ID, GET_ATTRIBUTE_SINGLE; lia); [reflexivity|constructor|cbn; lia].
Qed.
Theorem object_reads d tr a d' f rest : dev d (fault_request id) = (a, d') -> answer_wf a -> a_status a = 0 ->
  a_data a = fault_bytes f ++ rest -> fault_info_wf f ->
  exists o, fault_object_read h use8 (served handle dev) id (d, tr) = (Ok o, (d', tr ++ [(fault_request id, a)]))
  /\ shows_fault o f.
Proof.
  intros E W S0 A F. unfold fault_object_read, st_bind. rewrite (ask_fault d tr a d' E W), taken_known, A by assumption.
  destruct (decode_fault_at h f rest F) as (o & O1 & O2). unfold st_lift. rewrite O1. exists o. auto.
Qed.
Theorem object_error d tr a d' : dev d (fault_request id) = (a, d') -> answer_wf a -> a_status a <> 0 ->
  fault_object_read h use8 (served handle dev) id (d, tr)
  = (Throw (RuntimeError RtRequestFailed), (d', tr ++ [(fault_request id, a)])).
Proof.
  intros E W S0. unfold fault_object_read, st_bind. rewrite (ask_fault d tr a d' E W), taken_error by assumption. reflexivity.
Qed.
End Object.

Lemma fault_bytes_len f : fault_info_wf f -> zlen (fault_bytes f) = 30.
Proof.
  intros (F1 & F2 & F3 & F4 & F5 & _). unfold fault_bytes. rewrite !zlen_app, F5. unfold zlen. rewrite !le_length. reflexivity.
Qed.
Theorem object_truncated {D} use8 handle (dev : device D) id d tr a d' f k : is_u32 handle -> sendable use8 id ->
  dev d (fault_request id) = (a, d') -> answer_wf a -> a_status a = 0 -> fault_info_wf f ->
  a_data a = firstn k (fault_bytes f) -> Z.of_nat k < 30 ->
  fst (fault_object_read strict use8 (served handle dev) id (d, tr)) = Undef UbOobRead.
Proof.
  intros H I E W S0 F A K. unfold fault_object_read, st_bind.
  rewrite (ask_fault strict use8 handle dev id H I d tr a d' E W), taken_known, A by assumption.
  unfold st_lift. cbn [fst]. rewrite decode_reader.
  destruct (fault_reader_at strict f [] F) as (o & R & _). rewrite app_nil_r, <- buf_of_at in R.
  erewrite (cut_short _ _ _ _ _ reader_fault prefix_fault R); [reflexivity|].
  pose proof (fault_bytes_len f F) as L. unfold zlen in L. unfold at_; cbn [bpos]. lia.
Qed.

(** ** Any device *)
Section Any.
Context {D : Type}.
Variables (h : heap) (handle : Z) (dev : device D).
Hypothesis H : is_u32 handle.
Notation si := (served handle dev).

Lemma sent3 service c n at_ data d (tr : trace) : 0 <= c < 256 -> 0 <= at_ < 256 -> is_u16 n -> is_u8 service -> is_bytes data -> zlen data <= 60000 ->
  exists o a d', dev d (mkReq service [(KClass, c); (KInst, n); (KAttr, at_)] data) = (a, d')
  /\ send_request h si false service (epath3 c n at_) data [] (d, tr)
     = (o, (d', tr ++ [(mkReq service [(KClass, c); (KInst, n); (KAttr, at_)] data, a)])).
Proof.
  intros C A N S0 B L. destruct (dev d (mkReq service [(KClass, c); (KInst, n); (KAttr, at_)] data)) as [a d'] eqn:E.
  eexists _, a, d'. split; [reflexivity|]. unfold send_request, served; cbn [si_exchange si_handle].
  change (epath3 c n at_) with (build (Ids3 c n at_)).
  rewrite asked_request; try assumption; [|discriminate|].
  - change (ids_list (Ids3 c n at_)) with [(KClass, c); (KInst, n); (KAttr, at_)]. rewrite E. reflexivity.
  - apply sendable3; [assumption|assumption|split; [assumption|discriminate]].
Qed.

Lemma fault_detail_reads n d (tr : trace) : 0 <= n < 65536 ->
  exists o d' x, fault_detail h false si n (d, tr) = (o, (d', tr ++ [x])) /\ reading x.
Proof.
  intros N. unfold fault_detail, st_bind, ask, GET_ATTRIBUTE_SINGLE.
  destruct (sent3 14 15 n 1 [] d tr) as (o & a & d' & E & S0); try lia; try (unfold is_u16, is_u8; lia); [constructor|cbn; lia|].
  match goal with |- context [send_request ?h0 ?si0 false 14 ?p ?l [] ?s] =>
    replace (send_request h0 si0 false 14 p l [] s) with (o, (d', tr ++ [(attribute_request n 1, a)])) by (symmetry; exact S0) end.
  assert (R : reading (attribute_request n 1, a)) by (exists n; reflexivity).
  destruct (bind o _) as [x| | |]; [unfold st_lift|..]; eexists _, d', (attribute_request n 1, a); (split; [reflexivity|exact R]).
Qed.
Ltac feed E :=
  match type of E with _ = ?r => match goal with |- context [fault_detail ?h0 ?u ?si0 ?n0 ?s] =>
    replace (fault_detail h0 u si0 n0 s) with r by (symmetry; exact E) end end.
Lemma fault_read_reads want n d (tr : trace) : 1 <= n <= 10 ->
  exists o d' new, fault_read h false si n want (d, tr) = (o, (d', tr ++ new)) /\ Forall reading new
  /\ forall f, o = Ok f -> fd_number (fa_details f) = n.
Proof.
  intros N. unfold fault_read. rewrite params_ok by assumption.
  assert (R : 0 <= code_param n < 65536) by (unfold code_param; destruct (n <=? 3); lia).
  assert (Rv : 0 <= volts_param n < 65536) by (unfold volts_param; lia).
  assert (Rc : 0 <= current_param n < 65536) by (unfold current_param; lia).
  assert (Rf : 0 <= freq_param n < 65536) by (unfold freq_param; lia).
  unfold st_bind at 1. destruct (fault_detail_reads _ d tr R) as (o & d1 & x1 & E1 & P1). rewrite E1.
  destruct o as [code| | |]; try (eexists _, d1, [x1]; split; [reflexivity|]; split; [constructor; [exact P1|constructor]|discriminate]).
  destruct (negb (code =? 0) && want).
  2:{ eexists _, d1, [x1]. split; [reflexivity|]. split; [constructor; [exact P1|constructor]|]. intros f F. now inv F. }
  unfold st_bind at 1. destruct (fault_detail_reads _ d1 (tr ++ [x1]) Rv) as (o & d2 & x2 & E2 & P2). feed E2.
  destruct o as [volts| | |]; try (eexists _, d2, [x1; x2]; split; [rewrite <- app_assoc; reflexivity|]; split; [repeat (constructor; try assumption)|discriminate]).
  unfold st_bind at 1. destruct (fault_detail_reads _ d2 ((tr ++ [x1]) ++ [x2]) Rc) as (o & d3 & x3 & E3 & P3). feed E3.
  destruct o as [cur| | |]; try (eexists _, d3, [x1; x2; x3]; split; [rewrite <- !app_assoc; reflexivity|]; split; [repeat (constructor; try assumption)|discriminate]).
  unfold st_bind at 1. destruct (fault_detail_reads _ d3 (((tr ++ [x1]) ++ [x2]) ++ [x3]) Rf) as (o & d4 & x4 & E4 & P4). feed E4.
  destruct o as [fr| | |]; (eexists _, d4, [x1; x2; x3; x4]; split; [rewrite <- !app_assoc; reflexivity|]; split; [repeat (constructor; try assumption)|]);
    try discriminate. intros f F. now inv F.
Qed.

Lemma fault_loop_reads want n : forall number calls d (tr : trace), 1 <= number -> number + Z.of_nat n <= 11 ->
  exists o new d' reads, fault_loop h false si want number n (calls, (d, tr)) = (o, (calls ++ new, (d', tr ++ reads)))
  /\ Forall reading reads /\ (List.length new <= n)%nat
  /\ map (fun f => fd_number (fa_details f)) new = firstn (List.length new) (upto number n)
  /\ Forall known_call new
  /\ (forall k, o = Ok k -> k = List.length new).
Proof.
  induction n as [|n IH]; intros number calls d tr N1 N2.
  - exists (Ok O), [], d, []. cbn. rewrite !app_nil_r. repeat split; try constructor. intros k E. now inv E.
  - rewrite upto_S. cbn [fault_loop]. unfold st_bind at 1. unfold lift.
    destruct (fault_read_reads want number d tr ltac:(lia)) as (o & d1 & new & E & P & F). rewrite E.
    destruct o as [f| | |]; try (eexists _, [], d1, new; rewrite app_nil_r; split; [reflexivity|]; repeat split; try assumption; try constructor; try (cbn; lia); discriminate).
    specialize (F f eq_refl).
    destruct (fd_code (fa_details f) =? 0) eqn:Z0.
    { exists (Ok O), [], d1, new. rewrite app_nil_r. split; [reflexivity|]. repeat split; try assumption; try constructor; try (cbn; lia).
      intros k K. now inv K. }
    unfold st_bind at 1. unfold st_lift. unfold fault_description.
    destruct (map_find (fd_code (fa_details f)) fault_map) as [ds|] eqn:M.
    2:{ eexists _, [], d1, new. rewrite app_nil_r. split; [reflexivity|]. repeat split; try assumption; try constructor; try (cbn; lia). discriminate. }
    unfold st_bind at 1. unfold notify. unfold st_bind at 1.
    destruct (IH (number + 1) (calls ++ [mkFault (fa_details f) ds]) d1 (tr ++ new) ltac:(lia) ltac:(lia)) as (o & more & d2 & reads & E2 & P2 & L2 & M2 & K2 & C2).
    match goal with |- exists o new d' reads, (let (o0, s') := ?m in _) = _ /\ _ =>
      replace m with (o, ((calls ++ [mkFault (fa_details f) ds]) ++ more, (d2, (tr ++ new) ++ reads))) by (symmetry; exact E2) end.
    exists (bind o (fun k => Ok (S k))), (mkFault (fa_details f) ds :: more), d2, (new ++ reads).
    split; [rewrite <- !app_assoc; destruct o; reflexivity|].
    split; [apply Forall_app; now split|]. split; [cbn; lia|].
    split; [cbn [map List.length firstn fa_details]; rewrite M2, F; reflexivity|].
    split. { constructor; [|exact K2]. split; cbn [fa_details fa_description]; [now apply Z.eqb_neq|now apply in_catalogue, map_find_In]. }
    intros k K. destruct o as [j| | |]; try discriminate. cbn [bind] in K. inv K. cbn [List.length]. f_equal. now apply C2.
Qed.

Theorem faults_any clear want d (tr : trace) o calls d' tr' :
  handle_faults h false si clear want ([], (d, tr)) = (o, (calls, (d', tr'))) ->
  exists reads last, tr' = tr ++ reads ++ last /\ Forall reading reads
  /\ map (fun f => fd_number (fa_details f)) calls = firstn (List.length calls) slots /\ (List.length calls <= 10)%nat
  /\ Forall known_call calls
  /\ (last = [] \/ clear = true /\ calls <> [] /\ exists a, last = [(clear_request, a)])
  /\ (o = Ok tt -> clear = true -> calls <> [] -> last <> []).
Proof.
  intros E. destruct (fault_loop_reads want 10 1 [] d tr ltac:(lia) ltac:(lia)) as (o1 & new & d1 & reads & E1 & P & L & M & K & C).
  change (upto 1 10) with slots in M.
  unfold handle_faults, st_bind in E.
  match type of E with (let (o, s') := ?m in _) = _ => replace m with (o1, ([] ++ new, (d1, tr ++ reads))) in E by (symmetry; exact E1) end.
  cbn [app] in E. destruct o1 as [k| | |];
    try (inv E; exists reads, []; rewrite app_nil_r; do 5 (split; [assumption || reflexivity|]); split; [now left|discriminate]).
  specialize (C k eq_refl). subst k.
  destruct (clear && Nat.ltb 0 (List.length new)) eqn:B.
  - apply andb_true_iff in B as [-> B]. apply Nat.ltb_lt in B.
    unfold lift, write_command, SET_ATTRIBUTE_SINGLE, DPI_FAULT_CLASS_ID, CLEAR_FAULT_QUEUE in E.
    change (bdata (put_u8 buf_new 2)) with [2] in E.
    destruct (sent3 16 151 0 3 [2] d1 (tr ++ reads)) as (o2 & a & d2 & Ea & S0); try lia; try (unfold is_u16, is_u8; lia);
      [constructor; [unfold is_u8; lia|constructor]|cbn; lia|].
    match type of E with context [send_request ?h0 ?si0 false 16 ?p ?l [] ?s] =>
      replace (send_request h0 si0 false 16 p l [] s) with (o2, (d2, (tr ++ reads) ++ [(clear_request, a)])) in E by (symmetry; exact S0) end.
    inv E. exists reads, [(clear_request, a)]. rewrite <- app_assoc. do 5 (split; [assumption || reflexivity|]).
    split; [right; split; [reflexivity|]; split; [intros ->; cbn in B; lia|now exists a]|discriminate].
  - inv E. exists reads, []. rewrite app_nil_r. do 5 (split; [assumption || reflexivity|]).
    split; [now left|]. intros _ -> X. exfalso. apply X. cbn [andb] in B. apply Nat.ltb_ge in B. destruct calls; [reflexivity|cbn in B; lia].
Qed.

(** A call that returns had only accepted requests. *)
Definition fair {A} (m : st (D * trace) A) : Prop := forall d tr v d' tr', m (d, tr) = (Ok v, (d', tr')) ->
  exists new, tr' = tr ++ new /\ Forall accepted new.
Definition fair_calls {A} (m : st (list fault * (D * trace)) A) : Prop := forall c d tr v c' d' tr', m (c, (d, tr)) = (Ok v, (c', (d', tr'))) ->
  exists new, tr' = tr ++ new /\ Forall accepted new.
Lemma fair_ret {A} (v : A) : fair (st_ret v).
Proof. intros d tr v0 d' tr' E. unfold st_ret in E. inv E. exists []. now rewrite app_nil_r. Qed.
Lemma fair_bind {A B} (m : st (D * trace) A) (f : A -> st (D * trace) B) : fair m -> (forall v, fair (f v)) -> fair (st_bind m f).
Proof.
  intros M F d tr v d' tr' E. unfold st_bind in E. destruct (m (d, tr)) as [o [d1 tr1]] eqn:E1. destruct o as [x| | |]; [|discriminate..].
  destruct (M _ _ _ _ _ E1) as (n1 & -> & P1). destruct (F _ _ _ _ _ _ E) as (n2 & -> & P2).
  exists (n1 ++ n2). rewrite app_assoc. split; [reflexivity|]. apply Forall_app. now split.
Qed.
Lemma fairc_ret {A} (v : A) : fair_calls (st_ret v).
Proof. intros c d tr v0 c' d' tr' E. unfold st_ret in E. inv E. exists []. now rewrite app_nil_r. Qed.
Lemma fairc_bind {A B} (m : st (list fault * (D * trace)) A) (f : A -> st _ B) : fair_calls m -> (forall v, fair_calls (f v)) -> fair_calls (st_bind m f).
Proof.
  intros M F c d tr v c' d' tr' E. unfold st_bind in E. destruct (m (c, (d, tr))) as [o [c1 [d1 tr1]]] eqn:E1. destruct o as [x| | |]; [|discriminate..].
  destruct (M _ _ _ _ _ _ _ E1) as (n1 & -> & P1). destruct (F _ _ _ _ _ _ _ _ E) as (n2 & -> & P2).
  exists (n1 ++ n2). rewrite app_assoc. split; [reflexivity|]. apply Forall_app. now split.
Qed.
Lemma fairc_lift {A} (m : st (D * trace) A) : fair m -> fair_calls (lift m).
Proof. intros M c d tr v c' d' tr' E. unfold lift in E. destruct (m (d, tr)) as [o [d1 tr1]] eqn:E1. inv E. eapply M; eassumption. Qed.

Hypothesis W : device_wf dev.
Lemma fair_detail n : 0 <= n < 65536 -> fair (fault_detail h false si n).
Proof.
  intros N d tr v d' tr' E. unfold fault_detail, st_bind, ask, GET_ATTRIBUTE_SINGLE in E.
  destruct (dev d (attribute_request n 1)) as [a d1] eqn:Ea. pose proof (W d (attribute_request n 1)) as Wa. rewrite Ea in Wa.
  match type of E with context [send_request ?h0 ?si0 false 14 ?p ?l [] ?s] =>
    replace (send_request h0 si0 false 14 p l [] s) with (Ok (mkResp (14 + 128) (a_status a) (a_addl a) (a_data a) []), (d1, tr ++ [(attribute_request n 1, a)])) in E end.
  2:{ symmetry. apply served3; try assumption; try lia; [split; [unfold is_u16; lia|discriminate]|constructor|cbn; lia]. }
  cbn [bind r_status] in E. destruct (a_status a =? GSC_SUCCESS) eqn:Z0; [|discriminate].
  exists [(attribute_request n 1, a)]. split.
  - unfold st_lift in E. now inv E.
  - constructor; [|constructor]. unfold accepted. cbn [snd]. apply Z.eqb_eq in Z0. exact Z0.
Qed.
Lemma fair_read n want : 1 <= n <= 10 -> fair (fault_read h false si n want).
Proof.
  intros N. unfold fault_read. rewrite params_ok by assumption.
  assert (R : 0 <= code_param n < 65536) by (unfold code_param; destruct (n <=? 3); lia).
  assert (Rv : 0 <= volts_param n < 65536) by (unfold volts_param; lia).
  assert (Rc : 0 <= current_param n < 65536) by (unfold current_param; lia).
  assert (Rf : 0 <= freq_param n < 65536) by (unfold freq_param; lia).
  apply fair_bind; [now apply fair_detail|]. intros code. destruct (negb (code =? 0) && want); [|apply fair_ret].
  apply fair_bind; [now apply fair_detail|]. intros volts. apply fair_bind; [now apply fair_detail|]. intros cur.
  apply fair_bind; [now apply fair_detail|]. intros fr. apply fair_ret.
Qed.
Lemma fair_command : fair (write_command h false si CLEAR_FAULT_QUEUE).
Proof.
  intros d tr v d' tr' E. unfold write_command, SET_ATTRIBUTE_SINGLE, DPI_FAULT_CLASS_ID, CLEAR_FAULT_QUEUE in E.
  change (bdata (put_u8 buf_new 2)) with [2] in E.
  destruct (dev d clear_request) as [a d1] eqn:Ea. pose proof (W d clear_request) as Wa. rewrite Ea in Wa.
  assert (B : is_bytes [2]) by (constructor; [unfold is_u8; lia|constructor]).
  assert (Lb : zlen [2] <= 60000) by (cbn; lia).
  assert (S0 : sendable false 0) by (split; [unfold is_u16; lia|discriminate]).
  rewrite (served3 h false handle dev 16 151 0 3 [2] d tr a d1) in E; try assumption; try lia.
  cbn [bind r_status] in E. destruct (negb (a_status a =? GSC_SUCCESS)) eqn:Z0; [discriminate|].
  inv E. exists [(clear_request, a)]. split; [reflexivity|].
  constructor; [|constructor]. unfold accepted. cbn [snd]. apply negb_false_iff, Z.eqb_eq in Z0. exact Z0.
Qed.
Lemma fair_loop want n : forall number, 1 <= number -> number + Z.of_nat n <= 11 -> fair_calls (fault_loop h false si want number n).
Proof.
  induction n as [|n IH]; intros number N1 N2; cbn [fault_loop]; [apply fairc_ret|].
  apply fairc_bind; [apply fairc_lift, fair_read; lia|]. intros f. destruct (_ =? 0); [apply fairc_ret|].
  apply fairc_bind. { intros c d tr v c' d' tr' E. unfold st_lift in E. inv E. exists []. now rewrite app_nil_r. }
  intros ds. apply fairc_bind. { intros c d tr v c' d' tr' E. unfold notify in E. inv E. exists []. now rewrite app_nil_r. }
  intros u. apply fairc_bind; [apply IH; lia|]. intros k. apply fairc_ret.
Qed.
Theorem faults_fair clear want d (tr : trace) calls d' tr' :
  handle_faults h false si clear want ([], (d, tr)) = (Ok tt, (calls, (d', tr'))) -> exists new, tr' = tr ++ new /\ Forall accepted new.
Proof.
  assert (F : fair_calls (handle_faults h false si clear want)).
  { unfold handle_faults. apply fairc_bind; [apply fair_loop; lia|]. intros k. destruct (_ && _); [apply fairc_lift, fair_command|apply fairc_ret]. }
  apply F.
Qed.
End Any.
