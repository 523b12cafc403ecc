(** Proofs about the logger and about serial numbers of several threads. *)
From Verif Require Import Base PBase MBuffer MEip MConnReq MConn MLog SLog.
From Coq Require Import String.
Ltac Zify.zify_post_hook ::= Z.div_mod_to_equations.

Lemma log_shown l pieces s :
  log l pieces s = if in_dec (fun x y : level => ltac:(decide equality)) l (shown (lg_level s))
                   then let '(o, s') := print l (String.concat "" pieces) s in
                        (match o with Throw _ => Abort | _ => o end, s')
                   else (Ok tt, s).
Proof.
  unfold log. destruct (in_dec _ _ _) as [I|I]; destruct (lg_level s), l; try reflexivity;
    exfalso; cbn in I; intuition discriminate.
Qed.

Lemma print_keeps l m s o s' : print l m s = (o, s') -> lg_level s' = lg_level s /\ lg_appender s' = lg_appender s.
Proof.
  unfold print. destruct (lg_appender s) eqn:A; [destruct (level_name l)| |]; intros E; inv E; cbn; auto.
Qed.
Lemma step_level o s r s' : log_step o s = (r, s') ->
  lg_level s' = match o with SetLevel l => l | _ => lg_level s end
  /\ lg_appender s' = match o with SetAppender a => a | _ => lg_appender s end.
Proof.
  destruct o as [l|a|l p]; cbn [log_step]; intros E; [inv E; auto..|].
  rewrite log_shown in E. destruct (in_dec _ _ _); [|inv E; auto].
  destruct (print l _ s) as [q s1] eqn:P. inv E. now apply print_keeps in P.
Qed.

Lemma run_app a : forall b s, log_run (a ++ b) s = st_bind (log_run a) (fun _ => log_run b) s.
Proof.
  induction a as [|o a IH]; intros b s; [reflexivity|]. cbn [app log_run]. unfold st_bind at 1 2 3.
  destruct (log_step o s) as [[u| | |] s1]; try reflexivity. now rewrite IH.
Qed.

Lemma run_keeps_level ops : forall s s', log_run ops s = (Ok tt, s') ->
  Forall (fun o => ~ sets_level o) ops -> lg_level s' = lg_level s.
Proof.
  induction ops as [|o ops IH]; intros s s' E F; [inv E; reflexivity|]. inv F.
  cbn [log_run] in E. unfold st_bind in E. destruct (log_step o s) as [[u| | |] s1] eqn:S0; try discriminate.
  rewrite (IH _ _ E H2). apply step_level in S0 as [-> _]. destruct o; try reflexivity. now destruct H1.
Qed.
Lemma run_keeps_appender ops : forall s s', log_run ops s = (Ok tt, s') ->
  Forall (fun o => ~ sets_appender o) ops -> lg_appender s' = lg_appender s.
Proof.
  induction ops as [|o ops IH]; intros s s' E F; [inv E; reflexivity|]. inv F.
  cbn [log_run] in E. unfold st_bind in E. destruct (log_step o s) as [[u| | |] s1] eqn:S0; try discriminate.
  rewrite (IH _ _ E H2). apply step_level in S0 as [_ ->]. destruct o; try reflexivity. now destruct H1.
Qed.

Lemma run_level ops s g : log_run ops logger0 = (Ok tt, s) -> level_after ops g -> lg_level s = g.
Proof.
  intros E [[-> F]|(before & after & -> & F)]; [now apply run_keeps_level in E|].
  rewrite run_app in E. unfold st_bind in E. destruct (log_run before logger0) as [[u| | |] s1]; try discriminate.
  cbn [log_run log_step] in E. unfold st_bind in E. now apply run_keeps_level in E.
Qed.
Lemma run_appender ops s a : log_run ops logger0 = (Ok tt, s) -> appender_after ops a -> lg_appender s = a.
Proof.
  intros E [[-> F]|(before & after & -> & F)]; [now apply run_keeps_appender in E|].
  rewrite run_app in E. unfold st_bind in E. destruct (log_run before logger0) as [[u| | |] s1]; try discriminate.
  cbn [log_run log_step] in E. unfold st_bind in E. now apply run_keeps_appender in E.
Qed.

Lemma passed_exactly ops s g a l pieces :
  log_run ops logger0 = (Ok tt, s) -> level_after ops g -> appender_after ops a -> a <> NoAppender ->
  (In l (shown g) -> lg_passed (snd (log l pieces s)) = lg_passed s ++ [(a, l, String.concat "" pieces)])
  /\ (~ In l (shown g) -> log l pieces s = (Ok tt, s)).
Proof.
  intros E G A N. apply (run_level _ _ _ E) in G. apply (run_appender _ _ _ E) in A. subst g.
  split; intros I; rewrite log_shown; destruct (in_dec _ _ _); try tauto.
  unfold print. rewrite A. destruct a; [destruct (level_name l)| |]; cbn; [reflexivity..|congruence].
Qed.
Lemma others_pass_nothing o s r s' : (forall l pieces, o <> Log l pieces) -> log_step o s = (r, s') ->
  lg_passed s' = lg_passed s /\ lg_console s' = lg_console s.
Proof. intros N. destruct o; cbn; intros E; [inv E; auto..|]. now destruct (N l pieces). Qed.

Lemma console_text ops s g l pieces :
  log_run ops logger0 = (Ok tt, s) -> level_after ops g -> appender_after ops Console -> In l (shown g) -> l <> OFF ->
  fst (log l pieces s) = Ok tt /\
  lg_console (snd (log l pieces s)) = (lg_console s ++ tag l ++ String.concat "" pieces ++ line_end)%string.
Proof.
  intros E G A I N. apply (run_level _ _ _ E) in G. apply (run_appender _ _ _ E) in A. subst g.
  rewrite log_shown; destruct (in_dec _ _ _); [|tauto]. unfold print. rewrite A. destruct l; cbn; auto. now destruct N.
Qed.

Lemma appender_outcomes ops s g a l pieces :
  log_run ops logger0 = (Ok tt, s) -> level_after ops g -> appender_after ops a -> In l (shown g) ->
  (a = NoAppender -> log l pieces s = (Undef UbNullDeref, s))
  /\ (forall n throws, a = Own n throws -> fst (log l pieces s) = if throws l (String.concat "" pieces) then Abort else Ok tt).
Proof.
  intros E G A I. apply (run_level _ _ _ E) in G. apply (run_appender _ _ _ E) in A. subst g. rewrite log_shown; destruct (in_dec _ _ _); [|tauto].
  unfold print. rewrite A. split; [intros ->; reflexivity|]. intros n throws ->. cbn [fst]. destruct (throws _ _); reflexivity.
Qed.
Lemma silent_off ops s l pieces : log_run ops logger0 = (Ok tt, s) -> level_after ops OFF -> log l pieces s = (Ok tt, s).
Proof.
  intros E G. apply (run_level _ _ _ E) in G. rewrite log_shown, G. destruct (in_dec _ _ _) as [[]|]; reflexivity.
Qed.

Lemma log_decent l pieces s : decent_appender (lg_appender s) ->
  fst (log l pieces s) = (if in_dec (fun x y : level => ltac:(decide equality)) l (shown (lg_level s)) then
                            match l, lg_appender s with OFF, Console => Abort | _, _ => Ok tt end else Ok tt).
Proof.
  intros D. rewrite log_shown. destruct (in_dec _ _ _); [|reflexivity]. unfold print.
  destruct (lg_appender s) as [|n t|]; [destruct l; reflexivity| |destruct D].
  cbn in D. rewrite D. destruct l; reflexivity.
Qed.

Lemma never_terminates ops : forall s, decent_appender (lg_appender s) -> Forall decent ops ->
  (forall pieces, ~ In (Log OFF pieces) ops) -> exists s', log_run ops s = (Ok tt, s').
Proof.
  induction ops as [|o ops IH]; intros s D F N; [now exists s|]. inv F. cbn [log_run]. unfold st_bind.
  destruct (log_step o s) as [r s1] eqn:S0.
  assert (r = Ok tt) as ->.
  { destruct o as [l|a|l p]; cbn [log_step] in S0; [inv S0; reflexivity..|].
    pose proof (log_decent l p s D) as X. rewrite S0 in X. cbn [fst] in X. rewrite X.
    destruct (in_dec _ _ _); [|reflexivity]. destruct l; try reflexivity. exfalso. exact (N p (or_introl eq_refl)). }
  apply IH; [|assumption|intros p I; exact (N p (or_intror I))].
  apply step_level in S0 as [_ ->]. destruct o; try assumption.
Qed.

Lemma terminates_exactly ops s g a l pieces :
  log_run ops logger0 = (Ok tt, s) -> level_after ops g -> appender_after ops a -> decent_appender a ->
  fst (log l pieces s) = Ok tt /\ ~ (l = OFF /\ g <> OFF /\ a = Console)
  \/ fst (log l pieces s) = Abort /\ (l = OFF /\ g <> OFF /\ a = Console).
Proof.
  intros E G A D. apply (run_level _ _ _ E) in G. apply (run_appender _ _ _ E) in A. subst g a.
  rewrite log_decent by assumption.
  destruct (in_dec _ _ _) as [I|I].
  - destruct l; try (left; split; [reflexivity|intuition discriminate]).
    destruct (lg_appender s); [right|left; split; [reflexivity|intuition discriminate]..].
    split; [reflexivity|]. repeat split. intros X. rewrite X in I. destruct I.
  - left. split; [reflexivity|]. intros (-> & H & _). apply I. destruct (lg_level s); [now destruct H|cbn; auto..].
Qed.

(** ** Threads *)
Lemma nth_set {A} (x : A) l n : (n < List.length l)%nat -> nth_error (set_nth n x l) n = Some x.
Proof. revert n. induction l as [|y l IH]; intros [|n] L; cbn in *; try lia; [reflexivity|]. apply IH. lia. Qed.
Lemma nth_set_other {A} (x : A) l : forall n m, n <> m -> nth_error (set_nth n x l) m = nth_error l m.
Proof. induction l as [|y l IH]; intros [|n] [|m] N; cbn; try reflexivity; [now destruct N|]. apply IH. lia. Qed.
Lemma set_set {A} (x y : A) l : forall n, set_nth n x (set_nth n y l) = set_nth n x l.
Proof. induction l as [|z l IH]; intros [|n]; cbn; [reflexivity..|]. now rewrite IH. Qed.
Lemma set_same {A} (x : A) l : forall n, nth_error l n = Some x -> set_nth n x l = l.
Proof. induction l as [|z l IH]; intros [|n]; cbn; [reflexivity..| |]; intros E; [now inv E|]. now rewrite IH. Qed.
Lemma set_length {A} (x : A) l : forall n, List.length (set_nth n x l) = List.length l.
Proof. induction l as [|z l IH]; intros [|n]; cbn; [reflexivity..|]. now rewrite IH. Qed.

Lemma access_load t s : nth_error (sh_held s) t = Some None ->
  access t s = (Ok tt, mkShared (sh_counter s) (set_nth t (Some (sh_counter s)) (sh_held s)) (sh_given s)).
Proof. intros E. unfold access. now rewrite E. Qed.
Lemma access_store t v s : nth_error (sh_held s) t = Some (Some v) -> v < 2147483647 ->
  access t s = (Ok tt, mkShared (v + 1) (set_nth t None (sh_held s)) (sh_given s ++ [(t, u16 (v + 1))])).
Proof. intros E L. unfold access. rewrite E. destruct (Z.eqb_spec v 2147483647); [lia|reflexivity]. Qed.

(** A turn by itself. *)
Lemma turn t rest s : nth_error (sh_held s) t = Some None -> sh_counter s < 2147483647 ->
  accesses (t :: t :: rest) s
  = accesses rest (mkShared (sh_counter s + 1) (sh_held s) (sh_given s ++ [(t, u16 (sh_counter s + 1))])).
Proof.
  intros I L. cbn [accesses]. unfold st_bind at 1. rewrite access_load by assumption. unfold st_bind at 1.
  erewrite access_store; [|cbn [sh_held]; apply nth_set; apply nth_error_Some; congruence|assumption].
  cbn [sh_held sh_given]. now rewrite set_set, set_same.
Qed.

Definition numbers (c : Z) (n : nat) : list Z := map (fun i => u16 (c + 1 + Z.of_nat i)) (seq 0 n).
Lemma numbers_S c n : numbers c (S n) = u16 (c + 1) :: numbers (c + 1) n.
Proof.
  unfold numbers. cbn [seq map]. f_equal; [f_equal; lia|]. rewrite <- seq_shift, map_map. apply map_ext.
  intros i. f_equal. lia.
Qed.
Lemma turns_run turns : forall s, Forall (fun t => nth_error (sh_held s) t = Some None) turns ->
  sh_counter s + zlen turns <= 2147483647 ->
  accesses (one_at_a_time turns) s
  = (Ok tt, mkShared (sh_counter s + zlen turns) (sh_held s)
              (sh_given s ++ combine turns (numbers (sh_counter s) (List.length turns)))).
Proof.
  induction turns as [|t turns IH]; intros s F L.
  - cbn. unfold zlen; cbn. rewrite Z.add_0_r, app_nil_r. destruct s; reflexivity.
  - inv F. unfold one_at_a_time. cbn [map List.concat app]. unfold zlen in *. cbn [List.length] in *.
    rewrite turn by (assumption || lia). change (List.concat (map (fun t0 => [t0; t0]) turns)) with (one_at_a_time turns).
    rewrite IH; cbn [sh_held sh_counter sh_given]; [|assumption|lia].
    rewrite numbers_S. cbn [combine]. rewrite <- app_assoc. cbn [app]. do 2 f_equal. lia.
Qed.

Lemma map_snd_combine {A B} (a : list A) : forall b : list B, List.length a = List.length b -> map snd (combine a b) = b.
Proof. induction a as [|x a IH]; intros [|y b] L; cbn in *; try lia; [reflexivity|]. f_equal. apply IH. lia. Qed.
Lemma numbers_length c n : List.length (numbers c n) = n.
Proof. unfold numbers. now rewrite map_length, seq_length. Qed.
Lemma numbers_distinct c n : Z.of_nat n <= 65536 -> NoDup (numbers c n).
Proof.
  intros L. unfold numbers. assert (X : forall k i, (In i (seq k (n - k)) -> k <= i < n)%nat) by (intros k i I; apply in_seq in I; lia).
  apply (NoDup_nth _ 0). intros i j Li Lj E. rewrite map_length, seq_length in Li, Lj.
  rewrite !(nth_indep _ 0 (u16 (c + 1 + Z.of_nat 0))) in E by (rewrite map_length, seq_length; assumption).
  rewrite !(map_nth (fun i => u16 (c + 1 + Z.of_nat i))), !seq_nth in E by assumption. unfold u16 in E. lia.
Qed.

Lemma held0 n t : (t < n)%nat -> nth_error (repeat (@None Z) n) t = Some None.
Proof. revert t. induction n as [|n IH]; intros [|t] L; cbn; try lia; [reflexivity|]. apply IH. lia. Qed.

Lemma turns_distinct n turns : Forall (fun t => (t < n)%nat) turns -> zlen turns <= 65536 ->
  exists s, accesses (one_at_a_time turns) (shared0 n) = (Ok tt, s)
    /\ map fst (sh_given s) = turns /\ NoDup (map snd (sh_given s)).
Proof.
  intros F L. rewrite turns_run; cbn [shared0 sh_held sh_counter sh_given app].
  - eexists. split; [reflexivity|]. cbn [sh_given]. split.
    + clear -F. generalize 0 at 1. induction turns as [|t turns IH]; intros c; [reflexivity|]. cbn [List.length]. rewrite numbers_S.
      cbn. f_equal. apply IH. now inv F.
    + rewrite map_snd_combine by (now rewrite numbers_length). apply numbers_distinct. unfold zlen in L. lia.
  - revert F. apply Forall_impl. intros t T. now apply held0.
  - unfold zlen in *. lia.
Qed.

Lemma same_number a b s : a <> b -> nth_error (sh_held s) a = Some None -> nth_error (sh_held s) b = Some None ->
  sh_counter s < 2147483647 ->
  snd (accesses [a; b; a; b] s) = mkShared (sh_counter s + 1) (sh_held s)
     (sh_given s ++ [(a, u16 (sh_counter s + 1)); (b, u16 (sh_counter s + 1))])
  /\ snd (accesses [a; b; b; a] s) = mkShared (sh_counter s + 1) (sh_held s)
     (sh_given s ++ [(b, u16 (sh_counter s + 1)); (a, u16 (sh_counter s + 1))]).
Proof.
  intros N A B L.
  assert (La : (a < List.length (sh_held s))%nat) by (apply nth_error_Some; congruence).
  assert (Lb : (b < List.length (sh_held s))%nat) by (apply nth_error_Some; congruence).
  assert (SW : forall (x y : option Z) l, set_nth a x (set_nth b y l) = set_nth b y (set_nth a x l)).
  { clear -N. intros x y l. revert a b N. induction l as [|z l IH]; intros [|a] [|b] N; cbn; try reflexivity; [now destruct N|].
    f_equal. apply IH. lia. }
  split.
  - cbn [accesses]. unfold st_bind at 1. rewrite access_load by assumption.
    unfold st_bind at 1. rewrite access_load by (cbn [sh_held]; now rewrite nth_set_other).
    unfold st_bind at 1. cbn [sh_held sh_counter sh_given].
    rewrite (access_store a (sh_counter s)); cbn [sh_held sh_counter sh_given]; [|rewrite nth_set_other by congruence; now apply nth_set|assumption].
    unfold st_bind at 1.
    rewrite (access_store b (sh_counter s)); cbn [sh_held sh_counter sh_given snd]; [|rewrite nth_set_other by congruence; apply nth_set; now rewrite set_length|assumption].
    rewrite (SW None (Some (sh_counter s))), set_set, set_set, (set_same None (sh_held s) a), set_same by assumption.
    now rewrite <- app_assoc.
  - cbn [accesses]. unfold st_bind at 1. rewrite access_load by assumption.
    unfold st_bind at 1. rewrite access_load by (cbn [sh_held]; now rewrite nth_set_other).
    unfold st_bind at 1. cbn [sh_held sh_counter sh_given].
    rewrite (access_store b (sh_counter s)); cbn [sh_held sh_counter sh_given]; [|apply nth_set; now rewrite set_length|assumption].
    unfold st_bind at 1. rewrite set_set.
    rewrite (access_store a (sh_counter s)); cbn [sh_held sh_counter sh_given snd]; [|rewrite nth_set_other by congruence; now apply nth_set|assumption].
    rewrite (SW None None), set_set, (set_same None (sh_held s) a), set_same by assumption.
    now rewrite <- app_assoc.
Qed.

(** Every interleaving of two opens. *)
Lemma two_cases a b ts : a <> b -> two_opens a b ts ->
  (ts = [a; a; b; b] \/ ts = [b; b; a; a]) \/ (ts = [a; b; a; b] \/ ts = [a; b; b; a] \/ ts = [b; a; a; b] \/ ts = [b; a; b; a]).
Proof.
  intros N (L & Ca & Cb). destruct ts as [|w [|x [|y [|z [|]]]]]; try discriminate L. cbn [count_occ] in *.
  repeat match goal with H : context [Nat.eq_dec ?p ?q] |- _ => destruct (Nat.eq_dec p q); subst end;
    try congruence; try lia; auto 10.
Qed.

Lemma two_exact a b ts s : a <> b -> two_opens a b ts ->
  nth_error (sh_held s) a = Some None -> nth_error (sh_held s) b = Some None -> sh_counter s < 2147483646 ->
  exists x y u v, sh_given (snd (accesses ts s)) = sh_given s ++ [(x, u); (y, v)]
    /\ (u = v <-> ~ (ts = [a; a; b; b] \/ ts = [b; b; a; a])).
Proof.
  intros N T A B L. destruct (two_cases a b ts N T) as [H|H].
  - assert (X : exists x y, ts = [x; x; y; y] /\ nth_error (sh_held s) x = Some None /\ nth_error (sh_held s) y = Some None
      /\ ((x = a /\ y = b) \/ (x = b /\ y = a))).
    { destruct H; subst ts; [exists a, b|exists b, a]; auto 10. }
    destruct X as (x & y & E & X & Y & XY). clear H. subst ts.
    assert (E1 : accesses [x; x; y; y] s
                 = accesses [y; y] (mkShared (sh_counter s + 1) (sh_held s) (sh_given s ++ [(x, u16 (sh_counter s + 1))])))
      by (apply turn; [exact X|clear - L; lia]).
    assert (E2 : accesses [y; y] (mkShared (sh_counter s + 1) (sh_held s) (sh_given s ++ [(x, u16 (sh_counter s + 1))]))
                 = accesses [] (mkShared (sh_counter s + 1 + 1) (sh_held s)
                      ((sh_given s ++ [(x, u16 (sh_counter s + 1))]) ++ [(y, u16 (sh_counter s + 1 + 1))])))
      by (apply (turn y [] (mkShared (sh_counter s + 1) (sh_held s) (sh_given s ++ [(x, u16 (sh_counter s + 1))])));
          [exact Y|cbn [sh_counter]; clear - L; lia]).
    rewrite E1, E2. cbn [accesses snd sh_given sh_counter].
    exists x, y, (u16 (sh_counter s + 1)), (u16 (sh_counter s + 1 + 1)). rewrite <- app_assoc. split; [reflexivity|].
    split; [clear; unfold u16; intros E; lia|intros C; exfalso; apply C; destruct XY as [[-> ->]|[-> ->]]; auto].
  - assert (NS : ~ (ts = [a; a; b; b] \/ ts = [b; b; a; a])).
    { intros [G|G]; subst ts; destruct H as [H|[H|[H|H]]]; inv H; congruence. }
    destruct (same_number a b s N A B ltac:(lia)) as [E1 E2].
    destruct (same_number b a s (not_eq_sym N) B A ltac:(lia)) as [E3 E4].
    destruct H as [H|[H|[H|H]]]; subst ts; [rewrite E1|rewrite E2|rewrite E4|rewrite E3]; cbn [sh_given];
      do 4 eexists; (split; [reflexivity|]); tauto.
Qed.

(** One thread by itself does what the function that opens connections does. *)
Lemma alone t s g : nth_error (sh_held s) t = Some None -> g_serial g = sh_counter s ->
  match next_serial g with
  | Ok (n, g') => exists s', accesses [t; t] s = (Ok tt, s') /\ sh_counter s' = g_serial g'
                    /\ sh_held s' = sh_held s /\ sh_given s' = sh_given s ++ [(t, n)]
  | o => fst (accesses [t; t] s) = omap (fun _ => tt) o
  end.
Proof.
  intros I C. unfold next_serial. rewrite C.
  assert (LT : (t < List.length (sh_held s))%nat) by (apply nth_error_Some; congruence).
  cbn [accesses]. unfold st_bind. rewrite access_load by assumption.
  unfold access. cbn [sh_held sh_counter sh_given]. rewrite nth_set by assumption.
  destruct (sh_counter s =? 2147483647); [reflexivity|]. eexists. split; [reflexivity|]. cbn [sh_held sh_counter sh_given g_serial].
  rewrite set_set, set_same by assumption. repeat split; congruence.
Qed.
