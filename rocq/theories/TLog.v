(** Property theorems: logging (C68, C69) and serial numbers of threads (C70). *)
From Verif Require Import Base MConn MLog SLog PLog PThread.
From Coq Require Import String.
Local Open Scope Z_scope.

(** C68. After every history of calls: a message reaches the appender exactly if
    its level is one of those shown at the global level set last; then it reaches
    the appender set last, once, with its level and its whole text; otherwise
    nothing changes. *)
Theorem C68_passed : forall ops s g a l pieces,
  log_run ops logger0 = (Ok tt, s) -> level_after ops g -> appender_after ops a -> a <> NoAppender ->
  (In l (shown g) -> lg_passed (snd (log l pieces s)) = lg_passed s ++ [(a, l, String.concat "" pieces)])
  /\ (~ In l (shown g) -> log l pieces s = (Ok tt, s)).
Proof. exact passed_exactly. Qed.
Print Assumptions C68_passed.
(** Histories that meet the hypotheses of the theorems on C68: [C68_example], [C68_off_example] below. *)
Theorem C68_other_calls : forall o s r s', (forall l pieces, o <> Log l pieces) -> log_step o s = (r, s') ->
  lg_passed s' = lg_passed s /\ lg_console s' = lg_console s.
Proof. exact others_pass_nothing. Qed.
Print Assumptions C68_other_calls.
Theorem C68_off : forall ops s l pieces,
  log_run ops logger0 = (Ok tt, s) -> level_after ops OFF -> log l pieces s = (Ok tt, s).
Proof. exact silent_off. Qed.
Print Assumptions C68_off.
Theorem C68_console : forall ops s g l pieces,
  log_run ops logger0 = (Ok tt, s) -> level_after ops g -> appender_after ops Console -> In l (shown g) -> l <> OFF ->
  fst (log l pieces s) = Ok tt /\
  lg_console (snd (log l pieces s)) = (lg_console s ++ tag l ++ String.concat "" pieces ++ line_end)%string.
Proof. exact console_text. Qed.
Print Assumptions C68_console.
Definition some_ops : list log_op :=
  [Log WARNING ["low "; "level"]; Log DEBUG ["hidden"]; SetLevel OFF; Log ERROR ["gone"]; SetLevel DEBUG; Log TRACE ["no"];
   Log DEBUG ["yes"]]%string.
Example C68_example : exists s, log_run some_ops logger0 = (Ok tt, s) /\ level_after some_ops DEBUG
  /\ appender_after some_ops Console /\ In ERROR (shown DEBUG) /\ ~ In TRACE (shown DEBUG)
  /\ lg_passed s = [(Console, WARNING, "low level"); (Console, DEBUG, "yes")]%string
  /\ lg_console s = ("[WARNING] low level" ++ line_end ++ "[DEBUG] yes" ++ line_end)%string.
Proof.
  eexists. split; [reflexivity|]. split.
  { right. exists [Log WARNING ["low "; "level"]; Log DEBUG ["hidden"]; SetLevel OFF; Log ERROR ["gone"]]%string, [Log TRACE ["no"]; Log DEBUG ["yes"]]%string.
    split; [reflexivity|]. repeat constructor; intros []. }
  split; [left; split; [reflexivity|]; repeat constructor; intros []|].
  split; [cbn; auto|]. split; [cbn; intuition discriminate|]. split; reflexivity.
Qed.
Example C68_off_example : exists s, log_run [SetLevel OFF] logger0 = (Ok tt, s) /\ level_after [SetLevel OFF] OFF.
Proof. eexists. split; [reflexivity|]. right. exists [], []. split; [reflexivity|constructor]. Qed.

(** C69. Full statement: no history ends the program. Proved for histories
    without messages of level OFF; with the console, a message of level OFF ends
    the program unless logging is off ([C69_refuted], [C69_exact]). Appenders of
    the program must not throw, and an empty appender must not be set. *)
Theorem C69_partial : forall ops, Forall decent ops -> (forall pieces, ~ In (Log OFF pieces) ops) ->
  exists s, log_run ops logger0 = (Ok tt, s).
Proof. intros ops. apply never_terminates. exact I. Qed.
Print Assumptions C69_partial.
Example C69_example : Forall decent (SetAppender (Own 1 (fun _ _ => false)) :: some_ops)
  /\ forall pieces, ~ In (Log OFF pieces) (SetAppender (Own 1 (fun _ _ => false)) :: some_ops).
Proof. split; [repeat constructor|]. intros p. cbn. intuition discriminate. Qed.
Theorem C69_exact : forall ops s g a l pieces,
  log_run ops logger0 = (Ok tt, s) -> level_after ops g -> appender_after ops a -> decent_appender a ->
  fst (log l pieces s) = Ok tt /\ ~ (l = OFF /\ g <> OFF /\ a = Console)
  \/ fst (log l pieces s) = Abort /\ (l = OFF /\ g <> OFF /\ a = Console).
Proof. exact terminates_exactly. Qed.
Print Assumptions C69_exact.
Example C69_exact_example : exists s, log_run some_ops logger0 = (Ok tt, s) /\ decent_appender Console
  /\ fst (log OFF ["end"%string] s) = Abort /\ fst (log ERROR ["go on"%string] s) = Ok tt.
Proof. eexists. split; [reflexivity|]. repeat split. Qed.
(** Other appenders: an empty one is dereferenced, the exceptions of one's own end the program. *)
Theorem C69_appenders : forall ops s g a l pieces,
  log_run ops logger0 = (Ok tt, s) -> level_after ops g -> appender_after ops a -> In l (shown g) ->
  (a = NoAppender -> log l pieces s = (Undef UbNullDeref, s))
  /\ (forall n throws, a = Own n throws -> fst (log l pieces s) = if throws l (String.concat "" pieces) then Abort else Ok tt).
Proof. exact appender_outcomes. Qed.
Print Assumptions C69_appenders.
Example C69_appenders_example : log_run [SetAppender NoAppender] logger0 = (Ok tt, mkLogger INFO NoAppender [] "")
  /\ level_after [SetAppender NoAppender] INFO /\ appender_after [SetAppender NoAppender] NoAppender /\ In ERROR (shown INFO).
Proof.
  split; [reflexivity|]. split; [left; split; [reflexivity|]; repeat constructor; intros []|]. split; [|cbn; auto].
  right. exists [], []. split; [reflexivity|constructor].
Qed.
Theorem C69_refuted : exists l pieces, fst (log l pieces logger0) = Abort.
Proof. exists OFF, ["always"%string]. reflexivity. Qed.
Print Assumptions C69_refuted.

(** C70. Full statement: for every schedule, the numbers given out differ. Proved
    for schedules in which no thread uses the counter between the load and the
    store of another, for up to 65536 numbers. Of the interleavings of two opens
    exactly the two sequential ones give different numbers ([C70_two_opens]), and of
    the schedules in which every open ends exactly those of [C70_partial] do ([C70_exact]). *)
Theorem C70_partial : forall n turns, Forall (fun t => (t < n)%nat) turns -> zlen turns <= 65536 ->
  exists s, accesses (one_at_a_time turns) (shared0 n) = (Ok tt, s)
    /\ map fst (sh_given s) = turns /\ NoDup (map snd (sh_given s)).
Proof. exact turns_distinct. Qed.
Print Assumptions C70_partial.
Example C70_example : Forall (fun t => (t < 3)%nat) [0; 2; 1; 0]%nat
  /\ sh_given (snd (accesses (one_at_a_time [0; 2; 1; 0]%nat) (shared0 3))) = [(0%nat, 1); (2%nat, 2); (1%nat, 3); (0%nat, 4)].
Proof. split; [repeat constructor; lia|reflexivity]. Qed.
(** A thread that is not disturbed gets the number [forwardOpen] would give it,
    and the counter overflows for it when it overflows there. *)
Theorem C70_alone : forall t s g, nth_error (sh_held s) t = Some None -> g_serial g = sh_counter s ->
  match next_serial g with
  | Ok (n, g') => exists s', accesses [t; t] s = (Ok tt, s') /\ sh_counter s' = g_serial g'
                    /\ sh_held s' = sh_held s /\ sh_given s' = sh_given s ++ [(t, n)]
  | o => fst (accesses [t; t] s) = omap (fun _ => tt) o
  end.
Proof. exact alone. Qed.
Print Assumptions C70_alone.
Theorem C70_overflow : forall t s, nth_error (sh_held s) t = Some (Some 2147483647) -> access t s = (Undef UbSignedOverflow, s).
Proof. intros t s E. unfold access. now rewrite E. Qed.
Print Assumptions C70_overflow.
Example C70_alone_example : nth_error (sh_held (mkShared 65535 [None] [])) 0 = Some None
  /\ sh_given (snd (accesses [0; 0]%nat (mkShared 65535 [None] []))) = [(0%nat, 0)]
  /\ fst (accesses [0; 0]%nat (mkShared 2147483647 [None] [])) = Undef UbSignedOverflow.
Proof. repeat split. Qed.
Theorem C70_two_opens : forall a b ts s, a <> b -> two_opens a b ts ->
  nth_error (sh_held s) a = Some None -> nth_error (sh_held s) b = Some None -> sh_counter s < 2147483646 ->
  exists x y u v, sh_given (snd (accesses ts s)) = sh_given s ++ [(x, u); (y, v)]
    /\ (u = v <-> ~ (ts = [a; a; b; b] \/ ts = [b; b; a; a])).
Proof. exact two_exact. Qed.
Print Assumptions C70_two_opens.
Example C70_two_opens_example : two_opens 0 1 [0; 1; 1; 0]%nat
  /\ sh_given (snd (accesses [0; 1; 1; 0]%nat (shared0 2))) = [(1%nat, 1); (0%nat, 1)].
Proof. repeat split. Qed.
(** Every thread that loaded has stored: it accessed the counter an even number of times. *)
Theorem C70_exact : forall n ts, Forall (fun t => (t < n)%nat) ts ->
  (forall t, Nat.even (count_occ Nat.eq_dec ts t) = true) -> zlen ts < 2147483647 ->
  exists s, accesses ts (shared0 n) = (Ok tt, s)
    /\ (NoDup (map snd (sh_given s)) <-> exists turns, ts = one_at_a_time turns /\ zlen turns <= 65536).
Proof. exact distinct_iff. Qed.
Print Assumptions C70_exact.
Example C70_exact_example : Forall (fun t => (t < 3)%nat) [2; 2; 0; 1; 0; 0; 1; 0]%nat
  /\ (forall t, Nat.even (count_occ Nat.eq_dec [2; 2; 0; 1; 0; 0; 1; 0]%nat t) = true)
  /\ sh_given (snd (accesses [2; 2; 0; 1; 0; 0; 1; 0]%nat (shared0 3))) = [(2%nat, 1); (0%nat, 2); (1%nat, 2); (0%nat, 3)].
Proof.
  split; [repeat constructor|]. split; [|reflexivity].
  intros [|[|[|t]]]; reflexivity.
Qed.
Theorem C70_refuted : exists n ts s t u serial, accesses ts (shared0 n) = (Ok tt, s) /\ t <> u
  /\ In (t, serial) (sh_given s) /\ In (u, serial) (sh_given s).
Proof.
  exists 2%nat, [0; 1; 0; 1]%nat. do 4 eexists. split; [reflexivity|]. split; [|split; [left; reflexivity|right; left; reflexivity]].
  discriminate.
Qed.
Print Assumptions C70_refuted.
