(** The console when output fails: C123. *)
From Verif Require Import Base MLog SLog PLog MConsole SConsole PConsole.
From Coq Require Import String.

(** Whatever fails, a program that logs nothing at level OFF goes on, and each step puts a beginning of its text on the
    console, in order; nothing else comes out. *)
Theorem C123_parts : forall ops c, Forall proper ops -> exists parts c', console_run ops c = (Ok tt, c')
  /\ co_out c' = (co_out c ++ String.concat "" parts)%string /\ Forall2 begins parts (texts (co_level c) ops).
Proof. intros ops c F. now apply run_parts. Qed.
Print Assumptions C123_parts.
(** If nothing fails everything is there, each message as a line with its level. *)
Theorem C123_all : forall ops c, Forall proper ops -> co_good c = true -> all_succeed (co_results c) -> exists c', console_run ops c = (Ok tt, c')
  /\ co_out c' = (co_out c ++ String.concat "" (texts (co_level c) ops))%string /\ co_good c' = true.
Proof. intros ops c F. now apply run_good. Qed.
Print Assumptions C123_all.
(** As long as the program does not clear std::cout, the console has a beginning of the whole text, and all of it if
    std::cout is still good. *)
Theorem C123_begins : forall ops c, Forall proper ops -> Forall no_clear ops -> co_good c = true -> exists part c', console_run ops c = (Ok tt, c')
  /\ co_out c' = (co_out c ++ part)%string /\ begins part (String.concat "" (texts (co_level c) ops))
  /\ (co_good c' = true -> part = String.concat "" (texts (co_level c) ops)).
Proof. intros ops c F N. now apply run_begins. Qed.
Print Assumptions C123_begins.
(** After a failure nothing comes out until the program clears std::cout. *)
Theorem C123_silent : forall ops c, Forall proper ops -> Forall no_clear ops -> co_good c = false ->
  exists c', console_run ops c = (Ok tt, c') /\ co_out c' = co_out c /\ co_good c' = false.
Proof. intros ops c F N. now apply run_bad. Qed.
Print Assumptions C123_silent.
(** std::cout is good exactly as long as all writes and flushes have succeeded; after the first that fails none is tried. *)
Theorem C123_noticed : forall ops c o c', Forall no_clear ops -> co_good c = true -> console_run ops c = (o, c') ->
  exists used, co_results c = used ++ co_results c'
  /\ if co_good c' then all_succeed used else exists ok k, used = ok ++ [Some k] /\ all_succeed ok.
Proof. exact run_notices. Qed.
Print Assumptions C123_noticed.
(** Without failures it is the logger of C68. *)
Theorem C123_same : forall l pieces g text passed rs, all_succeed rs ->
  let c := console_log l pieces (mkConsole g true text rs) in let s := log l pieces (mkLogger g Console passed text) in
  fst c = fst s /\ co_out (snd c) = lg_console (snd s) /\ co_level (snd c) = lg_level (snd s) /\ co_good (snd c) = true.
Proof. exact same_log. Qed.
Print Assumptions C123_same.

Definition hello : list console_op := [CLog INFO ["one"%string]; CLog DEBUG ["hidden"%string]; CLog ERROR ["two"%string]].
Example C123_case : Forall proper hello /\ Forall no_clear hello /\ texts INFO hello = [("[INFO] one" ++ line_end)%string; ""%string; ("[ERROR] two" ++ line_end)%string].
Proof. split; [repeat constructor|]. split; [repeat constructor; discriminate|reflexivity]. Qed.
(** One write fails; all later ones would succeed, but the next message is lost. *)
Theorem C123_refuted : exists ops rs c', Forall proper ops /\ (exists k r, rs = k :: Some r :: repeat None 20)
  /\ console_run ops (console0 rs) = (Ok tt, c') /\ texts INFO ops = [("[INFO] one" ++ line_end)%string; ""%string; ("[ERROR] two" ++ line_end)%string]
  /\ co_out c' = "[INFO] o"%string.
Proof.
  exists hello, (None :: Some 1%nat :: repeat None 20). eexists. split; [repeat constructor|]. split; [eauto|]. split; [reflexivity|]. split; reflexivity.
Qed.
Print Assumptions C123_refuted.
(** Once the program has cleared std::cout, the next message comes behind the one that was cut, in the same line. *)
Theorem C123_line_refuted : exists rs c', 
  console_run [CLog INFO ["one"%string]; CClear; CLog ERROR ["two"%string]] (console0 rs) = (Ok tt, c')
  /\ co_out c' = ("[INFO] o[ERROR] two" ++ line_end)%string.
Proof. exists [None; Some 1%nat]. eexists. split; reflexivity. Qed.
Print Assumptions C123_line_refuted.
(** Hypotheses: a console after a failure; one that is good with results to come. *)
Example C123_silent_case : exists c, console_run [CLog INFO ["one"%string]] (console0 [Some 0%nat]) = (Ok tt, c) /\ co_good c = false /\ co_results c = [].
Proof. eexists. split; reflexivity || (split; reflexivity). Qed.
Example C123_all_case : co_good (console0 [None; None]) = true /\ all_succeed (co_results (console0 [None; None])).
Proof. split; [reflexivity|repeat constructor]. Qed.
Example C123_noticed_case : exists c, console_run hello (console0 [None; None; None; Some 0%nat; None]) = (Ok tt, c)
  /\ co_good c = false /\ co_results c = [None] /\ co_out c = ("[INFO] one" ++ line_end)%string.
Proof. eexists. split; [reflexivity|]. repeat split. Qed.
