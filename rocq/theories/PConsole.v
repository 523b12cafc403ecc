(** Proofs about the console appender when output fails. *)
From Verif Require Import Base MLog SLog MConsole SConsole.
From Coq Require Import String Ascii.
Ltac inv H := inversion H; subst; clear H.

Lemma sapp_nil s : (s ++ "")%string = s.
Proof. induction s; cbn; congruence. Qed.
Lemma sapp_assoc a b c : ((a ++ b) ++ c = a ++ b ++ c)%string.
Proof. induction a; cbn; congruence. Qed.
Lemma begins_refl s : begins s s.
Proof. exists ""%string. now rewrite sapp_nil. Qed.
Lemma begins_nil s : begins "" s.
Proof. now exists s. Qed.
Lemma begins_sub s : forall k, begins (substring 0 k s) s.
Proof.
  induction s as [|a s IH]; intros [|k]; cbn; try apply begins_nil. destruct (IH k) as (r & E). exists r. cbn. congruence.
Qed.
Lemma begins_app a b c : begins b c -> begins (a ++ b) (a ++ c).
Proof. intros (r & ->). exists r. now rewrite sapp_assoc. Qed.
Lemma begins_more a b c : begins a b -> begins a (b ++ c).
Proof. intros (r & ->). exists (r ++ c)%string. now rewrite sapp_assoc. Qed.

(** What a step adds to a console: the text as a whole if it stays good. *)
Definition adds (text : string) (c c' : console) : Prop :=
  co_level c' = co_level c
  /\ exists part, co_out c' = (co_out c ++ part)%string /\ begins part text
     /\ (co_good c = false -> part = ""%string /\ co_good c' = false /\ co_results c' = co_results c)
     /\ (co_good c' = true -> part = text)
     /\ (co_good c = true -> all_succeed (co_results c) -> co_good c' = true /\ all_succeed (co_results c')).
Lemma adds_put text c : adds text c (put text c).
Proof.
  unfold put. destruct (co_good c) eqn:G; cbn [andb].
  2:{ split; [reflexivity|]. exists ""%string. rewrite sapp_nil. split; [reflexivity|]. split; [apply begins_nil|]. split; [auto|]. split; congruence. }
  destruct (String.eqb_spec text "") as [->|N]; cbn [negb].
  { split; [reflexivity|]. exists ""%string. rewrite sapp_nil. split; [reflexivity|]. split; [apply begins_nil|]. split; [congruence|]. auto. }
  destruct (co_results c) as [|[k|] r] eqn:R.
  - split; [reflexivity|]. exists text. split; [reflexivity|]. split; [apply begins_refl|]. split; [intros X; first [discriminate X|congruence]|]. split; [auto|]. intros _ _. split; [reflexivity|constructor].
  - split; [reflexivity|]. exists (substring 0 k text). split; [reflexivity|]. split; [apply begins_sub|]. split; [intros X; first [discriminate X|congruence]|]. split; [intros X; first [discriminate X|congruence]|].
    intros _ F. rewrite R in F. inv F. discriminate.
  - split; [reflexivity|]. exists text. split; [reflexivity|]. split; [apply begins_refl|]. split; [intros X; first [discriminate X|congruence]|]. split; [auto|]. intros _ F. rewrite R in F. inv F. auto.
Qed.
Lemma adds_flush c : adds "" c (flush c).
Proof.
  unfold flush. destruct (co_good c) eqn:G.
  2:{ split; [reflexivity|]. exists ""%string. rewrite sapp_nil. split; [reflexivity|]. split; [apply begins_nil|]. split; [auto|]. split; congruence. }
  destruct (co_results c) as [|[k|] r] eqn:R.
  - split; [reflexivity|]. exists ""%string. rewrite sapp_nil. split; [reflexivity|]. split; [apply begins_refl|]. split; [intros X; first [discriminate X|congruence]|]. split; [auto|]. intros _ _. split; [reflexivity|constructor].
  - split; [reflexivity|]. exists ""%string. rewrite sapp_nil. split; [reflexivity|]. split; [apply begins_nil|]. split; [intros X; first [discriminate X|congruence]|]. split; [intros X; first [discriminate X|congruence]|].
    intros _ F. rewrite R in F. inv F. discriminate.
  - split; [reflexivity|]. exists ""%string. rewrite sapp_nil. split; [reflexivity|]. split; [apply begins_refl|]. split; [intros X; first [discriminate X|congruence]|]. split; [auto|]. intros _ F. rewrite R in F. inv F. auto.
Qed.
Lemma adds_then t1 t2 c c1 c2 : adds t1 c c1 -> adds t2 c1 c2 -> adds (t1 ++ t2) c c2.
Proof.
  intros (L1 & p1 & O1 & B1 & F1 & G1 & S1) (L2 & p2 & O2 & B2 & F2 & G2 & S2). split; [congruence|].
  exists (p1 ++ p2)%string. split; [now rewrite O2, O1, sapp_assoc|]. destruct (co_good c1) eqn:E1.
  - rewrite (G1 eq_refl) in *. split; [now apply begins_app|]. split; [intros X; destruct (F1 X) as (_ & Y & _); discriminate|]. split; [intros X; now rewrite (G2 X)|].
    intros X Y. destruct (S1 X Y) as [_ Z]. now apply S2.
  - destruct (F2 eq_refl) as (-> & X & R2). rewrite sapp_nil. split; [now apply begins_more|]. split; [intros Y; destruct (F1 Y) as (-> & _ & R1); repeat split; congruence|].
    split; [congruence|]. intros Y Z. destruct (S1 Y Z). discriminate.
Qed.

Lemma shown_value g l : In l (shown g) <-> negb (level_value g =? level_value OFF) && (level_value l <=? level_value g) = true.
Proof. destruct g, l; cbn; split; intros H; try reflexivity; try discriminate; intuition discriminate. Qed.

Lemma step_adds o c : proper o -> o <> CClear -> fst (console_step o c) = Ok tt
  /\ co_level (snd (console_step o c)) = level_then (co_level c) o
  /\ adds (text_of (co_level c) o) c (mkConsole (co_level c) (co_good (snd (console_step o c))) (co_out (snd (console_step o c))) (co_results (snd (console_step o c)))).
Proof.
  assert (K : forall t c', adds t c c' -> adds t c (mkConsole (co_level c) (co_good c') (co_out c') (co_results c'))) by (intros t c' A; exact (conj eq_refl (proj2 A))).
  assert (Z : adds "" c c).
  { split; [reflexivity|]. exists ""%string. rewrite sapp_nil. split; [reflexivity|]. split; [apply begins_refl|]. split; [auto|]. auto. }
  intros P N. destruct o as [l pieces|l|text|]; [|split; [reflexivity|]; split; [reflexivity|]; cbn [console_step snd co_good co_out co_results text_of]; apply K; exact Z| |congruence].
  - cbn [console_step text_of level_then]. unfold console_log. pose proof (shown_value (co_level c) l) as V.
    destruct (in_dec level_dec l (shown (co_level c))) as [I|I].
    + rewrite (proj1 V I). assert (X : level_name l = Some (tag l)) by (destruct l; [destruct P|reflexivity..]). rewrite X. cbn [fst snd].
      assert (A : adds (tag l ++ String.concat "" pieces ++ line_end) c (flush (put newline (put (String.concat "" pieces) (put (tag l) c))))).
      { rewrite <- (sapp_nil line_end). eapply adds_then; [apply adds_put|]. eapply adds_then; [apply adds_put|]. change line_end with newline.
        eapply adds_then; [apply adds_put|]. apply adds_flush. }
      split; [reflexivity|]. split; [apply A|]. now apply K.
    + destruct (negb _ && _) eqn:Y; [exfalso; apply I, V, eq_refl|]. cbn [fst snd]. split; [reflexivity|]. split; [reflexivity|]. now apply K.
  - cbn [console_step fst snd text_of level_then]. split; [reflexivity|]. split; [apply adds_put|]. apply K, adds_put.
Qed.

(** ** Runs *)
Lemma step_part o c : proper o -> exists part c', console_step o c = (Ok tt, c') /\ co_level c' = level_then (co_level c) o
  /\ co_out c' = (co_out c ++ part)%string /\ begins part (text_of (co_level c) o)
  /\ (o <> CClear -> (co_good c = false -> part = ""%string /\ co_good c' = false)
      /\ (co_good c' = true -> part = text_of (co_level c) o))
  /\ (co_good c = true -> all_succeed (co_results c) -> co_good c' = true /\ all_succeed (co_results c') /\ part = text_of (co_level c) o).
Proof.
  intros P. assert (D : o = CClear \/ o <> CClear) by (destruct o; auto; right; discriminate). destruct D as [->|N].
  { exists ""%string. eexists. split; [reflexivity|]. cbn. rewrite sapp_nil. split; [reflexivity|]. split; [reflexivity|]. split; [apply begins_nil|]. split; [congruence|auto]. }
  destruct (step_adds o c P N) as (A & B & _ & part & O & Bg & F & G & S). destruct (console_step o c) as [r c']. cbn [fst snd co_good co_out co_results] in *. subst r.
  exists part, c'. split; [reflexivity|]. split; [exact B|]. split; [exact O|]. split; [exact Bg|]. split.
  - intros _. split; [intros X; destruct (F X) as (? & ? & _); auto|exact G].
  - intros X Y. destruct (S X Y) as [S1 S2]. auto.
Qed.
Lemma run_parts ops : Forall proper ops -> forall c, exists parts c', console_run ops c = (Ok tt, c')
  /\ co_out c' = (co_out c ++ String.concat "" parts)%string /\ Forall2 begins parts (texts (co_level c) ops).
Proof.
  intros F. induction F as [|o ops P F IH]; intros c; cbn [console_run texts].
  { exists [], c. cbn. rewrite sapp_nil. auto. }
  destruct (step_part o c P) as (part & c1 & E & L & O & B & _). unfold st_bind. rewrite E.
  destruct (IH c1) as (parts & c' & E' & O' & F'). exists (part :: parts), c'. split; [exact E'|]. rewrite <- L. split; [|now constructor].
  rewrite O', O, sapp_assoc. f_equal. destruct parts; cbn; [now rewrite sapp_nil|reflexivity].
Qed.
Lemma concat_cons a l : String.concat "" (a :: l) = (a ++ String.concat "" l)%string.
Proof. destruct l; cbn; [now rewrite sapp_nil|reflexivity]. Qed.
Lemma run_bad ops : Forall proper ops -> Forall no_clear ops -> forall c, co_good c = false -> exists c', console_run ops c = (Ok tt, c') /\ co_out c' = co_out c /\ co_good c' = false.
Proof.
  intros F N. induction F as [|o ops P F IH]; intros c G; cbn [console_run]; [eauto|]. inv N.
  destruct (step_part o c P) as (part & c1 & E & L & O & B & K & _). destruct (K ltac:(assumption)) as [K1 _]. destruct (K1 G) as [-> G1].
  unfold st_bind. rewrite E. destruct (IH ltac:(assumption) c1 G1) as (c' & E' & O' & G'). exists c'. rewrite E', O', O, sapp_nil. auto.
Qed.
Lemma run_begins ops : Forall proper ops -> Forall no_clear ops -> forall c, co_good c = true -> exists part c', console_run ops c = (Ok tt, c')
  /\ co_out c' = (co_out c ++ part)%string /\ begins part (String.concat "" (texts (co_level c) ops))
  /\ (co_good c' = true -> part = String.concat "" (texts (co_level c) ops)).
Proof.
  intros F N. induction F as [|o ops P F IH]; intros c G; cbn [console_run texts].
  { exists ""%string, c. cbn. rewrite sapp_nil. repeat split; auto using begins_refl. }
  inv N. destruct (step_part o c P) as (part & c1 & E & L & O & B & K & _). destruct (K ltac:(assumption)) as [_ K2]. rewrite concat_cons. unfold st_bind. rewrite E.
  destruct (co_good c1) eqn:G1.
  - rewrite (K2 eq_refl) in *. destruct (IH ltac:(assumption) c1 G1) as (p2 & c' & E' & O' & B' & K'). exists (text_of (co_level c) o ++ p2)%string, c'.
    rewrite <- L. split; [exact E'|]. split; [now rewrite O', O, sapp_assoc|]. split; [now apply begins_app|]. intros X. now rewrite (K' X).
  - destruct (run_bad ops F ltac:(assumption) c1 G1) as (c' & E' & O' & G'). exists part, c'. split; [exact E'|]. split; [congruence|]. split; [now apply begins_more|congruence].
Qed.
Lemma run_good ops : Forall proper ops -> forall c, co_good c = true -> all_succeed (co_results c) -> exists c', console_run ops c = (Ok tt, c')
  /\ co_out c' = (co_out c ++ String.concat "" (texts (co_level c) ops))%string /\ co_good c' = true.
Proof.
  intros F. induction F as [|o ops P F IH]; intros c G R; cbn [console_run texts].
  { exists c. cbn. rewrite sapp_nil. auto. }
  destruct (step_part o c P) as (part & c1 & E & L & O & B & _ & K). destruct (K G R) as (G1 & R1 & ->). unfold st_bind. rewrite E.
  destruct (IH c1 G1 R1) as (c' & E' & O' & G'). exists c'. split; [exact E'|]. rewrite O', O, concat_cons, <- L, sapp_assoc. auto.
Qed.

Lemma same_log l pieces g text passed rs : all_succeed rs ->
  let c := console_log l pieces (mkConsole g true text rs) in let s := log l pieces (mkLogger g Console passed text) in
  fst c = fst s /\ co_out (snd c) = lg_console (snd s) /\ co_level (snd c) = lg_level (snd s) /\ co_good (snd c) = true.
Proof.
  intros R c s. assert (D : l = OFF \/ l <> OFF) by (destruct l; auto; right; discriminate). destruct D as [->|N].
  { subst c s. unfold console_log, log, print. cbn [co_level lg_level lg_appender level_name]. destruct (_ && _); cbn; auto. }
  assert (P : proper (CLog l pieces)) by (destruct l; [congruence|exact I..]).
  destruct (run_good [CLog l pieces] ltac:(repeat constructor; exact P) (mkConsole g true text rs) eq_refl R) as (c' & E & O & G).
  subst c. remember (console_log l pieces (mkConsole g true text rs)) as x eqn:EC. symmetry in EC. destruct x as [o c1].
  change (st_bind (console_log l pieces) (fun _ => console_run []) (mkConsole g true text rs) = (Ok tt, c')) in E. unfold st_bind in E. rewrite EC in E.
  destruct o as [[]|e|u|]; cbn in E; try discriminate. injection E as E. subst c'.
  cbn [fst snd]. rewrite O, G. cbn [co_out co_level texts text_of]. 
  assert (LV : co_level c1 = g).
  { pose proof (step_adds (CLog l pieces) (mkConsole g true text rs) P ltac:(discriminate)) as (_ & L & _). cbn [console_step] in L. rewrite EC in L. exact L. }
  rewrite LV. subst s. unfold log, print. cbn [lg_level lg_appender]. pose proof (shown_value g l) as V. destruct (in_dec level_dec l (shown g)) as [I|I].
  - rewrite (proj1 V I). assert (X : level_name l = Some (tag l)) by (destruct l; [congruence|reflexivity..]). rewrite X. cbn. auto.
  - destruct (negb _ && _) eqn:Y; [exfalso; apply I, V, eq_refl|]. cbn. rewrite sapp_nil. auto.
Qed.

(** ** Failures are noticed *)
Definition notices (c c' : console) : Prop := co_good c = true -> exists used, co_results c = used ++ co_results c'
  /\ if co_good c' then all_succeed used else exists ok k, used = ok ++ [Some k] /\ all_succeed ok.
Definition rests (c c' : console) : Prop := co_good c = false -> co_good c' = false /\ co_results c' = co_results c.
Definition watches (c c' : console) : Prop := notices c c' /\ rests c c'.
Lemma watches_refl c : watches c c.
Proof. split; [intros G; exists []; rewrite G; now repeat constructor|]. intros G. auto. Qed.
Lemma watches_trans a b c : watches a b -> watches b c -> watches a c.
Proof.
  intros [N1 R1] [N2 R2]. split.
  - intros G. destruct (N1 G) as (u1 & E1 & X1). destruct (co_good b) eqn:Gb.
    + destruct (N2 Gb) as (u2 & E2 & X2). exists (u1 ++ u2). split; [now rewrite E1, E2, app_assoc|]. destruct (co_good c).
      * now apply Forall_app.
      * destruct X2 as (ok & k & -> & F). exists (u1 ++ ok), k. rewrite app_assoc. split; [reflexivity|]. now apply Forall_app.
    + destruct (R2 Gb) as [-> R]. exists u1. now rewrite R.
  - intros G. destruct (R1 G) as [Gb Rb]. destruct (R2 Gb) as [Gc Rc]. split; congruence.
Qed.
Lemma watches_put t c : watches c (put t c).
Proof.
  unfold put. destruct (co_good c) eqn:G; cbn [andb]; [|apply watches_refl]. destruct (negb _); [|apply watches_refl].
  split; [|intros X; congruence]. intros _. destruct (co_results c) as [|[k|] r]; cbn.
  - exists []. split; [reflexivity|constructor].
  - exists [Some k]. split; [reflexivity|]. exists [], k. split; [reflexivity|constructor].
  - exists [None]. split; [reflexivity|repeat constructor].
Qed.
Lemma watches_flush c : watches c (flush c).
Proof.
  unfold flush. destruct (co_good c) eqn:G; [|apply watches_refl].
  split; [|intros X; congruence]. intros _. destruct (co_results c) as [|[k|] r]; cbn.
  - exists []. split; [reflexivity|constructor].
  - exists [Some k]. split; [reflexivity|]. exists [], k. split; [reflexivity|constructor].
  - exists [None]. split; [reflexivity|repeat constructor].
Qed.
Lemma watches_step o c : o <> CClear -> watches c (snd (console_step o c)).
Proof.
  intros N. destruct o as [l pieces|l|text|]; [| |apply watches_put|congruence].
  - cbn [console_step]. unfold console_log. destruct (_ && _); [|apply watches_refl]. destruct (level_name l); [|apply watches_refl]. cbn [snd].
    repeat (eapply watches_trans; [|apply watches_flush || apply watches_put]). apply watches_refl.
  - exact (watches_refl c).
Qed.
Lemma run_watches ops : Forall no_clear ops -> forall c, watches c (snd (console_run ops c)).
Proof.
  intros F. induction F as [|o ops N F IH]; intros c; [apply watches_refl|]. cbn [console_run]. unfold st_bind.
  pose proof (watches_step o c N) as W. destruct (console_step o c) as [[a|e|u|] c1]; cbn [snd] in *; try exact W. eapply watches_trans; [exact W|apply IH].
Qed.
Lemma run_notices ops c o c' : Forall no_clear ops -> co_good c = true -> console_run ops c = (o, c') -> exists used, co_results c = used ++ co_results c'
  /\ if co_good c' then all_succeed used else exists ok k, used = ok ++ [Some k] /\ all_succeed ok.
Proof. intros F G E. destruct (run_watches ops F c) as [N _]. rewrite E in N. exact (N G). Qed.
