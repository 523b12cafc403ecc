(** How long receiving takes. *)
From Verif Require Import Base MBuffer SBuffer PBase PBuffer MEip SEip PEip PRouter MSocket SSocket PSocket SExn PExn MIdent MDisc MTime STime SBound PBound.

Lemma wait_ms ms : wait_of ms = Z.max 0 ms.
Proof.
  unfold wait_of, portable_interval. cbv zeta.
  destruct (Z.le_gt_cases 0 ms) as [L|L].
  - rewrite Z.quot_div_nonneg, Z.rem_mod_nonneg by lia. pose proof (Z.div_mod ms 1000 ltac:(lia)). pose proof (Z.mod_pos_bound ms 1000 ltac:(lia)).
    pose proof (Z.div_pos ms 1000 L ltac:(lia)). rewrite !Z.max_l by lia. rewrite Z.div_mul by lia. lia.
  - pose proof (Z.quot_opp_l ms 1000 ltac:(lia)). pose proof (Z.rem_opp_l ms 1000 ltac:(lia)).
    pose proof (Z.quot_pos (- ms) 1000 ltac:(lia) ltac:(lia)). pose proof (Z.rem_nonneg (- ms) 1000 ltac:(lia) ltac:(lia)).
    rewrite !Z.max_r by lia. rewrite Z.max_l by lia. reflexivity.
Qed.

(** ** One reception *)

Lemma recv_zero acc segs : recv_loop 0 acc segs = (Ok acc, segs).
Proof. destruct segs; reflexivity. Qed.
Lemma recvt_zero T acc c evs : recv_timed T 0 acc c evs = Some (Ok acc, c, evs).
Proof. destruct evs; reflexivity. Qed.
Lemma meets_inv T c t met c' : meets T c t = (met, c') ->
  met = true /\ c' = Z.max c t /\ (T = 0 \/ t <= c + T) \/ met = false /\ c' = c + T /\ T <> 0 /\ c + T < t.
Proof.
  unfold meets. destruct (Z.eqb_spec T 0) as [E|E]; cbn [orb].
  - intros X. left. repeat split; try congruence. now left.
  - destruct (Z.leb_spec t (c + T)); intros X; [left|right]; repeat split; try congruence; try lia.
Qed.

(** The cases of one step. *)
Lemma recv_step (P : Z -> nat -> bytes -> Z -> list (Z * seg) -> option (outcome bytes * Z * list (Z * seg)) -> Prop) :
  (forall T acc c evs, P T O acc c evs (Some (Ok acc, c, evs))) ->
  (forall T n acc c, P T (S n) acc c [] (if T =? 0 then None else Some (Throw (SystemError EAGAIN), c + T, []))) ->
  (forall T n acc c t r x, P T (S n) acc c r x -> P T (S n) acc c ((t, Data []) :: r) x) ->
  (forall T n acc c t e r, e <> Data [] -> T <> 0 -> c + T < t -> P T (S n) acc c ((t, e) :: r) (Some (Throw (SystemError EAGAIN), c + T, (t, e) :: r))) ->
  (forall T n acc c t l r x, l <> [] -> (T = 0 \/ t <= c + T) -> (List.length l <= S n)%nat ->
     P T (S n - List.length l)%nat (acc ++ l) (Z.max c t) r x -> P T (S n) acc c ((t, Data l) :: r) x) ->
  (forall T n acc c t l r, (T = 0 \/ t <= c + T) -> (S n < List.length l)%nat ->
     P T (S n) acc c ((t, Data l) :: r) (Some (Ok (acc ++ firstn (S n) l), Z.max c t, (t, Data (skipn (S n) l)) :: r))) ->
  (forall T n acc c t r x, (T = 0 \/ t <= c + T) -> P T (S n) acc (Z.max c t) r x -> P T (S n) acc c ((t, Err 4) :: r) x) ->
  (forall T n acc c t e r, (T = 0 \/ t <= c + T) -> e <> 4 ->
     P T (S n) acc c ((t, Err e) :: r) (Some (Throw (SystemError e), Z.max c t, r))) ->
  (forall T n acc c t r, (T = 0 \/ t <= c + T) ->
     P T (S n) acc c ((t, Eof) :: r) (Some (Ok (acc ++ zeros (S n)), Z.max c t, (t, Eof) :: r))) ->
  forall evs T n acc c, P T n acc c evs (recv_timed T n acc c evs).
Proof.
  intros H0 H1 H2 H3 H4 H5 H6 H7 H8. induction evs as [|[t e] r IH]; intros T n acc c.
  - destruct n; [apply H0|apply H1].
  - destruct n as [|n]; [apply H0|].
    assert (Q : e = Data [] \/ e <> Data []) by (destruct e as [[|]| |]; [left; reflexivity|right..]; discriminate).
    destruct Q as [->|Q]; [apply H2, IH|].
    assert (R : recv_timed T (S n) acc c ((t, e) :: r) = let '(met, c') := meets T c t in
      if met then
        match e with
        | Data l =>
          if Nat.leb (List.length l) (S n) then recv_timed T (S n - List.length l) (acc ++ l) c' r
          else Some (Ok (acc ++ firstn (S n) l), c', (t, Data (skipn (S n) l)) :: r)
        | Err e => if e =? EINTR then recv_timed T (S n) acc c' r else Some (Throw (SystemError e), c', r)
        | Eof => Some (Ok (acc ++ zeros (S n)), c', (t, Eof) :: r)
        end
      else Some (Throw (SystemError EAGAIN), c', (t, e) :: r)).
    { destruct e as [[|x l]|e|]; [elim Q; reflexivity|reflexivity..]. }
    rewrite R. destruct (meets T c t) as [met c'] eqn:M. apply meets_inv in M as [(-> & -> & L)|(-> & -> & L & K)]; [|now apply H3].
    destruct e as [l|e|].
    + destruct (Nat.leb_spec (List.length l) (S n)); [apply H4; auto; congruence|now apply H5].
    + unfold EINTR. destruct (Z.eqb_spec e 4) as [->|N]; [apply H6; auto|now apply H7].
    + now apply H8.
Qed.

(** *** Without the time *)
Lemma recv_view evs T n acc c o c' evs' : recv_timed T n acc c evs = Some (o, c', evs') ->
  recv_loop n acc (untimed evs) = (o, untimed evs')
  \/ o = Throw (SystemError 11) /\ exists a, untimed evs = a ++ untimed evs'
     /\ recv_loop n acc (a ++ Err 11 :: untimed evs') = (o, untimed evs').
Proof.
  revert o c' evs'. pattern T, n, acc, c, evs, (recv_timed T n acc c evs). apply recv_step; clear.
  - intros T acc c evs o c' evs' E. left. rewrite recv_zero. congruence.
  - intros T n acc c o c' evs' E. destruct (T =? 0); [discriminate|]. left. assert (X : o = Throw (SystemError EAGAIN) /\ evs' = []) by (split; congruence).
    destruct X as [-> ->]. reflexivity.
  - intros T n acc c t r x IH o c' evs' E. destruct (IH _ _ _ E) as [A|(-> & a & A & B)].
    + left. cbn [untimed map snd recv_loop List.length Nat.leb]. rewrite Nat.sub_0_r, app_nil_r. exact A.
    + right. split; [reflexivity|]. exists (Data [] :: a). unfold untimed at 1. cbn [map snd app]. split; [f_equal; exact A|].
      cbn [recv_loop List.length Nat.leb]. rewrite Nat.sub_0_r, app_nil_r. exact B.
  - intros T n acc c t e r Q Z L o c' evs' E. right. assert (X : o = Throw (SystemError EAGAIN) /\ evs' = (t, e) :: r) by (split; congruence).
    destruct X as [-> ->]. split; [reflexivity|]. exists []. split; [reflexivity|]. reflexivity.
  - intros T n acc c t l r x Q M L IH o c' evs' E. destruct (IH _ _ _ E) as [A|(-> & a & A & B)].
    + left. cbn [untimed map snd recv_loop]. destruct (Nat.leb_spec (List.length l) (S n)); [exact A|lia].
    + right. split; [reflexivity|]. exists (Data l :: a). unfold untimed at 1. cbn [map snd app]. split; [f_equal; exact A|].
      cbn [recv_loop]. destruct (Nat.leb_spec (List.length l) (S n)); [exact B|lia].
  - intros T n acc c t l r M L o c' evs' E. left. assert (X : o = Ok (acc ++ firstn (S n) l) /\ evs' = (t, Data (skipn (S n) l)) :: r) by (split; congruence).
    destruct X as [-> ->]. cbn [untimed map snd recv_loop]. destruct (Nat.leb_spec (List.length l) (S n)); [lia|reflexivity].
  - intros T n acc c t r x M IH o c' evs' E. destruct (IH _ _ _ E) as [A|(-> & a & A & B)].
    + left. cbn [untimed map snd recv_loop]. exact A.
    + right. split; [reflexivity|]. exists (Err 4 :: a). unfold untimed at 1. cbn [map snd app]. split; [f_equal; exact A|].
      cbn [recv_loop]. exact B.
  - intros T n acc c t e r M N o c' evs' E. left. assert (X : o = Throw (SystemError e) /\ evs' = r) by (split; congruence). destruct X as [-> ->].
    cbn [untimed map snd recv_loop]. unfold EINTR. destruct (Z.eqb_spec e 4); [contradiction|reflexivity].
  - intros T n acc c t r M o c' evs' E. left. assert (X : o = Ok (acc ++ zeros (S n)) /\ evs' = (t, Eof) :: r) by (split; congruence).
    destruct X as [-> ->]. reflexivity.
Qed.

(** *** In pieces of one byte *)
Lemma atoms_app a b : atoms (a ++ b) = atoms a ++ atoms b.
Proof. induction a as [|[l|e|] a IH]; cbn [app atoms]; [reflexivity|now rewrite IH, app_assoc|now rewrite IH|now rewrite IH]. Qed.
Lemma recv_bytewise l : forall n acc X, recv_loop n acc (map (fun x => Data [x]) l ++ X)
  = if Nat.leb (List.length l) n then recv_loop (n - List.length l) (acc ++ l) X
    else (Ok (acc ++ firstn n l), map (fun x => Data [x]) (skipn n l) ++ X).
Proof.
  induction l as [|x l IH]; intros n acc X; cbn [map app List.length].
  - rewrite Nat.sub_0_r, app_nil_r. reflexivity.
  - destruct n as [|n]; [cbn [Nat.leb recv_loop firstn skipn map app]; now rewrite app_nil_r|].
    cbn [recv_loop List.length]. destruct n as [|n'] eqn:En.
    + cbn [Nat.leb Nat.sub]. rewrite recv_zero. destruct l as [|y l]; cbn [List.length Nat.leb Nat.sub firstn skipn map app].
      * now rewrite recv_zero.
      * reflexivity.
    + rewrite <- En. cbn [Nat.leb]. replace (S n - 1)%nat with n by lia. rewrite IH. rewrite <- !app_assoc. cbn [app firstn skipn].
      destruct (Nat.leb_spec (List.length l) n); [|reflexivity]. replace (S n - S (List.length l))%nat with (n - List.length l)%nat by lia. reflexivity.
Qed.
Lemma recv_atoms s : forall n acc o s1, recv_loop n acc s = (o, s1) -> recv_loop n acc (atoms s) = (o, atoms s1).
Proof.
  induction s as [|[l|e|] s IH]; intros n acc o s1 E; (destruct n as [|n]; [rewrite recv_zero in *; congruence|]); cbn [recv_loop] in E.
  - assert (X : o = Throw (SystemError EAGAIN) /\ s1 = []) by (split; congruence). destruct X as [-> ->]. reflexivity.
  - cbn [atoms]. rewrite recv_bytewise. destruct (Nat.leb_spec (List.length l) (S n)); [now apply IH|].
    assert (X : o = Ok (acc ++ firstn (S n) l) /\ s1 = Data (skipn (S n) l) :: s) by (split; congruence). destruct X as [-> ->]. reflexivity.
  - cbn [atoms recv_loop]. destruct (e =? EINTR); [now apply IH|]. assert (X : o = Throw (SystemError e) /\ s1 = s) by (split; congruence).
    destruct X as [-> ->]. reflexivity.
  - assert (X : o = Ok (acc ++ zeros (S n)) /\ s1 = Eof :: s) by (split; congruence). destruct X as [-> ->]. reflexivity.
Qed.

(** What is received was in front, or the stream has ended. *)
Lemma recv_prefix evs T n acc c d c' evs' : recv_timed T n acc c evs = Some (Ok d, c', evs') ->
  (exists used, atoms (untimed evs) = used ++ atoms (untimed evs') /\ forall s2, recv_loop n acc (used ++ s2) = (Ok d, s2))
  \/ (exists t r, evs' = (t, Eof) :: r /\ t <= c').
Proof.
  revert d c' evs'. pattern T, n, acc, c, evs, (recv_timed T n acc c evs). apply recv_step; clear.
  - intros T acc c evs d c' evs' E. left. exists []. split; [cbn [app]; congruence|]. intros s2. cbn [app]. rewrite recv_zero. congruence.
  - intros T n acc c d c' evs' E. destruct (T =? 0); discriminate.
  - intros T n acc c t r x IH d c' evs' E. destruct (IH _ _ _ E) as [(used & A & B)|X]; [left|right; exact X].
    exists used. split; [exact A|exact B].
  - intros T n acc c t e r Q Z L d c' evs' E. discriminate.
  - intros T n acc c t l r x Q M L IH d c' evs' E. destruct (IH _ _ _ E) as [(used & A & B)|X]; [left|right; exact X].
    exists (map (fun x => Data [x]) l ++ used). split; [cbn [untimed map snd atoms]; rewrite <- app_assoc; f_equal; exact A|].
    intros s2. rewrite <- app_assoc, recv_bytewise. destruct (Nat.leb_spec (List.length l) (S n)); [apply B|lia].
  - intros T n acc c t l r M L d c' evs' E. left. assert (X : d = acc ++ firstn (S n) l /\ evs' = (t, Data (skipn (S n) l)) :: r) by (split; congruence).
    destruct X as [-> ->]. exists (map (fun x => Data [x]) (firstn (S n) l)). split.
    + cbn [untimed map snd atoms]. rewrite app_assoc, <- map_app, firstn_skipn. reflexivity.
    + intros s2. rewrite recv_bytewise. rewrite firstn_length. replace (Nat.min (S n) (List.length l)) with (S n) by lia.
      rewrite Nat.leb_refl, Nat.sub_diag, recv_zero. reflexivity.
  - intros T n acc c t r x M IH d c' evs' E. destruct (IH _ _ _ E) as [(used & A & B)|X]; [left|right; exact X].
    exists (Err 4 :: used). split; [cbn [untimed map snd atoms app]; f_equal; exact A|]. intros s2. cbn [app recv_loop]. apply B.
  - intros T n acc c t e r M N d c' evs' E. discriminate.
  - intros T n acc c t r M d c' evs' E. right. exists t, r. split; [congruence|]. assert (X : c' = Z.max c t) by congruence. lia.
Qed.

(** *** The time *)
Lemma recv_later evs T n acc c o c' evs' : 0 <= T -> recv_timed T n acc c evs = Some (o, c', evs') -> c <= c'.
Proof.
  revert o c' evs'. pattern T, n, acc, c, evs, (recv_timed T n acc c evs). apply recv_step; clear.
  - intros T acc c evs o c' evs' _ E. assert (c' = c) by congruence. lia.
  - intros T n acc c o c' evs' P E. destruct (Z.eqb_spec T 0); [discriminate|]. assert (c' = c + T) by congruence. lia.
  - intros T n acc c t r x IH o c' evs' P E. eapply IH; eauto.
  - intros T n acc c t e r Q Z L o c' evs' P E. assert (c' = c + T) by congruence. lia.
  - intros T n acc c t l r x Q M L IH o c' evs' P E. specialize (IH _ _ _ P E). lia.
  - intros T n acc c t l r M L o c' evs' P E. assert (c' = Z.max c t) by congruence. lia.
  - intros T n acc c t r x M IH o c' evs' P E. specialize (IH _ _ _ P E). lia.
  - intros T n acc c t e r M N o c' evs' P E. assert (c' = Z.max c t) by congruence. lia.
  - intros T n acc c t r M o c' evs' P E. assert (c' = Z.max c t) by congruence. lia.
Qed.
Lemma signals_other t e r : e <> Err 4 -> signals ((t, e) :: r) = signals r.
Proof.
  intros N. destruct e as [l|e|]; cbn [signals]; try reflexivity.
  destruct e as [|q|q]; try reflexivity. destruct q as [q|q|]; try reflexivity. destruct q as [q|q|]; try reflexivity.
  destruct q; try reflexivity. elim N. reflexivity.
Qed.
Lemma recv_takes evs T n acc c o c' evs' : 0 < T -> recv_timed T n acc c evs = Some (o, c', evs') ->
  c' + T * signals evs' <= c + T * signals evs + T * Z.of_nat n.
Proof.
  revert o c' evs'. pattern T, n, acc, c, evs, (recv_timed T n acc c evs). apply recv_step; clear.
  - intros T acc c evs o c' evs' P E. assert (X : c' = c /\ evs' = evs) by (split; congruence). destruct X as [-> ->]. lia.
  - intros T n acc c o c' evs' P E. destruct (Z.eqb_spec T 0); [discriminate|]. assert (X : c' = c + T /\ evs' = []) by (split; congruence).
    destruct X as [-> ->]. cbn [signals]. nia.
  - intros T n acc c t r x IH o c' evs' P E. specialize (IH _ _ _ P E). rewrite signals_other by discriminate. exact IH.
  - intros T n acc c t e r Q Z L o c' evs' P E. assert (X : c' = c + T /\ evs' = (t, e) :: r) by (split; congruence). destruct X as [-> ->]. nia.
  - intros T n acc c t l r x Q M L IH o c' evs' P E. specialize (IH _ _ _ P E). rewrite signals_other by discriminate.
    assert (1 <= List.length l)%nat by (destruct l; [elim Q; reflexivity|cbn [List.length]; lia]). nia.
  - intros T n acc c t l r M L o c' evs' P E. assert (X : c' = Z.max c t /\ evs' = (t, Data (skipn (S n) l)) :: r) by (split; congruence). destruct X as [-> ->].
    rewrite !signals_other by discriminate. nia.
  - intros T n acc c t r x M IH o c' evs' P E. specialize (IH _ _ _ P E). cbn [signals]. nia.
  - intros T n acc c t e r M N o c' evs' P E. assert (X : c' = Z.max c t /\ evs' = r) by (split; congruence). destruct X as [-> ->].
    rewrite signals_other by congruence. nia.
  - intros T n acc c t r M o c' evs' P E. assert (X : c' = Z.max c t /\ evs' = (t, Eof) :: r) by (split; congruence). destruct X as [-> ->].
    nia.
Qed.
Lemma recv_returns evs T n acc c : 0 < T -> exists r, recv_timed T n acc c evs = Some r.
Proof.
  intros P. revert P. pattern T, n, acc, c, evs, (recv_timed T n acc c evs). apply recv_step; clear; intros; eauto.
  destruct (Z.eqb_spec T 0); [lia|]. eauto.
Qed.
Lemma recv_prompt evs T n acc c o c' evs' lim : 0 <= T -> there_by lim evs -> recv_timed T n acc c evs = Some (o, c', evs') ->
  there_by lim evs' /\ (c' <= Z.max c lim \/ o = Throw (SystemError 11) /\ c' <= Z.max c lim + T).
Proof.
  revert o c' evs'. pattern T, n, acc, c, evs, (recv_timed T n acc c evs). apply recv_step; clear.
  - intros T acc c evs o c' evs' P B E. assert (X : c' = c /\ evs' = evs) by (split; congruence). destruct X as [-> ->]. split; [exact B|]. left. lia.
  - intros T n acc c o c' evs' P B E. destruct (Z.eqb_spec T 0); [discriminate|].
    assert (X : o = Throw (SystemError EAGAIN) /\ c' = c + T /\ evs' = []) by (repeat split; congruence). destruct X as (-> & -> & ->). split; [exact B|]. right. split; [reflexivity|lia].
  - intros T n acc c t r x IH o c' evs' P B E. apply (IH _ _ _ P); [now inversion B|exact E].
  - intros T n acc c t e r Q Z L o c' evs' P B E. assert (X : o = Throw (SystemError EAGAIN) /\ c' = c + T /\ evs' = (t, e) :: r) by (repeat split; congruence).
    destruct X as (-> & -> & ->). split; [exact B|]. right. split; [reflexivity|lia].
  - intros T n acc c t l r x Q M L IH o c' evs' P B E. pose proof (Forall_inv B) as B1. pose proof (Forall_inv_tail B) as B2. cbn [fst] in B1.
    destruct (IH _ _ _ P B2 E) as [F [G|[G K]]]; (split; [exact F|]); [left|right; split; [exact G|]]; lia.
  - intros T n acc c t l r M L o c' evs' P B E. assert (X : c' = Z.max c t /\ evs' = (t, Data (skipn (S n) l)) :: r) by (split; congruence). destruct X as [-> ->].
    pose proof (Forall_inv B) as B1. pose proof (Forall_inv_tail B) as B2. cbn [fst] in B1. split; [constructor; assumption|]. left. lia.
  - intros T n acc c t r x M IH o c' evs' P B E. pose proof (Forall_inv B) as B1. pose proof (Forall_inv_tail B) as B2. cbn [fst] in B1.
    destruct (IH _ _ _ P B2 E) as [F [G|[G K]]]; (split; [exact F|]); [left|right; split; [exact G|]]; lia.
  - intros T n acc c t e r M N o c' evs' P B E. assert (X : c' = Z.max c t /\ evs' = r) by (split; congruence). destruct X as [-> ->].
    pose proof (Forall_inv B) as B1. pose proof (Forall_inv_tail B) as B2. cbn [fst] in B1. split; [exact B2|]. left. lia.
  - intros T n acc c t r M o c' evs' P B E. assert (X : c' = Z.max c t /\ evs' = (t, Eof) :: r) by (split; congruence). destruct X as [-> ->].
    pose proof (Forall_inv B) as B1. pose proof (Forall_inv_tail B) as B2. cbn [fst] in B1. split; [exact B|]. left. lia.
Qed.

(** A peer that sends a byte every [T] milliseconds is waited for. *)
Lemma recv_drip T l rest : 0 < T -> forall n acc c, (n <= List.length l)%nat ->
  recv_timed T n acc c (drip T c l ++ rest)
  = Some (Ok (acc ++ firstn n l), c + T * Z.of_nat n, drip T (c + T * Z.of_nat n) (skipn n l) ++ rest).
Proof.
  intros P. induction l as [|x l IH]; intros n acc c L.
  - destruct n; [|cbn [List.length] in L; lia]. rewrite recvt_zero. cbn [firstn skipn]. rewrite app_nil_r. cbn [drip]. do 3 f_equal. lia.
  - destruct n as [|n].
    + rewrite recvt_zero. cbn [firstn skipn]. rewrite app_nil_r. replace (c + T * Z.of_nat 0) with c by lia. reflexivity.
    + cbn [drip app recv_timed]. unfold meets. destruct (Z.eqb_spec T 0); [lia|]. cbn [orb]. rewrite Z.leb_refl. cbn [List.length Nat.leb].
      rewrite Z.max_r by lia. replace (S n - 1)%nat with n by lia. cbn [List.length] in L. rewrite IH by lia. cbn [firstn skipn].
      rewrite <- app_assoc. cbn [app]. replace (c + T + T * Z.of_nat n) with (c + T * Z.of_nat (S n)) by lia. reflexivity.
Qed.

Lemma recv_kind evs T n acc c o c' evs' : recv_timed T n acc c evs = Some (o, c', evs') -> (exists d, o = Ok d) \/ exists e, o = Throw (SystemError e).
Proof.
  revert o c' evs'. pattern T, n, acc, c, evs, (recv_timed T n acc c evs). apply recv_step; clear.
  - intros T acc c evs o c' evs' E. left. exists acc. congruence.
  - intros T n acc c o c' evs' E. destruct (T =? 0); [discriminate|]. right. exists 11. assert (X : o = Throw (SystemError EAGAIN)) by congruence. exact X.
  - intros T n acc c t r x IH o c' evs' E. eapply IH; eauto.
  - intros T n acc c t e r _ _ _ o c' evs' E. right. exists 11. assert (X : o = Throw (SystemError EAGAIN)) by congruence. exact X.
  - intros T n acc c t l r x _ _ _ IH o c' evs' E. eapply IH; eauto.
  - intros T n acc c t l r _ _ o c' evs' E. left. eexists. assert (X : o = Ok (acc ++ firstn (S n) l)) by congruence. exact X.
  - intros T n acc c t r x _ IH o c' evs' E. eapply IH; eauto.
  - intros T n acc c t e r _ _ o c' evs' E. right. exists e. congruence.
  - intros T n acc c t r _ o c' evs' E. left. eexists. assert (X : o = Ok (acc ++ zeros (S n))) by congruence. exact X.
Qed.
Lemma byte_recv evs T n acc c o c' evs' : byte_times evs -> recv_timed T n acc c evs = Some (o, c', evs') -> byte_times evs'.
Proof.
  unfold byte_times. revert o c' evs'. pattern T, n, acc, c, evs, (recv_timed T n acc c evs). apply recv_step; clear.
  - intros T acc c evs o c' evs' B E. assert (evs' = evs) by congruence. now subst.
  - intros T n acc c o c' evs' B E. destruct (T =? 0); [discriminate|]. assert (X : evs' = []) by congruence. now subst.
  - intros T n acc c t r x IH o c' evs' B E. apply (IH _ _ _ (Forall_inv_tail B) E).
  - intros T n acc c t e r _ _ _ o c' evs' B E. assert (X : evs' = (t, e) :: r) by congruence. now subst.
  - intros T n acc c t l r x _ _ _ IH o c' evs' B E. apply (IH _ _ _ (Forall_inv_tail B) E).
  - intros T n acc c t l r _ _ o c' evs' B E. assert (X : evs' = (t, Data (skipn (S n) l)) :: r) by congruence. subst.
    pose proof (Forall_inv B) as B1. constructor; [|exact (Forall_inv_tail B)]. cbn [snd byte_seg] in *. rewrite <- (firstn_skipn (S n) l) in B1. now apply is_bytes_app in B1.
  - intros T n acc c t r x _ IH o c' evs' B E. apply (IH _ _ _ (Forall_inv_tail B) E).
  - intros T n acc c t e r _ _ o c' evs' B E. assert (X : evs' = r) by congruence. subst. exact (Forall_inv_tail B).
  - intros T n acc c t r _ o c' evs' B E. assert (X : evs' = (t, Eof) :: r) by congruence. now subst.
Qed.

(** ** One exchange *)

Definition finish (h : heap) (handle : Z) (header data : bytes) : outcome encaps :=
  bind (finished (encaps_expand h encaps0 (header ++ data))) (check_reply handle).

(** The cases of a reply. *)
Definition reply_timed (h : heap) (T handle : Z) : tm encaps :=
  tm_bind (receive_timed T HEADER_SIZE) (fun header =>
  tm_bind (fun w => Some (length_from_header h header, w)) (fun len =>
  tm_bind (receive_timed T (Z.to_nat len)) (fun data =>
  fun w => Some (finish h handle header data, w)))).
Lemma reply_cases h T handle w o w' : reply_timed h T handle w = Some (o, w') ->
  exists o1 c1 e1, recv_timed T HEADER_SIZE [] (tn_clock w) (tn_in w) = Some (o1, c1, e1)
  /\ ((exists e, o1 = Throw e /\ o = Throw e /\ w' = mkTnet c1 (tn_sent w) e1 (tn_results w))
   \/ exists hd, o1 = Ok hd
      /\ ((o = bind (length_from_header h hd) (fun _ => Abort) /\ (forall len, length_from_header h hd <> Ok len) /\ w' = mkTnet c1 (tn_sent w) e1 (tn_results w))
       \/ exists len, length_from_header h hd = Ok len
          /\ exists o2 c2 e2, recv_timed T (Z.to_nat len) [] c1 e1 = Some (o2, c2, e2) /\ w' = mkTnet c2 (tn_sent w) e2 (tn_results w)
             /\ ((exists e, o2 = Throw e /\ o = Throw e) \/ exists d, o2 = Ok d /\ o = finish h handle hd d))).
Proof.
  unfold reply_timed, tm_bind at 1, receive_timed at 1. destruct (recv_timed T HEADER_SIZE [] (tn_clock w) (tn_in w)) as [[[o1 c1] e1]|] eqn:E1; [|discriminate].
  intros E. exists o1, c1, e1. split; [reflexivity|]. destruct (recv_kind _ _ _ _ _ _ _ _ E1) as [[hd ->]|[e ->]]; [right|left].
  - exists hd. split; [reflexivity|]. unfold tm_bind at 1 in E. destruct (length_from_header h hd) as [len|e|u|] eqn:L.
    2-4: left; cbn [bind]; repeat split; [congruence|discriminate|congruence].
    right. exists len. split; [reflexivity|]. unfold tm_bind, receive_timed in E. cbn [tn_clock tn_in tn_sent tn_results] in E.
    destruct (recv_timed T (Z.to_nat len) [] c1 e1) as [[[o2 c2] e2]|] eqn:E2; [|discriminate]. exists o2, c2, e2. split; [reflexivity|].
    destruct (recv_kind _ _ _ _ _ _ _ _ E2) as [[d ->]|[e ->]].
    + split; [congruence|]. right. exists d. split; congruence.
    + split; [congruence|]. left. exists (SystemError e). split; congruence.
  - exists (SystemError e). repeat split; congruence.
Qed.

Definition quiet_peer : peer := fun _ _ => [].
Lemma exchange_cases h T p handle q w o w' : exchange_timed h T p handle q w = Some (o, w') ->
  exists got so w1, tn_sent w1 = tn_sent w ++ [got] /\ tn_in w1 = coming p w got /\ tn_clock w1 = tn_clock w + send_time w
    /\ tn_results w1 = tl (tn_results w)
    /\ (forall s, net_send quiet_peer (encaps_pack q) (mkNet (tn_sent w) s (map fst (tn_results w)))
                  = (so, mkNet (tn_sent w1) s (map fst (tn_results w1))))
    /\ ((exists e, so = Throw e /\ o = Throw e /\ w' = w1) \/ so = Ok tt /\ reply_timed h T handle w1 = Some (o, w')).
Proof.
  unfold exchange_timed, tm_bind at 1. unfold send_timed, send_time. set (data := encaps_pack q).
  destruct (tn_results w) as [|[r [d|]] rs] eqn:R; [| |discriminate]; cbn [tl map fst].
  - intros E. exists (firstn (Z.to_nat (zlen data)) data), (send_check (zlen data) (mkSend (zlen data) 0)). cbn [s_count] in E.
    eexists (mkTnet _ _ _ _). cbn [tn_sent tn_in tn_clock tn_results]. split; [reflexivity|]. split; [unfold coming, send_time; rewrite R; reflexivity|].
    split; [reflexivity|]. split; [reflexivity|]. split; [intros s; unfold net_send, quiet_peer; cbn [n_results n_sent n_in s_count tl map]; rewrite app_nil_r; reflexivity|].
    destruct (send_check (zlen data) (mkSend (zlen data) 0)) as [[]|e|u|] eqn:C.
    + right. split; [reflexivity|]. exact E.
    + left. exists e. split; [reflexivity|]. split; [congruence|]. cbn [tl] in E. assert (X : forall A (a b : A), Some a = Some b -> a = b) by congruence.
      apply X in E. apply (f_equal snd) in E. cbn [snd] in E. symmetry. exact E.
    + unfold send_check in C. cbn [s_count s_errno] in C. destruct (_ <? _) in C; discriminate.
    + unfold send_check in C. cbn [s_count s_errno] in C. destruct (_ <? _) in C; discriminate.
  - intros E. exists (firstn (Z.to_nat (s_count r)) data), (send_check (zlen data) r).
    eexists (mkTnet _ _ _ _). cbn [tn_sent tn_in tn_clock tn_results]. split; [reflexivity|]. split; [unfold coming, send_time; rewrite R; reflexivity|].
    split; [reflexivity|]. split; [reflexivity|]. split; [intros s; unfold net_send, quiet_peer; cbn [n_results n_sent n_in s_count tl map]; rewrite app_nil_r; reflexivity|].
    destruct (send_check (zlen data) r) as [[]|e|u|] eqn:C.
    + right. split; [reflexivity|]. exact E.
    + left. exists e. split; [reflexivity|]. split; [congruence|]. cbn [tl] in E. assert (X : forall A (a b : A), Some a = Some b -> a = b) by congruence.
      apply X in E. apply (f_equal snd) in E. cbn [snd] in E. symmetry. exact E.
    + unfold send_check in C. destruct (_ <? _) in C; discriminate.
    + unfold send_check in C. destruct (_ <? _) in C; discriminate.
Qed.
