(** Proofs about the sends of a session and the failures of connecting. *)
From Verif Require Import Base MBuffer SBuffer PBase MEip SEip PEip PRouter MSocket SSocket PSocket SSession.

Lemma connect_reports k :
  fst (tcp_connect k) = match first_failure (connect_steps k) with Some e => Throw (SystemError e) | None => Ok tt end.
Proof.
  unfold connect_steps, tcp_connect. cbn [app first_failure]. destruct (k_socket k); [reflexivity|].
  destruct (k_getfl1 k); [reflexivity|]. destruct (k_setfl1 k); [reflexivity|].
  unfold tcp_connect_try, tcp_connect_wait. destruct (k_connect k) as [e|].
  - destruct (Z.eqb_spec e EINPROGRESS) as [->|N].
    + cbn [EINPROGRESS app first_failure]. unfold EINPROGRESS. destruct (k_select k) as [n e].
      destruct (Z.ltb_spec 0 n) as [P|P].
      * destruct (Z.ltb_spec n 0); [lia|]. cbn [andb]. unfold sys. destruct (k_getsockopt k); [reflexivity|].
        cbn [bind]. destruct (k_soerr k =? 0); cbn [negb bind]; [|reflexivity].
        destruct (k_getfl2 k); [reflexivity|]. cbn [bind]. destruct (k_setfl2 k); reflexivity.
      * destruct (Z.ltb_spec n 0) as [M|M].
        -- destruct (Z.eqb_spec n 0); [lia|]. unfold EINTR. cbn [orb andb negb]. destruct (e =? 4); reflexivity.
        -- destruct (Z.eqb_spec n 0); [|lia]. reflexivity.
    + assert (Q : match e with 115 => true | _ => false end = false).
      { destruct e as [|e|e]; try reflexivity. destruct (Pos.eqb_spec e 115) as [->|M]; [destruct N; reflexivity|].
        repeat (destruct e as [e|e|]; try reflexivity). destruct M; reflexivity. }
      rewrite Q. reflexivity.
  - cbn [app first_failure bind]. unfold sys. destruct (k_getfl2 k); [reflexivity|]. cbn [bind]. destruct (k_setfl2 k); reflexivity.
Qed.

Lemma net_sent p d w : n_sent (snd (net_send p d w)) = n_sent w ++ accepted (n_results w) [d]
  /\ n_results (snd (net_send p d w)) = tl (n_results w).
Proof.
  unfold net_send. cbv zeta. cbn [snd n_sent n_results accepted]. split; [|reflexivity].
  destruct (n_results w) as [|x r]; [|reflexivity]. cbn [s_count]. unfold zlen. rewrite Nat2Z.id, firstn_all. reflexivity.
Qed.
Lemma sar_one h p handle q w : let w' := snd (send_and_receive h p handle q w) in
  n_sent w' = n_sent w ++ accepted (n_results w) [encaps_pack q] /\ n_results w' = tl (n_results w).
Proof.
  cbv zeta.
  assert (E : send_and_receive h p handle q w = st_bind (net_send p (encaps_pack q)) (fun _ => receive_reply h handle) w) by reflexivity.
  rewrite E. clear E. unfold st_bind. destruct (net_sent p (encaps_pack q) w) as [A B].
  destruct (net_send p (encaps_pack q) w) as [o w1]. cbn [snd] in A, B. destruct o as [[]| | |]; cbn [snd]; [|auto..].
  destruct (receive_reply_sent h handle w1) as [C D]. rewrite C, D. auto.
Qed.
Lemma exchanges_accepted h p handle qs : forall w, let w' := snd (exchanges h p handle qs w) in
  n_sent w' = n_sent w ++ accepted (n_results w) (map encaps_pack qs)
  /\ n_results w' = skipn (List.length qs) (n_results w).
Proof.
  induction qs as [|q qs IH]; intros w; cbv zeta; cbn [exchanges map accepted].
  - cbn [snd List.length skipn]. rewrite app_nil_r. auto.
  - destruct (sar_one h p handle q w) as [A B]. destruct (send_and_receive h p handle q w) as [o w1]. cbn [snd] in A, B.
    destruct (IH w1) as [C D]. destruct (exchanges h p handle qs w1) as [os w2]. cbn [snd] in *. rewrite C, D, A, B.
    rewrite <- app_assoc. cbn [accepted app]. split; [reflexivity|]. cbn [List.length].
    destruct (n_results w) as [|x r]; cbn [tl skipn]; [apply skipn_nil|reflexivity].
Qed.
Lemma register_one h p w : let w' := snd (session_register h p w) in
  n_sent w' = n_sent w ++ accepted (n_results w) [encaps_pack register_packet] /\ n_results w' = tl (n_results w).
Proof.
  cbv zeta. unfold session_register, st_bind. destruct (sar_one h p 0 register_packet w) as [A B].
  destruct (send_and_receive h p 0 register_packet w) as [o w1]. cbn [snd] in A, B.
  destruct o; cbn [snd]; auto.
Qed.
Lemma destroy_one p handle w : let w' := snd (session_destroy p handle w) in
  n_sent w' = n_sent w ++ accepted (n_results w) [encaps_pack (unregister_packet handle)] /\ n_results w' = tl (n_results w).
Proof.
  cbv zeta. unfold session_destroy. destruct (net_sent p (encaps_pack (unregister_packet handle)) w) as [A B].
  destruct (net_send p (encaps_pack (unregister_packet handle)) w) as [o w1]. cbn [snd] in A, B. destruct o; cbn [snd]; auto.
Qed.
Lemma accepted_app a : forall rs b, accepted rs (a ++ b) = accepted rs a ++ accepted (skipn (List.length a) rs) b.
Proof.
  induction a as [|x a IH]; intros rs b; [reflexivity|]. cbn [accepted app List.length]. rewrite IH.
  destruct rs as [|r rs]; cbn [tl skipn]; [rewrite skipn_nil|]; reflexivity.
Qed.
Lemma life_any h p w handle w1 qs : session_register h p w = (Ok handle, w1) ->
  n_sent (snd (session_destroy p handle (snd (exchanges h p handle qs w1))))
  = n_sent w ++ accepted (n_results w)
      ([encaps_pack register_packet] ++ map encaps_pack qs ++ [encaps_bytes 102 0 handle 0 [0;0;0;0;0;0;0;0] 0 []]).
Proof.
  intros E. destruct (register_one h p w) as [A B]. rewrite E in A, B. cbn [snd] in A, B.
  destruct (exchanges_accepted h p handle qs w1) as [C D].
  destruct (destroy_one p handle (snd (exchanges h p handle qs w1))) as [F _].
  rewrite F, C, D, A, B, factory_unregister, !accepted_app, map_length, <- !app_assoc. reflexivity.
Qed.

Lemma exchanges_answered h p handle qs rs log : answers p log qs rs -> forall w,
  n_sent w = log -> all_accepted (n_results w) (map encaps_pack qs) -> drained (n_in w) ->
  exists w', exchanges h p handle qs w = (map (verdict handle) rs, w')
    /\ n_sent w' = log ++ map encaps_pack qs /\ n_results w' = skipn (List.length qs) (n_results w) /\ drained (n_in w').
Proof.
  induction 1 as [log|log q qs r rs W E Q _ IH]; intros w L R D; cbn [exchanges map].
  - exists w. rewrite app_nil_r. auto.
  - destruct D as [D1 D2]. destruct (stream_app (n_in w) (p (n_sent w) (encaps_pack q)) D2) as (A1 & A2 & A3).
    cbn [map all_accepted] in R. destruct R as [R0 R].
    destruct (sar_good h p handle q r w) with (rest := @nil Z) as (w1 & Es & S1 & N1 & L1 & R1).
    + exact R0.
    + assumption.
    + unfold incoming. rewrite A1, D1, L, E. now rewrite app_nil_r.
    + rewrite Es. unfold incoming in N1. rewrite A2, L, Q in N1.
      destruct (IH w1) as (w2 & E2 & L2 & R2 & D2').
      * now rewrite L1, L.
      * now rewrite R1.
      * split; assumption.
      * rewrite E2. exists w2. split; [reflexivity|]. split; [rewrite L2, <- app_assoc; reflexivity|]. split; [|assumption].
        rewrite R2, R1. cbn [List.length]. destruct (n_results w) as [|x l]; cbn [tl skipn]; [apply skipn_nil|reflexivity].
Qed.

Lemma accepted_all l : forall rs, all_accepted rs l -> accepted rs l = l.
Proof.
  induction l as [|d l IH]; intros rs A; [reflexivity|]. cbn [all_accepted accepted] in *. destruct A as [A B].
  rewrite IH by exact B. f_equal. destruct rs as [|x r]; [reflexivity|]. rewrite A. unfold zlen.
  rewrite Nat2Z.id. apply firstn_all.
Qed.
Lemma all_accepted_app a : forall rs b, all_accepted rs (a ++ b) -> all_accepted (skipn (List.length a) rs) b.
Proof.
  induction a as [|d a IH]; intros rs b A; [exact A|]. cbn [all_accepted app List.length] in *. destruct A as [_ A].
  specialize (IH _ _ A). destruct rs as [|x r]; cbn [tl skipn] in *; [rewrite skipn_nil in IH|]; exact IH.
Qed.
Lemma life_accepted h p w handle w1 qs : session_register h p w = (Ok handle, w1) ->
  let packets := [encaps_pack register_packet] ++ map encaps_pack qs
                 ++ [encaps_bytes 102 0 handle 0 [0;0;0;0;0;0;0;0] 0 []] in
  all_accepted (n_results w) packets ->
  exists w', session_destroy p handle (snd (exchanges h p handle qs w1)) = (Ok tt, w') /\ n_sent w' = n_sent w ++ packets.
Proof.
  intros E packets A. assert (L := life_any h p w handle w1 qs E). fold packets in L. rewrite (accepted_all _ _ A) in L.
  destruct (destroy_ok p handle (snd (exchanges h p handle qs w1))) as (w' & D & _).
  - destruct (register_one h p w) as [_ B]. rewrite E in B. cbn [snd] in B.
    destruct (exchanges_accepted h p handle qs w1) as [_ C].
    assert (Q := all_accepted_app ([encaps_pack register_packet] ++ map encaps_pack qs) (n_results w) [encaps_pack (unregister_packet handle)]).
    rewrite <- app_assoc in Q. rewrite factory_unregister in Q. specialize (Q A). destruct Q as [Q _].
    rewrite app_length, map_length in Q. cbn [List.length] in Q.
    unfold sends_all. rewrite C, B, factory_unregister. destruct (n_results w) as [|x r].
    + cbn [tl]. rewrite skipn_nil. exact I.
    + cbn [tl]. exact Q.
  - exists w'. split; [exact D|]. rewrite D in L. exact L.
Qed.
