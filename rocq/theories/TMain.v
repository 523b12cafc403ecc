(** Property C100: the example programs as a whole, over a TCP connection to an
    adapter. [served handle dev] is the device itself; see C83 for what the
    programs do with it. *)
From Verif Require Import Base MBuffer SBuffer PBase MEip SEip SObj PObj MSocket SSocket MFile SFile PFile MIdent MParam SParam MYaskawa
  MConnReq SConnReq MConn SConn SLife SHost PHost STarget PTarget SWire MExample SExample PExample PExample2 MMain SMain PMain PMain2.
Local Open Scope Z_scope.

(** With any adapter over any TCP connection, each program registers the session,
    asks what it asks the device itself, gets the same answers and ends the same;
    at the end of main() the session is unregistered. Nothing else is sent. An
    exception terminates the program, without the last packet. *)
Theorem C100_parameters : forall D h k (p : peer) handle (dev : device D) d, hosts p handle dev d -> registers p handle -> device_wf dev -> is_u32 handle ->
  fst (tcp_connect k) = Ok tt -> whole handle dev d (parameter_main h k p) (parameter_example h (served handle dev)).
Proof. intros. apply main_whole; auto. now apply like_parameters. Qed.
Print Assumptions C100_parameters.
Theorem C100_explicit : forall D h k (p : peer) handle (dev : device D) d, hosts p handle dev d -> registers p handle -> device_wf dev -> is_u32 handle ->
  fst (tcp_connect k) = Ok tt -> whole handle dev d (explicit_main h k p) (explicit_example h (served handle dev)).
Proof. intros. apply main_whole; auto. now apply like_explicit. Qed.
Print Assumptions C100_explicit.
Theorem C100_identity : forall D h k (p : peer) handle (dev : device D) d, hosts p handle dev d -> registers p handle -> device_wf dev -> is_u32 handle ->
  fst (tcp_connect k) = Ok tt -> whole handle dev d (identity_main h k p) (identity_example h (served handle dev)).
Proof. intros. apply main_whole; auto. now apply like_identity_program. Qed.
Print Assumptions C100_identity.
Theorem C100_yaskawa : forall D h k (p : peer) handle (dev : device D) d, hosts p handle dev d -> registers p handle -> device_wf dev -> is_u32 handle ->
  fst (tcp_connect k) = Ok tt -> whole handle dev d (yaskawa_main h k p) (yaskawa_example h (served handle dev)).
Proof. intros. apply main_whole; auto. now apply like_yaskawa. Qed.
Print Assumptions C100_yaskawa.
(** The loop of the file program is followed for [n] steps at most. *)
Theorem C100_file : forall D h k (p : peer) handle (dev : device D) d n, hosts p handle dev d -> registers p handle -> device_wf dev -> is_u32 handle ->
  fst (tcp_connect k) = Ok tt -> whole handle dev d (file_main h k p n) (file_example h (served handle dev) n).
Proof. intros. apply main_whole; auto. now apply like_file. Qed.
Print Assumptions C100_file.
(** Whatever arrives on the UDP socket, and however the clock runs. *)
Theorem C100_implicit : forall D h k (p : peer) handle (dev : device D) d inc host env rs,
  hosts p handle dev d -> registers p handle -> device_wf dev -> is_u32 handle -> fst (tcp_connect k) = Ok tt ->
  whole handle dev d (implicit_main h k p inc host env rs)
    (fun s => let '(o, s') := implicit_example h (served handle dev) host env rs (mkWorld globals0 (fun _ => mgr0 inc) s) in (o, w_s s')).
Proof. intros. apply main_whole; auto. now apply like_implicit. Qed.
Print Assumptions C100_implicit.

(** A session that cannot be had: the program is terminated (or undefined), and at most the register packet was sent. *)
Theorem C100_no_session : forall A h k p (body : session_if net -> st net A) w o w1,
  fst (session_open h k p) w = (o, w1) -> (forall handle, o <> Ok handle) ->
  (exists o', session_main h k p body w = (o', w1) /\ (forall a, o' <> Ok a) /\ (forall e, o' <> Throw e))
  /\ (n_sent w1 = n_sent w \/ exists x, n_sent w1 = n_sent w ++ [x]).
Proof. intros A h k p body w o w1. apply no_session. Qed.
Print Assumptions C100_no_session.

(** From one end to the other: a file of any content, read over any TCP
    connection from an adapter that holds it, ends up in the file that is written;
    four packets are sent beside one for each piece. *)
Theorem C100_file_saved : forall h k p handle F T crc, is_u32 handle -> is_bytes F -> zlen F < 2 ^ 32 -> 1 <= T <= 255 ->
  is_bytes crc -> List.length crc = 2%nat -> fst (tcp_connect k) = Ok tt ->
  registers p handle -> hosts p handle (uploader 200 F T crc) None ->
  exists n, Z.of_nat n = pieces (zlen F) T
    /\ forall m, (n <= m)%nat -> exists w', file_main h k p m (mkNet [] [] []) = (Ok (false, Some F), w')
         /\ List.length (n_sent w') = (n + 4)%nat.
Proof. exact file_over_tcp. Qed.
Print Assumptions C100_file_saved.
(** Implicit messages with any target that follows the protocol. *)
Theorem C100_implicit_target : forall h k p handle pol inc host env rs o w', is_u32 handle -> policy_wf pol -> fst (tcp_connect k) = Ok tt ->
  registers p handle -> hosts p handle (target pol) [] ->
  implicit_main h k p inc host env rs (mkNet [] [] []) = (o, w') ->
  exists q c requests, example_open q c
  /\ n_sent w' = register_bytes :: requests ++ match o with Ok _ => [unregister_bytes handle] | _ => [] end
  /\ let T := fst (played handle (target pol) [] (n_sent w')) in
     (o = Ok 0%nat /\ map (asked_in handle) requests = [Some q] /\ T = []
      \/ exists t, tc_name t = (c_serial c, c_vendor c, c_origSerial c) /\ tc_path t = c_path c
         /\ ((exists q', o = Ok 200%nat /\ map (asked_in handle) requests = [Some q; Some q'] /\ example_close q' t /\ T = [])
             \/ (exists n, o = Ok n /\ (0 < n <= 200)%nat /\ map (asked_in handle) requests = [Some q] /\ T = [t])
             \/ ((forall n, o <> Ok n) /\ map (asked_in handle) requests = [Some q] /\ T = [t]))).
Proof. exact implicit_over_tcp. Qed.
Print Assumptions C100_implicit_target.

(** The claim "a program that has registered a session unregisters it" is false:
    if the device refuses the identity, the exception that tells so is not caught. *)
Definition connects : calls := mkCalls None 2 None None None (1, 0) None 0 None None.
Definition refuses_all : device unit := fun _ _ => (failed 8, tt).
Lemma refuses_wf : device_wf refuses_all.
Proof. intros d q. repeat split; cbn; try lia; constructor. Qed.
Theorem C100_refuted : exists D k p handle (dev : device D) d w',
  hosts p handle dev d /\ registers p handle /\ device_wf dev /\ is_u32 handle /\ fst (tcp_connect k) = Ok tt
  /\ identity_main strict k p (mkNet [] [] []) = (Abort, w')
  /\ (exists x, n_sent w' = [register_bytes; x] /\ asked_in handle x <> None).
Proof.
  exists unit, connects, (host_peer bytewise 7 refuses_all tt), 7, refuses_all, tt. eexists.
  split; [apply (host_peer_hosts bytewise 7 _ tt bytewise_ok)|]. split; [apply (host_peer_hosts bytewise 7 _ tt bytewise_ok)|].
  split; [exact refuses_wf|]. split; [unfold is_u32; lia|]. split; [reflexivity|]. split; [vm_compute; reflexivity|].
  eexists. split; [vm_compute; reflexivity|]. vm_compute. discriminate.
Qed.
Print Assumptions C100_refuted.

(** The hypotheses hold of adapters that send byte by byte, and the programs end. *)
Definition stored : device (option nat) := uploader 200 [1; 2; 3; 4; 5] 2 [170; 85].
Definition over_bytes {D} (dev : device D) (d : D) : peer := host_peer bytewise 7 dev d.
Definition says (l : bytes) : device unit := fun _ _ => (done l, tt).
Example C100_example :
  hosts (over_bytes stored None) 7 stored None /\ registers (over_bytes stored None) 7 /\ device_wf stored /\ is_u32 7 /\ fst (tcp_connect connects) = Ok tt
  /\ hosts (over_bytes (target demo_policy) []) 7 (target demo_policy) [] /\ registers (over_bytes (target demo_policy) []) 7
  /\ fst (file_main strict connects (over_bytes stored None) 9 (mkNet [] [] [])) = Ok (false, Some [1; 2; 3; 4; 5])
  /\ List.length (n_sent (snd (file_main strict connects (over_bytes stored None) 9 (mkNet [] [] [])))) = 7%nat
  /\ fst (explicit_main strict connects (over_bytes (says [12; 1]) tt) (mkNet [] [] [])) = Ok (inl 268, 0)
  /\ fst (yaskawa_main strict connects (over_bytes (says (repeat 5 130)) tt) (mkNet [] [] [])) = Ok (repeat 5 128, repeat 5 128, true)
  /\ fst (parameter_main strict connects (over_bytes refuses_all tt) (mkNet [] [] [])) = Ok None
  /\ fst (implicit_main strict connects (over_bytes (target demo_policy) []) 5 "10.0.0.1" demo_env (fun _ => demo_round 0) (mkNet [] [] [])) = Ok 200%nat.
Proof.
  split; [apply (host_peer_hosts bytewise 7 _ None bytewise_ok)|]. split; [apply (host_peer_hosts bytewise 7 _ None bytewise_ok)|].
  split; [apply uploader_wf; [repeat constructor; unfold is_u8; lia|lia|repeat constructor; unfold is_u8; lia|reflexivity]|].
  split; [unfold is_u32; lia|]. split; [reflexivity|].
  split; [apply (host_peer_hosts bytewise 7 _ [] bytewise_ok)|]. split; [apply (host_peer_hosts bytewise 7 _ [] bytewise_ok)|].
  repeat match goal with |- _ /\ _ => split end; vm_compute; reflexivity.
Qed.
(** A session whose registration is refused, one that cannot connect. *)
Example C100_no_session_example :
  fst (session_open strict (mkCalls (Some 24) 2 None None None (1, 0) None 0 None None) (over_bytes stored None)) (mkNet [] [] []) = (Throw (SystemError 24), mkNet [] [] [])
  /\ (let p : peer := fun _ _ => [Data (encaps_bytes 101 4 0 1 [0; 0; 0; 0; 0; 0; 0; 0] 0 [1; 0; 0; 0])] in
      fst (file_main strict connects p 9 (mkNet [] [] [])) = Abort /\ n_sent (snd (file_main strict connects p 9 (mkNet [] [] []))) = [register_bytes]).
Proof. repeat split; vm_compute; reflexivity. Qed.
