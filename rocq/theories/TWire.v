(** Properties C76 and C79 for connection managers whose session is a TCP connection to a device. *)
From Verif Require Import Base MBuffer MEip SEip SObj PObj MSocket SSocket MConnReq SConnReq MConn SConn PConnTop PLife SHost PHost STarget PTarget SWire PWire.

(** One call of a manager does over the network what it does with the device itself. *)
Theorem C76_connection : forall D (p : peer) handle (dev : device D) d h op g m w,
  hosts p handle dev d -> device_wf dev -> is_u32 handle -> ncall_wf op -> sendable_paths m -> idle w ->
  exists o g' m' w', call_mgr h (over (live_session h p handle) op) (g, m, w) = (o, (g', m', w'))
    /\ call_mgr h (over (served handle dev) op) (g, m, played handle dev d (n_sent w)) = (o, (g', m', played handle dev d (n_sent w')))
    /\ went_on handle w w'.
Proof. intros D p handle dev d h op g m w HP HD HH. exact (call_like p handle dev d h HP HD HH op g m w). Qed.
Print Assumptions C76_connection.
(** So does every program: any number of managers, any sequence of their calls. Nothing of an answer is left unread,
    and nothing but requests of the session was sent. *)
Theorem C76_connections : forall D (p : peer) handle (dev : device D) d h ops inc w,
  hosts p handle dev d -> device_wf dev -> is_u32 handle -> idle w -> Forall (fun x => ncall_wf (snd x)) ops ->
  exists g' ms' w', run_calls h (overs (live_session h p handle) ops) (mkWorld globals0 (fun i => mgr0 (inc i)) w) = mkWorld g' ms' w'
    /\ run_calls h (overs (served handle dev) ops) (mkWorld globals0 (fun i => mgr0 (inc i)) (played handle dev d (n_sent w)))
       = mkWorld g' ms' (played handle dev d (n_sent w'))
    /\ went_on handle w w' /\ forall i, sendable_paths (ms' i).
Proof. intros D p handle dev d h ops inc w. exact (program_start p handle dev d h ops inc w). Qed.
Print Assumptions C76_connections.

(** C79 over a TCP connection: [played] gives the connections of the target after the packets sent so far. *)
Theorem C79_known_over_tcp : forall h inc p handle pol ops n w,
  hosts p handle (target pol) [] -> policy_wf pol -> is_u32 handle -> idle n -> played handle (target pol) [] (n_sent n) = ([], []) ->
  Forall (fun x => ncall_wf (snd x)) ops ->
  w = run_calls h (overs (live_session h p handle) ops) (mkWorld globals0 (fun i => mgr0 (inc i)) n) ->
  let T := fst (played handle (target pol) [] (n_sent (w_s w))) in
  forall i oid c, lock oid (w_m w i) = Some c ->
  exists t, In t T /\ same_connection c t
    /\ (forall t', In t' T -> tc_name t' = tc_name t -> t' = t)
    /\ forall i' oid' c', lock oid' (w_m w i') = Some c' -> same_connection c' t -> i' = i /\ oid' = oid.
Proof. exact net_known. Qed.
Print Assumptions C79_known_over_tcp.
Theorem C79_closes_over_tcp : forall h inc p handle pol ops n w,
  hosts p handle (target pol) [] -> policy_wf pol -> is_u32 handle -> idle n -> played handle (target pol) [] (n_sent n) = ([], []) ->
  Forall (fun x => ncall_wf (snd x)) ops ->
  w = run_calls h (overs (live_session h p handle) ops) (mkWorld globals0 (fun i => mgr0 (inc i)) n) ->
  let at_net x := fst (played handle (target pol) [] (n_sent x)) in
  forall use8 i oid c, lock oid (w_m w i) = Some c ->
  exists w' t, call_world h i (CClose use8 (live_session h p handle) oid) w = (Ok None, w')
    /\ same_connection c t /\ In t (at_net (w_s w))
    /\ (forall x, In x (at_net (w_s w')) <-> In x (at_net (w_s w)) /\ x <> t)
    /\ (forall x, lock x (w_m w' i) = if Nat.eqb x oid then None else lock x (w_m w i)) /\ (forall j, j <> i -> w_m w' j = w_m w j) /\ went_on handle (w_s w) (w_s w').
Proof. exact net_closes. Qed.
Print Assumptions C79_closes_over_tcp.

(** Two managers share a session whose packets arrive byte by byte; two connections are opened, one is closed. *)
Definition nopens (c : cparams) : ncall := NOpen false "10.0.0.2"%string (mkFoEnv None None 0 (fun _ => Some 0x0100007F)) false c.
Definition over_tcp : list (nat * ncall) :=
  [(0%nat, nopens (class1 1 0)); (1%nat, nopens class1m); (0%nat, NData 0 [1; 2]); (0%nat, NHandle [] SelQuiet (at_ms 5)); (1%nat, NClose true 1)].
Definition tcp_peer : peer := host_peer bytewise 7 (target (gives 9)) [].
(** The session was registered over this connection. *)
Definition registered : net := mkNet [encaps_pack register_packet] [] [].
Lemma over_tcp_wf : Forall (fun x => ncall_wf (snd x)) over_tcp.
Proof. repeat first [apply Forall_nil | apply Forall_cons; [cbn [snd nopens ncall_wf]; first [exact I|split; [first [exact class1_good|exact class1m_good]|vm_compute; discriminate]]|]]. Qed.
(** The hypotheses of the four theorems, and a result. *)
Example C76_connections_example :
  let w := run_calls strict (overs (live_session strict tcp_peer 7) over_tcp) (mkWorld globals0 (fun i => mgr0 (inc0 i)) registered) in
  hosts tcp_peer 7 (target (gives 9)) [] /\ device_wf (target (gives 9)) /\ is_u32 7 /\ idle registered
  /\ played 7 (target (gives 9)) [] (n_sent registered) = ([], [])
  /\ Forall (fun x => ncall_wf (snd x)) over_tcp
  /\ List.length (n_sent (w_s w)) = 4%nat /\ lock 0 (w_m w 0%nat) <> None /\ lock 1 (w_m w 1%nat) = None
  /\ map tc_name (fst (played 7 (target (gives 9)) [] (n_sent (w_s w)))) = [(1, 342, 0x12345678)].
Proof.
  cbv zeta. split; [apply (host_peer_hosts bytewise 7 _ [] bytewise_ok)|]. split; [apply target_wf, gives_wf; unfold is_u32; lia|].
  split; [unfold is_u32; lia|]. split; [split; [reflexivity|split; reflexivity]|]. split; [vm_compute; reflexivity|]. split; [exact over_tcp_wf|].
  vm_compute. repeat split; discriminate.
Qed.
