(** Texts of addresses: C113. *)
From Verif Require Import Base MBuffer SBuffer PBase PBuffer MEip MConnReq MConn MAton SAton PAton.

(** The texts that inet_aton accepts are those that denote an address; none
    denotes two. *)
Theorem C113_accepted : forall host a, inet_aton host = Some a <-> denotes host a.
Proof. exact aton_denotes. Qed.
Print Assumptions C113_accepted.
Theorem C113_one : forall host a b, denotes host a -> denotes host b -> a = b.
Proof. intros host a b A B. apply aton_denotes in A, B. rewrite A in B. now inv B. Qed.
Print Assumptions C113_one.
Example C113_accepted_example : denotes "192.168.1.7" 0x0701A8C0 /\ denotes "0xC0.0250.263 and more" 0x0701A8C0 /\ denotes "3232235783" 0x0701A8C0
  /\ denotes "192.168.1" 0x0100A8C0 /\ (forall a, ~ denotes "192.168.1.256" a) /\ forall a, ~ denotes "08.1.1.1" a.
Proof.
  split; [apply aton_denotes; vm_compute; reflexivity|]. split; [apply aton_denotes; vm_compute; reflexivity|]. split; [apply aton_denotes; vm_compute; reflexivity|].
  split; [apply aton_denotes; vm_compute; reflexivity|].
  split; intros a H; apply aton_denotes in H; vm_compute in H; discriminate.
Qed.

(** The end point of a text and a port that exists. *)
Theorem C113_end_point : forall host port a, denotes host a -> is_u16 port -> let e := ep_of_host inet_aton host port in
  sa_family (ep_addr e) = 2 /\ sa_addr (ep_addr e) = a /\ le 2 (sa_port (ep_addr e)) = be16 port /\ ep_host e = host /\ ep_port e = port.
Proof.
  intros host port a D P e. apply aton_denotes in D. subst e. unfold ep_of_host. cbn [ep_addr sa_family sa_addr sa_port ep_host ep_port]. rewrite D.
  repeat split. rewrite u16_small, htons_swap by assumption. unfold is_u16 in P. cbn [le]. unfold be16. f_equal; [|f_equal]; lia.
Qed.
Print Assumptions C113_end_point.
(** The text that the library shows for an address leads back to it. *)
Theorem C113_shown : forall f a b c d p, is_u8 a -> is_u8 b -> is_u8 c -> is_u8 d -> is_u16 p ->
  ep_of_host inet_aton (ep_host (the_endpoint f a b c d p)) (ep_port (the_endpoint f a b c d p)) = the_endpoint 2 a b c d p.
Proof.
  intros f a b c d p A B C D P. unfold the_endpoint, ep_of_host. cbn [ep_host ep_port].
  pose proof (dotted_denotes a b c d A B C D) as H. apply aton_denotes in H. rewrite H, u16_small, htons_swap by assumption. reflexivity.
Qed.
Print Assumptions C113_shown.
Example C113_shown_example : is_u8 10 /\ is_u8 255 /\ is_u16 44818 /\ ep_host (the_endpoint 2 10 0 255 8 44818) = "10.0.255.8"%string.
Proof. unfold is_u8, is_u16. repeat split; lia. Qed.

(** What happens with any text and any port: no text is refused, and those that
    denote nothing are taken for 0.0.0.0; of the port the low 16 bits are used. *)
Theorem C113_any : forall host port, let e := ep_of_host inet_aton host port in
  ((forall a, ~ denotes host a) -> ep_addr e = ep_addr (ep_of_host inet_aton "0.0.0.0" port))
  /\ le 2 (sa_port (ep_addr e)) = be16 (port mod 65536) /\ ep_port e = port.
Proof.
  intros host port e. split.
  - intros N. subst e. unfold ep_of_host. cbn [ep_addr]. destruct (inet_aton host) as [a|] eqn:E; [apply aton_denotes in E; now apply N in E|]. reflexivity.
  - subst e. unfold ep_of_host. cbn [ep_addr sa_port ep_port]. split; [|reflexivity]. unfold u16.
    assert (P : is_u16 (port mod 65536)) by (unfold is_u16; lia). rewrite htons_swap by assumption. unfold is_u16 in P. cbn [le]. unfold be16. f_equal; [|f_equal]; lia.
Qed.
Print Assumptions C113_any.
Example C113_any_example : (forall a, ~ denotes "plc.local" a) /\ fo_dest strict inet_aton "plc.local" [] = Ok (ep_of_host inet_aton "plc.local" 2222)
  /\ sa_addr (ep_addr (ep_of_host inet_aton "plc.local" 2222)) = 0.
Proof. split; [intros a H; apply aton_denotes in H; vm_compute in H; discriminate|]. split; vm_compute; reflexivity. Qed.

(** A name is not refused but becomes the address of this host. *)
Theorem C113_refuted : exists host port e, (forall a, ~ denotes host a) /\ is_u16 port /\ ep_of_host inet_aton host port = e /\ sa_addr (ep_addr e) = 0.
Proof.
  exists "plc"%string, 44818, (ep_of_host inet_aton "plc" 44818). split; [intros a H; apply aton_denotes in H; vm_compute in H; discriminate|].
  split; [unfold is_u16; lia|]. split; reflexivity.
Qed.
Print Assumptions C113_refuted.
(** A port that does not exist is not refused but becomes another one. *)
Theorem C113_port_refuted : exists host a port other, denotes host a /\ ~ is_u16 port /\ is_u16 other
  /\ ep_addr (ep_of_host inet_aton host port) = ep_addr (ep_of_host inet_aton host other) /\ ep_port (ep_of_host inet_aton host port) = port.
Proof.
  exists "10.0.0.1"%string, 0x0100000A, 110354, 44818. split; [apply aton_denotes; vm_compute; reflexivity|]. split; [unfold is_u16; lia|]. split; [unfold is_u16; lia|].
  split; vm_compute; reflexivity.
Qed.
Print Assumptions C113_port_refuted.
(** End points of the same address and port can differ. *)
Theorem C113_spelling_refuted : exists s t a port, denotes s a /\ denotes t a /\ is_u16 port
  /\ ep_addr (ep_of_host inet_aton s port) = ep_addr (ep_of_host inet_aton t port)
  /\ ep_eqb (ep_of_host inet_aton s port) (ep_of_host inet_aton t port) = false.
Proof.
  exists "10.0.0.1"%string, "10.1"%string, 0x0100000A, 44818. split; [apply aton_denotes; vm_compute; reflexivity|]. split; [apply aton_denotes; vm_compute; reflexivity|].
  split; [unfold is_u16; lia|]. split; vm_compute; reflexivity.
Qed.
Print Assumptions C113_spelling_refuted.
