(** Model of the discovery of devices (src/DiscoveryManager.cpp). Logging is
    left out. *)
From Verif Require Import Base MBuffer MEip MFile MIdent MSocket.
Local Open Scope outcome_scope.

(** src/DiscoveryManager.h:22-27 *)
Record entry := mkEntry { en_identity : identity; en_address : endpoint }.

(** src/DiscoveryManager.cpp:45 *)
Definition EIP_MAX_PACKET_SIZE : nat := Z.to_nat 504.

(** src/DiscoveryManager.cpp:52-77, one item, whatever its type. *)
Definition disc_item (h : heap) (i : Z) (it : cpitem) : outcome entry :=
  let b := buf_of (it_data it) in
  '(_, b) <- get_u16 h b ;;
  '(addr, b) <- get_endpoint h b ;;
  '(o, _) <- get_identity h (u16 i) b ;;
  Ok (mkEntry o addr).

(** src/DiscoveryManager.cpp:51-78; [i] is the loop variable, [acc] is
    [devices]. *)
Fixpoint disc_items (h : heap) (i : Z) (items : list cpitem) (acc : list entry) : outcome (list entry) :=
  match items with
  | [] => Ok acc
  | it :: r => e <- disc_item h i it ;; disc_items h (i + 1) r (acc ++ [e])
  end.

(** src/DiscoveryManager.cpp:46-78: what is done with one datagram. *)
Definition disc_reply (h : heap) (data : bytes) (acc : list entry) : outcome (list entry) :=
  items <- finished (cp_expand h (skipn HEADER_SIZE data)) ;;
  disc_items h 0 items acc.

(** src/DiscoveryManager.cpp:80-84: [throw er] is taken to pass the error on
    unchanged. *)
Definition disc_catch (acc : list entry) (o : outcome (list entry)) : outcome (list entry) :=
  match o with
  | Throw (SystemError e) => if negb (e =? EAGAIN) then Throw (SystemError e) else Ok acc
  | _ => o
  end.

(** src/DiscoveryManager.cpp:43-86. The list holds what the calls of recvfrom()
    meet; when it is used up, recvfrom() runs into its timeout (a timeout of 0,
    with which recvfrom() would wait for ever, is outside the model). *)
Fixpoint disc_loop (h : heap) (acc : list entry) (ds : list dgram) : outcome (list entry) :=
  match ds with
  | [] => disc_catch acc (bind (fst (udp_receive EIP_MAX_PACKET_SIZE [])) (fun _ => Ok acc))
  | d :: r =>
    match bind (fst (udp_receive EIP_MAX_PACKET_SIZE (d :: r))) (fun data => disc_reply h data acc) with
    | Ok acc' => disc_loop h acc' r
    | o => disc_catch acc o
    end
  end.

(** Results of the calls made before the loop: socket(), setsockopt() of
    SO_BROADCAST, sendto(). The result of setsockopt() of SO_RCVTIMEO is ignored
    (src/sockets/BaseSocket.cpp:86). *)
Record dkernel := mkDK { dk_socket : failing; dk_broadcast : failing; dk_send : send_result }.

(** What is put on the network: destination and data. *)
Definition sent_to := list (sockaddr * bytes).

(** src/DiscoveryManager.cpp:37-99, src/sockets/UDPSocket.cpp:29-67. Result and
    what was sent; sendto() sends the number of bytes it returns. *)
Definition discover (h : heap) (k : dkernel) (broadcast : endpoint) (ds : list dgram)
  : outcome (list entry) * sent_to :=
  match dk_socket k with
  | Some e => (Throw (SystemError e), [])
  | None =>
    match dk_broadcast k with
    | Some e => (Throw (SystemError e), [])
    | None =>
      let data := encaps_pack list_identity_packet in
      let sent := if s_count (dk_send k) <? 0 then []
                  else [(ep_addr broadcast, firstn (Z.to_nat (s_count (dk_send k))) data)] in
      (_ <- send_check (zlen data) (dk_send k) ;; disc_loop h [] ds, sent)
    end
  end.
