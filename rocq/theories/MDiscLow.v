(** Model: discovery when there is not enough memory. *)
From Verif Require Import Base MBuffer MEip MIdent MSocket MDisc MConn MFd MRes MMem.
Local Open Scope outcome_scope.

(** As in MMem: for each place that allocates whether some allocation made there fails. Messages are at levels that are not
    shown.

    src/DiscoveryManager.cpp:51-78: for each item a buffer, an end point, texts and an element of [devices]. *)
Fixpoint dl_items (h : heap) (i : Z) (items : list cpitem) (acc : list entry) (fs : list bool) : mres (list entry) * list bool :=
  match items with
  | [] => (Done (Ok acc), fs)
  | it :: r =>
    if hd false fs then (NoMemory, tl fs)
    else
      match disc_item h i it with
      | Ok e =>
        let fs := tl fs in
        if hd false fs then (NoMemory, tl fs) else dl_items h (i + 1) r (acc ++ [e]) (tl fs)
      | Throw e => (Done (Throw e), tl fs)
      | Undef u => (Done (Undef u), tl fs)
      | Abort => (Done Abort, tl fs)
      end
  end.
(** src/DiscoveryManager.cpp:46-78: the datagram is copied and read. *)
Definition dl_reply (h : heap) (data : bytes) (acc : list entry) (fs : list bool) : mres (list entry) * list bool :=
  if hd false fs then (NoMemory, tl fs)
  else
    match finished (cp_expand h (skipn HEADER_SIZE data)) with
    | Ok items => dl_items h 0 items acc (tl fs)
    | Throw e => (Done (Throw e), tl fs)
    | Undef u => (Done (Undef u), tl fs)
    | Abort => (Done Abort, tl fs)
    end.
(** src/DiscoveryManager.cpp:42-84; UDPSocket::Receive makes its buffer before recvfrom() (src/sockets/UDPSocket.cpp:69-72).
    The catch clause does not catch std::bad_alloc. *)
Fixpoint dl_loop (h : heap) (fd : Z) (acc : list entry) (ds : list dgram) (fs : list bool) : mres (list entry) * list fdev * list bool :=
  if hd false fs then (NoMemory, [], tl fs)
  else
    let fs := tl fs in
    match ds with
    | [] => (Done (disc_catch acc (bind (fst (udp_receive EIP_MAX_PACKET_SIZE [])) (fun _ => Ok acc))), [FUse fd], fs)
    | d :: r =>
      match fst (udp_receive EIP_MAX_PACKET_SIZE (d :: r)) with
      | Ok data =>
        match dl_reply h data acc fs with
        | (Done (Ok acc'), fs) => let '(o, ev, fs) := dl_loop h fd acc' r fs in (o, FUse fd :: ev, fs)
        | (Done o, fs) => (Done (disc_catch acc o), [FUse fd], fs)
        | (NoMemory, fs) => (NoMemory, [FUse fd], fs)
        end
      | Throw e => (Done (disc_catch acc (Throw e)), [FUse fd], fs)
      | Undef u => (Done (Undef u), [FUse fd], fs)
      | Abort => (Done Abort, [FUse fd], fs)
      end
    end.
(** The end of the scope of the socket, also with std::bad_alloc. *)
Definition leave_low {A} (fd : Z) (o : mres A) : list fdev :=
  match o with Done o => leave_scope fd o | NoMemory => fd_destroy fd end.
(** src/DiscoveryManager.cpp:37-99. Places: the socket object and its end point, before socket(); the packet, before sendto(). *)
Definition dl_discover (h : heap) (sock : Z + Z) (option_failed : failing) (sent : send_result) (broadcast : endpoint) (ds : list dgram) (fs : list bool)
  : mres (list entry) * sent_to * list fdev :=
  if hd false fs then (NoMemory, [], [])
  else
    let fs := tl fs in
    match sock with
    | inr e => (Done (Throw (SystemError e)), [], [])
    | inl fd =>
      match option_failed with
      | Some e => (Done (Throw (SystemError e)), [], [FOpen fd; FUse fd; FUse fd] ++ fd_destroy fd)
      | None =>
        if hd false fs then (NoMemory, [], [FOpen fd; FUse fd; FUse fd] ++ fd_destroy fd)
        else
          let fs := tl fs in
          let data := encaps_pack list_identity_packet in
          let out := if s_count sent <? 0 then [] else [(ep_addr broadcast, firstn (Z.to_nat (s_count sent)) data)] in
          match send_check (zlen data) sent with
          | Ok _ =>
            let '(o, ev, _) := dl_loop h fd [] ds fs in
            (o, out, [FOpen fd; FUse fd; FUse fd; FUse fd] ++ ev ++ leave_low fd o)
          | Throw e => (Done (Throw e), out, [FOpen fd; FUse fd; FUse fd; FUse fd] ++ fd_destroy fd)
          | Undef u => (Done (Undef u), out, [FOpen fd; FUse fd; FUse fd; FUse fd])
          | Abort => (Done Abort, out, [FOpen fd; FUse fd; FUse fd; FUse fd])
          end
      end
    end.
