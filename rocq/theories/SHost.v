(** A device behind a TCP connection: which requests it has seen, what it sends,
    and what it means that a client cannot tell the connection from the device
    itself. *)
From Verif Require Import Base MBuffer SBuffer MEip SEip SObj MSocket SSocket MFile.

(** The request carried by [wire] if it belongs to the session [handle]. *)
Definition asked_in (handle : Z) (wire : bytes) : option request :=
  match parse_rr wire with
  | Some (mkRR handle' _ _) => if handle' =? handle then asked wire else None
  | None => None
  end.

(** The device after it has received the packets [log], and what it was asked
    and answered. *)
Definition serves {D} (handle : Z) (dev : device D) (s : D * trace) (wire : bytes) : D * trace :=
  match asked_in handle wire with
  | Some q => let '(a, d') := dev (fst s) q in (d', snd s ++ [(q, a)])
  | None => s
  end.
Definition played {D} (handle : Z) (dev : device D) (d : D) (log : list bytes) : D * trace :=
  fold_left (serves handle dev) log (d, []).

(** The peer is the device [dev], started in state [d], with a session [handle]:
    it sends back the answer to each request, in pieces of any size; receiving
    them may be interrupted by signals. Nothing is said about other packets. *)
Definition hosts {D} (p : peer) (handle : Z) (dev : device D) (d : D) : Prop :=
  forall log wire q, asked_in handle wire = Some q ->
    stream (p log wire)
    = encaps_pack (reply_packet handle (q_service q) (fst (dev (fst (played handle dev d log)) q)))
    /\ ending_of (p log wire) = Silent.

(** It hands out the session [handle]. *)
Definition registers (p : peer) (handle : Z) : Prop :=
  forall log, stream (p log (encaps_pack register_packet)) = encaps_pack (packet 101 handle 0 [1; 0; 0; 0])
    /\ ending_of (p log (encaps_pack register_packet)) = Silent.

(** Nothing is on the way and send() accepts everything. *)
Definition idle (w : net) : Prop := n_results w = [] /\ drained (n_in w).

(** From [w] to [w'] only requests of this session were sent, and nothing is left. *)
Definition went_on (handle : Z) (w w' : net) : Prop :=
  idle w' /\ exists new, n_sent w' = n_sent w ++ new /\ Forall (fun wire => asked_in handle wire <> None) new.

(** The run [m] over the network [w] ends as the run [m'] of the same client
    that talks to the device directly; the device has seen the same requests and
    nothing else. *)
Definition same_run {D A} (handle : Z) (dev : device D) (d : D) (m : st net A) (m' : st (D * trace) A) (w : net) : Prop :=
  exists w', m w = (fst (m' (played handle dev d (n_sent w))), w') /\ went_on handle w w'
    /\ played handle dev d (n_sent w') = snd (m' (played handle dev d (n_sent w))).
(** The same for clients that keep a state [x]. *)
Definition same_run_with {D A X} (handle : Z) (dev : device D) (d : D)
    (m : st (X * net) A) (m' : st (X * (D * trace)) A) (x : X) (w : net) : Prop :=
  exists w', m (x, w) = (fst (m' (x, played handle dev d (n_sent w))),
                         (fst (snd (m' (x, played handle dev d (n_sent w)))), w'))
    /\ went_on handle w w'
    /\ played handle dev d (n_sent w') = snd (snd (m' (x, played handle dev d (n_sent w)))).

(** A file object whose requests can be sent: the transfer number is a byte. *)
Definition file_ok (use8 : bool) (f : fobj) : Prop :=
  sendable use8 (fo_id f)
  /\ match fo_state f with FUpload _ _ _ number _ => is_u8 number | _ => True end.

(** Such a peer: [split] puts the bytes of a reply on the wire. *)
Definition host_peer {D} (split : bytes -> list seg) (handle : Z) (dev : device D) (d : D) : peer :=
  fun log wire =>
    match asked_in handle wire with
    | Some q => split (encaps_pack (reply_packet handle (q_service q) (fst (dev (fst (played handle dev d log)) q))))
    | None => if list_eq_dec Z.eq_dec wire (encaps_pack register_packet)
              then split (encaps_pack (packet 101 handle 0 [1; 0; 0; 0])) else []
    end.
(** Every byte on its own, each after an interruption by a signal. *)
Definition bytewise (l : bytes) : list seg := List.concat (map (fun b => [Err 4; Data [b]]) l).
