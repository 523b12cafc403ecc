(** What an adapter sees of the requests of the object clients, and how it
    answers: a request is read from the bytes of the packet, an answer is
    written as a reply packet. Shared by the file, identity, parameter and
    fault object specifications. *)
From Verif Require Import Base MBuffer SBuffer MEip SEip.

Definition kind_of8 (c : Z) : option kind :=
  if c =? 32 then Some KClass else if c =? 36 then Some KInst else if c =? 48 then Some KAttr else None.
Definition kind_of16 (c : Z) : option kind :=
  if c =? 33 then Some KClass else if c =? 37 then Some KInst else if c =? 49 then Some KAttr else None.

(** Read a logical path: 8-bit segments and padded 16-bit segments. *)
Fixpoint parse_path (l : bytes) : option (list (kind * Z)) :=
  match l with
  | [] => Some []
  | c :: v :: r =>
    match kind_of8 c with
    | Some k => option_map (cons (k, v)) (parse_path r)
    | None =>
      match kind_of16 c, r with
      | Some k, lo :: hi :: r' =>
        if v =? 0 then option_map (cons (k, lo + 256 * hi)) (parse_path r') else None
      | _, _ => None
      end
    end
  | _ => None
  end.

(** A request as the adapter understands it. *)
Record request := mkReq { q_service : Z; q_path : list (kind * Z); q_data : bytes }.

(** Read a request from the bytes sent over TCP. *)
Definition asked (wire : bytes) : option request :=
  match parse_rr wire with
  | Some (mkRR _ _ [(0, []); (178, r)]) =>
    match parse_request r with
    | Some (service, path, data) =>
      match parse_path path with
      | Some ids => Some (mkReq service ids data)
      | None => None
      end
    | None => None
    end
  | _ => None
  end.

(** An answer and the reply packet that carries it. *)
Record answer := mkAns { a_status : Z; a_addl : list Z; a_data : bytes }.
Definition done (d : bytes) : answer := mkAns 0 [] d.
Definition failed (status : Z) : answer := mkAns status [] [].
Definition answer_wf (a : answer) : Prop :=
  is_u8 (a_status a) /\ is_words (a_addl a) /\ zlen (a_addl a) < 256
  /\ is_bytes (a_data a) /\ zlen (a_data a) <= 60000.
Definition reply_packet (handle service : Z) (a : answer) : encaps :=
  packet 111 handle 0
    (le 4 0 ++ le 2 0 ++
     cpf_bytes [mkItem 0 0 [];
                let r := response_bytes (service + 128) 0 (a_status a) (a_addl a) (a_data a) in
                mkItem 178 (zlen r) r]).

(** A session with a device: any deterministic machine that answers requests.
    The exchanged requests and answers are recorded. Packets that are not
    requests are refused. *)
Definition trace := list (request * answer).
Definition device (D : Type) := D -> request -> answer * D.
Definition served {D} (handle : Z) (dev : device D) : session_if (D * trace) :=
  mkSession handle (fun p '(d, tr) =>
    match asked (encaps_pack p) with
    | Some q => let '(a, d') := dev d q in
                (Ok (reply_packet handle (q_service q) a), (d', tr ++ [(q, a)]))
    | None => (Throw (SystemError 71), (d, tr))
    end).
Definition device_wf {D} (dev : device D) : Prop := forall d q, answer_wf (fst (dev d q)).

(** The instance id can be sent with the segment width in use. *)
Definition sendable (use8 : bool) (n : Z) : Prop := is_u16 n /\ (use8 = true -> n < 256).

(** A device that gives the answers of a list, whatever it is asked. *)
Definition scripted : device (list answer) :=
  fun l _ => match l with [] => (failed 1, []) | a :: r => (a, r) end.
