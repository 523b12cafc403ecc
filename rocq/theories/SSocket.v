(** Specification for sockets and sessions: what a byte stream delivers, and
    what an exchange of packets over it means. *)
From Verif Require Import Base MBuffer SBuffer MEip SEip MSocket.

(** The bytes that can be read before the stream is interrupted for good, and
    how it is interrupted. EINTR interrupts nothing. *)
Fixpoint stream (segs : list seg) : bytes :=
  match segs with
  | Data l :: r => l ++ stream r
  | Err 4 :: r => stream r
  | _ => []
  end.

Inductive ending := Silent | Failed (e : Z) | Closed.
Fixpoint ending_of (segs : list seg) : ending :=
  match segs with
  | [] => Silent
  | Data _ :: r => ending_of r
  | Err 4 :: r => ending_of r
  | Err e :: _ => Failed e
  | Eof :: _ => Closed
  end.
(** What follows the interruption. *)
Fixpoint after (segs : list seg) : list seg :=
  match segs with
  | [] => []
  | Data _ :: r => after r
  | Err 4 :: r => after r
  | Err _ :: r => r
  | Eof :: r => Eof :: r
  end.

(** A sequence of Receive calls. *)
Fixpoint receives (sizes : list nat) (segs : list seg) : list (outcome bytes) * list seg :=
  match sizes with
  | [] => ([], segs)
  | n :: r => let '(o, s1) := tcp_receive n segs in
              let '(os, s2) := receives r s1 in (o :: os, s2)
  end.
(** Consecutive pieces of a byte string. *)
Fixpoint pieces (sizes : list nat) (l : bytes) : list bytes :=
  match sizes with
  | [] => []
  | n :: r => firstn n l :: pieces r (skipn n l)
  end.

(** The send() of this exchange accepts everything. *)
Definition sends_all (w : net) (data : bytes) : Prop :=
  match n_results w with [] => True | r :: _ => s_count r = zlen data end.

(** What is on the wire once [data] has been sent completely. *)
Definition incoming (p : peer) (w : net) (data : bytes) : list seg := n_in w ++ p (n_sent w) data.

(** The session's rule for replies. *)
Definition acceptable (handle : Z) (r : encaps) : bool :=
  (e_status r =? 0) && ((handle =? 0) || (e_handle r =? handle)).

(** The outcome of an exchange whose reply is [r]. *)
Definition verdict (handle : Z) (r : encaps) : outcome encaps :=
  if acceptable handle r then Ok r
  else Throw (RuntimeError (if e_status r =? 0 then RtSessionHandle else RtSessionStatus)).

Definition well_formed (r : encaps) : Prop := encaps_wf r /\ e_length r = zlen (e_data r).

(** The peer answers each of these packets, sent in this order after [log],
    with one well-formed packet; it may be cut into pieces and receiving may be
    interrupted by signals. *)
Inductive answers (p : peer) : list bytes -> list encaps -> list encaps -> Prop :=
| answers_nil log : answers p log [] []
| answers_cons log q qs r rs :
    well_formed r ->
    stream (p log (encaps_pack q)) = encaps_pack r -> ending_of (p log (encaps_pack q)) = Silent ->
    answers p (log ++ [encaps_pack q]) qs rs -> answers p log (q :: qs) (r :: rs).

(** Nothing is waiting to be read. *)
Definition drained (segs : list seg) : Prop := stream segs = [] /\ ending_of segs = Silent.
