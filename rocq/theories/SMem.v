(** Specification of sessions when there is not enough memory. *)
From Verif Require Import Base MBuffer MEip MSocket SSocket MMem.

(** No allocation fails. *)
Definition plenty (fs : list bool) : Prop := Forall (fun f => f = false) fs.
(** The peer answers every packet with one packet of its own and is silent otherwise. *)
Definition answering (p : peer) (reply : list bytes -> bytes -> encaps) : Prop :=
  forall log data, well_formed (reply log data) /\ stream (p log data) = encaps_pack (reply log data) /\ ending_of (p log data) = Silent.
(** Bytes that have come and have not been read. *)
Definition unread (w : net) (l : bytes) : Prop := stream (n_in w) = l /\ ending_of (n_in w) = Silent.
(** The packet has been sent; nothing has been. *)
Definition sent_now (w w' : net) (q : encaps) : Prop := n_sent w' = n_sent w ++ [encaps_pack q] /\ n_results w' = [].

(** Everything that has come has been read after each of the exchanges. *)
Fixpoint in_step (warning : bool) (h : heap) (p : peer) (handle : Z) (qs : list encaps) (x : mstate) : Prop :=
  match qs with
  | [] => True
  | q :: r => let x' := snd (m_exchange warning h p handle q x) in unread (snd x') [] /\ in_step warning h p handle r x'
  end.
(** Each exchange ends for want of memory, or as the reply to its own packet says. *)
Fixpoint right_answers (warning : bool) (h : heap) (p : peer) (reply : list bytes -> bytes -> encaps) (handle : Z) (qs : list encaps) (x : mstate) : Prop :=
  match qs with
  | [] => True
  | q :: r =>
    let '(o, x') := m_exchange warning h p handle q x in
    (o = NoMemory \/ o = Done (verdict handle (reply (n_sent (snd x)) (encaps_pack q))))
    /\ right_answers warning h p reply handle r x'
  end.
(** The replies to packets sent one after the other. *)
Fixpoint replies (reply : list bytes -> bytes -> encaps) (log : list bytes) (qs : list encaps) : list encaps :=
  match qs with
  | [] => []
  | q :: r => reply log (encaps_pack q) :: replies reply (log ++ [encaps_pack q]) r
  end.
(** The exchange fails, and the request in the same way. *)
Definition ends_like {A B} (o1 : mres A) (o : mres B) : Prop :=
  match o1 with
  | NoMemory => o = NoMemory
  | Done (Ok _) => False
  | Done (Throw e) => o = Done (Throw e)
  | Done (Undef u) => o = Done (Undef u)
  | Done Abort => o = Done Abort
  end.

(** A request after its exchange; a place before a call. *)
Definition answered (h : heap) (r : mres encaps * mstate) : mres response * mstate :=
  match r with
  | (Done (Ok a), (true :: fs, w)) => (NoMemory, (fs, w))
  | (Done (Ok a), (fs, w)) => (Done (reply_response h a), (tl fs, w))
  | (Done (Throw e), x) => (Done (Throw e), x)
  | (Done (Undef u), x) => (Done (Undef u), x)
  | (Done Abort, x) => (Done Abort, x)
  | (NoMemory, x) => (NoMemory, x)
  end.
(** A message that is shown, or not, with texts: what it does if the text cannot be
    made ([f0]) or not be copied ([f1]). *)
Definition told {A} (shown f0 f1 : bool) (fs : list bool) (w : net) (go : list bool -> mres A * mstate) : mres A * mstate :=
  if shown then if f1 then (Done Abort, (fs, w)) else if f0 then (NoMemory, (fs, w)) else go fs
  else if f0 then (NoMemory, (f1 :: fs, w)) else go (f1 :: fs).
