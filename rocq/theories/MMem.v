(** Model: sessions when there is not enough memory. The C++ standard library
    throws std::bad_alloc where an allocation fails. *)
From Verif Require Import Base MBuffer MEip MSocket.

(** How a call ends: as in the rest of the model, or with std::bad_alloc. *)
Inductive mres (A : Type) := Done (o : outcome A) | NoMemory.
Arguments Done {A} o.
Arguments NoMemory {A}.

(** For each place that allocates, in the order they are reached, whether some
    allocation made there fails (none fails when the list is used up); and the
    network. How many allocations a place makes depends on the library; nothing
    else happens between those of one place. That memory for the exceptions
    themselves is missing is left out. *)
Definition mstate : Type := list bool * net.
Definition mst (A : Type) : Type := mstate -> mres A * mstate.

Definition m_ret {A} (a : A) : mst A := fun x => (Done (Ok a), x).
Definition m_bind {A B} (m : mst A) (k : A -> mst B) : mst B :=
  fun x => match m x with
           | (Done (Ok a), x') => k a x'
           | (Done (Throw e), x') => (Done (Throw e), x')
           | (Done (Undef u), x') => (Done (Undef u), x')
           | (Done Abort, x') => (Done Abort, x')
           | (NoMemory, x') => (NoMemory, x')
           end.
Definition m_lift {A} (m : st net A) : mst A := fun '(fs, w) => let '(o, w') := m w in (Done o, (fs, w')).

(** A place that allocates. *)
Definition need : mst unit :=
  fun '(fs, w) => match fs with
                  | true :: r => (NoMemory, (r, w))
                  | _ => (Done (Ok tt), (tl fs, w))
                  end.
(** A message: [Logger(level) << ...;]. Inserting into the stream swallows
    exceptions, but making a text to insert ([texts]) can throw; ~Logger
    (src/utils/Logger.cpp:18-22) copies the text if the level is shown, also while
    an exception is on its way, and ends the program if that throws. *)
Definition message (texts shown : bool) : mst unit :=
  fun x =>
    let '(r, x) := if texts then need x else (Done (Ok tt), x) in
    if shown then match need x with
                  | (NoMemory, x') => (Done Abort, x')
                  | (Done _, x') => (r, x')
                  end
    else (r, x).

(** Whether Receive meets the end of the stream (see MSocket.recv_loop). *)
Fixpoint recv_ended (n : nat) (segs : list seg) : bool :=
  match n with
  | O => false
  | _ =>
    match segs with
    | [] => false
    | Data l :: r => if Nat.leb (List.length l) n then recv_ended (n - List.length l) r else false
    | Err e :: r => if e =? EINTR then recv_ended n r else false
    | Eof :: _ => true
    end
  end.

Section Session.
(** Which levels are shown: INFO, and WARNING. Messages at TRACE and DEBUG are not. *)
Variables info warning : bool.
Variable h : heap.
Variable p : peer.

(** src/sockets/TCPSocket.cpp:141-169 *)
Definition m_receive (n : nat) : mst bytes :=
  fun x =>
    let ended := recv_ended n (n_in (snd x)) in
    m_bind (match n with O => m_ret tt | _ => need end) (fun _ =>
    m_bind (m_lift (net_receive n)) (fun d =>
    if ended then m_bind (message true warning) (fun _ => m_ret d) else m_ret d)) x.

(** src/SessionInfo.cpp:47-69; [getLengthFromHeader] makes two vectors
    (src/eip/EncapsPacket.cpp:101-108). *)
Definition m_exchange (handle : Z) (packet : encaps) : mst encaps :=
  m_bind need (fun _ =>
  m_bind (m_lift (net_send p (encaps_pack packet))) (fun _ =>
  m_bind (m_receive HEADER_SIZE) (fun header =>
  m_bind need (fun _ =>
  m_bind (m_lift (st_lift (length_from_header h header))) (fun len =>
  m_bind (m_receive (Z.to_nat len)) (fun data =>
  m_bind need (fun _ =>
  m_lift (st_lift (r <- finished (encaps_expand h encaps0 (header ++ data)) ;; check_reply handle r)%outcome)))))))).

(** src/MessageRouter.cpp:37-81 *)
Definition m_request (handle : Z) (use8 : bool) (service : Z) (path : epath) (data : bytes) (extra : list cpitem) : mst response :=
  m_bind (message true info) (fun _ =>
  m_bind need (fun _ =>
  m_bind (m_exchange handle (request_packet handle use8 service path data extra)) (fun received =>
  m_bind need (fun _ => m_lift (st_lift (reply_response h received)))))).

(** src/SessionInfo.cpp:20-35 after the connection is made. When an exception
    leaves it, the socket is closed (see MSocket.session_open). *)
Definition m_register : mst Z :=
  m_bind need (fun _ =>
  m_bind (m_exchange 0 register_packet) (fun r =>
  if negb (e_status r =? ENCAPS_SUCCESS) then m_lift (st_lift (Throw (RuntimeError RtSessionRegister)))
  else m_bind (message false info) (fun _ => m_ret (e_handle r)))).

(** src/SessionInfo.cpp:41-45: an exception that leaves a destructor ends the
    program. *)
Definition m_destroy (handle : Z) : mst unit :=
  fun x =>
    match m_bind need (fun _ => m_bind (m_lift (net_send p (encaps_pack (unregister_packet handle)))) (fun _ => message false info)) x with
    | (NoMemory, x') | (Done (Throw _), x') => (Done Abort, x')
    | r => r
    end.

(** Several exchanges, whatever each of them ends with. *)
Fixpoint m_exchanges (handle : Z) (qs : list encaps) (x : mstate) : list (mres encaps) * mstate :=
  match qs with
  | [] => ([], x)
  | q :: r => let '(o, x) := m_exchange handle q x in let '(os, x) := m_exchanges handle r x in (o :: os, x)
  end.
End Session.
