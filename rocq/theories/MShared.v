(** Model of one session (src/SessionInfo.cpp) that several threads use at the
    same time. sendAndReceive is a const member function and takes no lock; what
    threads share is the TCP connection. One step of a thread is one system call
    (send() or recv()) with the code up to the next one, which works on local
    variables. *)
From Verif Require Import Base MBuffer MEip MSocket.
Local Open Scope outcome_scope.

(** One recv() of at most [n] bytes: it waits, gives bytes, tells the end of the
    stream or fails (see [seg] in MSocket.v). *)
Inductive recv_result := Waits | Gives (l : bytes) | Ends | Fails (e : Z).
Definition recv_once (n : nat) (segs : list seg) : recv_result * list seg :=
  match segs with
  | [] => (Waits, [])
  | Data l :: r => if Nat.leb (List.length l) n then (Gives l, r) else (Gives (firstn n l), Data (skipn n l) :: r)
  | Err e :: r => (Fails e, r)
  | Eof :: r => (Ends, Eof :: r)
  end.

(** src/sockets/TCPSocket.cpp:144-168: what one turn of the loop of Receive(n)
    does, [got] being the bytes so far: go round again, leave the loop with the
    buffer, or throw. *)
Inductive turn := Again (got : bytes) | Full (d : bytes) | Stops (e : exn).
Definition receive_turn (n : nat) (got : bytes) (segs : list seg) : turn * list seg :=
  match recv_once (n - List.length got) segs with
  | (Waits, r) => (Again got, r)
  | (Gives l, r) => (if Nat.leb n (List.length (got ++ l)) then Full (got ++ l) else Again (got ++ l), r)
  | (Ends, r) => (Full (got ++ zeros (n - List.length got)), r)
  | (Fails e, r) => (if e =? EINTR then Again got else Stops (SystemError e), r)
  end.

(** Where a thread is in sendAndReceive (src/SessionInfo.cpp:47-69): not in it,
    receiving the header (line 49), receiving the [n] bytes of data (line 51). *)
Inductive place :=
| Outside
| InHeader (got : bytes)
| InData (header : bytes) (n : nat) (got : bytes).

(** A thread: the packets it still has to send and where it is. Calls are made
    one after the other; an exception ends the call, not the thread. *)
Record thread := mkThread { th_calls : list encaps; th_place : place }.

(** What happens, in order: a packet is handed to send(), a call gets its first
    bytes, a call ends. (These notes are not part of the program.) *)
Inductive note := Handed (t : nat) (q : encaps) | Began (t : nat) | Returned (t : nat) (o : outcome encaps).

Record shared := mkShared { ts_net : net; ts_threads : nat -> thread; ts_notes : list note }.

Definition set_thread (f : nat -> thread) (t : nat) (x : thread) : nat -> thread :=
  fun i => if Nat.eqb i t then x else f i.

(** Thread [t] is now at [pl], having these packets to send. *)
Definition at_place (s : shared) (t : nat) (w : net) (qs : list encaps) (pl : place) (ns : list note) : shared :=
  mkShared w (set_thread (ts_threads s) t (mkThread qs pl)) (ts_notes s ++ ns).

Section Session.
Variables (h : heap) (p : peer) (handle : Z).

(** src/SessionInfo.cpp:53-68 *)
Definition conclude (header data : bytes) : outcome encaps :=
  r <- finished (encaps_expand h encaps0 (header ++ data)) ;; check_reply handle r.

(** src/SessionInfo.cpp:50-51: the header is there. Receive(0) makes no call. *)
Definition header_there (header : bytes) : place + outcome encaps :=
  match length_from_header h header with
  | Ok len => if Nat.eqb (Z.to_nat len) 0 then inr (conclude header []) else inl (InData header (Z.to_nat len) [])
  | Throw e => inr (Throw e)
  | Undef u => inr (Undef u)
  | Abort => inr Abort
  end.

(** A note about the first bytes, if these are. *)
Definition first_bytes (t : nat) (got : bytes) (x : turn) : list note :=
  match got, x with
  | [], Again (_ :: _) => [Began t]
  | [], Full _ => [Began t]
  | _, _ => []
  end.

(** The next step of thread [t]. A thread whose recv() has to wait stays where
    it is. *)
Definition go (t : nat) (s : shared) : shared :=
  let th := ts_threads s t in
  let w := ts_net s in
  match th_place th with
  | Outside =>
    match th_calls th with
    | [] => s
    | q :: qs =>
      match net_send p (encaps_pack q) w with
      | (Ok _, w') => at_place s t w' qs (InHeader []) [Handed t q]
      | (Throw e, w') => at_place s t w' qs Outside [Handed t q; Returned t (Throw e)]
      | (Undef u, w') => at_place s t w' qs Outside [Handed t q; Returned t (Undef u)]
      | (Abort, w') => at_place s t w' qs Outside [Handed t q; Returned t Abort]
      end
    end
  | InHeader got =>
    let '(x, segs) := receive_turn HEADER_SIZE got (n_in w) in
    let w' := mkNet (n_sent w) segs (n_results w) in
    match x with
    | Again got' => at_place s t w' (th_calls th) (InHeader got') (first_bytes t got x)
    | Full header =>
      match header_there header with
      | inl pl => at_place s t w' (th_calls th) pl (first_bytes t got x)
      | inr o => at_place s t w' (th_calls th) Outside (first_bytes t got x ++ [Returned t o])
      end
    | Stops e => at_place s t w' (th_calls th) Outside [Returned t (Throw e)]
    end
  | InData header n got =>
    let '(x, segs) := receive_turn n got (n_in w) in
    let w' := mkNet (n_sent w) segs (n_results w) in
    match x with
    | Again got' => at_place s t w' (th_calls th) (InData header n got') []
    | Full data => at_place s t w' (th_calls th) Outside [Returned t (conclude header data)]
    | Stops e => at_place s t w' (th_calls th) Outside [Returned t (Throw e)]
    end
  end.

(** The recv() in which thread [t] waits runs into its timeout. *)
Definition late (t : nat) (s : shared) : shared :=
  match th_place (ts_threads s t), n_in (ts_net s) with
  | Outside, _ => s
  | _, [] => at_place s t (ts_net s) (th_calls (ts_threads s t)) Outside [Returned t (Throw (SystemError EAGAIN))]
  | _, _ => s
  end.

(** What the scheduler and the clock do. *)
Inductive event := Go (t : nat) | Late (t : nat).
Definition step (s : shared) (e : event) : shared := match e with Go t => go t s | Late t => late t s end.
Definition run_threads (s : shared) (es : list event) : shared := fold_left step es s.
End Session.

(** Threads with these calls to make, on a session with this connection. *)
Definition threads_start (calls : nat -> list encaps) (w : net) : shared :=
  mkShared w (fun t => mkThread (calls t) Outside) [].
