(** Model of sessions that are copied. SessionInfo (src/SessionInfo.h) and TCPSocket
    (src/sockets/TCPSocket.h, BaseSocket.h) declare a destructor and leave copying
    to the compiler: the members are copied one by one, the number of the descriptor
    (BaseSocket.h:51) and the handle (SessionInfo.h:71) among them. Descriptors are
    therefore looked up here in a table, as the system does. *)
From Verif Require Import Base MBuffer MEip MSocket MConn MFd MRes.

(** What a number stands for: a TCP socket that is not connected (left behind when
    fcntl() fails, src/sockets/TCPSocket.cpp:48, 53), a TCP connection. *)
Inductive file := Unconnected | Link (g : nat).
(** src/SessionInfo.h:70-71. [ob_link]: the connection that was made for it, or for
    the object it was copied from; a note, not part of the program. *)
Record obj := mkObj { ob_handle : Z; ob_fd : Z; ob_link : nat }.
(** Connections have the number of the object they were made for. *)
Record cworld := mkCw {
  cw_next : nat; cw_obj : nat -> option obj; cw_tab : Z -> option file; cw_link : nat -> peer * net; cw_over : bool }.
Definition silent : peer := fun _ _ => [].
Definition cstart : cworld := mkCw 0 (fun _ => None) (fun _ => None) (fun _ => (silent, mkNet [] [] [])) false.

Definition set_tab (t : Z -> option file) (fd : Z) (x : option file) : Z -> option file :=
  fun n => if n =? fd then x else t n.

(** send() and recv() on a number that stands for no connection fail. *)
Definition EBADF := 9. Definition EPIPE := 32. Definition ENOTCONN := 107.
Definition bad_net (e_send e_recv : Z) : net := mkNet [] [Err e_recv] [mkSend (-1) e_send].
(** What the code does with the descriptor [fd]. *)
Definition on_fd {A} (fd : Z) (act : peer -> st net A) (s : cworld) : outcome A * cworld :=
  match cw_tab s fd with
  | Some (Link g) =>
    let '(o, w') := act (fst (cw_link s g)) (snd (cw_link s g)) in
    (o, mkCw (cw_next s) (cw_obj s) (cw_tab s) (update (cw_link s) g (fst (cw_link s g), w')) (ends o))
  | Some Unconnected => let o := fst (act silent (bad_net EPIPE ENOTCONN)) in
    (o, mkCw (cw_next s) (cw_obj s) (cw_tab s) (cw_link s) (ends o))
  | None => let o := fst (act silent (bad_net EBADF EBADF)) in
    (o, mkCw (cw_next s) (cw_obj s) (cw_tab s) (cw_link s) (ends o))
  end.

(** src/SessionInfo.cpp:47-69 *)
Definition copy_send (h : heap) (x : obj) (q : encaps) (s : cworld) : outcome encaps * cworld :=
  on_fd (ob_fd x) (fun p => send_and_receive h p (ob_handle x) q) s.
(** src/SessionInfo.cpp:41-45, src/sockets/TCPSocket.cpp:121-125: whatever the
    number stands for is closed. *)
Definition copy_destroy (i : nat) (x : obj) (s : cworld) : outcome unit * cworld :=
  let '(o, s) := on_fd (ob_fd x) (fun p => session_destroy p (ob_handle x)) s in
  (o, mkCw (cw_next s) (update (cw_obj s) i None)
        (match o with Ok _ => set_tab (cw_tab s) (ob_fd x) None | _ => cw_tab s end) (cw_link s) (cw_over s)).

(** What stays of the descriptor of a constructor that throws
    (src/sockets/TCPSocket.cpp:34-57): nothing, or the socket before it is
    connected. *)
Definition left_behind (k : calls) : option file :=
  match k_getfl1 k, k_setfl1 k with None, None => None | _, _ => Some Unconnected end.
(** src/SessionInfo.cpp:20-35. [fd]: what socket() returns if it does not fail; it
    never returns a number that stands for something. *)
Definition copy_open (h : heap) (fd : Z) (k : calls) (p : peer) (w : net) (s : cworld) : cworld :=
  let i := cw_next s in
  let '(o, w', _) := session_open_fd h fd k p w in
  match k_socket k, cw_tab s fd with
  | Some _, _ => mkCw (Datatypes.S i) (cw_obj s) (cw_tab s) (cw_link s) (ends o)
  | None, Some _ => s
  | None, None =>
    match o with
    | Ok handle => mkCw (Datatypes.S i) (update (cw_obj s) i (Some (mkObj handle fd i)))
                     (set_tab (cw_tab s) fd (Some (Link i))) (update (cw_link s) i (p, w')) (ends o)
    | _ => mkCw (Datatypes.S i) (cw_obj s) (set_tab (cw_tab s) fd (left_behind k)) (update (cw_link s) i (p, w')) (ends o)
    end
  end.

(** What a program does with session objects: construct, copy, assign (the members
    of [j] to [i]; nothing happens to the session [i] had), use, destroy. Calls on
    objects that do not exist are not made. *)
Inductive ccall :=
| KOpen (fd : Z) (k : calls) (p : peer) (w : net)
| KCopy (i : nat)
| KAssign (i j : nat)
| KSend (i : nat) (q : encaps)
| KDestroy (i : nat).
Definition cstep (h : heap) (c : ccall) (s : cworld) : cworld :=
  match c with
  | KOpen fd k p w => copy_open h fd k p w s
  | KCopy j =>
    match cw_obj s j with
    | Some x => mkCw (Datatypes.S (cw_next s)) (update (cw_obj s) (cw_next s) (Some x)) (cw_tab s) (cw_link s) (cw_over s)
    | None => s
    end
  | KAssign i j =>
    match cw_obj s i, cw_obj s j with
    | Some _, Some x => mkCw (cw_next s) (update (cw_obj s) i (Some x)) (cw_tab s) (cw_link s) (cw_over s)
    | _, _ => s
    end
  | KSend i q => match cw_obj s i with Some x => snd (copy_send h x q s) | None => s end
  | KDestroy i => match cw_obj s i with Some x => snd (copy_destroy i x s) | None => s end
  end.
Fixpoint crun (h : heap) (cs : list ccall) (s : cworld) : cworld :=
  match cs with
  | [] => s
  | c :: r => if cw_over s then s else crun h r (cstep h c s)
  end.
