(** Property theorems: error numbers and log output (C95). *)
From Verif Require Import Base MBuffer SBuffer MEip MSocket SSocket MIdent MDisc SDisc PDisc MLog SLog SText PText MErrno SErrno PErrno.
From Coq Require Import String.
Local Open Scope Z_scope.

(** A thread with the given log level, and an appender that leaves [e] in errno. *)
Definition at_log (l : level) : thread := mkThread 0 (mkLogger l Console [] "").
Definition leaves (e : Z) : noise := fun _ _ _ _ => e.

(** C95. Full statement: whatever the appender does to errno, every error is
    reported with the number of the call that failed. True of TCP sockets, but for
    short sends. Receiving and connecting are not influenced by the log at all: *)
Theorem C95_tcp_receive : forall ns fd from n t segs, decent_thread t -> 0 <= fd ->
  let '(o, (_, rest)) := tcp_receive_e ns fd from n (t, segs) in (o, rest) = tcp_receive n segs.
Proof.
  intros ns fd from n t segs D F. destruct (tcp_receive_like ns fd from n t segs D F) as (o & t' & rest & l & -> & E & _). now rewrite E.
Qed.
Print Assumptions C95_tcp_receive.
Theorem C95_tcp_connect : forall ns fd to k close t, decent_thread t ->
  fst (tcp_connect_e ns fd to k close t) = fst (tcp_connect k).
Proof. exact connect_like. Qed.
Print Assumptions C95_tcp_connect.
Example C95_tcp_example : decent_thread (at_log TRACE)
  /\ fst (tcp_receive_e (leaves 4) 7 (the_endpoint 2 10 0 0 1 44818) 3 (at_log TRACE, [Data [1; 2]; Err 4; Data [3; 4]])) = Ok [1; 2; 3]
  /\ fst (tcp_receive_e (leaves 4) 7 (the_endpoint 2 10 0 0 1 44818) 3 (at_log TRACE, [Data [1; 2]; Err 104])) = Throw (SystemError 104)
  /\ fst (tcp_connect_e (leaves 115) 7 (the_endpoint 2 10 0 0 1 44818) (mkCalls None 2 None None (Some 111) (1, 0) None 0 None None) None (at_log TRACE))
     = Throw (SystemError 111).
Proof. split; [exact I|]. split; [reflexivity|]. split; reflexivity. Qed.

(** The early end of a stream, which [Receive] hides from its caller (C20), is told
    by one warning with the right numbers; nothing else is. *)
Theorem C95_warning : forall ns fd from n t segs o t' rest, decent_thread t -> 0 <= fd -> shows t WARNING ->
  tcp_receive_e ns fd from n (t, segs) = (o, (t', rest)) ->
  exists l, written t t' l
    /\ (ended_early n segs /\ (exists m, at_level WARNING l = [m] /\ tcp_short from (List.length (stream segs)) n m)
        \/ ~ ended_early n segs /\ at_level WARNING l = []).
Proof.
  intros ns fd from n t segs o t' rest D F S0 E.
  destruct (tcp_receive_like ns fd from n t segs D F) as (o1 & t1 & r1 & l & E1 & _ & W & H & _). rewrite E in E1. injection E1 as <- <- <-.
  exists l. auto.
Qed.
Print Assumptions C95_warning.
(** The numbers of bytes in the messages of the level TRACE add up. *)
Theorem C95_bytes : forall ns fd from n t segs o t' rest, decent_thread t -> 0 <= fd -> shows t TRACE ->
  tcp_receive_e ns fd from n (t, segs) = (o, (t', rest)) ->
  exists l ks, written t t' l /\ Forall2 (tcp_got fd) ks (at_level TRACE l) /\ list_sum ks = Nat.min n (List.length (stream segs)).
Proof.
  intros ns fd from n t segs o t' rest D F S0 E.
  destruct (tcp_receive_like ns fd from n t segs D F) as (o1 & t1 & r1 & l & E1 & _ & W & _ & H). rewrite E in E1. injection E1 as <- <- <-.
  destruct (H S0) as (ks & G). exists l, ks. auto.
Qed.
Print Assumptions C95_bytes.
Example C95_warning_example :
  let '(o, (t', _)) := tcp_receive_e (leaves 4) 7 (the_endpoint 2 10 0 0 1 44818) 4 (at_log TRACE, [Data [1; 2]; Data [3]; Eof]) in
  shows (at_log TRACE) WARNING /\ ended_early 4 [Data [1; 2]; Data [3]; Eof] /\ o = Ok [1; 2; 3; 0]
  /\ map (fun x => (snd (fst x), snd x)) (lg_passed (t_log t'))
     = [(TRACE, "Received 2 bytes from TCP socket #7."); (TRACE, "Received 1 bytes from TCP socket #7.");
        (TRACE, "Received 0 bytes from TCP socket #7."); (WARNING, "Received from 10.0.0.1:44818 3 of 4")]%string.
Proof. cbn. split; [unfold shows; cbn; auto|]. split; [split; [cbn; lia|reflexivity]|]. split; reflexivity. Qed.

(** A send that is refused goes on as if nothing had happened (C21). One that
    accepts less is reported, but with what was in errno before. *)
Theorem C95_send : forall ns kind fd size r t, decent_thread t -> 0 <= fd -> 0 <= size < 2 ^ 63 ->
  match r with Took c => 0 <= c | Refused _ => True end ->
  exists e, blurred ns t TRACE (sends kind fd size) (t_errno t) e
    /\ fst (send_e ns kind fd size r t) = send_check size (result_of r e).
Proof. exact send_like. Qed.
Print Assumptions C95_send.
Example C95_send_example : decent_thread (at_log INFO)
  /\ fst (send_e (leaves 5) "TCP" 7 24 (Took 10) (at_log TRACE)) = Throw (SystemError 5)
  /\ fst (send_e (leaves 5) "TCP" 7 24 (Took 10) (set_errno 2 (at_log INFO))) = Throw (SystemError 2).
Proof. split; [exact I|]. split; reflexivity. Qed.
(** An error "Success". *)
Theorem C95_short_refuted : exists ns kind fd size count t, decent_thread t /\ 0 <= count < size
  /\ fst (send_e ns kind fd size (Took count) t) = Throw (SystemError 0).
Proof. exists (leaves 0), "TCP"%string, 7, 24, 10, (at_log INFO). split; [exact I|]. split; [lia|reflexivity]. Qed.
Print Assumptions C95_short_refuted.

(** UDP sockets: the number is read after a message of the level TRACE. *)
Theorem C95_udp_receive : forall ns fd size t ds, decent_thread t -> 0 <= fd ->
  match ds with
  | Dgram _ :: _ => fst (udp_receive_e ns fd size (t, ds)) = fst (udp_receive size ds)
  | DErr e :: _ => exists e', blurred ns t TRACE (udp_failed fd) e e' /\ fst (udp_receive_e ns fd size (t, ds)) = Throw (SystemError e')
  | [] => exists e', blurred ns t TRACE (udp_failed fd) 11 e' /\ fst (udp_receive_e ns fd size (t, ds)) = Throw (SystemError e')
  end.
Proof.
  intros ns fd size t ds D F. destruct (udp_like ns fd size t ds D F) as (o & t' & rest & E & _ & _ & H). rewrite E. cbn [fst].
  destruct ds as [|[l|e] r]; [exact H|now symmetry|exact H].
Qed.
Print Assumptions C95_udp_receive.
Example C95_udp_example : fst (udp_receive_e (leaves 28) 5 10 (at_log TRACE, [DErr 100])) = Throw (SystemError 28)
  /\ fst (udp_receive_e (leaves 28) 5 10 (at_log DEBUG, [DErr 100])) = Throw (SystemError 100)
  /\ fst (udp_receive_e (leaves 28) 5 2 (at_log TRACE, [Dgram [1; 2; 3]])) = Ok [1; 2].
Proof. repeat split. Qed.

(** The discovery behaves as in MDisc, with the first error as it is seen after
    that message, and with a short send reported by an old number. *)
Theorem C95_discovery : forall ns h fd k ds t broadcast, decent_thread t -> 0 <= fd ->
  match d_send k with Took c => 0 <= c | Refused _ => True end ->
  exists e ds', seen (blurred ns t TRACE (udp_failed fd)) ds ds'
    /\ (exists e0, (d_timeout k = Some e0 \/ d_timeout k = None
                    /\ blurred ns t DEBUG (fun m => exists s, numeral s fd /\ m = ("Opened UDP socket fd=" ++ s)%string) (t_errno t) e0)
         /\ blurred ns t TRACE (sends "UDP" fd 24) e0 e)
    /\ fst (discover_e ns h fd k ds t) = fst (discover h (mkDK (d_socket k) (d_broadcast k) (result_of (d_send k) e)) broadcast ds').
Proof. exact discover_like. Qed.
Print Assumptions C95_discovery.
(** So it is not influenced by the log if messages of the level TRACE are not
    written or the appender leaves errno alone, *)
Theorem C95_discovery_partial : forall ns h fd k ds t broadcast, decent_thread t -> 0 <= fd ->
  considerate ns \/ ~ shows t TRACE -> (forall c, d_send k = Took c -> c = 24) ->
  fst (discover_e ns h fd k ds t) = fst (discover h (mkDK (d_socket k) (d_broadcast k) (result_of (d_send k) 0)) broadcast ds).
Proof. exact discover_same. Qed.
Print Assumptions C95_discovery_partial.
Definition all_well : dcalls := mkDcalls None None None (Took 24) (Some 107) None.
Example C95_discovery_example : decent_thread (at_log DEBUG) /\ ~ shows (at_log DEBUG) TRACE
  /\ (forall c, d_send all_well = Took c -> c = 24)
  /\ fst (discover_e (leaves 28) strict 5 all_well [Dgram (zeros 26); DErr 11] (at_log DEBUG)) = Ok []
  /\ fst (discover_e (leaves 28) strict 5 all_well [DErr 100] (at_log DEBUG)) = Throw (SystemError 100).
Proof.
  split; [exact I|]. split; [unfold shows; cbn; intuition discriminate|]. split; [intros c E; now inversion E|].
  split; vm_compute; reflexivity.
Qed.
(** otherwise the timeout that ends every discovery is taken for an error, and the
    devices are lost, *)
Theorem C95_timeout_refuted : exists ns fd t l us, decent_thread t /\ us <> [] /\ fits l us
  /\ forall h : heap, fst (discover_e ns h fd all_well [Dgram l] t) = Throw (SystemError 28).
Proof.
  exists (leaves 28), 5, (at_log TRACE), (reply [plc]), [plc]. split; [exact I|]. split; [discriminate|]. split; [apply fits_reply; auto|].
  intros h. destruct (discover_like (leaves 28) h 5 all_well [Dgram (reply [plc])] (at_log TRACE) lan I ltac:(lia) ltac:(cbn; lia))
    as (e & ds' & S0 & _ & E). rewrite E. inversion S0 as [|l r r' S1|]; subst. inversion S1 as [e' B| |]; subst.
  destruct B as [[N _]|(_ & g & m & _ & _ & _ & ->)]; [destruct N; unfold shows; cbn; auto 10|].
  apply (discover_error h _ lan [reply [plc]] [[plc]] 28 []); [repeat split| |discriminate].
  apply fits_all. constructor; [apply fits_reply; auto|constructor].
Qed.
Print Assumptions C95_timeout_refuted.
(** and an error can pass for the timeout. *)
Theorem C95_hidden_refuted : exists ns fd t, decent_thread t
  /\ forall h : heap, fst (discover_e ns h fd all_well [DErr 100] t) = Ok [].
Proof. exists (leaves 11), 5, (at_log TRACE). split; [exact I|]. intros h. reflexivity. Qed.
Print Assumptions C95_hidden_refuted.

(** At the level DEBUG the log tells of the one socket of a discovery, opened and
    closed, however the discovery ends (unless the program ends). *)
Theorem C95_opened_closed : forall ns h fd k ds t o t', decent_thread t -> 0 <= fd -> shows t DEBUG ->
  discover_e ns h fd k ds t = (o, t') ->
  exists l, written t t' l
    /\ match d_socket k with
       | Some _ => l = []
       | None => exists s, numeral s fd /\ (exists more, at_level DEBUG l = ("Opened UDP socket fd=" ++ s)%string :: more
                   /\ match o with Ok _ | Throw _ => more = ["Close UDP socket fd=" ++ s]%string | _ => more = [] end)
       end.
Proof. exact discover_log. Qed.
Print Assumptions C95_opened_closed.
Example C95_opened_closed_example : shows (at_log TRACE) DEBUG
  /\ map (fun x => (snd (fst x), snd x)) (lg_passed (t_log (snd (discover_e (leaves 0) strict 5 all_well [DErr 100] (at_log TRACE)))))
     = [(DEBUG, "Opened UDP socket fd=5"); (TRACE, "Send 24 bytes from UDP socket #5."); (TRACE, "Received -1 bytes from UDP socket #5.");
        (DEBUG, "Close UDP socket fd=5")]%string.
Proof. split; [unfold shows; cbn; auto 10|]. vm_compute. reflexivity. Qed.
