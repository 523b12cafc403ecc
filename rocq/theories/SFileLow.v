(** Specification of file uploads when there is not enough memory. *)
From Verif Require Import Base MBuffer MEip SEip SObj MFile SFile MMem MLow SLow MFileLow.

(** Requests over a session of the main model, now with memory that can run out (see SLow.runs_as). *)
Definition asks_as {S} (h : heap) (use8 : bool) (si : session_if S) (req : Z -> epath -> bytes -> low S response) : Prop :=
  forall service path data fs s,
  (forall o fs' s', req service path data (fs, s) = (Done o, (fs', s')) -> o <> Abort ->
     send_request h si use8 service path data [] s = (o, s'))
  /\ (enough fs -> exists fs', enough fs' /\ req service path data (fs, s)
      = (Done (fst (send_request h si use8 service path data [] s)), (fs', snd (send_request h si use8 service path data [] s)))).

(** An adapter that sends a packet as often as it is asked for: what comes as the answer to the request for packet [n] of
    file [F] is packet [n]. Requests may also end without an answer. *)
Definition resends {S} (id : Z) (F : bytes) (T : nat) (crc : bytes) (req : Z -> epath -> bytes -> low S response) : Prop :=
  forall n fs s r x, 0 <= n < 256 -> req 79 (epath2 55 id) [n] (fs, s) = (Done (Ok r), x) ->
  r_status r = 0 /\ r_data r = file_packet F T crc (Z.to_nat n).
