(** Specification of connections when there is not enough memory. *)
From Verif Require Import Base MBuffer MEip MSocket MConnReq MConn MMem MLow.

(** Enough memory: no allocation fails. *)
Definition enough (fs : list bool) : Prop := forall b, In b fs -> b = false.

(** What was agreed on with the target when the connection was opened, and the object. *)
Definition agreed (c : iocon) :=
  (io_oid c, io_o2tId c, io_t2oId c, io_o2tAPI c, io_t2oAPI c, io_o2tSize c, io_t2oSize c,
   (io_o2tFixed c, io_t2oFixed c, io_mult c, io_serial c, io_trigger c, io_o2tRTF c, io_t2oRTF c),
   (io_path c, io_vendor c, io_orig c, io_dest c)).
(** What a call that ends early leaves of the manager's connections: each is there, under
    the same key, as it was agreed on. *)
Definition all_there (m m' : mgr) : Prop :=
  map (fun e => (fst e, agreed (snd e))) (m_map m') = map (fun e => (fst e, agreed (snd e))) (m_map m).

(** Requests over a session of the main model, now with memory that can run out: a request that
    comes to an end ends as there, and with enough memory it does. *)
Definition runs_as {S} (h : heap) (use8 : bool) (si : session_if S) (req : Z -> bytes -> low S response) : Prop :=
  forall service data fs s,
  (forall o fs' s', req service data (fs, s) = (Done o, (fs', s')) -> o <> Abort ->
     send_request h si use8 service CM_PATH data [] s = (o, s'))
  /\ (enough fs -> exists fs', enough fs' /\ req service data (fs, s)
      = (Done (fst (send_request h si use8 service CM_PATH data [] s)), (fs', snd (send_request h si use8 service CM_PATH data [] s)))).
