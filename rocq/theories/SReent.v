(** Specification: listeners that use the connection manager. *)
From Verif Require Import Base MBuffer MEip MSocket MConnReq MConn SConn MReent.

(** The calls include a forwardClose of connection [oid]. *)
Definition closes {S} (oid : nat) (calls : list (lcall S)) : Prop := exists use8 si, In (LClose use8 si oid) calls.
(** No close or send listener closes the connection it is called for. *)
Definition polite {S} (L : listeners S) : Prop :=
  forall w oid d, ~ closes oid (l_close L w oid) /\ ~ closes oid (l_send L w oid d).
(** No listener closes connection [oid]. *)
Definition spares {S} (L : listeners S) (oid : nat) : Prop :=
  forall w p hdr seq d, ~ closes oid (l_data L w p hdr seq d) /\ ~ closes oid (l_close L w p) /\ ~ closes oid (l_send L w p d).
(** Listeners that do nothing but choose the data to be sent. *)
Definition passive {S} (env : tick_env) : listeners S :=
  mkListeners (fun _ _ _ _ _ => []) (fun _ _ => []) (fun _ oid d => [LData oid (t_hook env oid d)]).
(** A listener ends with [o]. *)
Definition ends {S} (h : heap) (L : listeners S) (o : outcome unit) : Prop :=
  exists w oid w', react h (l_close L w oid) w = (o, w')
  \/ (exists d, react h (l_send L w oid d) w = (o, w')) \/ (exists hdr seq d, react h (l_data L w oid hdr seq d) w = (o, w')).
(** What happens to a connection apart from new output data. *)
Definition unset (ops : list io_op) : list io_op := filter (fun x => match x with SetOut _ => false | _ => true end) ops.

(** Programs with listeners: any calls of any managers, and calls of
    handleConnections with any listeners, however they end. *)
Inductive lop (S : Type) :=
| Plain (c : call S)
| Listen (L : listeners S) (rounds : list (sel_round dgram)) (ending : sel_end) (env : tick_env).
Arguments Plain {S} _.
Arguments Listen {S} _ _ _ _.
Definition lop_view {S} (h : heap) (op : lop S) (w : view S) : view S :=
  match op with
  | Plain c => snd (call_mgr h c w)
  | Listen L rounds ending env => snd (listen_connections h L rounds ending env w)
  end.
Fixpoint run_lops {S} (h : heap) (ops : list (nat * lop S)) (w : world S) : world S :=
  match ops with
  | [] => w
  | (i, op) :: r =>
    let '(g, m, s) := lop_view h op (w_g w, w_m w i, w_s w) in run_lops h r (mkWorld g (update (w_m w) i m) s)
  end.
(** The counters and a manager after any such program. *)
Definition listened (S : Type) (g : globals) (m : mgr) : Prop :=
  exists h ops (w : world S) i, new_world w /\ g = w_g (run_lops h ops w) /\ m = w_m (run_lops h ops w) i.

(** A call of handleConnections that ends with [o] has begun the tick of
    connection [oid], which was [c] before it: afterwards the connection is as
    after that tick (the output data may be set again) and the tick's events
    have happened; or none has, and it is the send listener that ended with
    [o]. *)
Definition begun {S} (h : heap) (L : listeners S) (env : tick_env) (oid : nat) (o : outcome unit) (c c' : iocon) (ev : list event) : Prop :=
  exists d2 d3 r c2 ev2, io_tick (t_now env oid) (fun _ => d2) (t_send env oid) c = (r, c2, ev2) /\ c' = io_set_output c2 d3
    /\ (ev = ev2 \/ ev = [] /\ exists w d w', react h (l_send L w oid d) w = (o, w')).
(** No listener of connection [oid] ever returns. *)
Definition never_returns {S} (h : heap) (L : listeners S) (oid : nat) : Prop :=
  forall w hdr seq d w', react h (l_data L w oid hdr seq d) w <> (Ok tt, w') /\ react h (l_close L w oid) w <> (Ok tt, w')
    /\ react h (l_send L w oid d) w <> (Ok tt, w').
