(** Specification: listeners that call handleConnections. *)
From Verif Require Import Base MBuffer MEip MSocket MConnReq MConn SConn SLife MReent SReent MDeep.

(** No call of handleConnections; no forwardClose of connection [oid]. *)
Definition plain {S} (calls : list (ncall S)) : Prop := forall rounds ending env, ~ In (NHandle rounds ending env) calls.
Definition leaves {S} (oid : nat) (calls : list (ncall S)) : Prop := forall use8 si, ~ In (NPlain (LClose use8 si oid)) calls.
(** Only receive listeners call handleConnections. *)
Definition calm {S} (L : dlisteners S) : Prop := forall w oid d, plain (dl_close L w oid) /\ plain (dl_send L w oid d).
(** No close or send listener closes its own connection; no listener closes [oid]. *)
Definition dpolite {S} (L : dlisteners S) : Prop :=
  forall w oid d, leaves oid (dl_close L w oid) /\ leaves oid (dl_send L w oid d).
Definition dspares {S} (L : dlisteners S) (oid : nat) : Prop :=
  forall w p hdr seq d, leaves oid (dl_data L w p hdr seq d) /\ leaves oid (dl_close L w p) /\ leaves oid (dl_send L w p d).
(** What the network delivers to inner calls consists of bytes. *)
Definition octets {S} (L : dlisteners S) : Prop :=
  forall w p hdr seq d rounds ending env, In (NHandle rounds ending env) (dl_data L w p hdr seq d) ->
  byte_grams (CHandle (S := S) rounds ending env).
(** Listeners without calls of handleConnections, as those of C77. *)
Definition shallow {S} (L : listeners S) : dlisteners S :=
  mkDl (fun w oid hdr seq d => map NPlain (l_data L w oid hdr seq d)) (fun w oid => map NPlain (l_close L w oid))
       (fun w oid d => map NPlain (l_send L w oid d)).

(** What happens to connection [oid] during a call of handleConnections, from
    the connection before to the connection after ([None]: it is gone), with
    its events. [hears]: datagrams in order, each with the calls of the receive
    listener that it reaches, if any. [does]: calls of a listener of which only
    new output data and inner calls of handleConnections matter to it. [whole]:
    a call of handleConnections, in which it is ticked once, after the
    datagrams, if it is still there then. *)
Inductive hears {S} (L : dlisteners S) (oid : nat) : list dgram -> option iocon -> list event -> option iocon -> Prop :=
| hr_none x : hears L oid [] x [] x
| hr_gone ds : hears L oid ds None [] None
| hr_mine l r c d c1 w hdr seq data ev1 x1 ev2 x2 : brings l (io_t2oId c) d ->
    io_receive strict c d = Ok (c1, [EvData oid hdr seq data]) ->
    does L oid (dl_data L w oid hdr seq data) (Some c1) ev1 x1 -> hears L oid r x1 ev2 x2 ->
    hears L oid (Dgram l :: r) (Some c) (EvData oid hdr seq data :: ev1 ++ ev2) x2
| hr_misfit l r c d c1 ev x : brings l (io_t2oId c) d -> io_receive strict c d = Ok (c1, []) ->
    hears L oid r (Some c1) ev x -> hears L oid (Dgram l :: r) (Some c) ev x
| hr_other l r c w p hdr seq data ev1 x1 ev2 x2 : (forall d, ~ brings l (io_t2oId c) d) -> p <> oid ->
    does L oid (dl_data L w p hdr seq data) (Some c) ev1 x1 -> hears L oid r x1 ev2 x2 ->
    hears L oid (Dgram l :: r) (Some c) (ev1 ++ ev2) x2
| hr_nobody l r c ev x : (forall d, ~ brings l (io_t2oId c) d) -> hears L oid r (Some c) ev x ->
    hears L oid (Dgram l :: r) (Some c) ev x
with does {S} (L : dlisteners S) (oid : nat) : list (ncall S) -> option iocon -> list event -> option iocon -> Prop :=
| ds_none x : does L oid [] x [] x
| ds_gone calls : does L oid calls None [] None
| ds_data d r c ev x : does L oid r (Some (io_set_output c d)) ev x -> does L oid (NPlain (LData oid d) :: r) (Some c) ev x
| ds_plain op r c ev x : (forall d, op <> LData oid d) -> does L oid r (Some c) ev x -> does L oid (NPlain op :: r) (Some c) ev x
| ds_inner n rounds ending env r c ev1 x1 ev2 x2 : whole L oid n rounds env (Some c) ev1 x1 -> does L oid r x1 ev2 x2 ->
    does L oid (NHandle rounds ending env :: r) (Some c) (ev1 ++ ev2) x2
with whole {S} (L : dlisteners S) (oid : nat) : nat -> list (sel_round dgram) -> tick_env -> option iocon -> list event -> option iocon -> Prop :=
| wh_gone n rounds env c ev : hears L oid (arriving n rounds) (Some c) ev None -> whole L oid n rounds env (Some c) ev None
| wh_tick n rounds env c ev c1 d1 d2 d3 b c2 ev2 : hears L oid (arriving n rounds) (Some c) ev (Some c1) ->
    io_tick (t_now env oid) (fun _ => d2) (t_send env oid) (io_set_output c1 d1) = (Ok b, c2, ev2) ->
    whole L oid n rounds env (Some c) (ev ++ ev2) (if b then Some (io_set_output c2 d3) else None).

(** How a call of handleConnections with room for [n] calls on the stack ends
    with [o] if not well: as one of the listeners' own calls ended; as the
    handling of a datagram; as a sendto(); as ::select(); because an inner call
    of a receive listener ended so; or because there is no room left. *)
Inductive fails {S} (h : heap) (L : dlisteners S) : nat -> list (sel_round dgram) -> sel_end -> tick_env -> outcome unit -> Prop :=
| fl_stack rounds ending env : fails h L O rounds ending env Abort
| fl_call n rounds ending env op v p hdr seq d w o w' :
    In (NPlain op) (dl_data L v p hdr seq d) \/ In (NPlain op) (dl_close L v p) \/ In (NPlain op) (dl_send L v p d) ->
    do_call h op w = (o, w') -> fails h L (Datatypes.S n) rounds ending env (omap (fun _ => tt) o)
| fl_gram n rounds ending env k d m : In d (arriving k rounds) -> fails h L (Datatypes.S n) rounds ending env (fst (on_readable h d m))
| fl_send n rounds ending env oid k : fails h L (Datatypes.S n) rounds ending env (send_check k (t_send env oid k))
| fl_select n rounds e env : fails h L (Datatypes.S n) rounds (SelFail e) env (Throw (SystemError e))
| fl_inner n rounds ending env v p hdr seq d rounds' ending' env' o :
    In (NHandle rounds' ending' env') (dl_data L v p hdr seq d) -> fails h L n rounds' ending' env' o ->
    fails h L (Datatypes.S n) rounds ending env o.

(** Programs: any calls of any managers, and calls of handleConnections with any
    listeners that do any of these, however they end. *)
Inductive dop (S : Type) :=
| DPlain (c : call S)
| DListen (L : dlisteners S) (n : nat) (rounds : list (sel_round dgram)) (ending : sel_end) (env : tick_env).
Arguments DPlain {S} _.
Arguments DListen {S} _ _ _ _ _.
Definition dop_view {S} (h : heap) (op : dop S) (w : view S) : view S :=
  match op with
  | DPlain c => snd (call_mgr h c w)
  | DListen L n rounds ending env => snd (deep h L n rounds ending env w)
  end.
Fixpoint run_dops {S} (h : heap) (ops : list (nat * dop S)) (w : world S) : world S :=
  match ops with
  | [] => w
  | (i, op) :: r =>
    let '(g, m, s) := dop_view h op (w_g w, w_m w i, w_s w) in run_dops h r (mkWorld g (update (w_m w) i m) s)
  end.
(** The counters and a manager after any such program. *)
Definition dlistened (S : Type) (g : globals) (m : mgr) : Prop :=
  exists h ops (w : world S) i, new_world w /\ g = w_g (run_dops h ops w) /\ m = w_m (run_dops h ops w) i.
