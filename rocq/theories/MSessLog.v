(** Model: the messages of sessions. What else the calls do is in MRes; the
    messages of the sockets (levels DEBUG and TRACE) are in MErrno. *)
From Verif Require Import Base MBuffer MEip MSocket MLog MMsg MRes.

(** src/SessionInfo.cpp:34: the last statement of the constructor *)
Definition registered_message (handle : Z) : message := (INFO, "Registered session " ++ to_string handle)%string.
(** src/SessionInfo.cpp:44: the last statement of the destructor, behind Send *)
Definition unregistered_message (handle : Z) : message := (INFO, "Unregistered session " ++ to_string handle)%string.

(** What one call of MRes logs: construction (src/SessionInfo.cpp:20-35) and
    destruction (41-45) of a session; sendAndReceive (47-69) and the discovery
    (src/DiscoveryManager.cpp:37-99, at levels DEBUG and TRACE in MErrno) log
    nothing at level INFO. *)
Definition session_log (h : heap) (c : rcall) (s : rworld) : list message :=
  match c with
  | ROpen fd k p w =>
    match session_open_fd h fd k p w with
    | (Ok handle, _, _) => [registered_message handle]
    | _ => []
    end
  | RClose i =>
    match rw_live s i with
    | None => []
    | Some v =>
      match session_close_fd (lv_peer v) (lv_handle v) (lv_fd v) (lv_net v) with
      | (Ok _, _) => [unregistered_message (lv_handle v)]
      | _ => []
      end
    end
  | RSend _ _ | RDiscover _ _ _ _ _ => []
  end.
(** A program and its log. *)
Fixpoint rrun_logged (h : heap) (cs : list rcall) (sl : rworld * list message) : rworld * list message :=
  match cs with
  | [] => sl
  | c :: r =>
    let '(s, l) := sl in
    if rw_over s then (s, l) else rrun_logged h r (rstep h c s, l ++ session_log h c s)
  end.
