(** Model: the messages that the calls of a connection manager log
    (src/ConnectionManager.cpp, src/IOConnection.cpp, src/MessageRouter.cpp:43).
    What the calls do otherwise is in MConn. Messages of the session and of the
    sockets are left out, and line 236 of src/ConnectionManager.cpp: the handler it
    is in is replaced before it can be called (line 239). What becomes of a message
    is in MLog. *)
From Verif Require Import Base MBuffer MEip MSocket MConnReq MLog MStatus MConn.
Local Open Scope outcome_scope.

Definition message : Type := level * string.

(** src/MessageRouter.cpp:43-44; the service code in hexadecimal, the path by
    src/cip/EPath.cpp:114-125 *)
Definition request_message (service : Z) (path : epath) : message :=
  (INFO, "Send request: service=0x" ++ to_hex service ++ " epath=" ++ epath_to_string path)%string.

(** src/IOConnection.cpp:68-92: line 84. Nothing is logged if the data cannot be
    taken apart. *)
Definition io_receive_log (h : heap) (c : iocon) (data : bytes) : list message :=
  let b := buf_of data in
  match ('(_, b) <- (if io_t2oRTF c then get_u32 h b else Ok (0, b)) ;;
         '(_, b) <- (if has_seq (io_trigger c) then get_u16 h b else Ok (0, b)) ;;
         Ok b) with
  | Ok b =>
    if negb (buf_valid b) then []
    else
      let ioData := skipn (bpos b) data in
      if io_t2oFixed c && negb (zlen ioData =? io_t2oSize c)
      then [(WARNING, "Connection T2O_ID=" ++ to_string (io_t2oId c) ++ " has fixed size " ++ to_string (io_t2oSize c)
                        ++ " bytes but " ++ to_string (zlen ioData) ++ " bytes were received. Ignore this data.")%string]
      else []
  | _ => []
  end.

(** src/IOConnection.cpp:94-142: lines 102 and 130 *)
Definition io_tick_log (now : Z) (hook : bytes -> bytes) (c : iocon) : list message :=
  let period := Z.quot (now - io_last c) 1000000 * 1000 in
  let tcount := u32 (io_tcount c + period) in
  if u32 (io_mult c * io_t2oAPI c) <? tcount
  then [(WARNING, "Connection SeriaNumber=" ++ to_string (io_serial c) ++ " is closed by timeout")%string]
  else if io_o2tAPI c <=? u32 (io_o2tTimer c + period) then
    let out := hook (io_out c) in
    if io_o2tFixed c && negb (zlen out =? io_o2tSize c)
    then [(WARNING, "Connection O2T_ID=" ++ to_string (io_o2tId c) ++ " has fixed size " ++ to_string (io_o2tSize c)
                      ++ " bytes but " ++ to_string (zlen out) ++ " bytes are to send. Don't send this data.")%string]
    else []
  else [].

(** src/ConnectionManager.cpp:106-165: lines 108, 151, 159, 164 *)
Definition fo_answer_log (h : heap) (env : fo_env) (host : string) (c : cparams) (resp : response) (m : mgr)
  : list message :=
  if negb (r_status resp =? 0) then [(ERROR, status_text resp)]
  else
    match fo_expand h (r_data resp) with
    | Ok r =>
      (INFO, "Open IO connection O2T_ID=" ++ to_string (f_o2tId r) ++ " T2O_ID=" ++ to_string (f_t2oId r)
               ++ " SerialNumber " ++ to_string (f_serial r))%string ::
      match (_ <- fo_multiplier (c_multiplier c) ;;
             dest <- fo_dest h (v_aton env) host (r_items resp) ;;
             _ <- checked (v_udp env) ;;
             Ok dest) with
      | Ok dest =>
        (INFO, "Open UDP socket to send data to " ++ ep_to_string dest)%string ::
        match find_or_create_socket (v_bind env) (ep_of_host (v_aton env) host EIP_DEFAULT_IMPLICIT_PORT) m with
        | (Ok _, m') =>
          match map_find (u16 (f_t2oId r)) (m_map m') with
          | Some _ => [(ERROR, "Connection with T2O_ID=" ++ to_string (f_t2oId r) ++ " already exists.")%string]
          | None => []
          end
        | _ => []
        end
      | _ => []
      end
    | _ => []
    end.

(** src/ConnectionManager.cpp:52-168 *)
Definition forward_open_log {S} (h : heap) (use8 : bool) (si : session_if S) (host : string) (env : fo_env)
    (large : bool) (c : cparams) (w : globals * mgr * S) : list message :=
  let '(g, m, s) := w in
  match fo_prepare large (m_inc m) c g with
  | Ok (c', _) =>
    match fo_request large c' with
    | Ok data =>
      request_message (fo_service large) CM_PATH ::
      match fst (send_request h si use8 (fo_service large) CM_PATH data [] s) with
      | Ok resp => fo_answer_log h env host c resp m
      | _ => []
      end
    | _ => []
    end
  | _ => []
  end.

(** src/ConnectionManager.cpp:175-205: lines 184, 192, 203. The general status is
    written as a character (see MStatus). *)
Definition forward_close_log {S} (h : heap) (use8 : bool) (si : session_if S) (ptr : option iocon) (s : S)
  : list message :=
  match ptr with
  | None => [(WARNING, "Attempt to close an already closed connection"%string)]
  | Some c =>
    (INFO, "Close connection connection T2O_ID=" ++ to_string (io_t2oId c))%string ::
    request_message 78 CM_PATH ::
    match fst (send_request h si use8 78 CM_PATH
                 (fc_pack (u16 (io_serial c)) (io_vendor c) (io_orig c) (io_path c)) [] s) with
    | Ok resp =>
      if negb (r_status resp =? 0)
      then [(WARNING, "Failed to close the connection in target with error=0x"
                        ++ String (ascii_of_nat (Z.to_nat (r_status resp)))
                             ". But the connection is removed from ConnectionManager anyway")%string]
      else []
    | _ => []
    end
  end.

(** src/ConnectionManager.cpp:239-256: lines 248 and 254 *)
Definition readable_log (h : heap) (d : dgram) (m : mgr) : list message :=
  match (data <- fst (udp_receive (Z.to_nat 8192) [d]) ;;
         items <- finished (cp_expand h data) ;;
         match nth_error items 0 with
         | None => Throw OutOfRange
         | Some i0 => '(id, _) <- get_u32 h (buf_of (it_data i0)) ;; Ok (items, id)
         end) with
  | Ok (items, id) =>
    (DEBUG, "Received data from connection T2O_ID=" ++ to_string id)%string ::
    match map_find (u16 id) (m_map m) with
    | None => [(ERROR, "Received data from unknown connection T2O_ID=" ++ to_string id)%string]
    | Some c => match nth_error items 1 with Some i1 => io_receive_log h c (it_data i1) | None => [] end
    end
  | _ => []
  end.

(** The receive handler together with what it logs. *)
Definition on_readable_logged (h : heap) (d : dgram) : st (mgr * list message) unit :=
  fun '(m, l) => let '(o, m') := on_readable h d m in (o, (m', l ++ readable_log h d m)).

(** src/ConnectionManager.cpp:218-222 *)
Fixpoint ticks_log (env : tick_env) (l : list (Z * iocon)) : list message :=
  match l with
  | [] => []
  | (_, c) :: r =>
    let o := io_oid c in
    io_tick_log (t_now env o) (t_hook env o) c ++
    match fst (fst (io_tick (t_now env o) (t_hook env o) (t_send env o) c)) with
    | Ok _ => ticks_log env r
    | _ => []
    end
  end.

(** src/ConnectionManager.cpp:207-227 *)
Definition handle_connections_logged (h : heap) (rounds : list (sel_round dgram)) (ending : sel_end) (env : tick_env)
  : st (mgr * list message) unit :=
  fun w =>
    st_bind (bs_select (fun _ => on_readable_logged h) (List.length (m_socks (fst w))) rounds ending)
      (fun _ => fun '(m, l) => let '(o, m') := run_ticks env m in (o, (m', l ++ ticks_log env (m_map m)))) w.

(** A call with the log. *)
Definition call_logged {S} (h : heap) (op : call S) : st (globals * mgr * S * list message) (option nat) :=
  fun '(w, l) =>
    let '(g, m, s) := w in
    match op with
    | COpen use8 si host env large c =>
      let '(o, w') := forward_open h use8 si host env large c w in
      (o, (w', l ++ forward_open_log h use8 si host env large c w))
    | CClose use8 si oid =>
      let '(o, (m', s')) := forward_close h use8 si (lock oid m) (m, s) in
      (omap (fun _ => None) o, (g, m', s', l ++ forward_close_log h use8 si (lock oid m) s))
    | CHandle rounds ending env =>
      let '(o, (m', l')) := handle_connections_logged h rounds ending env (m, l) in
      (omap (fun _ => None) o, (g, m', s, l'))
    | CData oid d => (Ok None, (g, set_output oid d m, s, l))
    end.

(** Several calls, one after the other. *)
Fixpoint calls_logged {S} (h : heap) (ops : list (call S)) (w : globals * mgr * S * list message)
  : list (outcome (option nat)) * (globals * mgr * S * list message) :=
  match ops with
  | [] => ([], w)
  | op :: r =>
    let '(o, w1) := call_logged h op w in
    let '(os, w2) := calls_logged h r w1 in
    (o :: os, w2)
  end.
