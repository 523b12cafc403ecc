(** Specification: a target of connections (CIP volume 1, Connection Manager
    object), and what it means that it and the originator agree. The target sees
    only the bytes of the requests. *)
From Verif Require Import Base MBuffer SBuffer MEip SEip MSocket MConnReq SConnReq MConn SObj.

(** A connection as the target keeps it: the three numbers that name it (serial
    number, vendor id and serial number of the originator), its network ids, and
    its path. *)
Record tconn := mkTConn { tc_serial : Z; tc_vendor : Z; tc_orig : Z; tc_o2t : Z; tc_t2o : Z; tc_path : bytes }.
Definition tc_name (t : tconn) : Z * Z * Z := (tc_serial t, tc_vendor t, tc_orig t).
Definition name_eqb (a b : Z * Z * Z) : bool :=
  match a, b with (x, y, z), (x', y', z') => (x =? x') && (y =? y') && (z =? z') end.
Definition named_by (n : Z * Z * Z) (T : list tconn) : bool := existsb (fun t => name_eqb (tc_name t) n) T.

(** What a target decides about an open, given the connections it has: to refuse
    it, or ids (where they are its choice), intervals and an application reply. *)
Record grant := mkGrant { gr_o2t : Z; gr_t2o : Z; gr_o2tApi : Z; gr_t2oApi : Z; gr_reply : bytes }.
Definition policy := list tconn -> cparams -> option grant.
Definition grant_wf (g : grant) : Prop :=
  is_u32 (gr_o2t g) /\ is_u32 (gr_t2o g) /\ is_u32 (gr_o2tApi g) /\ is_u32 (gr_t2oApi g)
  /\ is_bytes (gr_reply g) /\ zlen (gr_reply g) mod 2 = 0 /\ zlen (gr_reply g) <= 510.
Definition policy_wf (pol : policy) : Prop := forall T c g, pol T c = Some g -> grant_wf g.

(** A Forward Close request: serial number, vendor, originator, path. *)
Definition parse_fc (l : bytes) : option (Z * Z * Z * bytes) :=
  match take_int 2 l with None => None | Some (_, l) =>
  match take_int 2 l with None => None | Some (serial, l) =>
  match take_int 2 l with None => None | Some (vendor, l) =>
  match take_int 4 l with None => None | Some (orig, l) =>
  match take_int 1 l with None => None | Some (words, l) =>
  match take_int 1 l with None => None | Some (_, path) =>
    if 2 * words =? zlen path then Some (serial, vendor, orig, path) else None
  end end end end end end.

Definition to_cm (q : request) : bool :=
  match q_path q with [(KClass, c); (KInst, i)] => (c =? 6) && (i =? 1) | _ => false end.

(** The connection a grant creates: point-to-point T->O ids and multicast O->T
    ids are the originator's choice. *)
Definition granted (large : bool) (c : cparams) (g : grant) : tconn :=
  mkTConn (c_serial c) (c_vendor c) (c_origSerial c)
    (if part large FType (c_o2tParams c) =? 1 then c_o2tId c else gr_o2t g)
    (if part large FType (c_t2oParams c) =? 2 then c_t2oId c else gr_t2o g) (c_path c).
Definition granted_reply (t : tconn) (g : grant) : bytes :=
  fo_reply_bytes (mkFoResp (tc_o2t t) (tc_t2o t) (tc_serial t) (tc_vendor t) (tc_orig t) (gr_o2tApi g) (gr_t2oApi g)
                    (zlen (gr_reply g) / 2) (gr_reply g)) 0 [].

(** A strict target. It refuses: what is not addressed to its Connection Manager,
    what it cannot read, paths that are not as long as announced, a second
    connection with the name of one that is open, closing what is not open or
    was opened with another path. *)
Definition refusal (addl : Z) : answer := mkAns 1 [addl] [].
Definition target (pol : policy) : device (list tconn) := fun T q =>
  if negb (to_cm q) then (failed 5, T)
  else if (q_service q =? 84) || (q_service q =? 91) then
    let large := q_service q =? 91 in
    match parse_fo (if large then 4 else 2) (q_data q) with
    | None => (failed 19, T)
    | Some c =>
      if negb (2 * c_pathSize c =? zlen (c_path c)) then (refusal 789, T)
      else if named_by (c_serial c, c_vendor c, c_origSerial c) T then (refusal 256, T)
      else match pol T c with
           | None => (refusal 262, T)
           | Some g => let t := granted large c g in (done (granted_reply t g), T ++ [t])
           end
    end
  else if q_service q =? 78 then
    match parse_fc (q_data q) with
    | None => (failed 19, T)
    | Some (serial, vendor, orig, path) =>
      if existsb (fun t => name_eqb (tc_name t) (serial, vendor, orig) && bytes_eqb (tc_path t) path) T
      then (done (le 2 serial ++ le 2 vendor ++ le 4 orig ++ [0; 0]),
            filter (fun t => negb (name_eqb (tc_name t) (serial, vendor, orig))) T)
      else (refusal 263, T)
    end
  else (failed 8, T).

(** ** Agreement *)

(** A connection object and a connection of the target are the same connection. *)
Definition same_connection (c : iocon) (t : tconn) : Prop :=
  tc_name t = (io_serial c, io_vendor c, io_orig c) /\ tc_o2t t = io_o2tId c /\ tc_t2o t = io_t2oId c /\ tc_path t = io_path c.

(** Programs whose calls go to a target: the managers differ, the sessions
    (handles, segment widths, decisions of the target) differ from call to call,
    the connections of the target are one set. *)
Definition to_target (op : call (list tconn * trace)) : Prop :=
  match op with
  | COpen _ si _ _ _ c => cparams_wf c /\ zlen (c_path c) <= 50000 /\ exists handle pol, is_u32 handle /\ policy_wf pol /\ si = served handle (target pol)
  | CClose _ si _ => exists handle pol, is_u32 handle /\ policy_wf pol /\ si = served handle (target pol)
  | _ => True
  end.
Definition target_start (inc : nat -> Z) : world (list tconn * trace) := mkWorld globals0 (fun i => mgr0 (inc i)) ([], []).
Definition at_target (w : world (list tconn * trace)) : list tconn := fst (w_s w).
(** A connection of the target that no manager has. *)
Definition orphan (w : world (list tconn * trace)) (t : tconn) : Prop :=
  In t (at_target w) /\ forall i oid c, lock oid (w_m w i) = Some c -> ~ same_connection c t.
(** The call leaves both sides with the same change: an open that the target accepted put a connection into the manager,
    and the receiving of packets lost none. *)
Definition clean_call (i : nat) (op : call (list tconn * trace)) (o : outcome (option nat)) (w w' : world (list tconn * trace)) : Prop :=
  match op with
  | COpen _ _ _ _ _ _ => at_target w' = at_target w \/ exists oid, o = Ok (Some oid) /\ lock oid (w_m w' i) <> None
  | CHandle _ _ _ => forall oid, lock oid (w_m w i) <> None -> lock oid (w_m w' i) <> None
  | _ => True
  end.
Fixpoint clean_run (h : heap) (ops : list (nat * call (list tconn * trace))) (w : world (list tconn * trace)) : Prop :=
  match ops with
  | [] => True
  | (i, op) :: ops => let (o, w') := call_world h i op w in clean_call i op o w w' /\ clean_run h ops w'
  end.
