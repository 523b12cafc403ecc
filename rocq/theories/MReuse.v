(** Model of objects of the wire formats from their construction on: default
    constructors and parsing into an object that was used before. *)
From Verif Require Import Base MBuffer MEip MYaskawa MConnReq.
Local Open Scope outcome_scope.

(** src/cip/connectionManager/ConnectionParameters.h:14-32: the default member
    initialisers *)
Definition cparams0 : cparams := mkCParams 0 0 0 0 0 0 0 0 0 0 0 0 0 0 0 0 [].
(** src/cip/CipRevision.cpp:9-12 *)
Definition revision0 : revision := mkRev 0 0.

(** src/cip/EPath.cpp:127-186 on an object that holds [p] *)
Definition epath_expand_on (h : heap) (p : epath) (data : bytes) : epath * outcome unit :=
  let p := set_class p 0 in
  let p := set_object p 0 in
  let p := set_attr p 0 in
  let p := set_psize p 0 in
  match epath_loop h (List.length data) (buf_of data) p with
  | (p, Ok b) =>
    if negb (buf_valid b) then (p, Throw (RuntimeError RtEPathFormat))
    else (epath_derive_size p, Ok tt)
  | (p, Throw e) => (p, Throw e)
  | (p, Undef u) => (p, Undef u)
  | (p, Abort) => (p, Abort)
  end.

(** src/vendor/yaskawa/mp3300iec/Yaskawa_EPath.cpp:97-156 on an object that
    holds [p] *)
Definition ypath_expand_on (h : heap) (p : ypath) (data : bytes) : ypath * outcome unit :=
  let p := y_set_class p 0 in
  let p := y_set_object p 0 in
  let p := y_set_attr p 0 in
  let p := y_set_size p 0 in
  match ypath_loop h (List.length data) (buf_of data) p with
  | (p, Ok b) =>
    if negb (buf_valid b) then (p, Throw (RuntimeError RtEPathFormat))
    else (ypath_derive_size p, Ok tt)
  | (p, Throw e) => (p, Throw e)
  | (p, Undef u) => (p, Undef u)
  | (p, Abort) => (p, Abort)
  end.

(** src/eip/EncapsPacket.h:44-70: the calls that change an object; a call that
    throws leaves the object to the next one. *)
Inductive packet_op :=
| PkCommand (c : Z) | PkHandle (s : Z) | PkStatus (s : Z) | PkData (d : bytes) | PkExpand (d : bytes).
Definition packet_step (h : heap) (p : encaps) (o : packet_op) : encaps :=
  match o with
  | PkCommand c => e_set_command p c
  | PkHandle s => e_set_handle p s
  | PkStatus s => e_set_status p s
  | PkData d => e_set_data p d
  | PkExpand d => fst (encaps_expand h p d)
  end.

(** src/cip/MessageRouterResponse.h:17-34; src/cip/MessageRouterResponse.cpp:64-79:
    the calls that change an object *)
Inductive response_op :=
| RpStatus (s : Z) | RpData (d : bytes) | RpItems (l : list cpitem) | RpExpand (d : bytes).
Definition response_step (h : heap) (r : response) (o : response_op) : response :=
  match o with
  | RpStatus s => mkResp (r_service r) s (r_addl r) (r_data r) (r_items r)
  | RpData d => mkResp (r_service r) (r_status r) (r_addl r) d (r_items r)
  | RpItems l => mkResp (r_service r) (r_status r) (r_addl r) (r_data r) l
  | RpExpand d => fst (response_expand h r d)
  end.

(** src/eip/CommonPacket.cpp:19-22, 35-55: the calls that change an object;
    expand clears the items first *)
Inductive items_op := CpAdd (i : cpitem) | CpExpand (d : bytes).
Definition items_step (h : heap) (l : list cpitem) (o : items_op) : list cpitem :=
  match o with
  | CpAdd i => l ++ [i]
  | CpExpand d => fst (cp_expand h d)
  end.
