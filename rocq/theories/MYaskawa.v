(** Model of src/vendor/yaskawa/mp3300iec: the 8-bit path class and the message
    router built on it. *)
From Verif Require Import Base MBuffer MEip.
Local Open Scope outcome_scope.

(** src/vendor/yaskawa/mp3300iec/Yaskawa_EPath.h:31-36. *)
Record ypath := mkYPath { y_class : Z; y_object : Z; y_attr : Z; y_size : Z }.

(** src/vendor/yaskawa/mp3300iec/Yaskawa_EPath.cpp:18-46 *)
Definition ypath0 : ypath := mkYPath 0 0 0 0.
Definition ypath1 (c : Z) : ypath := mkYPath c 0 0 1.
Definition ypath2 (c o : Z) : ypath := mkYPath c o 0 2.
Definition ypath3 (c o a : Z) : ypath := mkYPath c o a 3.

(** src/vendor/yaskawa/mp3300iec/Yaskawa_EPath.cpp:48-65 *)
Definition ypath_pack (p : ypath) : bytes :=
  let b := put_u8 (put_u8 buf_new SEG_CLASS8) (y_class p) in
  let b := if y_size p >? 1 then
             let b := put_u8 (put_u8 b SEG_INST8) (y_object p) in
             if y_size p >? 2 then put_u8 (put_u8 b SEG_ATTR8) (y_attr p) else b
           else b in
  bdata b.

(** src/vendor/yaskawa/mp3300iec/Yaskawa_EPath.cpp:80-82 *)
Definition ypath_words (p : ypath) : Z := y_size p.

(** src/vendor/yaskawa/mp3300iec/Yaskawa_EPath.cpp:84-95 *)
Definition ypath_to_string (p : ypath) : string :=
  ("[classId=" ++ to_string (y_class p) ++
   (if y_size p >? 1 then
      " objectId=" ++ to_string (y_object p) ++
      (if y_size p >? 2 then " attributeId=" ++ to_string (y_attr p) else "")
    else "") ++ "]")%string.

(** Assignments of a 16-bit value to the 8-bit members truncate. *)
Definition y_set_class (p : ypath) (v : Z) := mkYPath (u8 v) (y_object p) (y_attr p) (y_size p).
Definition y_set_object (p : ypath) (v : Z) := mkYPath (y_class p) (u8 v) (y_attr p) (y_size p).
Definition y_set_attr (p : ypath) (v : Z) := mkYPath (y_class p) (y_object p) (u8 v) (y_size p).
Definition y_set_size (p : ypath) (v : Z) := mkYPath (y_class p) (y_object p) (y_attr p) v.

(** One iteration, src/vendor/yaskawa/mp3300iec/Yaskawa_EPath.cpp:106-138 *)
Definition ypath_segment (h : heap) (b : buffer) (p : ypath) : outcome (buffer * ypath) :=
  '(seg, b) <- get_u8 h b ;;
  if seg =? SEG_CLASS8 then '(v, b) <- get_u8 h b ;; Ok (b, y_set_class p v)
  else if seg =? SEG_CLASS16 then
    '(_, b) <- get_u8 h b ;; '(v, b) <- get_u16 h b ;; Ok (b, y_set_class p v)
  else if seg =? SEG_INST8 then '(v, b) <- get_u8 h b ;; Ok (b, y_set_object p v)
  else if seg =? SEG_INST16 then
    '(_, b) <- get_u8 h b ;; '(v, b) <- get_u16 h b ;; Ok (b, y_set_object p v)
  else if seg =? SEG_ATTR8 then '(v, b) <- get_u8 h b ;; Ok (b, y_set_attr p v)
  else if seg =? SEG_ATTR16 then
    '(_, b) <- get_u8 h b ;; '(v, b) <- get_u16 h b ;; Ok (b, y_set_attr p v)
  else Throw (RuntimeError RtEPathUnknownSegment).

(** src/vendor/yaskawa/mp3300iec/Yaskawa_EPath.cpp:105-139 *)
Fixpoint ypath_loop (h : heap) (n : nat) (b : buffer) (p : ypath) : ypath * outcome buffer :=
  match n with
  | O => (p, Ok b)
  | S n' =>
    if buf_empty b then (p, Ok b)
    else match ypath_segment h b p with
         | Ok (b', p') => ypath_loop h n' b' p'
         | Throw e => (p, Throw e)
         | Undef u => (p, Undef u)
         | Abort => (p, Abort)
         end
  end.

(** src/vendor/yaskawa/mp3300iec/Yaskawa_EPath.cpp:145-155 *)
Definition ypath_derive_size (p : ypath) : ypath :=
  if y_class p >? 0 then
    if y_object p >? 0 then
      if y_attr p >? 0 then y_set_size p 3 else y_set_size p 2
    else y_set_size p 1
  else p.

(** src/vendor/yaskawa/mp3300iec/Yaskawa_EPath.cpp:97-156 *)
Definition ypath_expand (h : heap) (data : bytes) : ypath * outcome unit :=
  match ypath_loop h (List.length data) (buf_of data) ypath0 with
  | (p, Ok b) =>
    if negb (buf_valid b) then (p, Throw (RuntimeError RtEPathFormat))
    else (ypath_derive_size p, Ok tt)
  | (p, Throw e) => (p, Throw e)
  | (p, Undef u) => (p, Undef u)
  | (p, Abort) => (p, Abort)
  end.

(** src/vendor/yaskawa/mp3300iec/Yaskawa_EPath.cpp:158-163 *)
Definition ypath_eqb (a b : ypath) : bool :=
  (y_size a =? y_size b) && (y_class a =? y_class b)
  && (y_object a =? y_object b) && (y_attr a =? y_attr b).

(** src/vendor/yaskawa/mp3300iec/Yaskawa_MessageRouterRequest.cpp:18-26 *)
Definition yrequest_pack (service : Z) (path : ypath) (data : bytes) : bytes :=
  bdata (put_bytes (put_bytes (put_u8 (put_u8 buf_new service) (ypath_words path))
                              (ypath_pack path)) data).

(** src/vendor/yaskawa/mp3300iec/Yaskawa_MessageRouter.cpp:41-53 *)
Definition yrequest_packet (handle service : Z) (path : ypath) (data : bytes)
    (extra : list cpitem) : encaps :=
  rr_data_packet handle 0
    (cp_pack ([item_null; item_unconnected (yrequest_pack service path data)] ++ extra)).

(** src/vendor/yaskawa/mp3300iec/Yaskawa_MessageRouter.cpp:32-76; the reply is
    handled by the same statements as in src/MessageRouter.cpp:62-80. *)
Definition ysend_request {S} (h : heap) (si : session_if S) (service : Z)
    (path : ypath) (data : bytes) (extra : list cpitem) : st S response :=
  fun s =>
    match si_exchange si (yrequest_packet (si_handle si) service path data extra) s with
    | (Ok received, s') => (reply_response h received, s')
    | (Throw e, s') => (Throw e, s')
    | (Undef u, s') => (Undef u, s')
    | (Abort, s') => (Abort, s')
    end.
