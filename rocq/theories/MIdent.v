(** Model of the Identity Object client (src/IdentityObject.cpp). Logging is
    left out. *)
From Verif Require Import Base MBuffer MEip MFile.
Local Open Scope outcome_scope.

(** src/cip/Services.h:16 *)
Definition GET_ATTRIBUTE_ALL : Z := 1.
(** src/IdentityObject.h:25 *)
Definition IDENTITY_CLASS_ID : Z := 1.

(** src/IdentityObject.h:136-142, BaseObject.h:39-40. The product name is held
    as a CipShortString; getProductName returns its bytes. *)
Record identity := mkIdentity {
  id_instance : Z; id_vendor : Z; id_type : Z; id_code : Z; id_revision : revision;
  id_status : Z; id_serial : Z; id_name : cipstring }.

(** src/IdentityObject.cpp:12-21 *)
Definition identity_new (instance : Z) : identity :=
  mkIdentity instance 0 0 0 (mkRev 0 0) 0 0 (short_string []).

(** src/IdentityObject.cpp:64-112 (setVendorId ... setProductName): the values
    are of the types of the fields; std::string is a list of bytes. *)
Inductive id_set :=
| SetVendor (v : Z) | SetType (v : Z) | SetCode (v : Z) | SetRevision (v : revision)
| SetStatus (v : Z) | SetSerial (v : Z) | SetName (v : bytes).
Definition identity_set (o : identity) (c : id_set) : identity :=
  let '(mkIdentity n v t k r w s m) := o in
  match c with
  | SetVendor x => mkIdentity n x t k r w s m
  | SetType x => mkIdentity n v x k r w s m
  | SetCode x => mkIdentity n v t x r w s m
  | SetRevision x => mkIdentity n v t k x w s m
  | SetStatus x => mkIdentity n v t k r x s m
  | SetSerial x => mkIdentity n v t k r w x m
  | SetName x => mkIdentity n v t k r w s (short_string x)
  end.

(** src/IdentityObject.cpp:45-48 and src/DiscoveryManager.cpp:64-66: the same
    fields in the same order. *)
Definition get_identity (h : heap) (instance : Z) (b : buffer) : outcome (identity * buffer) :=
  '(vendor, b) <- get_u16 h b ;;
  '(ty, b) <- get_u16 h b ;;
  '(code, b) <- get_u16 h b ;;
  '(rev, b) <- get_rev h b ;;
  '(status, b) <- get_u16 h b ;;
  '(serial, b) <- get_u32 h b ;;
  '(name, b) <- get_short_string h b ;;
  Ok (mkIdentity instance vendor ty code rev status serial name, b).

(** src/IdentityObject.cpp:27-58. The exception of line 51 is created but not
    thrown, so the validity of the buffer has no effect. The path names
    instance 1 whatever [instance] is. *)
Definition identity_read {W} (h : heap) (use8 : bool) (si : session_if W) (instance : Z) : st W identity :=
  fun w =>
    let '(o, w) := send_request h si use8 GET_ATTRIBUTE_ALL (epath2 IDENTITY_CLASS_ID 1) [] [] w in
    (r <- o ;;
     if r_status r =? GSC_SUCCESS then
       '(i, b) <- get_identity h instance (buf_of (r_data r)) ;;
       let valid := buf_valid b in
       Ok (if negb valid then i else i)
     else Throw (RuntimeError RtRequestFailed), w).
