(** Model: the Identity and Parameter Object clients when there is not enough memory. *)
From Verif Require Import Base MBuffer MEip MFile MIdent MParam MMem MLow MFaultLow.
Local Open Scope outcome_scope.

Section ObjLow.
(** Whether the level ERROR is shown. Messages at DEBUG are not. *)
Variable error : bool.
Variable h : heap.
Context {W : Type}.
(** Requests to the device: service, path and data. *)
Variable req : Z -> epath -> bytes -> low W response.

(** src/ParameterObject.cpp:86-104, 185-196: a request whose reply must be a success; its data is copied into a buffer.
    Otherwise a message and std::runtime_error as in MFaultLow. With [copied] the response is assigned to another one
    (src/ParameterObject.cpp:106-107), which copies its vectors before anything else is done with it: the class declares a
    destructor and so has no move assignment (src/cip/MessageRouterResponse.h:20). *)
Definition ol_ask (copied : bool) (service : Z) (path : epath) : low W bytes :=
  l_bind (req service path []) (fun r =>
  l_bind (if copied then l_need else l_ret tt) (fun _ =>
  if r_status r =? GSC_SUCCESS then l_bind l_need (fun _ => l_ret (r_data r)) else fm_refused error)).
(** src/ParameterObject.cpp:147-160; the place is the insertion (line 160). *)
Fixpoint ol_scaling (id first : Z) (n : nat) : low W bytes :=
  match n with
  | O => l_ret []
  | S n' =>
    l_bind (ol_ask false GET_ATTRIBUTE_SINGLE (epath3 PARAMETER_CLASS_ID id first)) (fun d =>
    l_bind (ol_scaling id (first + 1) n') (fun r => l_ret (d ++ r)))
  end.
(** src/ParameterObject.cpp:38-41, 62-182. Places: the router; the vectors for the values (lines 97-100); vectors and texts
    during the reading (lines 116-142), here one place before it (nothing is seen in between, except that bytes past the
    end of the reply can be read before memory runs out); the buffer of line 163. *)
Definition ol_param (id : Z) (full : bool) : low W param :=
  l_bind l_need (fun _ =>
  l_bind (ol_ask false GET_ATTRIBUTE_SINGLE (epath3 PARAMETER_CLASS_ID id ATTR_DATA_SIZE)) (fun d =>
  l_bind (l_lift (st_lift (omap fst (get_u8 h (buf_of d))))) (fun size =>
  l_bind l_need (fun _ =>
  l_bind (ol_ask true GET_ATTRIBUTE_ALL (epath2 PARAMETER_CLASS_ID id)) (fun d =>
  l_bind l_need (fun _ =>
  l_bind (l_lift (st_lift (param_attributes h id full (Z.to_nat size) d))) (fun p =>
  if full && pa_scalable p then
    l_bind (ol_scaling id ATTR_SCALING_MULTIPLIER (Z.to_nat (ATTR_SCALING_OFFSET - ATTR_SCALING_MULTIPLIER + 1))) (fun d =>
    l_bind l_need (fun _ => l_lift (st_lift (param_scaling h p d))))
  else l_ret p))))))).
(** src/ParameterObject.cpp:184-197; reading into the vector (src/utils/Buffer.cpp:145-149) allocates nothing. *)
Definition ol_update : low (param * W) unit :=
  fun '(fs, (p, w)) =>
    if pa_router p then
      let '(o, (fs, w)) := l_bind (ol_ask false GET_ATTRIBUTE_SINGLE (epath3 PARAMETER_CLASS_ID (pa_id p) ATTR_VALUE)) (fun d =>
        l_lift (st_lift (omap fst (get_bytes h (List.length (pa_value p)) (buf_of d))))) (fs, w) in
      match o with
      | Done (Ok v) => (Done (Ok tt), (fs, (pa_set_value p v, w)))
      | Done (Throw e) => (Done (Throw e), (fs, (p, w)))
      | Done (Undef u) => (Done (Undef u), (fs, (p, w)))
      | Done Abort => (Done Abort, (fs, (p, w)))
      | NoMemory => (NoMemory, (fs, (p, w)))
      end
    else (Done (Undef UbNullDeref), (fs, (p, w))).
(** src/IdentityObject.cpp:23-58. Places: the router; the buffer and the name. *)
Definition ol_identity (instance : Z) : low W identity :=
  l_bind l_need (fun _ =>
  l_bind (ol_ask false GET_ATTRIBUTE_ALL (epath2 IDENTITY_CLASS_ID 1)) (fun d =>
  l_bind l_need (fun _ => l_lift (st_lift (omap fst (get_identity h instance (buf_of d))))))).
End ObjLow.
