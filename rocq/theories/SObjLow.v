(** Specification of the Identity and Parameter Object clients when there is not enough memory. *)
From Verif Require Import Base MBuffer MEip MMem MLow SFaultLow.

(** A call over sessions with notes makes only requests of the kind [P], however it ends. *)
Definition asks_only {W A} (P : Z * epath * bytes -> Prop) (L : low (list (Z * epath * bytes) * W) A) : Prop :=
  forall fs l w r fs' l' w', L (fs, (l, w)) = (r, (fs', (l', w'))) -> exists more, l' = l ++ more /\ Forall P more.
(** Reading from an instance of a class: Get_Attribute_Single or Get_Attribute_All, no data. *)
Definition reads_of (class instance : Z) (q : Z * epath * bytes) : Prop :=
  let '(service, path, data) := q in
  data = [] /\ p_class path = class /\ p_object path = instance /\ (service = 14 /\ p_size path = 3 \/ service = 1 /\ p_size path = 2).
(** The requests that are made, however the call ends, are a beginning of those made when there is enough memory. *)
Definition begins_as {W A} (L : low (list (Z * epath * bytes) * W) A) : Prop := forall fs fs0 w, (forall b, In b fs0 -> b = false) ->
  exists more, fst (snd (snd (L (fs0, ([], w))))) = fst (snd (snd (L (fs, ([], w))))) ++ more.
(** A session over which a request without data has the same answer whatever was asked before. *)
Definition steady {W} (h : heap) (use8 : bool) (si : session_if W) : Prop := forall service path w w',
  fst (send_request h si use8 service path [] [] w) = fst (send_request h si use8 service path [] [] w').
