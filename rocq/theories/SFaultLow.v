(** Specification of the fault manager when there is not enough memory. *)
From Verif Require Import Base MBuffer MEip MMem MLow.

(** The same requests, with a note of each that is made, whatever comes of it. *)
Definition noted {W} (req : Z -> epath -> bytes -> low W response) : Z -> epath -> bytes -> low (list (Z * epath * bytes) * W) response :=
  fun service path data '(fs, (l, w)) => let '(o, (fs, w)) := req service path data (fs, w) in (o, (fs, (l ++ [(service, path, data)], w))).
(** A request that reads a parameter: Get_Attribute_Single. *)
Definition reads (q : Z * epath * bytes) : Prop := fst (fst q) = 14.
(** A failing allocation is not passed over: a call that comes to a result has met only places where none fails. *)
Definition heeds {W A} (L : low W A) : Prop := forall fs w a fs' w', L (fs, w) = (Done (Ok a), (fs', w')) ->
  exists met, fs = met ++ fs' /\ Forall (fun b => b = false) met.
