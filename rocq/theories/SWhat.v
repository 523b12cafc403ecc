(** Specification for C101: what the text of an exception says. *)
From Verif Require Import Base MBuffer MEip SEip SText SObj SParam SFile SFault.
Local Open Scope Z_scope.

(** [s] is [before] and the decimal numeral of [v]. *)
Definition ends_in (before : string) (v : Z) (s : string) : Prop :=
  exists n, numeral n v /\ s = (before ++ n)%string.
(** The same for a number that may be negative. *)
Definition ends_in_signed (before : string) (v : Z) (s : string) : Prop :=
  (0 <= v /\ ends_in before v s) \/ (v < 0 /\ ends_in (before ++ "-") (- v) s).

(** The text of a packet whose data has not the announced length. *)
Definition lengths_told (announced available : Z) (s : string) : Prop :=
  exists a b, numeral a announced /\ numeral b available
  /\ s = ("EncapsPacket data must be " ++ a ++ " but we have only " ++ b ++ " bytes")%string.

(** The text for a refused request of parameter [id]: the requests of the
    constructor, and what it says when each is refused. *)
Definition parameter_told (id : Z) (q : request) (s : string) : Prop :=
  (q = attribute_request id 6 /\ s = "Failed to read data size of the parameter"%string)
  \/ (q = all_request id /\ s = "Failed to read all attributes"%string)
  \/ (exists a, 13 <= a <= 16 /\ q = attribute_request id a /\ ends_in "Failed to read value of attribute=" a s).

(** [new]: the requests a call made, with the answers. The text changes when a
    request is refused, and then tells which. *)
Definition refusal_told {A} (told : request -> string -> Prop) (new : trace) (o : outcome A) (before after : string) : Prop :=
  (Forall accepted new /\ o <> Throw (RuntimeError RtRequestFailed) /\ after = before)
  \/ exists pre q a, new = pre ++ [(q, a)] /\ Forall accepted pre /\ a_status a <> 0
     /\ o = Throw (RuntimeError RtRequestFailed) /\ told q after.
