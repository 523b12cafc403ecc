(** Specification: what a whole program sends to an adapter. *)
From Verif Require Import Base MBuffer SBuffer MEip SEip SObj MSocket SSocket MFile SFile SHost.
Local Open Scope Z_scope.

(** The requests of the session [handle] in the packets [log] are those of [tr],
    in this order, and there are no other packets. *)
Definition carries (handle : Z) (log : list bytes) (tr : trace) : Prop :=
  map (asked_in handle) log = map (fun x => Some (fst x)) tr.
Definition register_bytes : bytes := encaps_bytes 101 4 0 0 [0; 0; 0; 0; 0; 0; 0; 0] 0 [1; 0; 0; 0].
Definition unregister_bytes (handle : Z) : bytes := encaps_bytes 102 0 handle 0 [0; 0; 0; 0; 0; 0; 0; 0] 0 [].

(** A program that has returned said who it is, asked, and took its leave; one
    that was terminated did not take its leave. *)
Definition dialogue {A} (handle : Z) (o : outcome A) (log : list bytes) (tr : trace) : Prop :=
  exists requests, carries handle requests tr
    /\ log = register_bytes :: requests ++ match o with Ok _ => [unregister_bytes handle] | _ => [] end.

(** The program [m] over TCP ends as the program [m'] that talks to the device
    itself, except that an exception terminates it; it sends what belongs to this
    and the device ends up the same. *)
Definition whole {D A} (handle : Z) (dev : device D) (d : D) (m : st net A) (m' : st (D * trace) A) : Prop :=
  exists o tr w', m' (d, []) = (o, (fst (played handle dev d (n_sent w')), tr))
    /\ m (mkNet [] [] []) = (match o with Throw _ => Abort | _ => o end, w')
    /\ dialogue handle o (n_sent w') tr.
