(** Model of the example programs as a whole: from the construction of the
    session to its destruction at the end of main(). *)
From Verif Require Import Base MBuffer MEip MSocket MConnReq MConn MExample.
Local Open Scope Z_scope.

(** examples/ParameterObjectExample.cpp:38, ExplicitMessagingExample.cpp:41,
    FileObjectExample.cpp:33, IdentityObjectExample.cpp:30,
    ImplicitMessagingExample.cpp:39, Yaskawa_AssemblyObjectExample.cpp:176: [si]
    is constructed first (src/SessionInfo.cpp:20-39), then used, then destroyed
    when main() returns (src/SessionInfo.cpp:41-45); the clients keep no
    reference to it. None of the programs catches exceptions: one that leaves
    main() terminates the program. Whether destructors run before is left to the
    implementation; those of GCC and Clang do not run (no handler is found), so
    nothing is sent. *)
Definition uncaught {A} (o : outcome A) : outcome A := match o with Throw _ => Abort | _ => o end.
Definition session_main {A} (h : heap) (k : calls) (p : peer) (body : session_if net -> st net A) : st net A :=
  fun w =>
    let '(o, w) := st_bind (fst (session_open h k p)) (fun handle =>
                   st_bind (body (live_session h p handle)) (fun a =>
                   st_bind (session_destroy p handle) (fun _ => st_ret a))) w in
    (uncaught o, w).

Definition parameter_main (h : heap) (k : calls) (p : peer) := session_main h k p (parameter_example h).
Definition explicit_main (h : heap) (k : calls) (p : peer) := session_main h k p (explicit_example h).
Definition file_main (h : heap) (k : calls) (p : peer) (n : nat) := session_main h k p (fun si => file_example h si n).
Definition identity_main (h : heap) (k : calls) (p : peer) := session_main h k p (identity_example h).
Definition yaskawa_main (h : heap) (k : calls) (p : peer) := session_main h k p (yaskawa_example h).
(** ImplicitMessagingExample.cpp:42: the manager is made with the random number
    [inc] and destroyed before the session; its sockets are not followed here. *)
Definition implicit_main (h : heap) (k : calls) (p : peer) (inc : Z) (host : string) (env : fo_env) (rs : nat -> round) : st net nat :=
  session_main h k p (fun si w =>
    let '(o, w') := implicit_example h si host env rs (mkWorld globals0 (fun _ => mgr0 inc) w) in (o, w_s w')).
