(** Specification: connection managers whose session is a TCP connection to a
    device. *)
From Verif Require Import Base MBuffer MEip SEip SObj MSocket SSocket MConnReq SConnReq MConn SHost.

(** The calls of [call], without the session they use. *)
Inductive ncall :=
| NOpen (use8 : bool) (host : string) (env : fo_env) (large : bool) (c : cparams)
| NClose (use8 : bool) (oid : nat)
| NHandle (rounds : list (sel_round dgram)) (ending : sel_end) (env : tick_env)
| NData (oid : nat) (d : bytes).
Definition over {S} (si : session_if S) (op : ncall) : call S :=
  match op with
  | NOpen use8 host env large c => COpen use8 si host env large c
  | NClose use8 oid => CClose use8 si oid
  | NHandle rounds ending env => CHandle rounds ending env
  | NData oid d => CData oid d
  end.
Definition overs {S} (si : session_if S) (ops : list (nat * ncall)) : list (nat * call S) := map (fun x => (fst x, over si (snd x))) ops.
(** The values fit their fields, and the path a packet. *)
Definition ncall_wf (op : ncall) : Prop :=
  match op with NOpen _ _ _ _ c => cparams_wf c /\ zlen (c_path c) <= 50000 | _ => True end.
(** The connections of the manager were opened by such calls. *)
Definition sendable_paths (m : mgr) : Prop := forall oid c, lock oid m = Some c -> is_bytes (io_path c) /\ zlen (io_path c) <= 50000.
