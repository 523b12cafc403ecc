(** Specification: reading the log of sessions. *)
From Verif Require Import Base MBuffer MEip MSocket SSocket MLog MMsg SMsg SText MRes.

(** The handle in a message that begins with [p]. *)
Definition handle_after (p : string) (m : message) : list Z :=
  match strip p (snd m) with
  | Some s => match number s with Some (v, EmptyString) => [v] | _ => [] end
  | None => []
  end.
(** The handles in the log, in order. *)
Definition registered (l : list message) : list Z := flat_map (handle_after "Registered session ") l.
Definition unregistered (l : list message) : list Z := flat_map (handle_after "Unregistered session ") l.

(** The handles of the sessions among the first [n] that are alive. *)
Definition living (s : rworld) (n : nat) : list Z :=
  flat_map (fun i => match rw_live s i with Some v => [lv_handle v] | None => [] end) (seq 0 n).

(** Everything that can arrive during the registration is bytes. *)
Definition on_the_wire (c : rcall) : Prop :=
  match c with ROpen _ _ p w => forall log data, is_bytes (stream (n_in w ++ p log data)) | _ => True end.

(** What is said of a call: [s] and [s'] are the sessions before and after it. *)
Definition call_told (c : rcall) (s s' : rworld) (lg : list message) : Prop :=
  match c with
  | ROpen _ _ _ _ =>
    match rw_live s' (rw_next s) with
    | Some v => exists t, numeral t (lv_handle v) /\ lg = [(INFO, "Registered session " ++ t)%string]
    | None => lg = []
    end
  | RClose i =>
    match rw_live s i, rw_over s' with
    | Some v, false => exists t, numeral t (lv_handle v) /\ lg = [(INFO, "Unregistered session " ++ t)%string]
    | _, _ => lg = []
    end
  | RSend _ _ | RDiscover _ _ _ _ _ => lg = []
  end.
