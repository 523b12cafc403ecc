(** Specification: the library on Windows and macOS. *)
From Verif Require Import Base MBuffer MEip MIdent MSocket SSession MDisc MConn MWin.
Local Open Scope Z_scope.

(** How an attempt to connect ends, and when, with a timeout. *)
Definition verdict (error : Z) : outcome unit := if error =? 0 then Ok tt else Throw (SystemError error).
Definition in_time (timed_out ms when error : Z) : outcome unit * Z :=
  if when <=? ms then (verdict error, when) else (Throw (SystemError timed_out), ms).

(** The steps of connecting in their order, as [connect_steps] of SSession.v. *)
Definition steps_on (p : platform) (nosigpipe : failing) (k : calls) : list (option Z) :=
  [k_socket k]
  ++ match p with Windows => [] | MacOS => [nosigpipe; k_getfl1 k; k_setfl1 k] | Linux => [k_getfl1 k; k_setfl1 k] end
  ++ (if match k_connect k with Some e => e =? sys_inprogress p | None => false end
      then [(let '(n, e) := k_select k in
             if 0 <? n then None else if (n =? 0) || (e =? sys_intr p) then Some (sys_timedout p) else Some e);
            k_getsockopt k; (if k_soerr k =? 0 then None else Some (k_soerr k))]
      else [k_connect k])
  ++ match p with Windows => [] | _ => [k_getfl2 k; k_setfl2 k] end.

(** Other numbers for the same errors. *)
Definition seg_ren (ren : Z -> Z) (s : seg) : seg := match s with Err e => Err (ren e) | _ => s end.
Definition dgram_ren (ren : Z -> Z) (d : dgram) : dgram := match d with DErr e => DErr (ren e) | _ => d end.
Definition out_ren {A} (ren : Z -> Z) (o : outcome A) : outcome A :=
  match o with Throw (SystemError e) => Throw (SystemError (ren e)) | _ => o end.
(** The number [e] becomes [e'], and no other number does. *)
Definition only (ren : Z -> Z) (e e' : Z) : Prop := forall x, ren x = e' <-> x = e.

(** The same results of the calls of a discovery. *)
Definition kernel_ren (ren : Z -> Z) (k : dkernel) : dkernel :=
  mkDK (option_map ren (dk_socket k)) (option_map ren (dk_broadcast k)) (mkSend (s_count (dk_send k)) (ren (s_errno (dk_send k)))).

(** Datagrams of at most [size] bytes. *)
Definition up_to (size : Z) (d : dgram) : Prop := match d with Dgram l => zlen l <= size | DErr _ => True end.

Definition round_up_to (size : Z) (r : sel_round dgram) : Prop :=
  Forall (fun d => match d with Some d => up_to size d | None => True end) (sr_ready r).

(** A message without line ends at its end. *)
Definition line_end (c : Z) : Prop := c = 13 \/ c = 10.
Definition trimmed (l r : bytes) : Prop :=
  exists ends, l = r ++ ends /\ Forall line_end ends /\ forall c r', r = r' ++ [c] -> ~ line_end c.

(** The descriptors among the first 64 different ones. *)
Definition among (n : nat) (fds : list Z) (fd : Z) : Prop :=
  exists before, (exists after, fds = before ++ fd :: after) /\ (List.length (nodup Z.eq_dec before) < n)%nat.

(** Rounds of select() that differ only in what is there for some sockets. *)
Definition same_for {A} (fds : list Z) (looked_at : Z -> Prop) (r r' : sel_round A) : Prop :=
  sr_now r = sr_now r' /\ List.length (sr_ready r) = List.length (sr_ready r')
  /\ forall i fd, nth_error fds i = Some fd -> looked_at fd -> nth_error (sr_ready r) i = nth_error (sr_ready r') i.
