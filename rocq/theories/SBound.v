(** Specification of what a peer can make the library hold. *)
From Verif Require Import Base MBuffer SBuffer MEip MSocket SObj MFile MIdent MParam MDisc MConn.

(** The bytes that are on the way, whatever interrupts them. *)
Fixpoint volume (segs : list seg) : Z :=
  match segs with
  | [] => 0
  | Data l :: r => zlen l + volume r
  | _ :: r => volume r
  end.

(** Sessions whose packets have at most 65535 bytes of data, as long as the world
    is as [I] says, which they keep. *)
Definition modest {W} (I : W -> Prop) (si : session_if W) : Prop := forall q w o w',
  I w -> si_exchange si q w = (o, w') ->
  I w' /\ forall r, o = Ok r -> is_bytes (e_data r) /\ zlen (e_data r) <= 65535.

(** The bytes of a response: its data, its additional statuses and what follows
    in the packet, with type and length of each item. *)
Fixpoint items_size (l : list cpitem) : Z :=
  match l with [] => 0 | i :: r => 4 + zlen (it_data i) + items_size r end.
Definition footprint (r : response) : Z := zlen (r_data r) + 2 * zlen (r_addl r) + items_size (r_items r).

(** The bytes of the variable part of a parameter object. *)
Definition param_size (p : param) : Z :=
  zlen (pa_value p) + zlen (pa_min p) + zlen (pa_max p) + zlen (pa_default p)
  + zlen (pa_name p) + zlen (pa_units p) + zlen (pa_help p).

(** What a file object holds of the file. *)
Definition held (f : fobj) : bytes :=
  match fo_state f with FUpload _ _ content _ _ => content | _ => [] end.
(** The size announced for the file that is being uploaded. *)
Definition announced_size (f : fobj) : option Z :=
  match fo_state f with FUpload size _ _ _ _ => Some size | _ => None end.

(** An entry of the result of discovery, with a name of a length that a byte can
    tell. *)
Definition named (e : entry) : Prop := zlen (str_data (id_name (en_identity e))) <= 255.
(** What a listener is given: what is left of a datagram of 8192 bytes after the
    number of items and the headers of two of them. *)
Definition small (ev : event) : Prop := match ev with EvData _ _ _ d => zlen d <= 8182 | _ => True end.

(** It announces a file of one byte in pieces of 255 and sends middle packets
    as long as it is asked. *)
Definition endless : device unit := fun _ q =>
  match q with
  | mkReq 14 _ _ => (done [2], tt)
  | mkReq 75 _ _ => (done (le 4 1 ++ [255]), tt)
  | mkReq 79 _ [n] => (done ([n mod 256; 1] ++ repeat 7 255), tt)
  | _ => (failed 8, tt)
  end.
