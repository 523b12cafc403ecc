(** Specification of file objects that are used for longer. *)
From Verif Require Import Base MBuffer MFile MSync.

(** The handlers a user has given to beginUpload, one per call. *)
Definition begins (l : list fop) : list nat :=
  concat (map (fun x => match x with FoBegin hid => [hid] | _ => [] end) l).

(** A handler call that reports success. *)
Definition succeeded (c : hcall) : bool := hc_status c =? 0.

(** What a handler may be told about the file [F]: success and [F], or an error
    and nothing. *)
Definition told (F : bytes) (c : hcall) : Prop :=
  hc_status c = 0 /\ hc_content c = F \/ hc_status c <> 0 /\ hc_content c = [].
