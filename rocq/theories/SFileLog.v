(** Specification: reading the log of file objects. *)
From Verif Require Import Base MBuffer MEip SEip SObj MLog SText MMsg SMsg SErrno MFile MSync.

(** A hexadecimal number at the beginning of a text and what follows it. *)
Fixpoint hex_from (acc : Z) (s : string) : Z * string :=
  match s with
  | String c r => match hex_value c with Some d => hex_from (16 * acc + d) r | None => (acc, s) end
  | EmptyString => (acc, s)
  end.
(** The text up to the first [>], and what follows it. *)
Fixpoint up_to_gt (s : string) : option (string * string) :=
  match s with
  | EmptyString => None
  | String c r => if Ascii.eqb c ">" then Some (EmptyString, r)
                  else option_map (fun '(a, b) => (String c a, b)) (up_to_gt r)
  end.

(** What a message of a file object says: the id, the state and the text. *)
Record note := mkNote { n_id : Z; n_state : string; n_text : string }.
Definition read_note (s : string) : option note :=
  match strip "FileObject=" s with
  | None => None
  | Some r =>
    let '(id, r) := hex_from 0 r in
    match strip " <" r with
    | None => None
    | Some r => match up_to_gt r with
                | Some (name, r) => option_map (mkNote id name) (strip " " r)
                | None => None
                end
    end
  end.

(** ** Which states of object [id] have been entered and not left, oldest first *)
Definition after_note (id : Z) (live : list string) (m : message) : list string :=
  match read_note (snd m) with
  | Some n =>
    if negb (n_id n =? id) then live
    else
      match fst m with
      | DEBUG => if String.eqb (n_text n) "Start"%string then live ++ [n_state n] else live
      | TRACE => if String.eqb (n_text n) "Stop"%string then
                   match live with x :: r => if String.eqb x (n_state n) then r else live | [] => [] end
                 else live
      | _ => live
      end
  | None => live
  end.
Definition told_states (id : Z) (log : list message) : list string := fold_left (after_note id) log [].

(** The names of the states, by their CIP numbers (src/FileObject.h:24-34). *)
Definition name_of (code : Z) : string :=
  if code =? 0 then "NONEXISTENT" else if code =? 1 then "FILE_EMPTY" else if code =? 2 then "FILE_LOADED"
  else if code =? 3 then "TRANSFER_UPLOAD_INITIATED" else if code =? 4 then "TRANSFER_DOWNLOAD_INITIATED"
  else if code =? 5 then "TRANSFER_UPLOAD_IN_PROGRESS" else if code =? 6 then "TRANSFER_DOWNLOAD_IN_PROGRESS"
  else "UNKNOWN"%string.

(** ** Errors *)

(** An error message explains why a handler is called without a file: the
    request was refused with that status, or what came does not fit. *)
Definition explains (id : Z) (m : string) (c : hcall) : Prop :=
  hc_content c = [] /\
  ((exists rest, m = ("Message Router error=0x" ++ String (ascii_of_nat (Z.to_nat (hc_status c))) (" additional statuses " ++ rest))%string)
   \/ hc_status c = 32 /\ (read_note m = Some (mkNote id (name_of 5) "Wrong transfer number")
                          \/ read_note m = Some (mkNote id (name_of 5) "Wrong size of the uploaded file"))).
Definition failures (l : list hcall) : list hcall := filter (fun c => negb (hc_status c =? 0)) l.

(** ** Requests *)

(** The message about a request. *)
Definition path_text (p : list (kind * Z)) (t : string) : Prop :=
  match p with
  | [(KClass, c); (KInst, i)] =>
    exists a b, numeral a c /\ numeral b i /\ t = ("[classId=" ++ a ++ " objectId=" ++ b ++ "]")%string
  | [(KClass, c); (KInst, i); (KAttr, s)] =>
    exists a b e, numeral a c /\ numeral b i /\ numeral e s
      /\ t = ("[classId=" ++ a ++ " objectId=" ++ b ++ " attributeId=" ++ e ++ "]")%string
  | _ => False
  end.
Definition tells_request (m : message) (q : request) : Prop :=
  exists s t, hex_numeral s (q_service q) /\ path_text (q_path q) t
    /\ m = (INFO, "Send request: service=0x" ++ s ++ " epath=" ++ t)%string.
Definition is_request (m : message) : bool :=
  match strip "Send request: " (snd m) with Some _ => true | None => false end.

(** ** Calls that do nothing *)
Definition says (id code : Z) (text : string) (m : message) : Prop :=
  read_note (snd m) = Some (mkNote id (name_of code) text).
(** What is said about a call that is not possible in a state; nothing in some
    cases. *)
Definition remark (x : fop) (code : Z) : option (level * string) :=
  match x with
  | FoBegin _ => Some (if code =? 5 then (INFO, "Initiate upload of file again"%string) else (WARNING, "File cannot be uploaded"%string))
  | FoTransfer => if code =? 2 then None else Some (WARNING, "Nothing to transfer"%string)
  | FoSync => None
  end.
(** The calls that need no request. *)
Definition impossible (x : fop) (code : Z) : Prop :=
  match x with FoBegin _ => code <> 2 | FoTransfer => code <> 5 | FoSync => False end.
