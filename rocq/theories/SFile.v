(** Specification of file upload. *)
From Verif Require Import Base MBuffer SBuffer MEip SEip SObj.

(** The requests of a client of file object [id] (class 0x37). *)
Definition state_request (id : Z) : request := mkReq 14 [(KClass, 55); (KInst, id); (KAttr, 1)] [].
Definition initiate_request (id : Z) : request := mkReq 75 [(KClass, 55); (KInst, id)] [255].
Definition transfer_request (id n : Z) : request := mkReq 79 [(KClass, 55); (KInst, id)] [n mod 256].

(** State codes a client reports for the state codes of the adapter: a client
    restarts an upload the adapter has already begun. *)
Definition client_state (code : Z) : option Z :=
  match code with
  | 0 => Some 0 | 1 => Some 1 | 2 => Some 2 | 3 => Some 2 | 5 => Some 2
  | _ => None
  end.

(** ** An adapter that follows the protocol *)

(** Packet number [k] of the file [F] sent in pieces of [T] bytes: FIRST,
    MIDDLE..., LAST or a single FIRST_AND_LAST; the last one ends with a two
    byte checksum. *)
Definition file_packet (F : bytes) (T : nat) (crc : bytes) (k : nat) : bytes :=
  let rest := skipn (k * T) F in
  if Nat.leb (List.length rest) T
  then [Z.of_nat k mod 256; if Nat.eqb k 0 then 4 else 2] ++ rest ++ crc
  else [Z.of_nat k mod 256; if Nat.eqb k 0 then 0 else 1] ++ firstn T rest.

(** The adapter holds the file as instance [id]; its state is the number of the
    next packet once an upload has been initiated. It insists on the expected
    transfer number. *)
Definition uploader (id : Z) (F : bytes) (T : Z) (crc : bytes) : device (option nat) :=
  fun k q =>
    match q with
    | mkReq 14 [(KClass, 55); (KInst, i); (KAttr, 1)] [] =>
      if i =? id then (done [2], k) else (failed 5, k)
    | mkReq 75 [(KClass, 55); (KInst, i)] [m] =>
      if (i =? id) && (T <=? m) then (done (le 4 (zlen F) ++ [T]), Some O) else (failed 5, k)
    | mkReq 79 [(KClass, 55); (KInst, i)] [n] =>
      match k with
      | Some j => if (i =? id) && (n =? Z.of_nat j mod 256)
                  then (done (file_packet F (Z.to_nat T) crc j), Some (S j)) else (failed 32, k)
      | None => (failed 12, k)
      end
    | _ => (failed 8, k)
    end.

(** number of packets *)
Definition pieces (size T : Z) : Z := if size =? 0 then 1 else (size + T - 1) / T.

(** ** Any adapter *)

(** [uploading size T as k content calls]: after the transfer answers [as] of
    an upload of a file of [size] bytes in pieces of [T], [k] pieces making up
    [content] have arrived, the handler has been called as in [calls] and the
    upload goes on. *)
Inductive uploading (size T : Z) : list answer -> nat -> bytes -> list (Z * bytes) -> Prop :=
| up_start : uploading size T [] 0 [] []
| up_piece l k content calls a ty piece more :
    uploading size T l k content calls ->
    a_status a = 0 -> a_data a = Z.of_nat k mod 256 :: ty :: piece ++ more ->
    ty = 0 \/ ty = 1 -> zlen piece = T ->
    uploading size T (l ++ [a]) (S k) (content ++ piece) calls
| up_error l k content calls a :
    uploading size T l k content calls -> a_status a <> 0 ->
    uploading size T (l ++ [a]) k content (calls ++ [(a_status a, [])]).

(** [uploaded size T as calls]: the upload has come to an end. *)
Inductive uploaded (size T : Z) : list answer -> list (Z * bytes) -> Prop :=
| ed_ok l k content calls a ty piece c1 c2 :
    uploading size T l k content calls ->
    a_status a = 0 -> a_data a = Z.of_nat k mod 256 :: ty :: piece ++ [c1; c2] ->
    ty = 2 \/ ty = 4 -> zlen (content ++ piece) = size ->
    uploaded size T (l ++ [a]) (calls ++ [(0, content ++ piece)])
| ed_size l k content calls a ty piece c1 c2 :
    uploading size T l k content calls ->
    a_status a = 0 -> a_data a = Z.of_nat k mod 256 :: ty :: piece ++ [c1; c2] ->
    ty = 2 \/ ty = 4 -> zlen (content ++ piece) <> size ->
    uploaded size T (l ++ [a]) (calls ++ [(32, [])])
| ed_number l k content calls a n ty rest :
    uploading size T l k content calls ->
    a_status a = 0 -> a_data a = n :: ty :: rest -> n <> Z.of_nat k mod 256 ->
    uploaded size T (l ++ [a]) (calls ++ [(32, [])]).

(** how many of the answers report an error *)
Definition errors (l : list answer) : nat := List.length (filter (fun a => negb (a_status a =? 0)) l).
