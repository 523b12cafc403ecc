(** Specification of the message formats, written from the protocol: path
    segments, common packet items, requests, responses and the encapsulation
    header, together with the parser an adapter would use. Nothing here uses
    the model's encoders or decoders. *)
From Verif Require Import Base MBuffer SBuffer MEip MYaskawa.

(** ** Paths *)
Inductive kind := KClass | KInst | KAttr.

Definition code8 (k : kind) : Z := match k with KClass => 32 | KInst => 36 | KAttr => 48 end.
Definition code16 (k : kind) : Z := match k with KClass => 33 | KInst => 37 | KAttr => 49 end.

(** A logical segment: 8-bit form, or 16-bit form with its pad byte. *)
Inductive segment := Seg8 (k : kind) (v : Z) | Seg16 (k : kind) (pad v : Z).

Definition seg_bytes (s : segment) : bytes :=
  match s with
  | Seg8 k v => [code8 k; v]
  | Seg16 k pad v => [code16 k; pad] ++ le 2 v
  end.
Definition seg_wf (s : segment) : Prop :=
  match s with
  | Seg8 _ v => is_u8 v
  | Seg16 _ pad v => is_u8 pad /\ is_u16 v
  end.
Definition seg_kind (s : segment) : kind := match s with Seg8 k _ => k | Seg16 k _ _ => k end.
Definition seg_id (s : segment) : Z := match s with Seg8 _ v => v | Seg16 _ _ v => v end.

Definition path_bytes (l : list segment) : bytes := concat (map seg_bytes l).

Definition kind_eqb (a b : kind) : bool :=
  match a, b with
  | KClass, KClass | KInst, KInst | KAttr, KAttr => true
  | _, _ => false
  end.

(** The id of the last segment of kind [k], 0 if there is none. *)
Definition last_id (k : kind) (l : list segment) : Z :=
  match find (fun s => kind_eqb (seg_kind s) k) (rev l) with
  | Some s => seg_id s
  | None => 0
  end.

Definition is_code (x : Z) : Prop := exists k, x = code8 k \/ x = code16 k.

(** The rest of a path begins with a byte that is no segment type, or is a
    proper, non-empty prefix of a segment. *)
Definition unknown (tail : bytes) : Prop := exists x r, tail = x :: r /\ ~ is_code x.
Definition truncated (tail : bytes) : Prop :=
  exists s r, seg_wf s /\ tail <> [] /\ r <> [] /\ tail ++ r = seg_bytes s.

(** Number of leading non-zero ids. *)
Definition size_of (c o a : Z) : Z :=
  if c =? 0 then 0 else if o =? 0 then 1 else if a =? 0 then 2 else 3.

(** What a program builds with the constructors. *)
Inductive ids := Ids0 | Ids1 (c : Z) | Ids2 (c o : Z) | Ids3 (c o a : Z).
Definition ids_list (i : ids) : list (kind * Z) :=
  match i with
  | Ids0 => []
  | Ids1 c => [(KClass, c)]
  | Ids2 c o => [(KClass, c); (KInst, o)]
  | Ids3 c o a => [(KClass, c); (KInst, o); (KAttr, a)]
  end.
Definition ids_wf (i : ids) : Prop := Forall (fun kv => is_u16 (snd kv)) (ids_list i).
Definition ids_small (i : ids) : Prop := Forall (fun kv => is_u8 (snd kv)) (ids_list i).
Definition ids_nonzero (i : ids) : Prop := Forall (fun kv => snd kv <> 0) (ids_list i).
Definition build (i : ids) : epath :=
  match i with
  | Ids0 => epath0 | Ids1 c => epath1 c | Ids2 c o => epath2 c o | Ids3 c o a => epath3 c o a
  end.
Definition ybuild (i : ids) : ypath :=
  match i with
  | Ids0 => ypath0 | Ids1 c => ypath1 c | Ids2 c o => ypath2 c o | Ids3 c o a => ypath3 c o a
  end.

(** The segments of a path in the 8-bit form (ids reduced to one byte) and in
    the padded 16-bit form. *)
Definition segments (use8 : bool) (i : ids) : list segment :=
  map (fun kv => if use8 then Seg8 (fst kv) (snd kv mod 256)
                 else Seg16 (fst kv) 0 (snd kv)) (ids_list i).

(** ** Common packet format *)
Definition item_wf (i : cpitem) : Prop :=
  is_u16 (it_type i) /\ it_length i = zlen (it_data i) /\ zlen (it_data i) < 65536
  /\ is_bytes (it_data i).
Definition item_bytes (i : cpitem) : bytes :=
  le 2 (it_type i) ++ le 2 (zlen (it_data i)) ++ it_data i.
Definition items_bytes (l : list cpitem) : bytes := concat (map item_bytes l).
Definition cpf_bytes (l : list cpitem) : bytes := le 2 (zlen l) ++ items_bytes l.

(** ** Message router *)
Definition request_bytes (service : Z) (path : list segment) (data : bytes) : bytes :=
  [service; zlen (path_bytes path) / 2] ++ path_bytes path ++ data.

(** reserved byte [rsv] is ignored by receivers *)
Definition response_bytes (service rsv status : Z) (addl : list Z) (data : bytes) : bytes :=
  [service; rsv; status; zlen addl] ++ concat (map (le 2) addl) ++ data.

(** ** Encapsulation *)
Definition encaps_bytes (command length handle status : Z) (context : bytes) (options : Z)
    (data : bytes) : bytes :=
  le 2 command ++ le 2 length ++ le 4 handle ++ le 4 status ++ context ++ le 4 options ++ data.
Definition encaps_wf (p : encaps) : Prop :=
  is_u16 (e_command p) /\ is_u16 (e_length p) /\ is_u32 (e_handle p) /\ is_u32 (e_status p)
  /\ List.length (e_context p) = 8%nat /\ is_bytes (e_context p) /\ is_u32 (e_options p)
  /\ is_bytes (e_data p).

(** ** The receiving side *)

(** Read [n] bytes. *)
Definition take (n : nat) (l : bytes) : option (bytes * bytes) :=
  if Nat.leb n (List.length l) then Some (firstn n l, skipn n l) else None.
Definition take_int (n : nat) (l : bytes) : option (Z * bytes) :=
  match take n l with Some (d, r) => Some (le_val d, r) | None => None end.

Fixpoint parse_items (n : nat) (l : bytes) : option (list (Z * bytes) * bytes) :=
  match n with
  | O => Some ([], l)
  | S n' =>
    match take_int 2 l with
    | None => None
    | Some (ty, l) =>
      match take_int 2 l with
      | None => None
      | Some (len, l) =>
        match take (Z.to_nat len) l with
        | None => None
        | Some (d, l) =>
          match parse_items n' l with
          | None => None
          | Some (r, l) => Some ((ty, d) :: r, l)
          end
        end
      end
    end
  end.

(** What an adapter reads from a SendRRData packet: (session handle, first
    item, second item, further items); it insists on the command, the length
    field, interface handle 0 and that nothing is left over. *)
Record rr_message := mkRR {
  rr_handle : Z; rr_timeout : Z; rr_items : list (Z * bytes) }.

Definition parse_rr (l : bytes) : option rr_message :=
  match take 24 l with
  | None => None
  | Some (hd, body) =>
    let command := le_val (firstn 2 hd) in
    let len := le_val (firstn 2 (skipn 2 hd)) in
    let handle := le_val (firstn 4 (skipn 4 hd)) in
    let status := le_val (firstn 4 (skipn 8 hd)) in
    let options := le_val (firstn 4 (skipn 20 hd)) in
    if negb ((command =? 111) && (len =? zlen body) && (status =? 0) && (options =? 0)) then None
    else match take_int 4 body with
         | None => None
         | Some (ih, body) =>
           if negb (ih =? 0) then None
           else match take_int 2 body with
                | None => None
                | Some (timeout, body) =>
                  match take_int 2 body with
                  | None => None
                  | Some (count, body) =>
                    match parse_items (Z.to_nat count) body with
                    | Some (items, []) => Some (mkRR handle timeout items)
                    | _ => None
                    end
                  end
                end
         end
  end.

(** What an adapter reads from an unconnected request: service, path, data. *)
Definition parse_request (l : bytes) : option (Z * bytes * bytes) :=
  match l with
  | service :: words :: rest =>
    match take (2 * Z.to_nat words) rest with
    | Some (path, data) => Some (service, path, data)
    | None => None
    end
  | _ => None
  end.

Definition wire_items (l : list cpitem) : list (Z * bytes) :=
  map (fun i => (it_type i, it_data i)) l.

(** The input goes on with a complete item. *)
Definition starts_with_item (l : bytes) : Prop :=
  exists i rest, item_wf i /\ l = item_bytes i ++ rest.

(** An encapsulation packet as a program builds it: command, handle, status and
    data set on a new packet. *)
Definition packet (command handle status : Z) (data : bytes) : encaps :=
  mkEncaps command (zlen data mod 65536) handle status [0;0;0;0;0;0;0;0] 0 data.

(** Something is left, but not a complete item. *)
Definition cut (tail : bytes) : Prop := tail <> [] /\ ~ starts_with_item tail.

(** A session that records what is sent and answers by any function of the
    packet and of what was sent before. *)
Definition recording (handle : Z) (answer : list encaps -> encaps -> outcome encaps)
  : session_if (list encaps) :=
  mkSession handle (fun p log => (answer log p, log ++ [p])).
