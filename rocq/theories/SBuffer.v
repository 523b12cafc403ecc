(** Specification of the byte buffer: the CIP data types, their wire layout,
    and the sequences of encode / decode operations a program can perform.
    The layouts are written from the protocol description (little-endian
    integers; socket addresses in network byte order) and do not use the
    model's encoders. *)
From Verif Require Import Base MBuffer.

(** [le n v]: the n low-order base-256 digits of v, least significant first. *)
Fixpoint le (n : nat) (v : Z) : bytes :=
  match n with
  | O => []
  | S n' => v mod 256 :: le n' (v / 256)
  end.

(** [le_val l]: the number whose base-256 digits, least significant first, are l. *)
Fixpoint le_val (l : bytes) : Z :=
  match l with
  | [] => 0
  | x :: l' => x + 256 * le_val l'
  end.

(** 16-bit big-endian (network order). *)
Definition be16 (v : Z) : bytes := [(v / 256) mod 256; v mod 256].

(** Dotted quad text of four octets. *)
Definition dotted (a b c d : Z) : string :=
  (to_string a ++ "." ++ to_string b ++ "." ++ to_string c ++ "." ++ to_string d)%string.

(** The end point with octets a.b.c.d, port p and address family f, as seen
    through getHost, getPort and getAddr (s_addr holds the octets in memory
    order, sin_port the port in network order; little-endian host). *)
Definition the_endpoint (f a b c d p : Z) : endpoint :=
  mkEP (dotted a b c d) p
       (mkAddr f (256 * (p mod 256) + p / 256)
               (a + 256 * b + 65536 * c + 16777216 * d)).

(** Values a program can encode. REAL and LREAL are bit patterns. *)
Inductive value :=
| VU8 (v : Z) | VS8 (v : Z) | VU16 (v : Z) | VS16 (v : Z)
| VU32 (v : Z) | VS32 (v : Z) | VU64 (v : Z) | VS64 (v : Z)
| VF32 (v : Z) | VF64 (v : Z)
| VBytes (l : bytes) | VWords (l : list Z)
| VShort (text : bytes) | VString (text : bytes)
| VRev (major minor : Z)
| VAddr (f a b c d p : Z).

(** The values of each C++ type; strings have at most 255 / 65535 bytes. *)
Definition wf_value (v : value) : Prop :=
  match v with
  | VU8 x => is_u8 x | VS8 x => is_s8 x | VU16 x => is_u16 x | VS16 x => is_s16 x
  | VU32 x => is_u32 x | VS32 x => is_s32 x | VU64 x => is_u64 x | VS64 x => is_s64 x
  | VF32 x => is_u32 x | VF64 x => is_u64 x
  | VBytes l => is_bytes l
  | VWords l => is_words l
  | VShort t => is_bytes t /\ zlen t <= 255
  | VString t => is_bytes t /\ zlen t <= 65535
  | VRev a b => is_u8 a /\ is_u8 b
  | VAddr f a b c d p => is_u16 f /\ is_u8 a /\ is_u8 b /\ is_u8 c /\ is_u8 d /\ is_u16 p
  end.

(** Wire layout; [v mod 256^n] digits of a negative number are its two's
    complement representation. *)
Definition layout (v : value) : bytes :=
  match v with
  | VU8 x | VS8 x => le 1 x
  | VU16 x | VS16 x => le 2 x
  | VU32 x | VS32 x | VF32 x => le 4 x
  | VU64 x | VS64 x | VF64 x => le 8 x
  | VBytes l => l
  | VWords l => concat (map (le 2) l)
  | VShort t => le 1 (zlen t) ++ t
  | VString t => le 2 (zlen t) ++ t
  | VRev a b => [a; b]
  | VAddr f a b c d p => be16 f ++ be16 p ++ [a; b; c; d] ++ [0;0;0;0;0;0;0;0]
  end.

(** Types a program can ask the decoder for; vectors are decoded into a vector
    of a size chosen by the caller. *)
Inductive ctype :=
| TU8 | TS8 | TU16 | TS16 | TU32 | TS32 | TU64 | TS64 | TF32 | TF64
| TBytes (n : nat) | TWords (n : nat) | TShort | TString | TRev | TAddr.

Definition type_of (v : value) : ctype :=
  match v with
  | VU8 _ => TU8 | VS8 _ => TS8 | VU16 _ => TU16 | VS16 _ => TS16
  | VU32 _ => TU32 | VS32 _ => TS32 | VU64 _ => TU64 | VS64 _ => TS64
  | VF32 _ => TF32 | VF64 _ => TF64
  | VBytes l => TBytes (List.length l) | VWords l => TWords (List.length l)
  | VShort _ => TShort | VString _ => TString | VRev _ _ => TRev
  | VAddr _ _ _ _ _ _ => TAddr
  end.

(** ** What the API call for each type is *)

(** [buffer << v] *)
Definition write (b : buffer) (v : value) : buffer :=
  match v with
  | VU8 x => put_u8 b x | VS8 x => put_s8 b x
  | VU16 x => put_u16 b x | VS16 x => put_s16 b x
  | VU32 x => put_u32 b x | VS32 x => put_s32 b x
  | VU64 x => put_u64 b x | VS64 x => put_s64 b x
  | VF32 x => put_f32 b x | VF64 x => put_f64 b x
  | VBytes l => put_bytes b l
  | VWords l => put_words b l
  | VShort t => put_short_string b (short_string t)
  | VString t => put_cip_string b (cip_string t)
  | VRev x y => put_rev b (mkRev x y)
  | VAddr f x y z w p => put_endpoint b (the_endpoint f x y z w p)
  end.

(** What a decoded object shows: integers as such, strings through
    [getLength] and [getData], end points through their three getters. *)
Inductive shown :=
| ShInt (v : Z) | ShBytes (l : bytes) | ShWords (l : list Z)
| ShStr (length : Z) (data : bytes) | ShRev (major minor : Z)
| ShEp (e : endpoint).

Definition shows (v : value) : shown :=
  match v with
  | VU8 x | VS8 x | VU16 x | VS16 x | VU32 x | VS32 x | VU64 x | VS64 x
  | VF32 x | VF64 x => ShInt x
  | VBytes l => ShBytes l
  | VWords l => ShWords l
  | VShort t | VString t => ShStr (zlen t) t
  | VRev x y => ShRev x y
  | VAddr f x y z w p => ShEp (the_endpoint f x y z w p)
  end.

(** [buffer >> x] for a variable x of the given type *)
Definition read (h : heap) (t : ctype) (b : buffer) : outcome (shown * buffer) :=
  let int m := omap (fun p : Z * buffer => (ShInt (fst p), snd p)) m in
  let str m := omap (fun p : cipstring * buffer =>
                       (ShStr (str_length (fst p)) (str_data (fst p)), snd p)) m in
  match t with
  | TU8 => int (get_u8 h b) | TS8 => int (get_s8 h b)
  | TU16 => int (get_u16 h b) | TS16 => int (get_s16 h b)
  | TU32 => int (get_u32 h b) | TS32 => int (get_s32 h b)
  | TU64 => int (get_u64 h b) | TS64 => int (get_s64 h b)
  | TF32 => int (get_f32 h b) | TF64 => int (get_f64 h b)
  | TBytes n => omap (fun p : bytes * buffer => (ShBytes (fst p), snd p)) (get_bytes h n b)
  | TWords n => omap (fun p : list Z * buffer => (ShWords (fst p), snd p)) (get_words h n b)
  | TShort => str (get_short_string h b)
  | TString => str (get_cip_string h b)
  | TRev => omap (fun p : revision * buffer =>
                    (ShRev (rev_major (fst p)) (rev_minor (fst p)), snd p)) (get_rev h b)
  | TAddr => omap (fun p : endpoint * buffer => (ShEp (fst p), snd p)) (get_endpoint h b)
  end.

(** Sequences of operations. *)
Fixpoint writes (b : buffer) (vs : list value) : buffer :=
  match vs with
  | [] => b
  | v :: vs' => writes (write b v) vs'
  end.

Fixpoint reads (h : heap) (ts : list ctype) (b : buffer) : outcome (list shown * buffer) :=
  match ts with
  | [] => Ok ([], b)
  | t :: ts' => bind (read h t b) (fun '(v, b1) =>
                bind (reads h ts' b1) (fun '(vs, b2) => Ok (v :: vs, b2)))
  end.

(** Interleaved programs: each step writes or reads; the observations of the
    reads are collected. *)
Inductive bop := BWrite (v : value) | BRead (t : ctype).

Fixpoint run_ops (h : heap) (ops : list bop) (b : buffer) : outcome (list shown * buffer) :=
  match ops with
  | [] => Ok ([], b)
  | BWrite v :: ops' => run_ops h ops' (write b v)
  | BRead t :: ops' => bind (read h t b) (fun '(v, b1) =>
                       bind (run_ops h ops' b1) (fun '(vs, b2) => Ok (v :: vs, b2)))
  end.

(** The reference behaviour of an interleaved program: a queue of values. A
    read is admissible when the oldest unread value has the requested type. *)
Inductive queue_run : list bop -> list value -> list shown -> list value -> Prop :=
| QNil : forall q, queue_run [] q [] q
| QWrite : forall v ops q out q',
    queue_run ops (q ++ [v]) out q' -> queue_run (BWrite v :: ops) q out q'
| QRead : forall v ops q out q',
    queue_run ops q out q' ->
    queue_run (BRead (type_of v) :: ops) (v :: q) (shows v :: out) q'.

Definition op_wf (o : bop) : Prop :=
  match o with BWrite v => wf_value v | BRead _ => True end.

(** Number of bytes a decode of each fixed-width type takes (strings depend on
    their length byte and are not listed). *)
Definition fixed_width (t : ctype) : option nat :=
  match t with
  | TU8 | TS8 => Some 1%nat | TU16 | TS16 => Some 2%nat
  | TU32 | TS32 | TF32 => Some 4%nat | TU64 | TS64 | TF64 => Some 8%nat
  | TBytes n => Some n | TWords n => Some (2 * n)%nat
  | TShort | TString => None
  | TRev => Some 2%nat | TAddr => Some 16%nat
  end.
