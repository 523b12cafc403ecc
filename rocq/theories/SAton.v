(** Specification: which addresses texts denote. *)
From Verif Require Import Base MBuffer SBuffer MAton.

(** The character [c] is the digit [d] of a number with this base. *)
Definition digit (base c d : Z) : Prop :=
  0 <= d < base /\ (d <= 9 /\ c = 48 + d \/ 10 <= d <= 35 /\ (c = 97 + (d - 10) \/ c = 65 + (d - 10))).
(** The number [v] written with digits. *)
Inductive written (base : Z) : list Z -> Z -> Prop :=
| written_nothing : written base [] 0
| written_digit t v c d : written base t v -> digit base c d -> written base (t ++ [c]) (v * base + d).
(** Decimal, octal after 0, or hexadecimal after 0x. *)
Inductive part : list Z -> Z -> Prop :=
| part_decimal c t v : 49 <= c <= 57 -> written 10 (c :: t) v -> part (c :: t) v
| part_octal t v : written 8 (48 :: t) v -> part (48 :: t) v
| part_hex x t v : x = 120 \/ x = 88 -> t <> [] -> written 16 t v -> part (48 :: x :: t) v.
(** Up to three numbers of one byte, each followed by a dot, and a last one that
    fills the bytes which are left, most significant first; then nothing, or a white
    space and anything. The address has its bytes in memory order. *)
Definition denotes (host : string) (a : Z) : Prop :=
  exists parts t v rest,
    c_text host = concat (map (fun x => fst x ++ [46]) parts) ++ t ++ rest
    /\ (rest = [] \/ exists c r, rest = c :: r /\ (c = 32 \/ 9 <= c <= 13))
    /\ Forall (fun x => part (fst x) (snd x) /\ snd x <= 255) parts /\ part t v
    /\ (List.length parts <= 3)%nat /\ v < 256 ^ (4 - zlen parts)
    /\ a = le_val (map snd parts ++ rev (le (4 - List.length parts) v)).
