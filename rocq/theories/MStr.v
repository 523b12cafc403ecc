(** Strings constructed without a text. *)
From Verif Require Import Base MBuffer.

(** src/cip/CipString.h:19, 45-46: [CipBaseString() = default] leaves [_length]
    without a value ([_data] is empty); [left] stands for what is found there when
    it is read, which is undefined for T = CipUint and any value for T = CipUsint. *)
Definition default_string (left : Z) : cipstring := mkStr left [].
