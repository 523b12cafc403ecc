(** Model: the log message about a refused request. *)
From Verif Require Import Base MBuffer MEip.

(** std::hex output of an unsigned number below 2^64: lower case, no leading
    zeros. *)
Definition hex_digit (d : Z) : ascii := ascii_of_nat (Z.to_nat (if d <? 10 then 48 + d else 87 + d)).
Fixpoint hex_text (fuel : nat) (v : Z) (rest : string) : string :=
  match fuel with
  | O => rest
  | S f => let r := String (hex_digit (v mod 16)) rest in if v <? 16 then r else hex_text f (v / 16) r
  end.
Definition to_hex (v : Z) : string := hex_text 16 v EmptyString.

(** src/cip/MessageRouterResponse.cpp:81-91. The general status is of an
    unscoped enumeration whose underlying type is uint8_t
    (src/cip/GeneralStatusCodes.h:13); overload resolution (C++14 with CWG 1601,
    GCC and Clang since version 10) takes the insertion of an unsigned char,
    which writes the character. The additional statuses are uint16_t and are
    written with the std::hex that the stream still has. The argument of
    appender->print is this text (see MLog). *)
Fixpoint additional_text (l : list Z) : string :=
  match l with [] => EmptyString | a :: r => ("[0x" ++ to_hex a ++ "]" ++ additional_text r)%string end.
Definition status_text (r : response) : string :=
  ("Message Router error=0x" ++ String (ascii_of_nat (Z.to_nat (r_status r))) (" additional statuses " ++ additional_text (r_addl r)))%string.
