(** Model: the texts of IPv4 addresses that inet_aton accepts. *)
From Verif Require Import Base MBuffer.

(** [_host.c_str()] (src/sockets/EndPoint.cpp:36): the bytes up to the first zero. *)
Fixpoint c_text (s : string) : list Z :=
  match s with
  | EmptyString => []
  | String c r => let n := Z.of_nat (nat_of_ascii c) in if n =? 0 then [] else n :: c_text r
  end.

(** inet_aton, a function of the C library that src/sockets/EndPoint.cpp:36 calls;
    as in glibc, where each number is read by strtoul with base 0. What follows a
    white space is not looked at. *)
Definition digit_value (c : Z) : Z :=
  if (48 <=? c) && (c <=? 57) then c - 48
  else if (97 <=? c) && (c <=? 122) then c - 87
  else if (65 <=? c) && (c <=? 90) then c - 55
  else 99.
Fixpoint take_digits (base acc : Z) (l : list Z) : Z * list Z :=
  match l with
  | [] => (acc, [])
  | c :: r => if digit_value c <? base then take_digits base (acc * base + digit_value c) r else (acc, l)
  end.
Definition number (l : list Z) : Z * list Z :=
  if nth 0 l 0 =? 48 then
    if ((nth 1 l 0 =? 120) || (nth 1 l 0 =? 88)) && (digit_value (nth 2 l 0) <? 16) then take_digits 16 0 (skipn 2 l)
    else take_digits 8 0 l
  else take_digits 10 0 l.
Definition is_space (c : Z) : bool := (c =? 32) || ((9 <=? c) && (c <=? 13)).
(** [htonl] on a little-endian host. *)
Definition htonl (x : Z) : Z :=
  Z.shiftl (u8 x) 24 + Z.shiftl (u8 (Z.shiftr x 8)) 16 + Z.shiftl (u8 (Z.shiftr x 16)) 8 + u8 (Z.shiftr x 24).
Fixpoint word_of (l : list Z) : Z := match l with [] => 0 | x :: r => x + 256 * word_of r end.
Fixpoint numbers (more : nat) (acc : list Z) (l : list Z) : option Z :=
  if negb ((48 <=? nth 0 l 0) && (nth 0 l 0 <=? 57)) then None
  else
    let '(v, rest) := number l in
    if 4294967295 <? v then None
    else if nth 0 rest 0 =? 46 then
      match more with
      | O => None
      | S more => if 255 <? v then None else numbers more (acc ++ [v]) (skipn 1 rest)
      end
    else if negb ((nth 0 rest 0 =? 0) || is_space (nth 0 rest 0)) then None
    else if nth (List.length acc) [4294967295; 16777215; 65535; 255] 0 <? v then None
    else Some (Z.lor (word_of acc) (htonl v)).
Definition inet_aton (host : string) : option Z := numbers 3 [] (c_text host).
