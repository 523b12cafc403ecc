(** Specification of socket addresses on all hosts. *)
From Verif Require Import Base MBuffer SBuffer MEip MSocket MConnReq MConn MEndian.

(** What the system takes a struct sockaddr_in for: family [f], port [p], address a.b.c.d. Port and
    address are in network order on every host; the family is a number of the host (or the byte
    after sin_len). *)
Definition struct_is (y : layout) (m : mem) (f p a b c d : Z) : Prop :=
  exists len, m = (if y_len y then [len; f] else if y_big y then [f / 256; f mod 256] else [f mod 256; f / 256])
    ++ [p / 256; p mod 256; a; b; c; d] ++ [0; 0; 0; 0; 0; 0; 0; 0].

(** A socket address in a packet: all in network order (CIP volume 2, 2-6.3.3). *)
Definition on_wire (f p a b c d : Z) : bytes := [f / 256; f mod 256; p / 256; p mod 256; a; b; c; d] ++ [0; 0; 0; 0; 0; 0; 0; 0].

(** The end point [e] is the address a.b.c.d, port [p], for the application and for the system. *)
Definition is_endpoint (y : layout) (e : endpoint_on) (f p a b c d : Z) : Prop :=
  eo_host e = dotted a b c d /\ eo_port e = p /\ struct_is y (eo_addr e) f p a b c d.

Definition octets (a b c d : Z) : Prop := is_u8 a /\ is_u8 b /\ is_u8 c /\ is_u8 d.
(** The two bytes of a number exchanged. *)
Definition swapped (x : Z) : Z := 256 * (x mod 256) + x / 256.
