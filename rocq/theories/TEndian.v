(** Property of socket addresses on other hosts: C115. *)
From Verif Require Import Base MBuffer SBuffer PBase PBuffer MEip MSocket MConnReq MConn MEndian SEndian PEndian.
Local Open Scope Z_scope.

(** ** C115 socket addresses on other hosts *)

(** Little-endian host, sin_family of 16 bits: a socket address in a packet is read as
    what it is, for the application and for the system. Full statement: so on every host. *)
Theorem C115_read_partial : forall h pre f p a b c d rest, is_u16 f -> is_u16 p -> octets a b c d ->
  exists e, read_on (mkLayout false false) h (at_ pre (on_wire f p a b c d ++ rest)) = Ok (e, at_ (pre ++ on_wire f p a b c d) rest)
  /\ is_endpoint (mkLayout false false) e f p a b c d.
Proof. intros. now apply (read_little (mkLayout false false)). Qed.
Print Assumptions C115_read_partial.

(** Little-endian host, any layout: what is put into a packet is the address in
    network order. Full statement: so on every host. *)
Theorem C115_write_partial : forall l b e f p a1 a2 a3 a4, is_u16 f -> is_u16 p -> octets a1 a2 a3 a4 ->
  struct_is (mkLayout false l) (eo_addr e) f p a1 a2 a3 a4 ->
  write_on (mkLayout false l) b e = mkBuf (bdata b ++ on_wire f p a1 a2 a3 a4) (bpos b).
Proof. intros. now apply (write_little (mkLayout false l)). Qed.
Print Assumptions C115_write_partial.

(** An end point made of a text and a port is right on every host. *)
Theorem C115_text : forall y aton host port a b c d, is_u16 port -> octets a b c d -> aton host = Some [a; b; c; d] ->
  eo_host (of_text y aton host port) = host /\ eo_port (of_text y aton host port) = port
  /\ struct_is y (eo_addr (of_text y aton host port)) AF_INET port a b c d.
Proof. exact text_right. Qed.
Print Assumptions C115_text.

(** Little-endian host with sin_len (macOS, FreeBSD): address and port are read right, the
    family always as 0. *)
Theorem C115_bsd : forall h pre f p a b c d rest, is_u16 f -> is_u16 p -> octets a b c d ->
  exists e, read_on (mkLayout false true) h (at_ pre (on_wire f p a b c d ++ rest)) = Ok (e, at_ (pre ++ on_wire f p a b c d) rest)
  /\ is_endpoint (mkLayout false true) e 0 p a b c d.
Proof. intros. now apply (read_little (mkLayout false true)). Qed.
Print Assumptions C115_bsd.

(** Big-endian host: the octets are read and written in reverse, those of the port
    too. The family is right only in 8 bits. *)
Theorem C115_big : forall l h pre f p a b c d rest, is_u16 f -> is_u16 p -> octets a b c d -> (l = true -> f < 256) ->
  exists e, read_on (mkLayout true l) h (at_ pre (on_wire f p a b c d ++ rest)) = Ok (e, at_ (pre ++ on_wire f p a b c d) rest)
  /\ is_endpoint (mkLayout true l) e (if l then f else swapped f) (swapped p) d c b a.
Proof. intros. now apply (read_big (mkLayout true l)). Qed.
Print Assumptions C115_big.
Theorem C115_big_write : forall l b e f p a1 a2 a3 a4, is_u16 f -> is_u16 p -> octets a1 a2 a3 a4 ->
  struct_is (mkLayout true l) (eo_addr e) f p a1 a2 a3 a4 ->
  write_on (mkLayout true l) b e = mkBuf (bdata b ++ on_wire (swapped f) (swapped p) a4 a3 a2 a1) (bpos b).
Proof. intros. now apply (write_big (mkLayout true l)). Qed.
Print Assumptions C115_big_write.

(** So a test that writes an address and reads it back sees nothing on a big-endian host; on
    a host with sin_len only the family is lost. *)
Theorem C115_round : forall y h e f p a b c d, is_u16 f -> is_u16 p -> octets a b c d -> y_len y && y_big y = false ->
  is_endpoint y e f p a b c d ->
  exists e', read_on y h (buf_of (bdata (write_on y (buf_of []) e))) = Ok (e', at_ (bdata (write_on y (buf_of []) e)) [])
  /\ is_endpoint y e' (if y_len y then 0 else f) p a b c d.
Proof.
  intros [[] l] h e f p a b c d F P O K (H1 & H2 & H3); rewrite buf_of_at.
  - destruct l; [discriminate|].
    assert (W : bdata (write_on (mkLayout true false) (buf_of []) e) = on_wire (swapped f) (swapped p) d c b a ++ [])
      by (rewrite (write_big _ (buf_of []) e f p a b c d) by (try assumption; reflexivity); now rewrite app_nil_r).
    rewrite W. destruct (read_big (mkLayout true false) h [] (swapped f) (swapped p) d c b a []) as (e' & -> & R);
      [reflexivity|now apply swapped_u16|now apply swapped_u16|now apply rev_octets|discriminate|].
    exists e'. split; [now rewrite app_nil_r|]. cbn [y_len] in *. now rewrite !swapped_twice in R by assumption.
  - assert (W : bdata (write_on (mkLayout false l) (buf_of []) e) = on_wire f p a b c d ++ [])
      by (rewrite (write_little _ (buf_of []) e f p a b c d) by (try assumption; reflexivity); now rewrite app_nil_r).
    rewrite W. destruct (read_little (mkLayout false l) h [] f p a b c d []) as (e' & -> & R); try assumption; [reflexivity|].
    exists e'. split; [now rewrite app_nil_r|assumption].
Qed.
Print Assumptions C115_round.

(** On Linux this is the main model, for all buffers, end points and texts. *)
Theorem C115_linux : forall h b e e' aton host port,
  get_endpoint h b = bind (read_on linux h b) (fun '(e, b') => Ok (main_ep e, b'))
  /\ write_on linux b e = put_endpoint b (main_ep e)
  /\ same_on linux e e' = ep_eqb (main_ep e) (main_ep e')
  /\ ((forall s l, aton s = Some l -> exists a b c d, l = [a; b; c; d] /\ octets a b c d) ->
      main_ep (of_text linux aton host port) = ep_of_host (fun s => option_map le_val (aton s)) host port).
Proof.
  intros. split; [apply linux_read|]. split; [apply linux_write|]. split; [reflexivity|]. apply linux_text.
Qed.
Print Assumptions C115_linux.

(** Two end points are equal when family, address and port are; so on macOS an address
    from a packet is never equal to the same one from a text. *)
Theorem C115_same : forall y e1 e2 f1 p1 a1 b1 c1 d1 f2 p2 a2 b2 c2 d2,
  octets a1 b1 c1 d1 -> octets a2 b2 c2 d2 -> is_u16 p1 -> is_u16 p2 ->
  is_endpoint y e1 f1 p1 a1 b1 c1 d1 -> is_endpoint y e2 f2 p2 a2 b2 c2 d2 ->
  same_on y e1 e2 = true <-> (f1, p1, (a1, b1, c1, d1)) = (f2, p2, (a2, b2, c2, d2)).
Proof. exact same_iff. Qed.
Print Assumptions C115_same.

(** Where the data of a connection goes. The address of the first O->T item: as
    above; if it is 0.0.0.0 or there is no item, the host of the session. *)
Theorem C115_dest : forall l h aton host items i f p a b c d rest, is_u16 f -> is_u16 p -> octets a b c d ->
  find (fun i => it_type i =? 32768) items = Some i -> it_data i = on_wire f p a b c d ++ rest ->
  exists e, dest_on (mkLayout false l) h aton host items = Ok e
  /\ if (a =? 0) && (b =? 0) && (c =? 0) && (d =? 0) then e = of_text (mkLayout false l) aton host p
     else is_endpoint (mkLayout false l) e (if l then 0 else f) p a b c d.
Proof. intros. now apply (dest_little (mkLayout false l)) with i rest. Qed.
Print Assumptions C115_dest.
Theorem C115_dest_big : forall l h aton host items i f p a b c d rest, is_u16 f -> is_u16 p -> octets a b c d -> (l = true -> f < 256) ->
  find (fun i => it_type i =? 32768) items = Some i -> it_data i = on_wire f p a b c d ++ rest ->
  exists e, dest_on (mkLayout true l) h aton host items = Ok e
  /\ if (a =? 0) && (b =? 0) && (c =? 0) && (d =? 0) then e = of_text (mkLayout true l) aton host (swapped p)
     else is_endpoint (mkLayout true l) e (if l then f else swapped f) (swapped p) d c b a.
Proof. intros. now apply (dest_big (mkLayout true l)) with i rest. Qed.
Print Assumptions C115_dest_big.
Theorem C115_dest_none : forall y h aton host items, (forall i, In i items -> it_type i <> 32768) ->
  dest_on y h aton host items = Ok (of_text y aton host 2222).
Proof.
  intros y h aton host items N. unfold dest_on. destruct (find _ items) as [i|] eqn:E; [|reflexivity].
  apply find_some in E as [I E]. apply Z.eqb_eq in E. now destruct (N i I).
Qed.
Print Assumptions C115_dest_none.

(** The answer of the adapter names 192.168.1.7:2222, in the format of the
    protocol. On macOS the data of the connection is sent to an address of no family. *)
Definition named_item : cpitem := mkItem 32768 16 (on_wire 2 2222 192 168 1 7).
Definition no_text (s : string) : option bytes := None.
Theorem C115_refuted : exists y h aton host items e, y_big y = false /\ items = [named_item] /\ dest_on y h aton host items = Ok e
  /\ eo_host e = "192.168.1.7"%string /\ eo_port e = 2222 /\ forall p a b c d, ~ struct_is y (eo_addr e) AF_INET p a b c d.
Proof.
  exists (mkLayout false true), strict, no_text, "10.0.0.1"%string, [named_item]. eexists.
  split; [reflexivity|]. split; [reflexivity|]. split; [vm_compute; reflexivity|]. split; [reflexivity|]. split; [reflexivity|].
  intros p a b c d (len & E). cbn in E. discriminate.
Qed.
Print Assumptions C115_refuted.
(** On a big-endian host it is sent to 7.1.168.192:44552. *)
Theorem C115_big_refuted : exists y h aton host items e, y_len y = false /\ items = [named_item] /\ dest_on y h aton host items = Ok e
  /\ eo_host e = "7.1.168.192"%string /\ eo_port e = 44552 /\ struct_is y (eo_addr e) 512 44552 7 1 168 192.
Proof.
  exists (mkLayout true false), strict, no_text, "10.0.0.1"%string, [named_item]. eexists.
  split; [reflexivity|]. split; [reflexivity|]. split; [vm_compute; reflexivity|]. split; [reflexivity|]. split; [reflexivity|].
  exists 0. reflexivity.
Qed.
Print Assumptions C115_big_refuted.

(** The same address on the four kinds of hosts. *)
Definition reading (y : layout) : outcome (string * Z * mem) :=
  bind (read_on y strict (buf_of (on_wire 2 2222 192 168 1 7))) (fun '(e, _) => Ok (eo_host e, eo_port e, firstn 8 (eo_addr e))).
Example C115_readings :
  reading (mkLayout false false) = Ok ("192.168.1.7"%string, 2222, [2; 0; 8; 174; 192; 168; 1; 7])
  /\ reading (mkLayout false true) = Ok ("192.168.1.7"%string, 2222, [0; 0; 8; 174; 192; 168; 1; 7])
  /\ reading (mkLayout true false) = Ok ("7.1.168.192"%string, 44552, [2; 0; 174; 8; 7; 1; 168; 192])
  /\ reading (mkLayout true true) = Ok ("7.1.168.192"%string, 44552, [0; 2; 174; 8; 7; 1; 168; 192]).
Proof. vm_compute. repeat split. Qed.
Definition aton7 (s : string) : option bytes := if String.eqb s "192.168.1.7" then Some [192; 168; 1; 7] else None.
Example C115_text_example : forall y, struct_is y (eo_addr (of_text y aton7 "192.168.1.7" 2222)) AF_INET 2222 192 168 1 7
  /\ is_endpoint y (of_text y aton7 "192.168.1.7" 2222) AF_INET 2222 192 168 1 7.
Proof.
  intros y. assert (O : octets 192 168 1 7) by (unfold octets, is_u8; lia). assert (P : is_u16 2222) by (unfold is_u16; lia).
  destruct (text_right y aton7 "192.168.1.7" 2222 192 168 1 7 P O eq_refl) as (A & B & C). split; [exact C|]. split; [exact A|]. split; [exact B|exact C].
Qed.
Example C115_round_example : bdata (write_on (mkLayout true false) (buf_of []) (of_text (mkLayout true false) aton7 "192.168.1.7" 2222))
  = on_wire 512 44552 7 1 168 192.
Proof. vm_compute. reflexivity. Qed.
Example C115_same_example : exists e e', read_on (mkLayout false true) strict (buf_of (on_wire 2 2222 192 168 1 7)) = Ok (e, e')
  /\ same_on (mkLayout false true) e (of_text (mkLayout false true) aton7 "192.168.1.7" 2222) = false.
Proof. eexists. eexists. split; vm_compute; reflexivity. Qed.
Example C115_dest_example : find (fun i => it_type i =? 32768) [named_item] = Some named_item
  /\ dest_on (mkLayout false true) strict aton7 "192.168.1.7" [mkItem 32768 16 (on_wire 2 2223 0 0 0 0)] = Ok (of_text (mkLayout false true) aton7 "192.168.1.7" 2223).
Proof. split; vm_compute; reflexivity. Qed.
