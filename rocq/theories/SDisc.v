(** Specification of the discovery of devices. *)
From Verif Require Import Base MBuffer SBuffer MEip SEip MIdent SParam MSocket MDisc.
Local Open Scope Z_scope.

(** A device as it announces itself in an identity item: protocol version,
    address family, address, port, the eight bytes that fill up the address,
    identity. *)
Record unit_info := mkUnit {
  u_version : Z; u_family : Z; u_a : Z; u_b : Z; u_c : Z; u_d : Z; u_port : Z; u_fill : bytes; u_ident : ident }.
Definition unit_wf (u : unit_info) : Prop :=
  is_u16 (u_version u) /\ is_u16 (u_family u) /\ is_u8 (u_a u) /\ is_u8 (u_b u) /\ is_u8 (u_c u) /\ is_u8 (u_d u)
  /\ is_u16 (u_port u) /\ (is_bytes (u_fill u) /\ zlen (u_fill u) = 8) /\ ident_wf (u_ident u).
Definition unit_bytes (u : unit_info) : bytes :=
  le 2 (u_version u) ++ be16 (u_family u) ++ be16 (u_port u) ++ [u_a u; u_b u; u_c u; u_d u] ++ u_fill u
  ++ ident_bytes (u_ident u).

(** What a program finds in an entry of the result. *)
Definition shows_unit (u : unit_info) (e : entry) : Prop :=
  shows_identity (en_identity e) (u_ident u)
  /\ en_address e = the_endpoint (u_family u) (u_a u) (u_b u) (u_c u) (u_d u) (u_port u).

(** An item of a reply that announces a device; more data (the state of the
    device) may follow. *)
Definition announcement (u : unit_info) (i : cpitem) : Prop :=
  item_wf i /\ unit_wf u /\ exists more, it_data i = unit_bytes u ++ more.

(** The 504 bytes that are looked at, for a datagram of any length. *)
Definition seen504 (l : bytes) : bytes :=
  firstn (Z.to_nat 504) l ++ zeros (Z.to_nat 504 - List.length l).

(** A reply announcing the devices [us]: header, number of items, the items.
    The number of items may be larger if they end with the last byte. *)
Definition announces (l : bytes) (us : list unit_info) : Prop :=
  exists header count items rest, List.length header = 24%nat /\ is_u16 count
    /\ Forall2 announcement us items
    /\ seen504 l = header ++ le 2 count ++ items_bytes items ++ rest
    /\ (zlen items = count \/ zlen items < count /\ rest = []).

(** A reply that fits. *)
Definition fits (l : bytes) (us : list unit_info) : Prop :=
  (List.length l <= Z.to_nat 504)%nat /\
  exists header items, List.length header = 24%nat /\ Forall2 announcement us items
    /\ l = header ++ cpf_bytes items.

(** The socket could be opened, and sendto() sent everything. *)
Definition open (k : dkernel) : Prop :=
  dk_socket k = None /\ dk_broadcast k = None /\ s_count (dk_send k) = 24.

(** The ListIdentity request (CIP volume 2, 2-4.2.2). *)
Definition list_identity_request : bytes :=
  [99; 0;  0; 0;  0; 0; 0; 0;  0; 0; 0; 0;  0; 0; 0; 0; 0; 0; 0; 0;  0; 0; 0; 0].

(** The next recvfrom() times out. *)
Definition timeout (ds : list dgram) : Prop := ds = [] \/ exists r, ds = DErr 11 :: r.

(** What arrives consists of bytes. *)
Definition dgram_bytes (d : dgram) : Prop := match d with Dgram l => is_bytes l | DErr _ => True end.
