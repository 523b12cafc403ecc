(** What the example programs are to do with a device that follows the protocol. *)
From Verif Require Import Base MBuffer SBuffer MEip SEip SObj MIdent MParam SParam SText MSocket MDisc SDisc MConnReq SConnReq MConn STarget.
Local Open Scope Z_scope.

(** ** Parameters *)

(** A device with the parameters [ps] (instances 1, 2, ...), the class
    descriptor [descr] and, when the value of instance 1 is asked for, [later]. *)
Definition offers_all (descr : Z) : bool := Z.testbit descr 1.
Definition instance (ps : list pdev) (i : Z) : option pdev :=
  if i <? 1 then None else nth_error ps (Z.to_nat (i - 1)).
Definition parameters_device (ps : list pdev) (descr : Z) (later more : bytes) : device unit :=
  fun _ q =>
    (match q with
     | mkReq 14 [(KClass, 15); (KInst, 0); (KAttr, 2)] [] => done (le 2 (zlen ps))
     | mkReq 14 [(KClass, 15); (KInst, 0); (KAttr, 8)] [] => done (le 2 descr)
     | mkReq 14 [(KClass, 15); (KInst, i); (KAttr, a)] [] =>
       match instance ps i with
       | Some p =>
         match a with
         | 1 => done (if i =? 1 then later else d_value p)
         | 6 => done [zlen (d_value p)]
         | 13 => done (le 2 (d_mult p))
         | 14 => done (le 2 (d_div p))
         | 15 => done (le 2 (d_base p))
         | 16 => done (le 2 (d_offset p))
         | _ => failed 20
         end
       | None => failed 5
       end
     | mkReq 1 [(KClass, 15); (KInst, i)] [] =>
       match instance ps i with
       | Some p => done (all_bytes (offers_all descr) p more)
       | None => failed 5
       end
     | _ => failed 8
     end, tt).

(** Numbered from [i] on. *)
Fixpoint numbered {A} (i : Z) (l : list A) : list (Z * A) :=
  match l with [] => [] | x :: l => (i, x) :: numbered (i + 1) l end.

(** The requests: the number, the descriptor, every parameter, the value of the
    first. *)
Definition scan_trace (ps : list pdev) (descr : Z) (later more : bytes) : trace :=
  [(attribute_request 0 2, done (le 2 (zlen ps))); (attribute_request 0 8, done (le 2 descr))]
  ++ List.concat (map (fun x => parameter_trace (fst x) (offers_all descr) (snd x) more) (numbered 1 ps))
  ++ match ps with [] => [] | _ => [(attribute_request 1 1, done later)] end.

(** The 16-bit number in the first two bytes. *)
Definition word_of (d : bytes) : Z := match d with lo :: hi :: _ => lo + 256 * hi | _ => 0 end.

(** The objects show the parameters, in order. *)
Definition shows_all (l : list param) (full : bool) (ps : list pdev) : Prop :=
  Forall2 (fun q x => shows_parameter q (fst x) full (snd x)) l (numbered 1 ps).

(** The parameter as it is with another value. *)
Definition with_value (p : pdev) (v : bytes) : pdev :=
  mkPdev v (d_link p) (d_descriptor p) (d_type p) (d_size_again p) (d_name p) (d_units p) (d_help p)
    (d_min p) (d_max p) (d_default p) (d_skipped p) (d_mult p) (d_div p) (d_base p) (d_offset p) (d_precision p).

(** ** Explicit messages *)
Definition vendor_request : request := mkReq 14 [(KClass, 1); (KInst, 1); (KAttr, 1)] [].
Definition output_request : request := mkReq 16 [(KClass, 4); (KInst, 151); (KAttr, 3)] [1; 2; 3; 4; 5; 6; 7; 8; 9; 10].

(** ** Assemblies *)
Definition assembly_request (n : Z) : request := mkReq 14 [(KClass, 4); (KInst, n); (KAttr, 3)] [].
Definition assembly_write (n : Z) (d : bytes) : request := mkReq 16 [(KClass, 4); (KInst, n); (KAttr, 3)] d.

(** A device with the assemblies 101 and 111; 111 can be written if the size is
    right. *)
Definition assemblies : device (bytes * bytes) :=
  fun '(a, b) q =>
    match q with
    | mkReq 14 [(KClass, 4); (KInst, 101); (KAttr, 3)] [] => (done a, (a, b))
    | mkReq 14 [(KClass, 4); (KInst, 111); (KAttr, 3)] [] => (done b, (a, b))
    | mkReq 16 [(KClass, 4); (KInst, 111); (KAttr, 3)] d =>
      if zlen d =? zlen b then (done [], (a, d)) else (failed 21, (a, b))
    | _ => (failed 5, (a, b))
    end.

(** A device that announces a file and then refuses every transfer. *)
Definition refusing : device unit := fun _ q =>
  (match q with
   | mkReq 14 [(KClass, 55); (KInst, 200); (KAttr, 1)] [] => done [2]
   | mkReq 75 [(KClass, 55); (KInst, 200)] _ => done (le 4 5 ++ [2])
   | _ => failed 16
   end, tt).

(** ** Implicit messages *)

(** The request for the connection, as the target reads it: input assembly 100
    and output assembly 150 of 32 bytes, a sequence number in both directions,
    a real-time header towards the target; point to point, scheduled, fixed
    size, every second. *)
Definition example_open (q : request) (c : cparams) : Prop :=
  q_service q = 84 /\ to_cm q = true /\ parse_fo 2 (q_data q) = Some c
  /\ c_vendor c = 342 /\ c_origSerial c = 74565 /\ c_o2tRPI c = 1000000 /\ c_t2oRPI c = 1000000 /\ c_trigger c = 1
  /\ c_priorityTimeTick c = 0 /\ c_timeoutTicks c = 0 /\ c_multiplier c = 0 /\ c_o2tId c = 0 /\ c_serial c = 1
  /\ 2 * c_pathSize c = zlen (c_path c) /\ c_path c = [32; 4; 36; 151; 44; 150; 44; 100]
  /\ (forall w, w = c_o2tParams c \/ w = c_t2oParams c ->
        part false FOwner w = 0 /\ part false FType w = 2 /\ part false FPriority w = 2 /\ part false FVar w = 0)
  /\ part false FSize (c_o2tParams c) = 2 + 4 + 32 /\ part false FSize (c_t2oParams c) = 2 + 32.
Definition example_close (q : request) (t : tconn) : Prop :=
  q_service q = 78 /\ to_cm q = true /\ parse_fc (q_data q) = Some (tc_serial t, tc_vendor t, tc_orig t, tc_path t).
(** What the application sees and what is sent: 32 bytes in, without a header;
    32 zero bytes out, behind the number of the packet and the header "run". *)
Definition example_packet (id k : Z) : bytes :=
  le 2 2 ++ (le 2 32770 ++ le 2 8 ++ le 4 id ++ le 4 (k mod 2 ^ 32))
         ++ (le 2 177 ++ le 2 38 ++ le 2 (k mod 65536) ++ [1; 0; 0; 0] ++ repeat 0 32).
Definition example_event (id : Z) (e : event) : Prop :=
  match e with
  | EvData _ hdr seq d => hdr = 0 /\ zlen d = 32
  | EvSent _ _ d => exists k, d = example_packet id k
  | EvClosed _ => True
  end.

(** ** Identities and devices *)

(** The characters of a text, as bytes. *)
Fixpoint chars (s : string) : bytes :=
  match s with EmptyString => [] | String c r => Z.of_nat (nat_of_ascii c) :: chars r end.
(** The numbers of an identity and its name, without anything between them. *)
Definition identity_line (i : ident) (s : string) : Prop :=
  exists a b c d e f g n, Forall2 numeral [a; b; c; d; e; f; g] [i_vendor i; i_type i; i_code i; i_major i; i_minor i; i_status i; i_serial i]
  /\ chars n = i_name i /\ s = (a ++ b ++ c ++ d ++ "." ++ e ++ f ++ g ++ n)%string.
(** Name and address of a device. *)
Definition unit_line (u : unit_info) (s : string) : Prop :=
  exists n a b c d p, chars n = i_name (u_ident u) /\ Forall2 numeral [a; b; c; d; p] [u_a u; u_b u; u_c u; u_d u; u_port u]
  /\ s = ("Discovered device: " ++ n ++ " with address " ++ a ++ "." ++ b ++ "." ++ c ++ "." ++ d ++ ":" ++ p)%string.
