(** Model of the example programs (examples/): what they ask, what they read out
    of the answers and what they show. Logging is left out; the session is made
    before (MSocket.v). *)
From Verif Require Import Base MBuffer MEip MFile MYaskawa MIdent MParam MFault MSocket MConnReq MConn MDisc.
Local Open Scope Z_scope.
Local Open Scope outcome_scope.

Section Programs.
Context {W : Type}.
Variables (h : heap) (si : session_if W).

(** examples/ParameterObjectExample.cpp:42-54, 59-71: an attribute of the
    parameter class; [None]: the program shows the status and returns -1. *)
Definition class_attribute (a : Z) : st W (option Z) :=
  (r <- send_request h si false GET_ATTRIBUTE_SINGLE (epath3 PARAMETER_CLASS_ID 0 a) [] [] ;;
   if r_status r =? GSC_SUCCESS then st_lift (omap (fun x => Some (fst x)) (get_u16 h (buf_of (r_data r))))
   else st_ret None)%st.

(** examples/ParameterObjectExample.cpp:79-81: [n] parameters from [i] on *)
Fixpoint read_from (full : bool) (i : Z) (n : nat) : st W (list param) :=
  match n with
  | O => st_ret []
  | S n' => (p <- param_read h false si i full ;; r <- read_from full (i + 1) n' ;; st_ret (p :: r))%st
  end.

(** examples/ParameterObjectExample.cpp:83-93; what the getters
    return before the update, and the value after it. *)
Definition use_first (l : list param) : st W (list param * option (Z * num double * Z)) :=
  match l with
  | [] => st_ret ([], None)
  | p :: r =>
    (v <- st_lift (encode_value h IU16 (pa_value p)) ;;
     x <- st_lift (get_eng double h IU16 p (pa_value p)) ;;
     fun w => let '(o, (p', w')) := update_value h false si (p, w) in
              match o with
              | Ok _ => (omap (fun v' => (p' :: r, Some (v, x, v'))) (encode_value h IU16 (pa_value p')), w')
              | Throw e => (Throw e, w')
              | Undef u => (Undef u, w')
              | Abort => (Abort, w')
              end)%st
  end.

(** examples/ParameterObjectExample.cpp:41-93 ([descriptor & 2]); [None]: the
    program returns -1. *)
Definition parameter_example : st W (option (list param * option (Z * num double * Z))) :=
  (n <- class_attribute 2 ;;
   match n with
   | None => st_ret None
   | Some n =>
     d <- class_attribute 8 ;;
     match d with
     | None => st_ret None
     | Some d =>
       l <- read_from (negb (Z.land d 2 =? 0)) 1 (Z.to_nat n) ;;
       r <- use_first l ;;
       st_ret (Some r)
     end
   end)%st.

(** examples/ExplicitMessagingExample.cpp:41-79: the vendor id that is shown or
    the status of a refused request, then the status of writing. *)
Definition explicit_example : st W ((Z + Z) * Z) :=
  (r <- send_request h si false GET_ATTRIBUTE_SINGLE (epath3 1 1 1) [] [] ;;
   v <- (if r_status r =? GSC_SUCCESS
         then st_lift (omap (fun x => inl (fst x)) (get_u16 h (buf_of (r_data r))))
         else st_ret (inr (r_status r))) ;;
   r <- send_request h si false SET_ATTRIBUTE_SINGLE (epath3 4 151 3) [1; 2; 3; 4; 5; 6; 7; 8; 9; 10] [] ;;
   st_ret (v, r_status r))%st.

(** examples/FileObjectExample.cpp:37-39: what is in the file after these calls
    of the handler; opening and writing succeed. *)
Definition written (calls : list hcall) : option bytes :=
  fold_left (fun file c => if hc_status c =? GSC_SUCCESS then Some (hc_content c) else file) calls None.
(** examples/FileObjectExample.cpp:35-45: whether the program is still running
    after [n] calls of handleTransfers, and the file. *)
Definition file_example (n : nat) : st W (bool * option bytes) :=
  (f <- file_open h false si 200 ;;
   fun w => let '(o, (f', w')) := upload h false si 0 n (f, w) in (omap (fun more => (more, written (fo_calls f'))) o, w'))%st.

(** std::string is a list of bytes. *)
Definition text_of (l : bytes) : string := string_of_list_ascii (map (fun x => ascii_of_nat (Z.to_nat x)) l).
(** examples/IdentityObjectExample.cpp:31-39: the line that is written; numbers
    are written one after the other. *)
Definition identity_example : st W string :=
  (o <- identity_read h false si 1 ;;
   st_ret (to_string (id_vendor o) ++ to_string (id_type o) ++ to_string (id_code o) ++ rev_to_string (id_revision o)
           ++ to_string (id_status o) ++ to_string (id_serial o) ++ text_of (str_std (id_name o)))%string)%st.
(** examples/DiscoveryManagerExample.cpp:29-36: the lines that are written. *)
Definition device_line (e : entry) : string :=
  ("Discovered device: " ++ text_of (str_std (id_name (en_identity e))) ++ " with address " ++ ep_to_string (en_address e))%string.
Definition discovery_example (aton : string -> option Z) (k : dkernel) (ds : list dgram) : outcome (list string) * sent_to :=
  let '(o, sent) := discover h k (ep_of_host aton "172.28.255.255" 44818) ds in (omap (map device_line) o, sent).

(** ** examples/vendors/yaskawa/mp3300iec/Yaskawa_AssemblyObjectExample.cpp *)

(** Lines 82-94: [n] bytes, one after the other. *)
Fixpoint read_buffer (b : buffer) (n : nat) : outcome bytes :=
  match n with
  | O => Ok []
  | S n' => '(x, b) <- get_u8 h b ;; r <- read_buffer b n' ;; Ok (x :: r)
  end.

(** Lines 130-157: [4 * sizeof(buffer)] bytes are read; a Buffer is a vector
    and a size_t, 32 bytes on LP64. *)
Definition read_assembly (instance : Z) : st W bytes :=
  (r <- ysend_request h si GET_ATTRIBUTE_SINGLE (ypath3 4 instance 3) [] [] ;;
   if r_status r =? GSC_SUCCESS then st_lift (read_buffer (buf_of (r_data r)) (4 * 32))
   else st_ret [])%st.

(** Lines 104-121 *)
Definition write_assembly (instance : Z) (data : bytes) : st W bool :=
  (r <- ysend_request h si SET_ATTRIBUTE_SINGLE (ypath3 4 instance 3) data [] ;;
   st_ret (r_status r =? GSC_SUCCESS))%st.

(** Lines 58-73 *)
Fixpoint fill_from (i : Z) (offset : Z) (n : nat) : bytes :=
  match n with
  | O => []
  | S n' => (if i <? offset then 0 else 222) :: fill_from (i + 1) offset n'
  end.
Definition fill_vector (offset : Z) (size : nat) : bytes := fill_from 0 offset size.

(** Lines 160-192 (main): the two vectors that were read and whether writing
    succeeded. *)
Definition yaskawa_example : st W (bytes * bytes * bool) :=
  (a <- read_assembly 101 ;;
   b <- read_assembly 111 ;;
   ok <- write_assembly 111 (fill_vector 0 128) ;;
   st_ret (a, b, ok))%st.
End Programs.

(** ** examples/ImplicitMessagingExample.cpp *)

(** Lines 44-60; the enumerators are those of
    src/cip/connectionManager/NetworkConnectionParams.h:14-44, the rest is as in
    src/cip/connectionManager/ConnectionParameters.h:15-31. *)
Definition example_word : Z := Z.lor (Z.lor (Z.lor 0 (Z.shiftl 2 13)) (Z.shiftl 2 10)) 32.
Definition example_params : cparams :=
  mkCParams 0 0 0 0 0 342 74565 0 1000000 example_word 1000000 example_word (Z.lor 0 1) 0 1 0
    [32; 4; 36; 151; 44; 150; 44; 100].

(** Lines 80-83: [n] more calls at most, [rs] what each of them meets; the
    number of calls made. There is no send listener. *)
Definition round : Type := list (sel_round dgram) * sel_end * (nat -> Z) * (nat -> Z -> send_result).
Fixpoint serve_loop {S} (h : heap) (rs : nat -> round) (n : nat) (w : world S) : outcome nat * world S :=
  match n with
  | O => (Ok 0%nat, w)
  | Datatypes.S n' =>
    if has_open (w_m w 0%nat) then
      let '(rounds, ending, now, send) := rs n' in
      match call_world h 0 (CHandle rounds ending (mkTick now (fun _ d => d) send)) w with
      | (Ok _, w) => let '(o, w) := serve_loop h rs n' w in (omap Datatypes.S o, w)
      | (Throw e, w) => (Throw e, w)
      | (Undef u, w) => (Undef u, w)
      | (Abort, w) => (Abort, w)
      end
    else (Ok 0%nat, w)
  end.

(** Lines 62-85. The listeners only log. *)
Definition implicit_example {S} (h : heap) (si : session_if S) (host : string) (env : fo_env) (rs : nat -> round) (w : world S)
  : outcome nat * world S :=
  match call_world h 0 (COpen false si host env false example_params) w with
  | (Ok io, w) =>
    let w := match io with
             | Some oid => match lock oid (w_m w 0%nat) with
                           | Some _ => snd (call_world h 0 (CData oid (zeros 32)) w)
                           | None => w
                           end
             | None => w
             end in
    match serve_loop h rs 200 w with
    | (Ok n, w) =>
      match io with
      | None => (Ok n, w)
      | Some oid => let '(o, w) := call_world h 0 (CClose false si oid) w in (omap (fun _ => n) o, w)
      end
    | r => r
    end
  | (Throw e, w) => (Throw e, w)
  | (Undef u, w) => (Undef u, w)
  | (Abort, w) => (Abort, w)
  end.
