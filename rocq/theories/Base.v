(** Base definitions shared by all model files: outcomes, C++ integer
    conversions, byte strings, the memory that follows a buffer, and the
    state-passing monad used for code that talks to the outside world.
    No proofs here. *)
From Coq Require Export String Ascii.
From Coq Require Export List ZArith Lia Bool.
Export ListNotations.
Global Open Scope Z_scope.
Global Open Scope list_scope.

(** ** Outcomes *)

(** Messages of [std::runtime_error] thrown by the library; only which [throw]
    statement produced it (texts: MWhat). *)
Inductive rt_error :=
| RtEPathUnknownSegment      (* src/cip/EPath.cpp:167 *)
| RtEPathFormat              (* src/cip/EPath.cpp:172 *)
| RtMrrShort                 (* src/cip/MessageRouterResponse.cpp:27 *)
| RtMrrStatusSize            (* src/cip/MessageRouterResponse.cpp:38 *)
| RtCommonPacketFormat       (* src/eip/CommonPacket.cpp:50 *)
| RtEncapsShort              (* src/eip/EncapsPacket.cpp:28 *)
| RtEncapsLength             (* src/eip/EncapsPacket.cpp:41 *)
| RtSessionRegister          (* src/SessionInfo.cpp:29 *)
| RtSessionStatus            (* src/SessionInfo.cpp:59 *)
| RtSessionHandle            (* src/SessionInfo.cpp:64 *)
| RtRequestFailed            (* logGeneralAndAdditionalStatus followed by throw *)
| RtFileState                (* src/fileObject/FileObjectState.cpp *)
| RtFileTransferStatus       (* src/fileObject/FileObjectUploadInProgressState.cpp *)
| RtFaultNumber              (* src/vendor/ra/powerFlex525/DPIFaultParameter.cpp *)
| RtFaultCode                (* src/vendor/ra/powerFlex525/DPIFaultCode.h *)
| RtOther.

(** C++ exceptions that can leave a modelled function. *)
Inductive exn :=
| RuntimeError (r : rt_error)
| OutOfRange                 (* std::vector::at / std::map::at *)
| LengthError                (* std::vector constructor with an impossible size *)
| BadCall                    (* std::bad_function_call: an empty std::function is called *)
| SystemError (errno : Z).   (* std::system_error *)

(** Reasons for undefined behaviour. *)
Inductive ub :=
| UbOobRead                  (* read outside a std::vector *)
| UbShift                    (* shift count not smaller than the width *)
| UbSignedOverflow
| UbNullDeref                (* dereferencing a null pointer *)
| UbDerefEnd                 (* dereferencing a past-the-end iterator *)
| UbDangling                 (* using an object or iterator after it was destroyed *)
| UbFloatToInt               (* floating point value does not fit the integer type *)
| UbOobWrite.                (* write outside an object *)

(** Result of running modelled code. [Abort] is a failed [assert] or
    [std::terminate]. *)
Inductive outcome (A : Type) :=
| Ok (a : A)
| Throw (e : exn)
| Undef (u : ub)
| Abort.
Arguments Ok {A} a.
Arguments Throw {A} e.
Arguments Undef {A} u.
Arguments Abort {A}.

Definition bind {A B} (m : outcome A) (k : A -> outcome B) : outcome B :=
  match m with
  | Ok a => k a
  | Throw e => Throw e
  | Undef u => Undef u
  | Abort => Abort
  end.

Definition omap {A B} (f : A -> B) (m : outcome A) : outcome B :=
  bind m (fun a => Ok (f a)).

Declare Scope outcome_scope.
Delimit Scope outcome_scope with outcome.
Notation "x <- m ;; k" := (bind m (fun x => k))
  (at level 61, m at next level, right associativity) : outcome_scope.
Notation "' p <- m ;; k" := (bind m (fun p => k))
  (at level 61, p pattern, m at next level, right associativity) : outcome_scope.

(** ** Computations that change an external state *)

(** The state is kept also when an exception is thrown: effects already made
    (bytes sent, requests issued) are not undone. *)
Definition st (S A : Type) := S -> outcome A * S.

Definition st_ret {S A} (a : A) : st S A := fun s => (Ok a, s).
Definition st_lift {S A} (m : outcome A) : st S A := fun s => (m, s).
Definition st_throw {S A} (e : exn) : st S A := fun s => (Throw e, s).
Definition st_bind {S A B} (m : st S A) (k : A -> st S B) : st S B :=
  fun s => match m s with
           | (Ok a, s') => k a s'
           | (Throw e, s') => (Throw e, s')
           | (Undef u, s') => (Undef u, s')
           | (Abort, s') => (Abort, s')
           end.

Declare Scope st_scope.
Delimit Scope st_scope with st.
Notation "x <- m ;; k" := (st_bind m (fun x => k))
  (at level 61, m at next level, right associativity) : st_scope.
Notation "' p <- m ;; k" := (st_bind m (fun p => k))
  (at level 61, p pattern, m at next level, right associativity) : st_scope.

(** ** C++ integer conversions

    Conversion to an unsigned type is reduction modulo 2^n; conversion to a
    signed type is the representative in [-2^(n-1), 2^(n-1)) (C++20, which
    /repo/CMakeLists.txt selects). *)
Definition u8 (x : Z) : Z := x mod 256.
Definition u16 (x : Z) : Z := x mod 65536.
Definition u32 (x : Z) : Z := x mod 4294967296.
Definition u64 (x : Z) : Z := x mod 18446744073709551616.
Definition s8 (x : Z) : Z := (x + 128) mod 256 - 128.
Definition s16 (x : Z) : Z := (x + 32768) mod 65536 - 32768.
Definition s32 (x : Z) : Z := (x + 2147483648) mod 4294967296 - 2147483648.
Definition s64 (x : Z) : Z :=
  (x + 9223372036854775808) mod 18446744073709551616 - 9223372036854775808.

(** Values a C++ object of the given type can hold. *)
Definition is_u8 (x : Z) : Prop := 0 <= x < 256.
Definition is_u16 (x : Z) : Prop := 0 <= x < 65536.
Definition is_u32 (x : Z) : Prop := 0 <= x < 4294967296.
Definition is_u64 (x : Z) : Prop := 0 <= x < 18446744073709551616.
Definition is_s8 (x : Z) : Prop := -128 <= x < 128.
Definition is_s16 (x : Z) : Prop := -32768 <= x < 32768.
Definition is_s32 (x : Z) : Prop := -2147483648 <= x < 2147483648.
Definition is_s64 (x : Z) : Prop := -9223372036854775808 <= x < 9223372036854775808.

(** [std::vector<uint8_t>] *)
Notation bytes := (list Z).
Definition is_bytes (l : bytes) : Prop := Forall is_u8 l.
Definition is_words (l : list Z) : Prop := Forall is_u16 l.

(** [vector.size()] as an integer. *)
Definition zlen {A} (l : list A) : Z := Z.of_nat (List.length l).

Definition zeros (n : nat) : bytes := repeat 0 n.

(** ** Memory after a vector

    [h data i] is the byte found when [data] is read at the index [i] that is
    not below its size, or [None] if such a read is not survivable. [strict]
    makes every out-of-bounds read undefined. *)
Definition heap := bytes -> nat -> option Z.
Definition strict : heap := fun _ _ => None.
