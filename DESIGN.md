# Design

The repository under study is EIPScanner (C++), `/repo`. Everything here is read from its
source text; the code is not built or run. The model and proofs are in Rocq (Coq 8.16.1).

## 1. Style of the model

* **Values.** Machine integers are `Z`. A C++ conversion is written explicitly (`u8`, `u16`,
  `u32`, `u64`, `s8`, `s16`, `s32`, `s64` are reductions modulo `2^k`). Byte strings are
  `list Z`; theorems about C++ inputs carry the hypothesis that every element is in
  `[0,256)`, which is what the type `uint8_t` guarantees. Lengths and cursors are `nat`.
* **Outcomes.** `outcome A := Ok a | Throw e | Undef u | Abort`. `Throw` is a C++ exception
  (`runtime_error`, `out_of_range`, `length_error`, `system_error(errno)`), `Undef` is
  undefined behaviour with its reason, `Abort` a failed `assert` or `std::terminate`.
* **Memory after a buffer.** `Buffer::operator>>` does not check bounds. Functions that read
  take `h : heap`, which gives the byte found at an out-of-range index, or `None`.
  With `strict` (always `None`) every out-of-bounds read is `Undef`; a theorem quantified
  over `h` talks about all possible contents of adjacent memory. "Never accepted" theorems
  are for every `h`; memory-safety theorems are for `strict`. C90 shows that this is enough: a
  call that does not read outside with `strict` gives the same in every memory.
* **External world.** System calls, the peer, the clock and the adapter are explicit inputs:
  lists of results (every possible list is quantified over) or an abstract device
  `D -> request -> outcome response * D`. Listener calls, transmissions and requests are
  collected in event lists.
* **Files.** `M*.v` model (definitions only), `S*.v` specification (written from the property text
  and the wire format, without using model helpers), `P*.v` proofs, `T*.v` property
  theorems (`Theorem` / `exact` / `Print Assumptions`, and `Example`s).

## 2. Properties

For each property: what is modelled, and how it is proved. "Refute" means that the reading
of the code shows that the property as stated is false; the plan is a `_refuted` theorem with
a witness plus the strongest true part.

| id | modelled | plan |
|----|----------|------|
| C01 | all `Buffer` operators, `CipString`, `CipRevision`, `EndPoint` codec | typed value universe; induction over the list of values; FIFO view of the buffer |
| C02 | same | closed-form little-endian layout per type, induction over writes |
| C03 | same, with adjacent memory | for all `h`: cursor advance = width; `isValid` false is stable |
| C04 | `CipBaseString` | round trip for length < 2^8 / 2^16; refute beyond |
| C05 | `EndPoint`, `htons`, `inet_ntoa` on a little-endian host | arithmetic on bytes |
| C06 | `EPath` | closed-form layout; refute word count for the empty path |
| C07 | `EPath` | exact condition (iff) for equality after a round trip; refute for zero ids and 8-bit mode |
| C08 | `EPath::expandPaddedPath` | independent grammar of segments; equivalence; refute "truncation raises" in the strict reading (out-of-bounds read first) |
| C09 | `Yaskawa_EPath` | as C06/C07 |
| C10 | `MessageRouterRequest::pack` | independent decoder recovers service, path, data |
| C11 | `MessageRouterResponse::expand` | total characterisation, never `Undef` |
| C12 | `CommonPacket(Item)` | round trip by induction on items; refute above 2^16 |
| C13 | `CommonPacket::expand` | independent item grammar, for every `h` |
| C14, C15 | `EncapsPacket` | round trip, iff-characterisation of acceptance, never `Undef` |
| C16 | packet factories | closed-form bytes |
| C17, C18 | `MessageRouter::sendRequest` over an abstract session | adapter-side parser recovers the request; reply characterisation; refute memory safety on hostile replies |
| C19, C20 | `TCPSocket::Receive` over arbitrary `recv` results | induction over segments; refute early-close detection |
| C21 | `Send` return-value test with C++ integer conversions | refute for result -1; true for short counts |
| C22-C25 | `SessionInfo` over the TCP model | composition; refute registration against a closing peer, and pairing after a receive timeout |
| C26 | `TCPSocket` constructor as a sequence of system calls | case analysis over all results; refute for failures before the `try` |
| C27 | `NetworkConnectionParametersBuilder` | bit-level lemmas; refute overwriting and chaining on a copy |
| C28-C30 | forward open/close requests and response | closed-form layout, target-side decoder |
| C31-C37 | `ConnectionManager::forwardOpen/forwardClose` with static counters, the connection map, object lifetime | per-call characterisation and invariants over histories; refute where keys are truncated to 16 bits, sizes carry, path length is odd |
| C38-C45 | receive handler, `IOConnection::notifyReceiveData/notifyTick` | invariants over histories of ticks and datagrams |
| C46, C47 | `hasOpenConnections`, `handleConnections` | invariant; refute robustness against hostile datagrams |
| C48 | `EndPoint::operator<`, `_socketMap` | refute strict weak order; prove that all end points share one socket |
| C49, C50 | `makePortableInterval`, `select` | arithmetic; induction over rounds; refute boundedness |
| C51-C55 | `FileObject` and its states over an abstract device | honest file server for C52 (induction over chunks); refute C54 |
| C56, C57, C61 | `IdentityObject` | decoder characterisation; refute instance and truncation |
| C58-C60 | `ParameterObject` | decoder characterisation; scaling over exact rationals and with error bounds in binary64 (`PFloat`, `PScale*`); refute the inverse in binary64 and when the integer product overflows |
| C62, C63 | `DiscoveryManager::discover` | induction over replies; refute isolation of malformed replies |
| C64-C67 | `vendor/ra/powerFlex525` | device abstraction; table sweep; finite sweep over raw values for the floating point claims |
| C68, C69 | `Logger` | case analysis; refute C69 for level OFF |
| C70 | load/store interleavings of the static counter | refute with an interleaving; exactly the sequential schedules give distinct numbers |
| C71-C75 | as C38-C60, with every other field of a parameter unchanged by the setters of limits | reachable states; exact conditions; `double` as in `SpecFloat` |
| C76 | object clients and connection managers over `SessionInfo` over TCP | simulation: every client run over the network equals the run against the device itself (`SHost`, `PHost`); so does every program of managers (`SWire`, `PWire`) |
| C77 | listeners that call the manager | induction over the loop with the map as it is after each listener; agreement with `handle_connections` for listeners without calls |
| C78 | texts and comparisons | the numeral specification reads digits back; injectivity by cutting the text at the first character that is not a digit (end points: at the last colon) |
| C79 | target and managers | a strict target (STarget.v) that reads only request bytes; invariant: injection of the managers' connections into the target's, kept by every call; carried over to a TCP session by C76 |
| C80 | reported status | hexadecimal numerals that a reader function reads back; the message cut at the brackets |
| C81 | descriptors | the model emits every use of a descriptor; an independent `audit` goes over them; invariant: held descriptors = holders, without repetition |
| C82 | fresh data | refute; exact: copies have the same effect again, item types do not matter |
| C83 | example programs | compositions of the models already there with device specifications; refute where a device with short data or endless refusals breaks them |
| C84 | failures reach the caller | a session that notes its first failure and its use afterwards; "reported" is closed under sequencing, so one lemma per request and one per call |
| C85 | refusals | the same over the trace of requests and answers; decoders never raise the exception for refusals; refuted for Forward Close |
| C86 | exceptions out of `handleConnections` | as C77, for calls that do not return: the tick loop cut at the exception; refute the once-only claims |
| C87 | descriptors of sessions and discovery | as C81, for programs of sessions and discoveries; the leaks are described by the calls alone; a lemma about interleaved event lists joins C81 and C87 |
| C88 | reuse of objects | expand and setters from an arbitrary history of calls, against the last value given per field |
| C89 | synchronising file objects again | any state before; invariant between client and adapter over all orders of calls; ownership of handler calls for any session |
| C90 | every parser and call | same result in every memory unless the call reads outside; relation between a run in some memory and the strict run, kept by every step |
| C91 | upload handlers that call back | handlers as trees of calls and results; flattening: a nested run is a sequence of plain calls, so C89 carries over; refute synchronising from a handler that goes on |
| C92 | connection and target in a closed loop | co-simulation of the connection object with a target that has its own timeout; times of sends and slots *cover* the time axis with bounded gaps; refute for calls less than 1 ms apart; the bounds are tight |
| C93 | listeners that call `handleConnections` | nested calls bounded by the depth of the stack; relation of one connection's events to the tree of calls, by induction on the depth; refute for close and send listeners |
| C94 | the log tells which connections are open | reader of the messages (texts back to numbers); the fold over the log agrees with the map up to order, by induction over calls that return; counts of datagrams; refute for calls that fail and for equal serial numbers |
| C95 | errors keep their numbers while messages are logged | errno and logger as state, any effect of printing on errno; refinement to the models without log, with the one error number that is read after a message replaced |
| C96 | the log tells the state of a file object | a reader of the texts, replayed over all histories of calls; errors and requests matched one by one with handler calls and with what the adapter gets |
| C97 | requests and refusals in the log | the logged clients refine those without log; an inductive relation matches messages with exchanges, one by one; refute for file objects, 8-bit segments and interrupted fault handling |
| C98 | the log tells which sessions are registered | reader of the messages; permutation of handles as an invariant over all programs; link to the packets of C25 and to the answers of C22; refute for peers that close, failing sends and equal handles |
| C99 | only the documented exceptions are thrown | exceptions of every reader, socket call and packet check; the session is wrapped to keep the packets it received, so that the one to blame can be named; refute with an empty reply |
| C100 | the example programs as a whole | simulation as in C76 for every program, around it the constructor and the destructor of the session; composed with the devices of C83; refute with an adapter that refuses the identity |
| C101 | texts of exceptions | the same code once more with the text last thrown; forgetting the text gives the code of the other properties; decimal numerals as in C78; refute with a packet that is too long, a status of 2^32 - 1 and a refused registration |
| C102 | listeners that replace listeners | listeners as callables in slots that are assigned and destroyed; a history of assignments and calls; simulation by the listeners of C77; one rule for the whole run; refute with listeners that replace, close or remove themselves |
| C103 | one session used by several threads | interleaving of system calls; a lock gives the sequential run (invariant: the open call goes on as it would alone); without it, the replies in the order of reading; refute with two threads that swap or tear their replies |
| C104 | what a peer can make the library hold | volume of a stream before and after; sizes of what the readers return, as long as the world keeps an invariant (`modest` sessions, shown of sessions over TCP); refute with a file of one byte that does not end |
| C105 | how long calls take | sessions and discovery once more with a clock, every event with its time of arrival; refinement to the model without a clock (in pieces of one byte, with at most one timeout put in); a potential (clock, pending sends, signals still to come) that each byte raises by at most the timeout; refute with a reply that comes byte by byte |
| C106 | how long `handleConnections` takes | `select` and the loop once more with a clock and queues of datagrams; refinement to the rounds of `MConn`; a potential (clock and the handling of what is waiting); refute with a flood |
| C107 | copies of sessions | a table of descriptors as the system has it; invariants of programs that construct, copy, assign, use and destroy; simulation of `MRes` without copies; refute with a stale number |
| C108 | several connection managers | connections as objects that managers share; invariants of all programs; simulation of `MConn` for programs that keep managers apart; exact effect of closing through another manager; refute with two managers and with copies |
| C109 | Windows and macOS | the functions with system-dependent branches, with the system as a parameter; equal to the Linux models up to a renaming of error numbers; exact timeouts, sets of sockets and leaks; refute with slow peers, long datagrams, 65 sockets |
| C110 | listeners that wait for more data and replace listeners | C93 and C102 in one model; one rule for nested runs by induction on the depth; equal to `MSlot` without inner calls, to `MDeep` without assignments; exact condition for captures after an inner call; refute with listeners that wait while their connection times out or their slot is assigned |
| C111 | pointers to connections that the application keeps | the objects that only the application has, beside the manager; invariant: those are the ones kept and not open; the same run without the pointers; exact result of closing again; refute with a kept connection that timed out and with two ids with equal low halves |
| C112 | sessions when memory runs out | the session calls with an oracle that says at which places allocations fail; agreement with the model without oracle; exact table of what is left unread; simulation of all later exchanges against the list of replies; refute with two requests |
| C113 | texts of addresses | grammar of the notations; the parser accepts exactly the grammar; bytes of the address; exact result for every text and port; refute with a name, a large port and two spellings |
| C114 | who gets the data | packets with sender and receiver come to the host, which gives them to the sockets; a manager that is alone reads what was sent; several share it (permutation); refute with two managers, with a group and with a stranger |
| C115 | `EndPoint` in packets on hosts of other byte order and with `sin_len` | bytes in memory of `struct sockaddr_in`; right on Linux (equal to the main model for all buffers); exact result on the other three kinds of hosts; refuted for macOS and for big-endian hosts |
| C116 | `handleConnections`, `forwardOpen`, `forwardClose` when allocations fail | places that allocate, in order, each may fail; equal to the main model if none does or if the call ends otherwise; connections stay, what was done is a first part of what is done with enough memory; refuted: announced twice, used after that, numbers skipped, data lost, program ended, open connection left at the target |
| C117 | `FileObject` calls when allocations fail | as C116; an adapter that sends packets again gives the exact file, once, for every pattern of failures and repeated calls; refuted: a last packet counted twice, an upload that cannot be carried on, a destructor that ends the program |
| C118 | `DiscoveryManager::discover` when allocations fail | as C116, with the descriptors of C87: audit of the descriptor for every pattern of failures |
| C119 | PowerFlex 525: `DPIFaultManager::handleFaultParameters` when allocations fail | as C116; requests are noted in the order they are made, so that clearing the queue can be placed after the calls of the listener |
| C120 | PowerFlex 525: fault listeners that throw or use the session | the calls of such a listener as a prefix (up to its first exception) of those of C64; witnesses for what comes twice or is lost |
| C121 | requests over a real TCP session when memory runs out | the sessions of C112 meet what C116, C117 and C119 ask for; which of the replies a request takes, by what is unread before it; witnesses for a connection and a value that belong to an earlier request |
| C122 | identity and parameter objects when memory runs out | simulation against the model without oracle as in C116; the object after a failed update; notes of the requests made, a beginning of those with enough memory; calls made again; witnesses for the message that ends the program and for a value of another parameter |
| C123 | the console log when output fails | results of the writes as a list; the text each step should add, from C68; what comes out is a beginning of each; witnesses for messages lost after one failure and for two messages in one line |
| C124 | requests with Yaskawa paths when memory runs out | simulation against the router of C09 as in C121; the exact places; witnesses for data of another assembly and for the message that ends the program |

C41 and C44 are first proved for one connection and then transferred to every history of a manager with any number of
connections, opens, closes and datagrams: what such a history does to a connection is what the events that
belong to it do to it alone (`SLife`, `PLife`, theorems `C41_history`, `C44_history`).

Nothing in the list is inexpressible. What a model cannot exhibit (real scheduling, kernel
behaviour, rounding in `std::pow`, cost) is listed with the trusted base below as the work
proceeds.

## 3. Trusted base

**Kernel.** The proofs are checked by the Coq 8.16.1 kernel (`coqc`, and once more by `coqchk`). No native code,
no plugins, no extraction; `vm_compute` is used only where noted in the file and always on small closed terms.

**Axioms.** Every property theorem in `T*.v` is followed by `Print Assumptions`; all of them
answer "Closed under the global context". Some standard library files that are loaded (ssreflect, through
`Coq.micromega`/`QArith`) declare module-level parameters (`Coq.ssr.ssrunder.Under_rel.*`); no theorem uses them.

**What is trusted beyond the kernel.**

* That the `M*.v` files say what the C++ says. Every definition names the file and lines it models. The language
  rules used: integer promotion and conversion as on LP64 with 32-bit `int`, two's complement, little-endian host (other hosts: C115),
  enumerators of unfixed enums hold any value read from the wire; `std::vector`, `std::map`, `std::shared_ptr`,
  `std::weak_ptr` behave as the standard says.
  As a check, `TTests.v` repeats the unit tests of the repository (`/repo/test`, all that are enabled and test the
  library) on the model: each expectation holds. Two of them (`TestEPath.ShouldThrowExceptionIfThePathNotComplited`,
  `CommonPacket.ShouldThrowErrorIfDataIsInvalid`) hold only where reading behind a `std::vector` happens to be harmless;
  in the `strict` memory they are undefined behaviour.
* POSIX calls return what the quantified inputs of the model say; nothing is assumed about them except where a theorem
  has a hypothesis. Two assumptions appear as hypotheses: `sendto()` on a datagram socket sends all or nothing
  (C43, C46), and `inet_aton` is a function of the text (C05, C36; in C113 that of glibc). In C114 the host hands out
  packets as Linux does: to one of the sockets at the port, those for a group to all if the host is a member.
* `std::pow(10, n)` is taken to be the correctly rounded power (C59, C65, C75); `double` is IEEE 754 binary64 with
  round to nearest even, as defined in the standard library module `SpecFloat`.

**Code that is modelled.**

| model | code |
|-------|------|
| `MBuffer` | `utils/Buffer`, `cip/CipString`, `cip/CipRevision`, `sockets/EndPoint`, `cip/Types.h` |
| `MEip` | `cip/EPath`, `cip/MessageRouterRequest`, `cip/MessageRouterResponse`, `eip/*`, `MessageRouter` |
| `MYaskawa` | `vendor/yaskawa/mp3300iec/*` |
| `MSocket` | `sockets/TCPSocket`, `UDPSocket::Send/Receive`, `BaseSocket::makePortableInterval`, `SessionInfo` |
| `MConnReq` | `cip/connectionManager/*` |
| `MConn` | `ConnectionManager`, `IOConnection`, `BaseSocket::select`, `UDPBoundSocket` |
| `MReent` | `handleConnections` and `IOConnection` with listeners that call the library or throw |
| `MDeep` | `MReent` with listeners that call `handleConnections` |
| `MSlot` | `MReent` with listeners that are replaced, removed and destroyed |
| `MInner` | `MDeep` and `MSlot` together |
| `MStr` | default constructor of `CipBaseString` |
| `MKeep` | applications that keep the `shared_ptr` of a connection |
| `MMem` | session calls when allocations fail (`std::bad_alloc`), and the messages they log |
| `MAton` | `inet_aton` (of glibc) as the constructor of `EndPoint` calls it |
| `MPort` | the sockets at port 2222 of all managers of a host: `UDPBoundSocket`, `UDPSocket::Receive`, `findOrCreateSocket` as seen from the network |
| `MEndian` | `struct sockaddr_in` as bytes in memory: constructors of `EndPoint`, `operator==`, `Buffer` operators for end points, destination in `forwardOpen`, for big- and little-endian hosts with and without `sin_len` |
| `MLow` | `notifyTick`, `handleConnections`, `findOrCreateSocket`, `forwardOpen`, `forwardClose` when allocations fail (`std::bad_alloc`), and the messages they log |
| `MFileLow` | constructor, `beginUpload`, `handleTransfers` and destructor of `FileObject` when allocations fail |
| `MDiscLow` | `discover` when allocations fail |
| `MFaultLow` | `DPIFaultManager`, `DPIFaultParameter` and `DPIFaultCode` when allocations fail |
| `MFaultCall` | `DPIFaultManager::handleFaultParameters` with listeners that throw or make requests |
| `MObjLow` | the constructors of `IdentityObject` and `ParameterObject` that read from a device, and `updateValue`, when memory runs out |
| `MYaskLow` | `Yaskawa_MessageRouter::sendRequest` when memory runs out |
| `MConsole` | `ConsoleAppender::print` and `Logger` with a `std::cout` whose writes can fail |
| `MShared` | `SessionInfo::sendAndReceive` in several threads, one system call at a time |
| `MTime` | `SessionInfo`, `TCPSocket::Receive` and `DiscoveryManager::discover` with a clock |
| `MPoll` | `BaseSocket::select` and `ConnectionManager::handleConnections` with a clock |
| `MCopy` | copies, assignment and destruction of `SessionInfo` with the table of descriptors of the system |
| `MMany` | several `ConnectionManager`s: copies, assignment, destruction, connections closed through other managers, handlers that captured another manager |
| `MMsg` | messages of `ConnectionManager.cpp`, `IOConnection.cpp` and `MessageRouter.cpp` at level INFO and above |
| `MErrno` | `errno`, log messages and the order of both in `sockets/TCPSocket.cpp`, `sockets/UDPSocket.cpp`, `DiscoveryManager.cpp` |
| `MFileLog` | log messages of `fileObject/*.cpp` and `FileObject.cpp`, with those of the requests they make |
| `MObjLog` | log messages of `IdentityObject`, `ParameterObject`, `vendor/ra/powerFlex525/*` and `Yaskawa_MessageRouter` |
| `MSessLog` | log messages of `SessionInfo.cpp` |
| `MFile` | `FileObject`, `fileObject/*` |
| `MSync` | `FileObjectState::SyncState` on an existing object, calls on a `FileObject` in any order |
| `MNest` | upload handlers that call the file object or throw (`FileObjectLoadedState`, `FileObjectUploadInProgressState`) |
| `MIdent`, `MParam` | `IdentityObject`, `ParameterObject`, `BaseObject` |
| `MReal` | the `REAL` and `LREAL` instances of the templates of `ParameterObject` |
| `MFault` | `vendor/ra/powerFlex525/*` |
| `MDisc` | `DiscoveryManager` |
| `MLog` | `utils/Logger`; the serial counter under threads |
| `MStatus` | `logGeneralAndAdditionalStatus` (the text) |
| `MExample` | the example programs (their own output as text where it is compared) |
| `MMain` | main() of the example programs that use a session, from its construction to its destruction; an exception terminates the program |
| `MFd` | `MConn` once more with descriptors: `UDPSocket`, `UDPBoundSocket`, `select`, destruction of connections and managers; `FD_SET` in the `TCPSocket` constructor |
| `MRes` | `MSocket` (sessions) and `MDisc` once more with descriptors |
| `MReuse` | default constructors and `expand` on used objects: `EPath`, `Yaskawa_EPath`, `EncapsPacket`, `CommonPacket`, `MessageRouterResponse`, `ConnectionParameters` |
| `MWin` | the Windows and macOS branches of `sockets/BaseSocket.cpp`, `TCPSocket.cpp`, `UDPSocket.cpp`, `Platform.*`, `DiscoveryManager.*` (`inet_pton` is a parameter like `inet_aton`; socket handles fit into an `int`) |
| `MWhat` | texts of the exceptions of paths, packets, sessions, parameter and file objects |

**Code that is not modelled.** The Windows and Apple branches outside of `MWin` (`WSAStartup` in the examples; included headers);
the constant texts of the exceptions that `MWhat` leaves out (which exception is raised is modelled); a message at level DEBUG that is never logged
(`ConnectionManager.cpp`, line 236: the handler is replaced before it can be called);
trivial getters and setters that only copy a member; memory exhaustion (`std::bad_alloc`) outside of sessions (`MMem`), connections (`MLow`), file objects (`MFileLow`), discovery (`MDiscLow`), the fault manager (`MFaultLow`), the identity and parameter objects (`MObjLow`) and the Yaskawa router (`MYaskLow`);
failures of `std::cout` outside of `MConsole`. Listeners, handlers and appenders are modelled as functions of what they are given that do not throw
(except log appenders, C69) and do not call the library; only in C77 and C86 the listeners of connections open and close
connections, set data and throw, in C93 they also call `handleConnections`, in C102 they replace listeners, in C110 both, in C91 upload handlers use their object, and in C120 fault listeners throw and make requests. Payloads of NaNs are left out. Real scheduling is not modelled except for the interleavings of C70 (accesses to the serial number) and C103 (system calls on one session; that the threads are otherwise free of data races is not shown).

## 4. Findings

Theorems named `*_refuted` exhibit inputs for which the property is false of the code. They are, by component:

* **Strings and paths.** A `CipShortString`/`CipString` of more than 255/65535 bytes announces a length modulo
  2^8/2^16 but emits all bytes (C04). A default-constructed `EPath` announces 0 words but packs one class segment
  (C06, C09, C10). A zero object or attribute id, or an id above 255 in 8-bit form, does not survive a round trip (C07).
  Truncated segments and packet items are refused only after they were read out of bounds (C08, C13).
* **Packets.** More than 65535 items or bytes in an item wrap the 16-bit fields (C12). A reply whose encapsulation data
  ends right after the timeout field is read out of bounds instead of being refused (C18). A reply without two items makes `sendRequest` and all
  object constructors throw `std::length_error` or `std::out_of_range`, which their headers do not announce (C99).
* **Examples.** No example program catches exceptions: if the adapter refuses the identity, or the UDP port is taken,
  the program is terminated with its session registered (C100).
* **TCP.** `Receive` treats the end of the stream like data: the missing bytes are zeros (C20), so a peer that closes at once
  "registers" a session with handle 0 (C22), whose handle check is then off (C23). `Send` compares `int` with
  `size_t`, so −1 counts as success (C21). After a receive timeout the late reply answers the next request (C24). A short
  send in `~SessionInfo` terminates the program and a failing one leaves the session registered at the adapter (C25) while the log says that it is unregistered; a session whose adapter has closed the connection at once is logged as registered with handle 0 (C98). A failing `fcntl` before the `try` leaks the descriptor (C26). A signal
  during the connecting `select` is reported as `ETIMEDOUT` (C26).
* **Texts of exceptions.** The text with the address of a device that refuses the registration is never used, because `sendAndReceive` throws first; a packet with too many bytes is said to have "only" so many; a status of 2^31 or more is shown as a negative number; the unknown state of a file object is not shown, nor which parameter object could not be read (C101).
* **Listeners that replace themselves.** The listener is called in place, so one that replaces itself or, in a receive listener, closes its connection is destroyed while it runs: a lambda that uses its captures afterwards uses freed memory. A listener that was removed (set to an empty `std::function`) is called all the same: `std::bad_function_call` leaves `handleConnections`, and all connections miss their tick (C102).
* **Strings without a text.** `CipBaseString() = default` leaves the length without a value: such a string has no text, but it is encoded with whatever length is found in memory, and what follows is then read as its text (C04).
* **Host names.** The constructor of `EndPoint` tests `inet_aton(...) < 0`, but `inet_aton` returns 0 for a text it cannot read. So a host name, or a misspelt address, is not refused: the end point has the address 0.0.0.0, and a session "to plc.local" is one to this host (`C113_any`, `C113_refuted`). A port above 65535 is cut to 16 bits while `getPort()` shows the whole (`C113_port_refuted`). Two spellings of one address are different end points (`C113_spelling_refuted`).
* **One port for all.** Every manager binds a socket to port 2222 with SO_REUSEADDR. If a host has two managers (in one program, or two programs), the system gives a datagram to one of the sockets, whatever connection it is for. The manager that gets it does not know the connection and drops it; the connection it was for times out although its device sends (`C114_refuted`; `C114_shared` and `C114_any` say what does hold). A connection of type multicast never gets data on a host of its own: the reply's item with the group (0x8001) is not looked at and no group is joined (`C114_items`, `C114_elsewhere`, `C114_multicast_refuted`). The sender of a datagram is not looked at either, so anybody who knows (or guesses) 16 bits can feed a connection and keep it from timing out (`C114_sender`, `C114_sender_refuted`).
* **macOS and big-endian hosts (C115).** `Buffer >> EndPoint` writes 16 bits through a reference cast to `sin_family`. Where `sin_family` has 8 bits (macOS, BSD) the family becomes `htons` of one byte, cut to 8 bits, which is always 0. If the adapter names an address in the O->T item of a forward open, the data is then sent to an address of family 0 instead of AF_INET; such an end point is also never equal to the same one made from a text. On a big-endian host the octets of address and port are exchanged in both directions, so 192.168.1.7:2222 becomes 7.1.168.192:44552; writing and reading back shows nothing.
* **Console output.** `ConsoleAppender` never looks at the state of `std::cout`. After one failed write (a full disk, a closed pipe) all later messages are lost without notice, also when writing would succeed again (`C123_refuted`); if the program clears the stream, the next message continues the line that was cut (`C123_line_refuted`).
* **Not enough memory.** `sendAndReceive` is not exception safe: if an allocation fails after the request was sent, the reply (or its data, if the header was already read) stays in the socket. The caller can catch `std::bad_alloc`, but every later call on that session then gets the reply to the call before it, as a success, for as long as the session is used (`C112_shifted`, `C112_refuted`), or takes the data of a reply for a packet (`C112_garbage_refuted`). `~SessionInfo` allocates and lets the exception out, which ends the program with the session registered; so does `~Logger` when it copies the text of a message that is shown (`C112_ends_refuted`). In `handleConnections` the key of a connection that timed out is noted after its close listener was called; if there is no memory for it the connection stays, is announced as closed again, or gets data and sends after it was announced (C116). A number counted before the packet is made is skipped, a datagram that was read is lost, and a Forward Open that the target has answered is forgotten: the target keeps a connection that nobody can close. In an upload a call that ran out of memory can be repeated, but only an adapter that sends the same packet again can go on (C117). If the last packet makes a file of the wrong size, its data is already in the content when the message about that is made; repeating the call adds it again, and the file can then have the announced size and be handed over as complete (`C117_doubled_refuted`). `~FileObject` allocates during an upload, also if nothing is logged, and ends the program if that fails. Because replies stay unread, a `forwardOpen` that is tried again after `std::bad_alloc` gives the manager the connection of the first try, and the second one stays open in the target unnoticed; an attribute read after such a failure has the value of the one before (`C121_open_refuted`, `C121_value_refuted`; `C122_other_refuted` for `updateValue`, `C124_value_refuted` for the Yaskawa router). The message about a refused request can end the program (`C122_message_refuted`).
* **Kept pointers.** As long as an application keeps what `lock()` gave it, `lock()` goes on giving the connection after it was closed or timed out, so it does not tell whether the connection is open (nothing else does for one connection). Closing such a connection is not the "already closed" case: the target gets another Forward Close, then `assert(rc)` aborts, or, in any build, another connection whose id has the same low 16 bits is dropped without a Forward Close for it and without a call of its close listener (C111).
* **Listeners that wait.** A receive listener that calls `handleConnections` to wait for more data can be destroyed by that call: if its connection times out meanwhile, it is erased together with the running listener; and if the same listener, called again for the next datagram, sets another one, the outer call of it has been destroyed. Using a capture after the inner call is then a use of freed memory, although no call of the listener does anything to itself (C110).
* **Threads.** `sendAndReceive` is a `const` member function without a lock, and nothing in a request is compared with the reply. Two threads that read different attributes over one session can silently get each other's values, and if they read at the same time one can return a packet that the peer never sent, with the right status and handle (C103). The documentation calls the library a single thread one; the headers do not.
* **A file without end.** The size of a file that the adapter announces is looked at only when the last packet has come. An adapter that announces one byte and goes on sending middle packets makes the object grow by up to 255 bytes with every transfer, without end and without a call of the handler (C104). Everything else that a peer sends is bounded. One datagram can add up to 119 devices to the result of discovery (empty items, if reading behind their data does not fault).
* **The timeout is per byte.** SO_RCVTIMEO holds for one recv(), and `TCPSocket::Receive` calls it until everything is there. An adapter that sends a byte before each end of the timeout keeps one exchange going for 65559 times the timeout (18 hours with the default of one second), and a signal starts the wait again (C105). No timeout is set for send(). A timeout of 0 (or a negative one) gives up connecting at once but waits for replies for ever. `discover` ends only after a gap of the length of its timeout, so devices that answer one after the other, or anyone who sends datagrams, keep it going; with a timeout of 0 it does not end. Up to those limits every call does end, with the same result as without a clock.
* **Datagrams starve connections.** `BaseSocket::select` polls until nothing is ready, also after its timeout. Datagrams that come as fast as they are handled, also ones that are for no connection and from anyone, keep `handleConnections` going without end; no connection is ticked meanwhile, so none sends (each call sends at most one packet per connection) and none is found to have timed out (C106). If handling takes only a part r < 1 of the time, the call ends after 1/(1-r) of the timeout and the handling of what was waiting.
* **Copies of sessions.** `SessionInfo` (and `TCPSocket`, `UDPSocket`) can be copied and assigned, but the destructor of each copy unregisters the session and closes the number. When one copy is destroyed (a by-value parameter, the growth of a `std::vector<SessionInfo>`), the others are unusable (`EBADF`); once the system gives the number to another session they talk to the wrong adapter, take its answers for their own if the handles are equal, and end its session when they are destroyed. Nothing of this is reported, because a failing `send()` is not (see above). Assignment leaks the descriptor and the session of the object assigned to (C107).
* **Several connection managers.** `forwardClose` does not check that the connection is one of the manager's: given a connection of another manager it sends the Forward Close, leaves the connection where it is, and then the `assert` ends the program, or, if the manager has a connection whose id has the same low 16 bits, that one is dropped without a word. `ConnectionManager` can be copied, but the receive handlers have captured `this` of the manager that made the socket: a copy that outlives it runs the handler on a destroyed object with the first datagram, and connections opened through the copy never get their data (the handler looks into the map of the original). A connection that two copies have is announced as closed by both (C108).
* **Windows and macOS.** On Windows the socket is never made non-blocking, so the timeout for connecting has no effect: an unreachable adapter blocks `SessionInfo` for as long as the system tries (21 seconds instead of one). The receive timeout is converted to 32 bits: 2^32 ms is none at all, and a negative one, which is none on Linux, is 49 days. A datagram of more than 504 bytes ends the discovery with `WSAEMSGSIZE`, the devices found so far are lost, and one of more than 8192 bytes ends `handleConnections`; on Linux both are cut. `select` looks at the first 64 sockets only (but no descriptor is too large). On macOS seconds are converted to 32 bits, and a failing `SO_NOSIGPIPE` leaks the descriptor (C109).
* **Connection parameters.** Sizes above 511 are clipped in the 16-bit layout; `setRedundantOwner` returns a copy, so setters
  chained after it are lost in the variable (C27). Adding the overhead to the parameter word can carry out of the size
  field (C31). Odd or long paths get a wrong word count in Forward Close / Forward Open (C29, C31). A short Forward Open
  response is read out of bounds (C30).
* **Connections.** The connection map is keyed by 16 of the 32 bits of the T->O id: an alias makes a successful
  open return a dead pointer (C34), misroutes datagrams (C38) and lets a second close abort or remove another
  connection (C37). O->T multicast ids lose the incarnation id (C33). The serial counter overflows after 2^31−1 opens (C32)
  and loses updates between threads (C70). The run/idle header is read before the sequence count (C39). The
  timeout multiplier 4<<m is stored in 8 bits: m = 6, 7 give 0 (C42). Time is counted in whole milliseconds per tick, so
  frequent ticks never time out and never send (C41, C44): the target gives up and the originator does not notice (C92), and a target whose
  timeout is less than twice the interval can be lost at calls every 1 to 2 ms (C92); and the limit wraps at 2^32 µs (C41). Any
  malformed datagram ends `handleConnections` with an exception or is read out of bounds (C47). `handleConnections` before the
  first open dereferences an end iterator (C71). A close or send
  listener that closes its own connection makes `handleConnections` use a destroyed object and an invalid iterator, and a
  connection opened under the key of one that has just timed out is removed unnoticed (C77). A close listener that calls
  `handleConnections` has its connection destroyed under it; one called from a send listener makes a connection send sequence numbers out of order
  and can have the close listener of another connection called twice (C93). If a close listener throws, the connection stays in the map: the
  listener is called again at the next call, or a late datagram revives the connection and it goes on sending; a send
  listener that throws uses up a sequence number (C86). A close that fails and an open that fails after the answer are logged like successful ones, a connection "closed by timeout" stays open if sending for another one fails, and the message about a timeout has only the serial number, which the target chooses (C94). `UDPSocket::Receive` writes a message at the level TRACE between `recvfrom` and the look at `errno`: an appender that changes `errno` turns the timeout that ends every discovery into an error, so that all devices are lost, or an error into the timeout; a short send is reported with an old number, for instance 0, "Success" (C95). A second `beginUpload` logs that it initiates the upload again, but does nothing and drops the handler; `handleTransfers` of a loaded file object does nothing without a word (C96). When the state of a file object is refused, no message says so (C97). The polling loop does not end while data keeps arriving (C50). A target keeps connections no manager has, for ever: after a timeout (no Forward Close is sent), after a collision of ids modulo 65536, after an exception behind an accepted open (C79). Copies, late datagrams and items of any type are delivered (C82). A receiving socket (or a TCP socket that has to wait for its connection) with a descriptor of 1024 or more makes `FD_SET` write outside the set (C81).
* **Refusals.** Forward Close does not look at the status of the answer: a refused close removes the connection here while the
  target keeps it (C85).
* **Examples.** The parameter example takes the first parameter for a UINT whatever its type, and the assembly example reads 128
  bytes (`4 * sizeof(buffer)`, the size of the class, not of the data) from every answer: both read out of bounds with devices
  that follow the protocol; so does the explicit example with an empty vendor id. The file example never ends if transfers
  are refused. The line of the identity example has no separators, so different devices have the same line. The implicit example leaves the target's connection open if it stops by a timeout or an exception (C83).
* **End points.** `operator<` is not a strict weak order; all end points with equal ports are equivalent, so every manager
  has at most one receiving socket (C48).
* **File object.** An empty state reply is read out of bounds (C51). A packet shorter than the transfer size is completed with
  bytes beyond the reply and reported as success (C53). A refused transfer reports the error and goes on for ever (C54). After the
  first accepted upload `beginUpload` is ignored (C73) until the state is read again through `getState()` (C89).
  A handler that does so destroys itself: the handler of an upload in progress is a member of the state object that is
  replaced. Any further call it makes is undefined, so a handler cannot start the next upload itself (C91). A handler that
  begins again when refused exhausts the stack if the adapter keeps refusing (C91).
* **Identity and parameters.** The instance number is ignored (C57). Exceptions for short replies are constructed but not
  thrown (C61; also C60, C67, C74). `multiplier * base` overflows `int` (C59). Engineering limits are
  truncated, 0.29 becomes 28 hundredths (C75); the loss is never more than one unit. With a multiplier or a base of 0, which
  the adapter sends, every engineering limit is a conversion of infinity or a NaN to an integer, undefined (C75). A `REAL` limit of zero with an
  offset is stored as a number near zero, an `LREAL` limit whose engineering value is out of range as infinity (C75).
* **Discovery.** Replies above 504 bytes lose devices, item types are not looked at (C62). One malformed reply loses all
  devices; a failed `sendto` is not noticed (C63).
* **Drive faults.** A fault code missing from the table ends the handling and the queue is not cleared (C64). With 8-bit path segments
  parameter numbers above 255 are cut (C65) while the log shows the full number; faults given to the listener before a request is refused are not counted in the log (C97). If memory runs out between the listener and the clear command, the next call hands the same faults over again; the message about the number of faults, if shown, can end the program (C119). If a listener throws, the next call hands over from the first fault again; a listener that clears the queue itself loses the other faults, because each is read just before it is handed over (C120).
* **Logger.** The general status of a refused request is logged as a character instead of a number: status 0x35 is shown as `0x5` (C80). `Logger(OFF)` on the console ends the program (C69).

## 5. Wrong programs

`seeded/LOG.jsonl` lists edits of the model (each a plausible bug, some of them the obvious fix of a finding), made in a scratch
copy, with the theorems that no longer prove. Where an edit survived although the claim had become false, the
entry names the theorem that was tightened.
