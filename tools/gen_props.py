#!/usr/bin/env python3
"""Writes /verif/properties.jsonl.  One call P(...) per property."""
import json, os
OUT = os.path.join(os.path.dirname(__file__), "..", "properties.jsonl")
props = []
def P(id, title, statement, quantifier, why, anchors):
    props.append(dict(id=id, title=title, statement=statement, quantifier=quantifier,
                      why_tests_cant=why, anchors=anchors))

# ---------------------------------------------------------------- byte buffer
P("C01", "Buffer round trip",
  "Encoding any sequence of CIP values (8/16/32/64-bit signed and unsigned integers, REAL/LREAL bit patterns, byte and word vectors, SHORT_STRING, STRING, revisions, socket addresses) into a Buffer and then decoding the same types in the same order from Buffer(data) returns exactly the values that were written, consumes every byte, and leaves the buffer valid and empty.",
  "every finite sequence of well-typed values of every supported type, every value of each type",
  "The value and sequence spaces are unbounded; tests encode a handful of constants, one type at a time.",
  ["src/utils/Buffer.cpp: Buffer::operator<<, Buffer::operator>>", "src/utils/Buffer.h: CipBaseString operators"])
P("C02", "Buffer wire layout",
  "Whatever is written to a Buffer, data() is the concatenation, in write order, of the little-endian encodings of the values (socket addresses: big-endian family and port, address in network order, eight zero bytes); a write appends exactly the width of its type and never changes bytes written before.",
  "every sequence of writes of every type and value, on any earlier contents",
  "Layout must hold for every value including those with the sign bit set; tests use small constants whose high bytes are small.",
  ["src/utils/Buffer.cpp: Buffer::operator<<"])
P("C03", "Buffer over-reads are detectable",
  "Decoding consumes exactly the width of the type. A decode that stays inside the data returns the bytes at the cursor, whatever lies in memory after the buffer; a decode that runs past the end is an out-of-bounds read (undefined behaviour), and if execution survives it isValid() is false from then on, whatever bytes were found in memory and whatever is decoded next.",
  "every buffer content, cursor, sequence of decodes and content of the adjacent memory",
  "Adjacent memory contents and all truncation points cannot be enumerated by tests.",
  ["src/utils/Buffer.cpp: Buffer::operator>>", "src/utils/Buffer.h: isValid, empty, pos, size"])
P("C04", "Strings of any admissible length survive encoding",
  "A SHORT_STRING (STRING) built from text of any length can be encoded and decoded without loss. One constructed without a text is the empty string.",
  "every byte string of every length, both string types",
  "The claim depends on the length relative to 2^8 and 2^16; tests use a few short strings.",
  ["src/cip/CipString.h: CipBaseString", "src/utils/Buffer.h: operator<<, operator>> for CipBaseString"])
P("C05", "Socket addresses survive encoding",
  "Decoding an encoded end point gives the same IPv4 address, port and family as the original, and getHost() of the decoded end point is the dotted-quad text of that address.",
  "every IPv4 address and every 16-bit port",
  "2^48 combinations and two byte-order conversions.",
  ["src/utils/Buffer.cpp: operator<<(EndPoint), operator>>(EndPoint)", "src/sockets/EndPoint.cpp"])
# ---------------------------------------------------------------- EPath
P("C06", "Packed EPATH layout and word count",
  "packPaddedPath emits, in order, the class, instance and attribute segments of the path (8-bit or 16-bit padded form), nothing else, and getSizeInWords times two is exactly the number of bytes emitted.",
  "every path the constructors can build and both segment widths",
  "All id values, path depths and modes; tests never pack a path in isolation.",
  ["src/cip/EPath.cpp: packPaddedPath, getSizeInWords"])
P("C07", "EPATH round trip",
  "Expanding a packed path gives back an equal path.",
  "every path the constructors can build, both segment widths",
  "Depends on which ids are zero and, in 8-bit mode, on ids above 255; tests cover none of these.",
  ["src/cip/EPath.cpp: packPaddedPath, expandPaddedPath, operator=="])
P("C08", "EPATH parsing accepts exactly well-formed paths",
  "expandPaddedPath succeeds exactly on byte strings that are a concatenation of complete class/instance/attribute segments; the ids are those of the last segment of each kind; a string with an unknown segment before any truncation raises an error, and a truncated string is never accepted.",
  "every byte string, every content of the memory after it",
  "All byte strings of all lengths, including every truncation point.",
  ["src/cip/EPath.cpp: expandPaddedPath"])
P("C09", "Yaskawa EPATH",
  "The Yaskawa path packs to 8-bit segments with a word count that equals half the byte count, and expanding a packed path gives back the ids.",
  "every Yaskawa path the constructors can build",
  "All id values and depths; there are no tests for this class.",
  ["src/vendor/yaskawa/mp3300iec/Yaskawa_EPath.cpp"])
# ---------------------------------------------------------------- messages
P("C10", "Message router request encoding",
  "The bytes of a request are the service code, the path length in words, the padded path and the data; a receiver that reads the word count and skips that many words finds exactly the path and then exactly the data.",
  "every service code, path, data and segment mode",
  "Unbounded data and all paths.",
  ["src/cip/MessageRouterRequest.cpp: pack"])
P("C11", "Message router response decoding is exact and memory safe",
  "For every byte string, expanding a response either raises std::runtime_error (shorter than 4 bytes, or an additional-status size that does not fit) or yields service code, general status, the additional status words and exactly the remaining bytes as data; it never reads outside the input.",
  "every byte string",
  "All byte strings, all additional status sizes; tests check one response.",
  ["src/cip/MessageRouterResponse.cpp: expand"])
P("C12", "Common packet round trip",
  "Packing a common packet and expanding the result gives the same items in the same order.",
  "every list of items (any count, any item size)",
  "Item counts and sizes are unbounded; limits sit at 2^16.",
  ["src/eip/CommonPacket.cpp: pack, expand", "src/eip/CommonPacketItem.cpp: pack"])
P("C13", "Common packet parsing accepts only complete items",
  "When expand succeeds every returned item is a complete item of the input, in order, and the number of items is the announced count or the input ended at an item boundary; a packet whose next item is cut short is never accepted.",
  "every byte string and every content of the memory after it",
  "All truncation points and lengths.",
  ["src/eip/CommonPacket.cpp: expand"])
P("C14", "Encapsulation packet round trip",
  "Packing an encapsulation packet gives a 24-byte header whose length field equals the number of data bytes, and expanding the bytes gives an equal packet.",
  "every command, session handle, status and data up to the protocol limit; larger data is also characterised",
  "All field values and data sizes.",
  ["src/eip/EncapsPacket.cpp: pack, expand, setData"])
P("C15", "Encapsulation packet validation",
  "expand accepts a byte string exactly when it has at least 24 bytes and its length field equals the number of bytes after the header; otherwise it raises std::runtime_error; it never reads outside the input.",
  "every byte string",
  "All byte strings.",
  ["src/eip/EncapsPacket.cpp: expand, getLengthFromHeader"])
P("C16", "Encapsulation commands",
  "RegisterSession, UnRegisterSession, SendRRData and ListIdentity packets have the byte layout required by the protocol for every session handle, timeout and payload.",
  "every session handle, timeout and payload",
  "All values; tests check one instance each.",
  ["src/eip/EncapsPacketFactory.cpp", "src/eip/CommonPacketItemFactory.cpp"])
P("C17", "Explicit request on the wire",
  "sendRequest transmits one SendRRData packet with the session's handle whose payload is a null address item, an unconnected data item holding the encoded request, and then the caller's additional items; an adapter that parses the packet recovers the service, path, data and items.",
  "every session handle, service, path with at least a class (the default constructed path: C10), data, additional items and segment mode within the 16-bit size limits",
  "Unbounded data; end-to-end composition of five encoders.",
  ["src/MessageRouter.cpp: sendRequest"])
P("C18", "Explicit reply handling",
  "For a well-formed reply sendRequest returns the service, status, additional status, data and trailing items of the adapter's reply; a reply that is too short or has fewer than two items raises an exception and never produces a response.",
  "every reply packet the session can deliver",
  "All reply contents, including hostile ones.",
  ["src/MessageRouter.cpp: sendRequest"])
# ---------------------------------------------------------------- session / sockets
P("C19", "TCP receive is independent of segmentation",
  "TCPSocket::Receive(n) returns exactly the next n bytes of the peer's stream and leaves the rest for later calls, no matter how the network splits the stream and how often the call is interrupted by signals.",
  "every stream, every way of cutting it into segments, every placement of EINTR, every n",
  "Network scheduling cannot be controlled by tests.",
  ["src/sockets/TCPSocket.cpp: Receive"])
P("C20", "A stream that ends early is reported",
  "If the peer closes the connection, or a receive error occurs, before n bytes arrived, Receive(n) reports the failure instead of returning data the peer never sent.",
  "every stream prefix, every n, every error code",
  "All points at which the connection may die.",
  ["src/sockets/TCPSocket.cpp: Receive"])
P("C21", "A failed send is reported",
  "If the operating system did not accept the whole buffer, Send raises std::system_error.",
  "every buffer and every result of the send system call",
  "The failing result must be injected by the OS.",
  ["src/sockets/TCPSocket.cpp: Send", "src/sockets/UDPSocket.cpp: Send"])
P("C22", "Session registration",
  "Constructing a SessionInfo succeeds only if the adapter answered the registration with a complete, successful reply; the session handle is the one in that reply.",
  "every peer behaviour (any bytes, segmentation, errors, early close)",
  "All peer behaviours and crash points of the peer.",
  ["src/SessionInfo.cpp: SessionInfo::SessionInfo, sendAndReceive"])
P("C23", "Session reply validation",
  "sendAndReceive returns only packets whose status is SUCCESS and whose session handle is the session's; anything else raises an exception.",
  "every request and every reply stream",
  "All reply contents.",
  ["src/SessionInfo.cpp: sendAndReceive"])
P("C24", "Requests and replies stay paired",
  "In any history of requests on one session the i-th sendAndReceive returns the adapter's reply to the i-th request, even when replies arrive fragmented, carry error status, or an earlier request failed.",
  "every sequence of requests and replies, every segmentation, every position of errors and timeouts",
  "Histories and timing are unbounded.",
  ["src/SessionInfo.cpp: sendAndReceive", "src/sockets/TCPSocket.cpp: Receive"])
P("C25", "Session is unregistered with its own handle",
  "Destroying a session sends exactly one UnRegisterSession packet carrying the handle obtained at registration, after everything sent before.",
  "every session history",
  "Every history of requests before destruction.",
  ["src/SessionInfo.cpp: ~SessionInfo"])
P("C26", "TCP connect releases the descriptor on failure",
  "If connecting fails at any step the constructor raises std::system_error and the socket descriptor has been closed; if it succeeds the descriptor is open and back in blocking mode.",
  "every result of every system call made by the constructor",
  "Each failure must be injected by the OS.",
  ["src/sockets/TCPSocket.cpp: TCPSocket::TCPSocket"])
# ---------------------------------------------------------------- connection parameters
P("C27", "Network connection parameter fields",
  "Setting redundant owner, connection type, priority, size type and size on a fresh builder, in any order, yields a word from which every getter returns what was set, in both the 16-bit and the 32-bit layout; setting a field does not disturb the others.",
  "all field values, all orders, both layouts, every connection size",
  "All combinations and sizes; no tests exist.",
  ["src/cip/connectionManager/NetworkConnectionParametersBuilder.cpp"])
P("C28", "Forward Open request layout",
  "The Forward Open (Large Forward Open) request has the field layout of the CIP specification for every parameter value, the internal size assertion never fires, and a target that parses it recovers every parameter.",
  "every value of every connection parameter and every path",
  "All parameter values.",
  ["src/cip/connectionManager/ForwardOpenRequest.cpp", "src/cip/connectionManager/LargeForwardOpenRequest.cpp"])
P("C29", "Forward Close request layout",
  "The Forward Close request carries the connection serial number, vendor id, originator serial number and path of the connection, with the path length in words.",
  "every connection triad and path",
  "All values and path lengths.",
  ["src/cip/connectionManager/ForwardCloseRequest.cpp"])
P("C30", "Forward Open response decoding",
  "Every field of a complete Forward Open response is decoded from its position; an incomplete response is never reported as a successful connection.",
  "every byte string",
  "All byte strings and truncation points.",
  ["src/cip/connectionManager/ForwardOpenResponse.cpp"])
P("C31", "Forward Open negotiates application size plus overhead",
  "The connection sizes sent to the target are the application sizes plus 2 bytes for a sequence count (transport class other than 0) plus 4 bytes for a real-time header, the other parameter bits are unchanged, and the path length field is the number of words of the path.",
  "every parameter set, both request forms",
  "Carry out of the size field occurs only for specific sizes.",
  ["src/ConnectionManager.cpp: forwardOpen"])
P("C32", "Connection serial numbers",
  "In any history of opens, on any number of managers, two opens less than 65536 opens apart use different connection serial numbers, whether or not the opens succeed.",
  "every history of opens and every pair in it",
  "Histories are unbounded; the counter wraps.",
  ["src/ConnectionManager.cpp: forwardOpen (static serialNumberCount)"])
P("C33", "Originator-chosen connection ids",
  "Point-to-point T2O connection ids chosen by the originator are pairwise distinct within any 2^32 consecutive such opens and start from the incarnation id of the first manager; O2T multicast ids likewise.",
  "every history of opens, every incarnation id",
  "Histories are unbounded; truncation of the counter matters.",
  ["src/ConnectionManager.cpp: forwardOpen (static idCount)"])
# ---------------------------------------------------------------- connection manager
P("C34", "Successful Forward Open registers the connection",
  "If the target accepts, the returned pointer is alive, the connection has the ids and intervals of the response and the sizes, formats, path and originator of the request, and the manager reports open connections.",
  "every accepted response, every parameter set, every set of connections already open",
  "Depends on ids of connections already open.",
  ["src/ConnectionManager.cpp: forwardOpen"])
P("C35", "Failed Forward Open leaves no connection",
  "If the target refuses, the request raises an exception, or the receive socket cannot be bound, no connection is registered and the connections already open are untouched.",
  "every refusal, exception and prior state",
  "All failure points.",
  ["src/ConnectionManager.cpp: forwardOpen"])
P("C36", "Destination of originator data",
  "Originator data is sent to the address and port of the O2T sockaddr item if the reply has one (the session's host when that address is 0.0.0.0), otherwise to the session's host at port 2222.",
  "every reply, every list of additional items, every session host",
  "All item lists and addresses.",
  ["src/ConnectionManager.cpp: forwardOpen"])
P("C37", "Forward Close removes exactly that connection",
  "forwardClose of an open connection sends a Forward Close with that connection's triad and removes that connection and no other, even if the target reports an error; closing a pointer whose connection is gone sends nothing and changes nothing.",
  "every history leading to the close, every target answer",
  "Depends on the whole history of opens, timeouts and pointers held by the user.",
  ["src/ConnectionManager.cpp: forwardClose"])
P("C38", "Datagrams reach the connection they are addressed to",
  "A datagram carrying connection id X is delivered to the open connection whose T2O id is X and to no other; if there is none it is dropped without any effect.",
  "every datagram, every set of open connections reachable by any history",
  "Depends on all ids in use; failures need ids that collide modulo 2^16.",
  ["src/ConnectionManager.cpp: findOrCreateSocket (receive handler), _connectionMap"])
P("C39", "Received application data",
  "For a datagram in the negotiated format the receive listener gets the run/idle header, the sequence count and exactly the application bytes.",
  "every header, sequence count, payload and format combination",
  "All combinations of real-time format and transport class.",
  ["src/IOConnection.cpp: notifyReceiveData"])
P("C40", "Fixed-size connections reject wrong sizes",
  "On a fixed-size connection data whose size differs from the negotiated size is neither delivered nor counted as activity; data of the right size is delivered and restarts the inactivity timer.",
  "every payload, size and connection state",
  "All sizes.",
  ["src/IOConnection.cpp: notifyReceiveData"])
P("C41", "Inactivity timeout",
  "A connection is closed by the first tick at which the milliseconds counted since the last accepted datagram exceed t2oAPI times the timeout multiplier, and never before.",
  "every sequence of ticks and datagrams at arbitrary times",
  "Timing histories are unbounded.",
  ["src/IOConnection.cpp: notifyTick, notifyReceiveData"])
P("C42", "Timeout multiplier",
  "The timeout multiplier in force is the one negotiated, 4 * 2^m for m = 0..7.",
  "every multiplier code",
  "Tests never open a connection.",
  ["src/ConnectionManager.cpp: forwardOpen", "src/IOConnection.h: _connectionTimeoutMultiplier"])
P("C43", "Close notification exactly once",
  "The close listener of a connection is called exactly once if the connection times out, in the same call that removes it, and never if it is closed with forwardClose.",
  "every history of API calls",
  "Histories are unbounded.",
  ["src/ConnectionManager.cpp: handleConnections, forwardClose", "src/IOConnection.cpp: notifyTick"])
P("C44", "Cyclic transmission",
  "Data is sent at the first tick at which the counted time since the previous transmission slot reaches o2tAPI; slots are never closer together than o2tAPI; the k-th slot carries encapsulation sequence number k (mod 2^32), sequence count k (mod 2^16) for class 1/2/3, run/idle header 1 when configured and the current output data.",
  "every sequence of ticks at arbitrary times",
  "Timing histories are unbounded; counters wrap.",
  ["src/IOConnection.cpp: notifyTick"])
P("C45", "Outgoing data has the negotiated size",
  "On a fixed-size O2T connection nothing is sent unless the output data has exactly the negotiated size, after the send listener has had the opportunity to change it.",
  "every output data, listener and connection state",
  "All sizes.",
  ["src/IOConnection.cpp: notifyTick"])
P("C46", "hasOpenConnections",
  "hasOpenConnections is true exactly when some connection was opened and neither closed nor timed out.",
  "every history of API calls",
  "Histories are unbounded.",
  ["src/ConnectionManager.cpp: hasOpenConnections"])
P("C47", "Network input cannot break the connection loop",
  "No datagram, whatever its content, makes handleConnections throw or read outside its buffers.",
  "every datagram",
  "All byte strings.",
  ["src/ConnectionManager.cpp: findOrCreateSocket (receive handler)", "src/eip/CommonPacket.cpp: expand", "src/sockets/UDPSocket.cpp: Receive"])
P("C48", "End points can be used as map keys",
  "The ordering of end points is a strict weak ordering in which different end points are distinguished, so that every remote end point gets its own entry.",
  "every pair and triple of end points",
  "All triples.",
  ["src/sockets/EndPoint.cpp: operator<", "src/ConnectionManager.cpp: _socketMap, findOrCreateSocket"])
P("C49", "Timeout conversion",
  "Converting milliseconds to a timeval preserves the duration, gives a microsecond part in [0, 999999] and maps negative durations to zero.",
  "every duration",
  "All durations.",
  ["src/sockets/BaseSocket.cpp: makePortableInterval"])
P("C50", "Socket polling loop",
  "select dispatches every ready socket once per round in order, returns after the first round without ready sockets, reports select errors as exceptions, and returns within the given timeout.",
  "every schedule of readiness",
  "Schedules are controlled by the network.",
  ["src/sockets/BaseSocket.cpp: select"])
# ---------------------------------------------------------------- file object
P("C51", "File object state synchronisation",
  "Constructing a FileObject reads the state attribute once and enters the matching state; unsupported states and error replies raise an exception.",
  "every reply",
  "All state codes and replies.",
  ["src/fileObject/FileObjectState.cpp: SyncState", "src/FileObject.cpp"])
P("C52", "File upload is complete and correct",
  "Against an adapter that follows the upload protocol, beginUpload followed by handleTransfers until it returns false calls the handler exactly once, with SUCCESS and exactly the file's bytes.",
  "every file content up to 2^32-1 bytes and every transfer size 1..255 (transfer numbers wrap modulo 256)",
  "File sizes are unbounded for practical purposes and the transfer counter wraps.",
  ["src/fileObject/FileObjectLoadedState.cpp", "src/fileObject/FileObjectUploadInProgressState.cpp"])
P("C53", "Upload errors are reported",
  "The handler is never called with SUCCESS unless the received content has the announced size; a wrong transfer number, a wrong total size or an error status is reported with an error code and empty content.",
  "every sequence of adapter replies",
  "All reply histories.",
  ["src/fileObject/FileObjectUploadInProgressState.cpp: transfer"])
P("C54", "The upload handler is called at most once",
  "Between beginUpload and the end of the transfer loop the handler is called at most once, and after it has been called with an error no further transfers are requested.",
  "every sequence of adapter replies",
  "All reply histories.",
  ["src/fileObject/FileObjectUploadInProgressState.cpp: transfer"])
P("C55", "Upload calls in other states",
  "beginUpload and handleTransfers send nothing and change nothing when the file is empty, nonexistent or (for handleTransfers) not being uploaded; handleTransfers then returns false.",
  "every state",
  "All states and replies.",
  ["src/fileObject/FileObjectEmptyState.cpp", "src/fileObject/FileObjectNonExistentState.cpp", "src/fileObject/FileObjectLoadedState.cpp"])
# ---------------------------------------------------------------- identity / parameter
P("C56", "Identity attributes",
  "For a complete Get_Attributes_All reply the getters return exactly the encoded vendor id, device type, product code, revision, status, serial number and product name.",
  "every identity",
  "All field values and names.",
  ["src/IdentityObject.cpp"])
P("C57", "Identity instance",
  "IdentityObject(n, session) reads instance n.",
  "every instance id",
  "All instance ids; the only test uses instance 1.",
  ["src/IdentityObject.cpp"])
P("C58", "Parameter attributes",
  "For complete replies a ParameterObject has the encoded value, type, flags, names, limits, default, precision and scaling; requests are sent in the documented order.",
  "every parameter, data size, link path, texts, flags",
  "All sizes and texts.",
  ["src/ParameterObject.cpp: ParameterObject::ParameterObject"])
P("C59", "Engineering unit scaling",
  "actualToEngValue implements ((actual + offset) * multiplier * base) / (divisor * 10^precision), engToActualValue is its inverse, and both are the identity for non-scalable parameters.",
  "every value and every scaling attribute",
  "All attribute combinations, including extreme multipliers.",
  ["src/ParameterObject.cpp: actualToEngValue, engToActualValue"])
P("C60", "updateValue changes only the value",
  "updateValue sends one Get_Attribute_Single for attribute 1 and on success replaces the value and nothing else; on failure it raises an exception and changes nothing.",
  "every parameter state and reply",
  "All replies.",
  ["src/ParameterObject.cpp: updateValue"])
P("C61", "Truncated attribute replies are rejected",
  "An identity or parameter reply that is shorter than its contents require raises std::runtime_error.",
  "every reply and every truncation point",
  "All truncation points; memory contents after the reply matter.",
  ["src/IdentityObject.cpp: isValid check", "src/ParameterObject.cpp: isValid check"])
# ---------------------------------------------------------------- discovery
P("C62", "Discovery reports every device",
  "discover sends one ListIdentity broadcast and returns, in order of arrival, one entry per identity item of every reply received before the receive timeout, with the identity and socket address encoded in it.",
  "every number of devices, every identity, every arrival order",
  "Any number of replies.",
  ["src/DiscoveryManager.cpp: discover"])
P("C63", "Discovery errors",
  "discover ends normally only on the receive timeout; any other socket error is passed on; a malformed reply from one device does not prevent other devices from being reported.",
  "every sequence of replies and errors",
  "All reply contents and orders.",
  ["src/DiscoveryManager.cpp: discover"])
# ---------------------------------------------------------------- vendor
P("C64", "Fault queue handling",
  "handleFaultParameters calls the listener once per recorded fault, in order, stopping at the first empty slot and after at most ten, and clears the queue exactly when configured and at least one fault was read.",
  "every device fault queue and configuration",
  "All queues.",
  ["src/vendor/ra/powerFlex525/DPIFaultManager.cpp: handleFaultParameters"])
P("C65", "Fault parameter numbers and engineering values",
  "With 16-bit path segments (the default message router), fault n is read from the parameters assigned to it (code, bus voltage, current, frequency); voltages are reported unscaled and currents and frequencies divided by 100; fault numbers outside 1..10 raise an exception without any request.",
  "every fault number and every raw value",
  "All fault numbers and raw values.",
  ["src/vendor/ra/powerFlex525/DPIFaultParameter.cpp"])
P("C66", "Fault descriptions",
  "A fault code is described exactly when it is in the PowerFlex 525 table and then by the entry of that code; other codes raise std::runtime_error.",
  "every integer code",
  "All integers.",
  ["src/vendor/ra/powerFlex525/DPIFaultCode.cpp", "src/vendor/ra/powerFlex525/DPIFaultCode.h"])
P("C67", "Fault object decoding",
  "A DPIFaultObject holds exactly the encoded code, port, device object, 16-byte text, timer and flags of a complete reply, and error replies raise an exception.",
  "every reply",
  "All values.",
  ["src/vendor/ra/powerFlex525/DPIFaultObject.cpp"])
# ---------------------------------------------------------------- logging / misc
P("C68", "Log filtering",
  "A message is passed to the appender exactly when logging is not OFF and its level is at least as severe as the global level; no message is printed while the level is OFF.",
  "every level, global level and history of setLogLevel calls",
  "All histories.",
  ["src/utils/Logger.cpp"])
P("C69", "Logging never disturbs the program",
  "Creating and destroying a Logger of any level never terminates the program.",
  "every level and global level",
  "All levels.",
  ["src/utils/Logger.cpp: ~Logger, ConsoleAppender::print"])
P("C70", "Serial numbers under concurrency",
  "Managers used from different threads never give two connections the same serial number.",
  "every interleaving of two opens",
  "Interleavings cannot be controlled by tests.",
  ["src/ConnectionManager.cpp: forwardOpen (static serialNumberCount)"])

P("C71", "handleConnections in every state",
  "handleConnections may be called in every reachable state of a manager, including before the first successful open and after all connections are gone.",
  "every history of API calls",
  "Histories are unbounded; the failing case is undefined behaviour that usually goes unnoticed.",
  ["src/ConnectionManager.cpp: handleConnections", "src/sockets/BaseSocket.cpp: select"])
P("C72", "Datagram reception",
  "UDPSocket::Receive(n) returns n bytes: the datagram, cut after n bytes, followed by zeros.",
  "every datagram and every n",
  "All datagrams.",
  ["src/sockets/UDPSocket.cpp: Receive"])

P("C73", "Uploads can be repeated",
  "When an upload has ended (successfully or not), calling beginUpload on the same object starts a new upload that reports to the new handler.",
  "every file, every way an upload can end",
  "The example and the tests upload once per object.",
  ["src/fileObject/FileObjectUploadInProgressState.cpp: initiateUpload"])

P("C74", "Typed parameter getters",
  "getActualValue<T>, getMinValue<T>, getMaxValue<T> and getDefaultValue<T> return the number the stored bytes encode, and the engineering getters its scaled value, for every type T.",
  "every integer type, value and scaling", "All types, sizes and values; memory contents after the stored bytes matter.",
  ["src/ParameterObject.h: encodeValue, getActualValue, getEngValue"])
P("C75", "Limits in engineering units",
  "setEngMinValue<T>, setEngMaxValue<T> and setEngDefaultValue<T> store the number whose engineering value is given, and change nothing else, for every value T can hold.",
  "every type, scaling and value", "All scalings and values; rounding errors and out of range conversions depend on them.",
  ["src/ParameterObject.h: setEngMinValue, setEngMaxValue, setEngDefaultValue, decodeValue"])

P("C76", "Object clients and connection managers over a real session",
  "Against an adapter that answers every request of its session, reading an identity, parameter, value, fault or file over TCP gives exactly what the adapter answers, in order, however TCP cuts the replies and whatever signals interrupt recv; in particular registering, opening a file object and uploading delivers the file. Likewise every program of connection managers ends as if it had talked to the adapter itself, leaves nothing of an answer unread, and sends nothing but these requests.",
  "every adapter (any state machine), every sequence of requests of the clients, every sequence of calls of any managers, every segmentation of every reply",
  "Segmentations and adapters are unbounded; tests use one recorded reply on a mock session.",
  ["src/SessionInfo.cpp: sendAndReceive", "src/MessageRouter.cpp: sendRequest", "src/FileObject.cpp", "src/ParameterObject.cpp", "src/IdentityObject.cpp", "src/vendor/ra/powerFlex525/DPIFaultManager.cpp", "src/ConnectionManager.cpp: forwardOpen, forwardClose"])
P("C77", "Listeners may use the manager",
  "Receive, send and close listeners may call forwardOpen, forwardClose and setDataToSend during handleConnections: no object is used after its destruction, every connection that no listener closes gets its data and exactly one tick, and a connection opened by a listener stays until it is closed or times out.",
  "every set of listeners (any calls, depending on everything they can see), every reachable manager, every sequence of datagrams",
  "Which listener closes what and when is unbounded; a dangling iterator often goes unnoticed in a run.",
  ["src/ConnectionManager.cpp: handleConnections", "src/IOConnection.cpp: notifyTick, notifyReceiveData"])
P("C78", "Texts and comparisons",
  "Numbers are shown as their decimal numerals: a revision as major.minor, an end point as host:port, an address as its four bytes with dots, a path as the ids it has by name; two paths have the same text exactly if they put the same bytes on the wire; revisions, paths and end points are equal (operator==) exactly if all their members are; revisions and end points made from a host text are equal exactly if their texts are; the text of an end point determines host and port.",
  "all paths, revisions, end points and host texts",
  "Unbounded pairs of values; tests compare a few texts.",
  ["src/cip/EPath.cpp: toString, operator==", "src/vendor/yaskawa/mp3300iec/Yaskawa_EPath.cpp: toString, operator==", "src/cip/CipRevision.cpp: toString, operator==", "src/sockets/EndPoint.cpp: toString, operator=="])
P("C79", "Target and managers have the same connections",
  "After any sequence of opens, closes and receiving by any number of managers with one target that follows the protocol and may refuse or accept as it likes, the connections the target has open are those the managers have (same serial number, vendor, originator, ids and path), one each.",
  "every sequence of calls, every number of managers, every policy of the target, every datagram and clock",
  "The histories and the target's choices of ids are unbounded; tests never look at the target's side.",
  ["src/ConnectionManager.cpp: forwardOpen, largeForwardOpen, forwardClose, handleConnections"])
P("C80", "Refusals are reported with their status",
  "The message logged for a refused request shows the general status and every additional status as hexadecimal numerals, in order, so that both can be read from it.",
  "every general status and every list of additional statuses",
  "256 statuses times unbounded lists; no test looks at log texts.",
  ["src/cip/MessageRouterResponse.cpp: logGeneralAndAdditionalStatus", "src/cip/GeneralStatusCodes.h"])
P("C81", "Descriptors of connections and receiving sockets",
  "However managers are used, created and destroyed: a descriptor is used or closed only while it is held; the descriptors held are those of the living connections and of the receiving sockets, one each; destroying the managers releases all of them; and apart from that the values of descriptors do not matter.",
  "every sequence of calls of any number of managers, every result of the system calls",
  "Leaks and uses after close show only in particular histories (failed bind, colliding ids, time-outs), and large descriptors only with a thousand others open.",
  ["src/ConnectionManager.cpp: forwardOpen, forwardClose, handleConnections, findOrCreateSocket", "src/sockets/UDPSocket.cpp", "src/sockets/UDPBoundSocket.cpp", "src/sockets/BaseSocket.cpp: select", "src/sockets/TCPSocket.cpp: TCPSocket"])
P("C82", "Only fresh data is delivered",
  "The receive listener of a connection is called only for datagrams that consist of a sequenced address item and a connected data item and whose sequence count is newer than that of the last datagram delivered; copies and late datagrams are discarded.",
  "every manager state, every sequence of datagrams",
  "Networks duplicate and reorder datagrams rarely and never in unit tests.",
  ["src/ConnectionManager.cpp: findOrCreateSocket (receive handler)", "src/IOConnection.cpp: notifyReceiveData"])
P("C83", "The example programs",
  "With every device that follows the protocol the example programs run to their end without undefined behaviour and do what they are written to show: read every parameter and the first one's value in both forms, read and write the assemblies, save the file under instance 200, write a line that identifies the device, write one line for each device that answers, and exchange 32 bytes over an implicit connection that is closed at both ends afterwards.",
  "every device behaviour (parameters, files, assemblies, policies of the target), every datagram and clock",
  "The examples need a device and are never run by the tests.",
  ["examples/ParameterObjectExample.cpp", "examples/ExplicitMessagingExample.cpp", "examples/FileObjectExample.cpp", "examples/ImplicitMessagingExample.cpp", "examples/IdentityObjectExample.cpp", "examples/DiscoveryManagerExample.cpp", "examples/vendors/yaskawa/mp3300iec/Yaskawa_AssemblyObjectExample.cpp"])
P("C84", "Failures of the connection reach the caller",
  "If an exchange with the device fails during any call of a message router, object client or connection manager, the call makes no further request and ends with that same exception; files, parameters and connections that existed before stay as they were.",
  "every call, every session and every way and moment in which it fails",
  "Every request of every call can fail in many ways; tests inject at most one failure in one place.",
  ["src/MessageRouter.cpp: sendRequest", "src/vendor/yaskawa/mp3300iec/Yaskawa_MessageRouter.cpp: sendRequest", "src/IdentityObject.cpp", "src/ParameterObject.cpp", "src/FileObject.cpp", "src/vendor/ra/powerFlex525/DPIFaultManager.cpp: handleFaultParameters", "src/vendor/ra/powerFlex525/DPIFaultObject.cpp", "src/ConnectionManager.cpp: forwardOpen, forwardClose"])
P("C85", "Refusals are not taken for successes",
  "If the device refuses a request, the call makes no further request and ends with the exception for refused requests, and this exception has no other cause (reading identities, parameters, faults and file states, clearing faults, closing connections).",
  "every device with any answers to any request",
  "Each of up to 41 requests of a call may be refused with any of 255 statuses.",
  ["src/IdentityObject.cpp", "src/ParameterObject.cpp", "src/FileObject.cpp", "src/vendor/ra/powerFlex525/DPIFaultManager.cpp: handleFaultParameters", "src/vendor/ra/powerFlex525/DPIFaultParameter.cpp", "src/vendor/ra/powerFlex525/DPIFaultObject.cpp", "src/ConnectionManager.cpp: forwardClose"])
P("C86", "Exceptions out of handleConnections",
  "When a listener, a datagram or a socket ends handleConnections with an exception, no connection is lost and none is half handled: a connection that no listener closes stays as it was negotiated, has been given exactly what came for it before the exception and has had its whole tick or none; no event is reported twice, nothing is sent or delivered on a connection after it was reported closed, and no sequence number is skipped.",
  "every set of listeners (any calls and exceptions), every manager that calls and listeners can lead to, every sequence of datagrams and results of sends",
  "Any listener may throw at any of its calls; tests use listeners that return.",
  ["src/ConnectionManager.cpp: handleConnections", "src/IOConnection.cpp: notifyTick, notifyReceiveData"])
P("C87", "Sessions and discovery keep their descriptors in order",
  "However sessions are opened, used and destroyed and devices are searched for, with any failures of system calls and any behaviour of the peers: no descriptor is used or closed that the library does not hold, every living session holds exactly one, and nothing else stays open except the descriptors of TCP sockets on which fcntl fails before connecting; this also holds when connection managers are used in between.",
  "every program of session and discovery calls, every result of every system call, every interleaving with the calls of connection managers",
  "Leaks and double closes appear only after particular failures (fcntl, connect, registration, a malformed reply) in particular orders.",
  ["src/SessionInfo.cpp: SessionInfo, ~SessionInfo, sendAndReceive", "src/DiscoveryManager.cpp: discover, makeSocket", "src/sockets/TCPSocket.cpp: TCPSocket, ~TCPSocket", "src/sockets/UDPSocket.cpp: UDPSocket, ~UDPSocket"])
P("C88", "Objects of the wire formats can be used again",
  "Whatever calls were made on a path, encapsulation packet, common packet or response before, and whether they failed or not, it accepts and refuses the same bytes as a new object and afterwards holds what those bytes say; setters give each field the last value set, in any order, and change nothing else; new objects are written as zeros and a new response is an empty success.",
  "every sequence of calls on an object, every byte string",
  "Stale fields show up only when an object is parsed into a second time, with particular contents before.",
  ["src/cip/EPath.cpp: expandPaddedPath", "src/vendor/yaskawa/mp3300iec/Yaskawa_EPath.cpp: expandPaddedPath", "src/eip/EncapsPacket.cpp", "src/eip/CommonPacket.cpp", "src/cip/MessageRouterResponse.cpp", "src/cip/connectionManager/ConnectionParameters.h"])
P("C89", "A file object can be synchronised again",
  "Reading the state again replaces the state of a file object in whatever state it is, or throws and leaves the object as it was; no handler is called. After it an upload delivers the file, whatever happened before. With calls in any order against an adapter that follows the protocol no call fails, a handler is told the file or an error, and the file at most once per beginUpload; a handler of an upload given up by synchronising is not called again.",
  "every state of the object and of the adapter, every file and piece size, every sequence of beginUpload, handleTransfers and SyncState, every session",
  "The reaction depends on the whole history of calls and on where the adapter stands; tests synchronise once, in the constructor.",
  ["src/fileObject/FileObjectState.cpp: SyncState", "src/fileObject/FileObjectState.h: setState", "src/FileObject.cpp: getState"])
P("C90", "Memory behind received data has no influence unless it is read",
  "The result of every parser and of every call of the library, and the state it leaves, are the same whatever lies in memory behind the received data, unless the call reads outside that data. In particular a call that is free of out-of-bounds reads when nothing lies behind the data is free of them, and gives the same, in every memory.",
  "every byte string, state, session and history of calls, every content of the memory behind each buffer",
  "What lies behind a buffer is an accident of the allocator; a test sees one allocation.",
  ["src/utils/Buffer.cpp: operator>>", "src/eip/EncapsPacket.cpp: expand", "src/eip/CommonPacket.cpp: expand", "src/cip/MessageRouterResponse.cpp: expand", "src/IOConnection.cpp: notifyReceiveData", "src/IdentityObject.cpp", "src/ParameterObject.cpp", "src/FileObject.cpp", "src/ConnectionManager.cpp", "src/DiscoveryManager.cpp"])
P("C91", "Upload handlers may use the file object they are called for",
  "A handler may begin an upload, make transfers or synchronise the object, or throw: its exception reaches the caller, its calls act on the object as it is after the call that called it, and all together do what the same calls do when the user makes them one after the other. So against an adapter that follows the protocol nothing is undefined, and the file is delivered at most once per beginUpload.",
  "every behaviour of the handlers (any calls, depending on all results), every session and adapter, every history of calls, every depth of the stack",
  "Reentrancy depends on which call the handler is called from and on what it does afterwards; tests use handlers that only record.",
  ["src/fileObject/FileObjectLoadedState.cpp: initiateUpload", "src/fileObject/FileObjectUploadInProgressState.cpp: transfer", "src/fileObject/FileObjectState.h: setState", "src/FileObject.cpp"])
P("C92", "A connection and its target keep each other alive",
  "If the target sends at least every A, handleConnections is called at least every P, nothing takes longer than D on the network, and the timeouts of both ends leave room for this, then neither end ever gives the connection up: every item the target sends is received exactly once (in order, if the network keeps the order) by the first call after its arrival, and the target is sent the slots 1, 2, 3, ...",
  "every schedule of sends, arrivals and calls at such a pace, every negotiated interval, multiplier and format, every output data and send listener, every history of calls on other connections and managers",
  "Whether timeouts are met depends on the phases of three clocks against each other over the whole life of the connection.",
  ["src/IOConnection.cpp: notifyTick, notifyReceiveData", "src/ConnectionManager.cpp: handleConnections"])
P("C93", "Listeners may call handleConnections",
  "A listener of a connection may call handleConnections of the manager it is called from, for instance to wait for the next data. The outer call then behaves as if the listener had done nothing else: nothing that no longer exists is used, each connection is ticked once in every call, inner or outer, its packets are sent in order, and its close listener is called at most once.",
  "all listeners that open and close connections, set data, throw or call handleConnections, to any depth of nesting; all datagrams, times and results of the system calls in the inner and outer calls",
  "What an inner call removes or changes depends on which connections time out or send in which of the nested calls; there are as many cases as interleavings.",
  ["src/ConnectionManager.cpp: handleConnections", "src/IOConnection.cpp: notifyTick, notifyReceiveData"])
P("C94", "The log tells which connections are open",
  "From the messages that a connection manager logs at the default level, one can tell which connections are open: those that were reported as opened and neither refused, closed nor timed out since. Every close listener call has its message with the serial number of the connection, in the same order. Every datagram is announced with its connection id at the level DEBUG, and its data is either given to a receive listener or complained about in the log, and there is a message for every packet that is held back because of its size.",
  "all sequences of calls, results of the system calls, answers of targets, datagrams, times and numbers of connections",
  "Tests do not read the log; whether it agrees with the map depends on which of the calls fail at which point and on the ids and serial numbers that targets choose.",
  ["src/ConnectionManager.cpp: forwardOpen, forwardClose, handleConnections, findOrCreateSocket", "src/IOConnection.cpp: notifyReceiveData, notifyTick", "src/MessageRouter.cpp: sendRequest"])
P("C95", "Errors keep their numbers while messages are logged",
  "Whatever a log appender does to errno, and whatever the log level is, a system call that fails is reported to the caller with the number of that call, and no call that did not fail is reported: TCP connecting and receiving, UDP receiving, sending and the discovery of devices behave as if nothing were logged. If a TCP stream ends early, exactly one warning says how many of the wanted bytes arrived, and the byte counts that are logged add up to what was received. The socket of a discovery is reported as opened and as closed, however the discovery ends.",
  "all appenders and log levels, results of the system calls, streams, datagrams and errno values",
  "Tests run with one appender that leaves errno alone and with the default level; errors of recvfrom with a failing appender are not tried.",
  ["src/sockets/UDPSocket.cpp: UDPSocket, Send, Receive, ReceiveFrom", "src/sockets/TCPSocket.cpp: TCPSocket, Send, Receive", "src/sockets/BaseSocket.cpp: getLastError", "src/DiscoveryManager.cpp: discover", "src/utils/Logger.cpp: ~Logger"])
P("C96", "The log tells the state of a file object",
  "The messages of a file object carry its id in hexadecimal and the name of its state. From those at the levels DEBUG and TRACE one can tell in which state an object is: every state that is entered is reported, and every one that is left, so that exactly one is open while the object exists and none after it is destroyed or its constructor has thrown; objects with other ids do not disturb this. Messages at level ERROR match the handler calls without a file one by one, with the status the handler gets. The requests in the log are those the adapter gets. A call that has no effect is mentioned, and an upload is initiated when the log says so.",
  "all object ids, sequences of calls, answers of the adapter, failures of the session and logs written before",
  "Tests do not read the log; which states are entered and left depends on the answers and on the call that fails.",
  ["src/fileObject/FileObjectState.cpp: FileObjectState, logWithStateName, getStateName, SyncState", "src/fileObject/FileObjectState.h: setState", "src/fileObject/FileObjectLoadedState.cpp: initiateUpload, transfer", "src/fileObject/FileObjectUploadInProgressState.cpp: initiateUpload, transfer", "src/fileObject/FileObjectEmptyState.cpp", "src/fileObject/FileObjectNonExistentState.cpp", "src/FileObject.cpp: FileObject"])
P("C97", "Requests and refusals in the log",
  "The messages of identity, parameter and drive fault objects change nothing else. From those up to level INFO one can tell what was exchanged with the adapter: every request that is made, with service, class, instance and attribute, in order, and behind each one that is refused a message with the additional statuses of the answer. At level DEBUG the number, the flags, the size, the type and the name of a parameter object that is read are told, and the last message only if it is read completely. The number of faults the fault manager logs is the number given to the listener.",
  "all identifiers, adapters and their answers, failures of the session, path segment formats and logs written before",
  "Tests do not read the log; refusals can come at any of the requests, of which there are up to seven per object.",
  ["src/MessageRouter.cpp: sendRequest", "src/cip/MessageRouterResponse.cpp: logGeneralAndAdditionalStatus", "src/IdentityObject.cpp: IdentityObject", "src/ParameterObject.cpp: ParameterObject, updateValue", "src/vendor/ra/powerFlex525/DPIFaultManager.cpp: handleFaultParameters, writeCommand", "src/vendor/ra/powerFlex525/DPIFaultParameter.cpp: DPIFaultParameter", "src/vendor/ra/powerFlex525/DPIFaultObject.cpp: DPIFaultObject", "src/vendor/yaskawa/mp3300iec/Yaskawa_MessageRouter.cpp: sendRequest"])
P("C98", "The log tells which sessions are registered",
  "Every session that is constructed is logged as registered with the handle the adapter gave, every one that is destroyed as unregistered with the same handle, and nothing else is; a constructor that throws says nothing. So while the program goes on, the handles registered are, with their multiplicities, those unregistered and those of the sessions that exist; when all sessions are destroyed nothing is left over. If the log says that a session is registered the adapter has said so, and if it says that it is unregistered the adapter was told.",
  "all programs that construct, use and destroy sessions and look for devices, results of the system calls, adapters and what they send",
  "Tests do not read the log; the messages depend on the step at which a constructor fails, on short sends and on the order in which sessions are destroyed.",
  ["src/SessionInfo.cpp: SessionInfo, ~SessionInfo, sendAndReceive", "src/sockets/TCPSocket.cpp: TCPSocket, Send, Receive"])
P("C99", "Only the documented exceptions are thrown",
  "The functions whose headers announce std::runtime_error and std::system_error (the constructors of SessionInfo, IdentityObject, ParameterObject and FileObject, ParameterObject::updateValue, MessageRouter::sendRequest in both versions) throw no other exception. Where they do, exactly a reply is to blame that ends before the list of items (std::length_error) or has fewer than two items (std::out_of_range), and it is the last one received.",
  "all requests, objects, sessions, adapters, results of the system calls and byte streams",
  "A test sees the exceptions of the replies it makes up; the claim is over every sequence of replies and every place at which a call can fail.",
  ["src/SessionInfo.h: SessionInfo", "src/MessageRouter.cpp: MessageRouter::sendRequest", "src/vendor/yaskawa/mp3300iec/Yaskawa_MessageRouter.cpp: sendRequest", "src/IdentityObject.cpp: IdentityObject", "src/ParameterObject.cpp: ParameterObject, updateValue", "src/FileObject.cpp: FileObject"])
P("C100", "The example programs as a whole",
  "Over any TCP connection to any adapter, each of the example programs that use a session (parameters, explicit and implicit messages, files, identity, Yaskawa assemblies) registers the session, asks exactly what it asks the device itself, gets the same answers and ends with the same result; then the session is unregistered, and nothing else is sent. If the session cannot be had, the program is terminated and no request is sent. A program that has registered a session unregisters it.",
  "all adapters (any state machine), segmentations of their replies, results of the system calls while connecting, datagrams and clock values",
  "The examples need a device and are not run by the tests; the adapters they could meet are unbounded.",
  ["examples/ParameterObjectExample.cpp: main", "examples/ExplicitMessagingExample.cpp: main", "examples/FileObjectExample.cpp: main", "examples/IdentityObjectExample.cpp: main", "examples/ImplicitMessagingExample.cpp: main", "examples/vendors/yaskawa/mp3300iec/Yaskawa_AssemblyObjectExample.cpp: main", "src/SessionInfo.cpp: SessionInfo, ~SessionInfo"])
P("C101", "Texts of exceptions",
  "The text of an exception names its cause: a path by the type of the first segment that is not known; a packet of the wrong length by the announced and the available number of bytes, with the word only if there are too few; a refused packet by its status; a refused registration by the address of the device; a parameter by the attribute that was refused; a file object by its id. Nothing but the texts is added to the computations of the other properties.",
  "all byte strings, peers, devices (any state machine), parameter and file object ids, memories",
  "The tests check that exceptions are thrown, not their texts, which depend on unbounded inputs.",
  ["src/cip/EPath.cpp: expandPaddedPath", "src/vendor/yaskawa/mp3300iec/Yaskawa_EPath.cpp: expandPaddedPath", "src/eip/EncapsPacket.cpp: expand", "src/SessionInfo.cpp: SessionInfo, sendAndReceive", "src/ParameterObject.cpp: ParameterObject", "src/fileObject/FileObjectState.cpp: SyncState"])
P("C102", "Listeners that replace listeners",
  "The listeners of a connection may be replaced at any time, also by listeners. Every datagram and every timeout is given to the listener set last, once and in order; what a listener sets is set when it returns, and nothing else changes; listeners that replace nothing behave as in C77. Replacing, removing or closing from within a listener neither makes the library use what was destroyed nor raises an exception.",
  "all sets of callables (functions of the whole state that make calls, replace listeners of any connection and use their captures), slots, connections, datagrams, times, results of select() and sendto(), devices (any state machine), programs before",
  "Needs listeners that replace themselves or others between events of several connections, in every order; the tests set one listener once and leave it.",
  ["src/IOConnection.cpp: setReceiveDataListener, setSendDataListener, setCloseListener, notifyReceiveData, notifyTick", "src/IOConnection.h: _receiveDataHandle, _closeHandle, _sendDataHandle", "src/ConnectionManager.cpp: handleConnections"])
P("C103", "One session used by several threads",
  "Several threads may use a session at the same time. Every thread makes its calls in its order and none waits for another one; no call shows undefined behaviour, and a packet that is returned has status 0 and the handle of the session; and every call returns the reply to its own request. With a lock around the calls the threads get what one thread gets that makes the calls in the order in which they were sent. Without it, as long as no call begins to read while another one is reading, the replies go to the calls in the order in which these begin to read.",
  "all numbers of threads and calls, schedules (one step is one system call), peers, segmentations of their replies, signals and timeouts",
  "A test runs one schedule out of unboundedly many, and the harmful ones need a context switch between two system calls.",
  ["src/SessionInfo.cpp: sendAndReceive", "src/sockets/TCPSocket.cpp: Send, Receive", "src/SessionInfo.h: sendAndReceive", "docs/source/implicit_messaging.rst"])
P("C104", "What a peer can make the library hold",
  "Whatever a peer sends, the amount of memory it can make the library keep is bounded: an exchange takes at most 24 + 65535 bytes from the connection; everything a response holds was in the packet, so at most 65515 bytes; an identity object holds a name of at most 255 bytes, a parameter object seven pieces of at most 255 bytes, and an update changes no size; a datagram adds at most 119 devices to the result of discovery, with names of at most 255 bytes; a datagram for implicit messages makes no connection and calls at most one listener, with at most 8182 bytes; a file object that uploads a file holds no more than was announced.",
  "all byte streams, segmentations, errors, datagrams, adapters, memories behind the received data, objects and numbers of transfers",
  "A test knows the sizes it sends; the claim is over everything an adapter, or something else in the network, can send.",
  ["src/sockets/TCPSocket.cpp: Receive", "src/SessionInfo.cpp: sendAndReceive", "src/MessageRouter.cpp: sendRequest", "src/eip/CommonPacket.cpp: expand", "src/IdentityObject.cpp: IdentityObject", "src/ParameterObject.cpp: ParameterObject, updateValue", "src/DiscoveryManager.cpp: discover", "src/ConnectionManager.cpp: handleConnections", "src/fileObject/FileObjectLoadedState.cpp: initiateUpload", "src/fileObject/FileObjectUploadInProgressState.cpp: transfer"])
P("C105", "How long calls take",
  "A call comes back within its timeout: with a timeout of T > 0 milliseconds an exchange ends no later than T after it began, if the send itself does not block; a session is opened within T for the connection and T for the registration; an object takes T for each of its requests (one for an identity, six for a parameter, one for each step of an upload); discovery ends T after the last reply. Time changes nothing else: an exchange with a clock does what the exchange without a clock does on the same bytes, in which at most one recv() has run into the timeout.",
  "all timeouts, times at which pieces arrive, segmentations, signals, durations of sends, packets, adapters, numbers of datagrams",
  "A test with an adapter on the same machine sees replies that come at once and in one piece; how long a call can last is decided by replies that come slowly, for which a test would have to wait hours.",
  ["src/sockets/TCPSocket.cpp: Receive, Send", "src/sockets/BaseSocket.cpp: setRecvTimeout, makePortableInterval", "src/SessionInfo.cpp: SessionInfo, sendAndReceive", "src/DiscoveryManager.cpp: discover", "src/ParameterObject.cpp: ParameterObject, updateValue", "src/IdentityObject.cpp: IdentityObject", "src/FileObject.cpp: FileObject, beginUpload, handleTransfers"])
P("C106", "How long handleConnections takes",
  "A call of handleConnections with a timeout lasts, whatever arrives, no longer than the timeout and the handling of the datagrams that were there when it began, so that connections are ticked in time. It takes the datagrams of each socket in the order of arrival, each after its arrival and once, leaves none that was there when it ends, is not early by a millisecond, and does otherwise what the call without a clock does.",
  "all states of a manager, numbers of sockets, times of arrival, datagrams, durations of their handling, timeouts, ticks",
  "How long the loop goes on depends on what comes while it handles what came before; tests send a few datagrams.",
  ["src/sockets/BaseSocket.cpp: select, makePortableInterval", "src/ConnectionManager.cpp: handleConnections, findOrCreateSocket", "src/IOConnection.cpp: notifyTick"])
P("C107", "Sessions that are copied",
  "A session object can be copied and assigned like a value (the class does not forbid it): the copies are the same session, each can be used as long as it exists, what it sends goes to its own adapter and the answers come from there, and when the last copy is destroyed, and not before, the session is unregistered and its descriptor closed.",
  "all programs that construct, copy, assign, use and destroy sessions, results of the system calls, numbers given to descriptors, adapters and what they send",
  "What a stale number of a descriptor stands for depends on what the program and the system have opened since; a test of a copy that is destroyed at the end of the scope sees nothing, because neither send() nor close() on a closed descriptor is reported.",
  ["src/SessionInfo.h: SessionInfo", "src/SessionInfo.cpp: ~SessionInfo, sendAndReceive", "src/sockets/TCPSocket.h: TCPSocket", "src/sockets/TCPSocket.cpp: ~TCPSocket, Send, Receive", "src/sockets/BaseSocket.h: BaseSocket", "src/sockets/BaseSocket.cpp: Shutdown, Close"])
P("C108", "Several connection managers",
  "Connection managers of one program do not disturb each other: each behaves as if it were the only one, whatever manager a connection is closed through the connection is closed and no other one, a connection is announced as closed once, and copies of a manager can be used like the manager, also when it is gone.",
  "all programs that construct, copy, assign and destroy managers and open, close, poll and feed connections through any of them, sessions, datagrams, results of the system calls, times",
  "Managers share connections through weak and shared pointers and sockets through captured this pointers; closing through another manager only fails in debug builds or for equal low 16 bits of the ids, and a dangling capture needs a datagram after the destruction.",
  ["src/ConnectionManager.h: ConnectionManager", "src/ConnectionManager.cpp: forwardClose, handleConnections, findOrCreateSocket", "src/IOConnection.cpp: notifyTick, notifyReceiveData"])
P("C109", "Windows and macOS",
  "What the library does on Windows and macOS is what it does on Linux, up to the numbers of the errors: a failed attempt to connect leaves no descriptor open and ends within its timeout, a socket has the receive timeout that was asked for, select() looks at all sockets it is given, discovery ends with the devices found, handleConnections takes datagrams of any length, and the text of an error has no line end at its end.",
  "all results of the system calls, timeouts, times, numbers of descriptors, error texts, datagrams, states of a manager",
  "The tests run on one system; the differences show only with slow or unreachable peers, very long timeouts, many sockets or long datagrams.",
  ["src/sockets/Platform.h: EIPSCANNER_SOCKET_ERROR", "src/sockets/Platform.cpp: win32ErrorCategory::message", "src/sockets/BaseSocket.cpp: setRecvTimeout, makePortableInterval, select", "src/sockets/TCPSocket.cpp: TCPSocket, Receive", "src/sockets/UDPSocket.cpp: Receive", "src/DiscoveryManager.h: DISCOVERY_SOCKET_RECEIVE_END_ERROR_CODE", "src/DiscoveryManager.cpp: discover", "src/ConnectionManager.cpp: handleConnections"])
P("C110", "Listeners that wait for more data and replace listeners",
  "Listeners may call handleConnections, replace listeners of any connection and use their captures, in any combination. Every call, also one made in an inner call of handleConnections, goes to the listener set last; the data and close listeners of a connection are called for exactly the datagrams and timeouts announced for it, once and in order; listeners that make no inner calls behave as in C102, those that replace nothing as in C93. No listener is used after it was destroyed, and no empty one is called.",
  "all sets of callables (functions of the whole state that make calls, call handleConnections, replace listeners and use their captures), depths of nesting, slots, connections, datagrams, times, results of select() and sendto(), devices (any state machine), programs before",
  "Needs a datagram or a timeout for the very connection whose listener waits, during the inner call, and a listener that goes on to use what it captured.",
  ["src/IOConnection.cpp: setReceiveDataListener, setSendDataListener, setCloseListener, notifyReceiveData, notifyTick", "src/IOConnection.h: _receiveDataHandle, _closeHandle, _sendDataHandle", "src/ConnectionManager.cpp: handleConnections, findOrCreateSocket"])
P("C111", "Connections that the application keeps",
  "An application may keep what IOConnection::WPtr::lock() returned. The object then stays what it is until the application gives it up, also after the connection was closed or timed out; a connection that has ended stays silent; the manager and all calls behave as if nothing was kept; lock() gives a connection as long as it is open; and closing a connection that has already ended is reported and does nothing.",
  "all programs that open, close, poll and feed connections and keep and give up pointers to them, sessions, datagrams, results of the system calls, times",
  "That the connection has ended while a pointer was kept depends on timeouts; closing it again aborts only in debug builds, and hits another connection only if the low 16 bits of the ids are equal.",
  ["src/ConnectionManager.cpp: forwardOpen, forwardClose, handleConnections", "src/ConnectionManager.h: _connectionMap", "src/IOConnection.h: WPtr, SPtr", "src/IOConnection.cpp: setDataToSend"])
P("C112", "Not enough memory",
  "If memory runs out during a call to a session, the call throws std::bad_alloc and the session can be used afterwards: each later call gets the reply to its own request. Destroying a session never ends the program. With enough memory nothing changes.",
  "all places at which allocations fail (in any combination), packets, requests, devices that answer each packet with one packet, numbers of later calls, levels of the log",
  "Allocations practically never fail in tests, and then at one place; a session answers wrongly only with the calls after the one that failed.",
  ["src/SessionInfo.cpp: SessionInfo, ~SessionInfo, sendAndReceive", "src/sockets/TCPSocket.cpp: Receive", "src/MessageRouter.cpp: sendRequest", "src/utils/Logger.cpp: ~Logger", "src/eip/EncapsPacket.cpp: getLengthFromHeader"])
P("C113", "Texts of addresses",
  "An end point made from a text and a port has the IPv4 address that the text denotes (in the notations of inet_aton) and that port. The texts which the library shows for addresses denote them, so a device that was found can be addressed by the text shown. A text that denotes no address, and a port that does not exist, are refused. Two texts for the same address give equal end points.",
  "all texts, ports and addresses",
  "The set of texts is infinite; the tests use a few dotted quads. A name that is not refused silently means this host.",
  ["src/sockets/EndPoint.cpp: EndPoint, getHost, getPort, operator==", "src/SessionInfo.cpp: SessionInfo", "src/ConnectionManager.cpp: forwardOpen"])
P("C114", "Who gets the data",
  "What a device sends for an open connection, to the address that was agreed on, is given to that connection when its manager is polled, whatever other managers and programs of the host do; data from anybody else is not.",
  "all runs of any number of managers on a host, all packets (sender, address, port, contents), choices of the system between sockets at one port, members of groups",
  "With SO_REUSEADDR the system chooses between the sockets at port 2222; it takes two managers or programs and a device that sends. Multicast needs a device and a switch, and tests have no strangers on the network.",
  ["src/ConnectionManager.cpp: forwardOpen, findOrCreateSocket, handleConnections", "src/sockets/UDPBoundSocket.cpp: UDPBoundSocket", "src/sockets/UDPSocket.cpp: Receive"])
P("C115", "Socket addresses on other hosts",
  "On every host, big-endian or little-endian and with or without sin_len in struct sockaddr_in (BSD, macOS), a socket address in a packet is read as the family, address and port it says, for the application and for the system calls; written addresses are in network order; and the data of a connection goes to the address that the adapter named.",
  "all hosts of the four kinds, addresses, ports, families, packets and items, texts of hosts",
  "Tests run on one kind of host, mostly Linux on x86. Writing an address and reading it back shows nothing even on a big-endian host, where both are wrong.",
  ["src/utils/Buffer.cpp: operator<<(sockets::EndPoint), operator>>(sockets::EndPoint &)", "src/sockets/EndPoint.cpp: EndPoint, operator==", "src/ConnectionManager.cpp: forwardOpen"])
P("C116", "Connections when memory runs out",
  "If an allocation fails in handleConnections, forwardOpen or forwardClose, the application gets std::bad_alloc, every connection of the manager is still there as agreed on, no connection is announced as closed twice or used after that, no sequence number is skipped, no data that was read is lost, and the target has no connection that the manager does not have. If no allocation fails nothing is different.",
  "all managers, patterns of failing allocations, datagrams, times, log levels, requests and replies",
  "Tests do not make single allocations fail, and there are many patterns of failing allocations.",
  ["src/ConnectionManager.cpp: handleConnections, forwardOpen, forwardClose", "src/IOConnection.cpp: notifyTick, notifyReceiveData", "src/utils/Logger.cpp: ~Logger"])
P("C117", "File uploads when memory runs out",
  "If an allocation fails in a call of a file object, the application gets std::bad_alloc, the object is as it was before the call, and the upload can be carried on with another call: the handler gets the file as the adapter has it, once. If no allocation fails nothing is different.",
  "all files, adapters, patterns of failing allocations, log levels, numbers of calls",
  "Tests do not make single allocations fail, and there are many patterns of failing allocations.",
  ["src/FileObject.cpp: FileObject, beginUpload, handleTransfers", "src/fileObject/FileObjectUploadInProgressState.cpp: transfer", "src/fileObject/FileObjectLoadedState.cpp: initiateUpload", "src/fileObject/FileObjectState.cpp: ~FileObjectState, logWithStateName"])
P("C118", "Discovery when memory runs out",
  "If an allocation fails in discover, the application gets std::bad_alloc, the socket is closed once and not used after that, no other descriptor is touched, and the request was sent as usual or not at all. If no allocation fails nothing is different.",
  "all patterns of failing allocations, datagrams, results of system calls, descriptors held by others",
  "Tests do not make single allocations fail, and there are many patterns of failing allocations.",
  ["src/DiscoveryManager.cpp: discover, makeSocket", "src/sockets/UDPSocket.cpp: UDPSocket, ~UDPSocket, Receive"])
P("C119", "Faults when memory runs out",
  "If an allocation fails in handleFaultParameters, the application gets std::bad_alloc, the listener has got the first of the faults it would have got, the queue of the drive is cleared only after the listener has got all of them, and a fault that was handed over is not handed over again. If no allocation fails nothing is different.",
  "all drives, patterns of failing allocations, sessions, log levels, settings of the manager",
  "Tests do not make single allocations fail, and there are many patterns of failing allocations.",
  ["src/vendor/ra/powerFlex525/DPIFaultManager.cpp: handleFaultParameters, writeCommand", "src/vendor/ra/powerFlex525/DPIFaultParameter.cpp: DPIFaultParameter, getFaultDetail", "src/vendor/ra/powerFlex525/DPIFaultCode.h: _faultMap"])
P("C120", "Fault listeners that throw",
  "If the fault listener throws, the exception comes out of handleFaultParameters, the listener has got the faults up to that one, the queue of the drive is not cleared, and the next call goes on with the fault the listener refused. A listener may use the session, also to clear the queue; every fault is still handed over once.",
  "all listeners (that throw for any faults, whatever they got before), devices, queues, settings of the manager, sessions, numbers of calls",
  "The listeners of the tests only record what they get; when one throws depends on the faults before, and it takes several calls to see a fault twice.",
  ["src/vendor/ra/powerFlex525/DPIFaultManager.cpp: handleFaultParameters, writeCommand, setNewFaultListener"])
P("C121", "Each request over a session gets its own reply, also after memory ran out",
  "A request that ends with a result has the reply to itself, also if earlier requests ended with std::bad_alloc; the connections, uploads and faults of the clients run over real TCP sessions as over the sessions assumed elsewhere, except that they may end for want of memory.",
  "all peers that answer each packet with one well-formed packet, requests, places where memory runs out, states of the session",
  "Memory does not run out in tests; a reply that was left unread shows only in a later request, for something else.",
  ["src/MessageRouter.cpp: MessageRouter::sendRequest", "src/SessionInfo.cpp: SessionInfo::sendAndReceive", "src/ConnectionManager.cpp: forwardOpen"])
P("C122", "Identity and parameter objects when memory runs out",
  "Constructing an identity or parameter object, or updating a parameter, when memory runs out ends with std::bad_alloc: an update leaves the object as it was, nothing is written to the device, and the call can be made again with the result it would have had; the program does not end.",
  "all devices and sessions, ids and kinds of parameters, contents of the object, places where memory runs out, levels of the log",
  "Memory does not run out in tests; there are up to twenty places in one constructor.",
  ["src/ParameterObject.cpp: ParameterObject::ParameterObject, updateValue", "src/IdentityObject.cpp: IdentityObject::IdentityObject"])
P("C123", "The console log when output fails",
  "Every message that is shown comes out on the console as a line of its own with its level. If writing to the console fails, the program goes on; what could not be written is lost, and messages appear again as lines when writing succeeds again.",
  "all sequences of messages, level changes, output of the program and calls of std::cout.clear(); any writes and flushes that fail, after any number of characters",
  "Tests log to an own appender or to a console that works; a full disk or a closed pipe is needed to see it.",
  ["src/utils/Logger.cpp: ConsoleAppender::print, Logger::~Logger"])
P("C124", "Requests with Yaskawa paths when memory runs out",
  "A request through Yaskawa_MessageRouter for which there is not enough memory ends with std::bad_alloc and leaves the session usable: every request that ends otherwise has the reply to itself, the program does not end, and with enough memory requests are as without this consideration.",
  "all peers that answer each packet with one well-formed packet, services, paths, data, additional items, places where memory runs out, levels of the log, states of the session",
  "Memory does not run out in tests, and there are no tests of this router; a reply that was left unread shows only in a later request, for something else.",
  ["src/vendor/yaskawa/mp3300iec/Yaskawa_MessageRouter.cpp: Yaskawa_MessageRouter::sendRequest", "src/SessionInfo.cpp: SessionInfo::sendAndReceive"])
with open(OUT, "w") as f:
    for p in props:
        f.write(json.dumps(p, ensure_ascii=False) + "\n")
print(len(props))
