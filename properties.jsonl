{"id": "C01", "title": "Buffer round trip", "statement": "Encoding any sequence of CIP values (8/16/32/64-bit signed and unsigned integers, REAL/LREAL bit patterns, byte and word vectors, SHORT_STRING, STRING, revisions, socket addresses) into a Buffer and then decoding the same types in the same order from Buffer(data) returns exactly the values that were written, consumes every byte, and leaves the buffer valid and empty.", "quantifier": "every finite sequence of well-typed values of every supported type, every value of each type", "why_tests_cant": "The value and sequence spaces are unbounded; tests encode a handful of constants, one type at a time.", "anchors": ["src/utils/Buffer.cpp: Buffer::operator<<, Buffer::operator>>", "src/utils/Buffer.h: CipBaseString operators"]}
{"id": "C02", "title": "Buffer wire layout", "statement": "Whatever is written to a Buffer, data() is the concatenation, in write order, of the little-endian encodings of the values (socket addresses: big-endian family and port, address in network order, eight zero bytes); a write appends exactly the width of its type and never changes bytes written before.", "quantifier": "every sequence of writes of every type and value, on any earlier contents", "why_tests_cant": "Layout must hold for every value including those with the sign bit set; tests use small constants whose high bytes are small.", "anchors": ["src/utils/Buffer.cpp: Buffer::operator<<"]}
{"id": "C03", "title": "Buffer over-reads are detectable", "statement": "Decoding consumes exactly the width of the type. A decode that stays inside the data returns the bytes at the cursor, whatever lies in memory after the buffer; a decode that runs past the end is an out-of-bounds read (undefined behaviour), and if execution survives it isValid() is false from then on, whatever bytes were found in memory and whatever is decoded next.", "quantifier": "every buffer content, cursor, sequence of decodes and content of the adjacent memory", "why_tests_cant": "Adjacent memory contents and all truncation points cannot be enumerated by tests.", "anchors": ["src/utils/Buffer.cpp: Buffer::operator>>", "src/utils/Buffer.h: isValid, empty, pos, size"]}
{"id": "C04", "title": "Strings of any admissible length survive encoding", "statement": "A SHORT_STRING (STRING) built from text of any length can be encoded and decoded without loss. One constructed without a text is the empty string.", "quantifier": "every byte string of every length, both string types", "why_tests_cant": "The claim depends on the length relative to 2^8 and 2^16; tests use a few short strings.", "anchors": ["src/cip/CipString.h: CipBaseString", "src/utils/Buffer.h: operator<<, operator>> for CipBaseString"]}
{"id": "C05", "title": "Socket addresses survive encoding", "statement": "Decoding an encoded end point gives the same IPv4 address, port and family as the original, and getHost() of the decoded end point is the dotted-quad text of that address.", "quantifier": "every IPv4 address and every 16-bit port", "why_tests_cant": "2^48 combinations and two byte-order conversions.", "anchors": ["src/utils/Buffer.cpp: operator<<(EndPoint), operator>>(EndPoint)", "src/sockets/EndPoint.cpp"]}
{"id": "C06", "title": "Packed EPATH layout and word count", "statement": "packPaddedPath emits, in order, the class, instance and attribute segments of the path (8-bit or 16-bit padded form), nothing else, and getSizeInWords times two is exactly the number of bytes emitted.", "quantifier": "every path the constructors can build and both segment widths", "why_tests_cant": "All id values, path depths and modes; tests never pack a path in isolation.", "anchors": ["src/cip/EPath.cpp: packPaddedPath, getSizeInWords"]}
{"id": "C07", "title": "EPATH round trip", "statement": "Expanding a packed path gives back an equal path.", "quantifier": "every path the constructors can build, both segment widths", "why_tests_cant": "Depends on which ids are zero and, in 8-bit mode, on ids above 255; tests cover none of these.", "anchors": ["src/cip/EPath.cpp: packPaddedPath, expandPaddedPath, operator=="]}
{"id": "C08", "title": "EPATH parsing accepts exactly well-formed paths", "statement": "expandPaddedPath succeeds exactly on byte strings that are a concatenation of complete class/instance/attribute segments; the ids are those of the last segment of each kind; a string with an unknown segment before any truncation raises an error, and a truncated string is never accepted.", "quantifier": "every byte string, every content of the memory after it", "why_tests_cant": "All byte strings of all lengths, including every truncation point.", "anchors": ["src/cip/EPath.cpp: expandPaddedPath"]}
{"id": "C09", "title": "Yaskawa EPATH", "statement": "The Yaskawa path packs to 8-bit segments with a word count that equals half the byte count, and expanding a packed path gives back the ids.", "quantifier": "every Yaskawa path the constructors can build", "why_tests_cant": "All id values and depths; there are no tests for this class.", "anchors": ["src/vendor/yaskawa/mp3300iec/Yaskawa_EPath.cpp"]}
{"id": "C10", "title": "Message router request encoding", "statement": "The bytes of a request are the service code, the path length in words, the padded path and the data; a receiver that reads the word count and skips that many words finds exactly the path and then exactly the data.", "quantifier": "every service code, path, data and segment mode", "why_tests_cant": "Unbounded data and all paths.", "anchors": ["src/cip/MessageRouterRequest.cpp: pack"]}
{"id": "C11", "title": "Message router response decoding is exact and memory safe", "statement": "For every byte string, expanding a response either raises std::runtime_error (shorter than 4 bytes, or an additional-status size that does not fit) or yields service code, general status, the additional status words and exactly the remaining bytes as data; it never reads outside the input.", "quantifier": "every byte string", "why_tests_cant": "All byte strings, all additional status sizes; tests check one response.", "anchors": ["src/cip/MessageRouterResponse.cpp: expand"]}
{"id": "C12", "title": "Common packet round trip", "statement": "Packing a common packet and expanding the result gives the same items in the same order.", "quantifier": "every list of items (any count, any item size)", "why_tests_cant": "Item counts and sizes are unbounded; limits sit at 2^16.", "anchors": ["src/eip/CommonPacket.cpp: pack, expand", "src/eip/CommonPacketItem.cpp: pack"]}
{"id": "C13", "title": "Common packet parsing accepts only complete items", "statement": "When expand succeeds every returned item is a complete item of the input, in order, and the number of items is the announced count or the input ended at an item boundary; a packet whose next item is cut short is never accepted.", "quantifier": "every byte string and every content of the memory after it", "why_tests_cant": "All truncation points and lengths.", "anchors": ["src/eip/CommonPacket.cpp: expand"]}
{"id": "C14", "title": "Encapsulation packet round trip", "statement": "Packing an encapsulation packet gives a 24-byte header whose length field equals the number of data bytes, and expanding the bytes gives an equal packet.", "quantifier": "every command, session handle, status and data up to the protocol limit; larger data is also characterised", "why_tests_cant": "All field values and data sizes.", "anchors": ["src/eip/EncapsPacket.cpp: pack, expand, setData"]}
{"id": "C15", "title": "Encapsulation packet validation", "statement": "expand accepts a byte string exactly when it has at least 24 bytes and its length field equals the number of bytes after the header; otherwise it raises std::runtime_error; it never reads outside the input.", "quantifier": "every byte string", "why_tests_cant": "All byte strings.", "anchors": ["src/eip/EncapsPacket.cpp: expand, getLengthFromHeader"]}
{"id": "C16", "title": "Encapsulation commands", "statement": "RegisterSession, UnRegisterSession, SendRRData and ListIdentity packets have the byte layout required by the protocol for every session handle, timeout and payload.", "quantifier": "every session handle, timeout and payload", "why_tests_cant": "All values; tests check one instance each.", "anchors": ["src/eip/EncapsPacketFactory.cpp", "src/eip/CommonPacketItemFactory.cpp"]}
{"id": "C17", "title": "Explicit request on the wire", "statement": "sendRequest transmits one SendRRData packet with the session's handle whose payload is a null address item, an unconnected data item holding the encoded request, and then the caller's additional items; an adapter that parses the packet recovers the service, path, data and items.", "quantifier": "every session handle, service, path with at least a class (the default constructed path: C10), data, additional items and segment mode within the 16-bit size limits", "why_tests_cant": "Unbounded data; end-to-end composition of five encoders.", "anchors": ["src/MessageRouter.cpp: sendRequest"]}
{"id": "C18", "title": "Explicit reply handling", "statement": "For a well-formed reply sendRequest returns the service, status, additional status, data and trailing items of the adapter's reply; a reply that is too short or has fewer than two items raises an exception and never produces a response.", "quantifier": "every reply packet the session can deliver", "why_tests_cant": "All reply contents, including hostile ones.", "anchors": ["src/MessageRouter.cpp: sendRequest"]}
{"id": "C19", "title": "TCP receive is independent of segmentation", "statement": "TCPSocket::Receive(n) returns exactly the next n bytes of the peer's stream and leaves the rest for later calls, no matter how the network splits the stream and how often the call is interrupted by signals.", "quantifier": "every stream, every way of cutting it into segments, every placement of EINTR, every n", "why_tests_cant": "Network scheduling cannot be controlled by tests.", "anchors": ["src/sockets/TCPSocket.cpp: Receive"]}
{"id": "C20", "title": "A stream that ends early is reported", "statement": "If the peer closes the connection, or a receive error occurs, before n bytes arrived, Receive(n) reports the failure instead of returning data the peer never sent.", "quantifier": "every stream prefix, every n, every error code", "why_tests_cant": "All points at which the connection may die.", "anchors": ["src/sockets/TCPSocket.cpp: Receive"]}
{"id": "C21", "title": "A failed send is reported", "statement": "If the operating system did not accept the whole buffer, Send raises std::system_error.", "quantifier": "every buffer and every result of the send system call", "why_tests_cant": "The failing result must be injected by the OS.", "anchors": ["src/sockets/TCPSocket.cpp: Send", "src/sockets/UDPSocket.cpp: Send"]}
{"id": "C22", "title": "Session registration", "statement": "Constructing a SessionInfo succeeds only if the adapter answered the registration with a complete, successful reply; the session handle is the one in that reply.", "quantifier": "every peer behaviour (any bytes, segmentation, errors, early close)", "why_tests_cant": "All peer behaviours and crash points of the peer.", "anchors": ["src/SessionInfo.cpp: SessionInfo::SessionInfo, sendAndReceive"]}
{"id": "C23", "title": "Session reply validation", "statement": "sendAndReceive returns only packets whose status is SUCCESS and whose session handle is the session's; anything else raises an exception.", "quantifier": "every request and every reply stream", "why_tests_cant": "All reply contents.", "anchors": ["src/SessionInfo.cpp: sendAndReceive"]}
{"id": "C24", "title": "Requests and replies stay paired", "statement": "In any history of requests on one session the i-th sendAndReceive returns the adapter's reply to the i-th request, even when replies arrive fragmented, carry error status, or an earlier request failed.", "quantifier": "every sequence of requests and replies, every segmentation, every position of errors and timeouts", "why_tests_cant": "Histories and timing are unbounded.", "anchors": ["src/SessionInfo.cpp: sendAndReceive", "src/sockets/TCPSocket.cpp: Receive"]}
{"id": "C25", "title": "Session is unregistered with its own handle", "statement": "Destroying a session sends exactly one UnRegisterSession packet carrying the handle obtained at registration, after everything sent before.", "quantifier": "every session history", "why_tests_cant": "Every history of requests before destruction.", "anchors": ["src/SessionInfo.cpp: ~SessionInfo"]}
{"id": "C26", "title": "TCP connect releases the descriptor on failure", "statement": "If connecting fails at any step the constructor raises std::system_error and the socket descriptor has been closed; if it succeeds the descriptor is open and back in blocking mode.", "quantifier": "every result of every system call made by the constructor", "why_tests_cant": "Each failure must be injected by the OS.", "anchors": ["src/sockets/TCPSocket.cpp: TCPSocket::TCPSocket"]}
{"id": "C27", "title": "Network connection parameter fields", "statement": "Setting redundant owner, connection type, priority, size type and size on a fresh builder, in any order, yields a word from which every getter returns what was set, in both the 16-bit and the 32-bit layout; setting a field does not disturb the others.", "quantifier": "all field values, all orders, both layouts, every connection size", "why_tests_cant": "All combinations and sizes; no tests exist.", "anchors": ["src/cip/connectionManager/NetworkConnectionParametersBuilder.cpp"]}
{"id": "C28", "title": "Forward Open request layout", "statement": "The Forward Open (Large Forward Open) request has the field layout of the CIP specification for every parameter value, the internal size assertion never fires, and a target that parses it recovers every parameter.", "quantifier": "every value of every connection parameter and every path", "why_tests_cant": "All parameter values.", "anchors": ["src/cip/connectionManager/ForwardOpenRequest.cpp", "src/cip/connectionManager/LargeForwardOpenRequest.cpp"]}
{"id": "C29", "title": "Forward Close request layout", "statement": "The Forward Close request carries the connection serial number, vendor id, originator serial number and path of the connection, with the path length in words.", "quantifier": "every connection triad and path", "why_tests_cant": "All values and path lengths.", "anchors": ["src/cip/connectionManager/ForwardCloseRequest.cpp"]}
{"id": "C30", "title": "Forward Open response decoding", "statement": "Every field of a complete Forward Open response is decoded from its position; an incomplete response is never reported as a successful connection.", "quantifier": "every byte string", "why_tests_cant": "All byte strings and truncation points.", "anchors": ["src/cip/connectionManager/ForwardOpenResponse.cpp"]}
{"id": "C31", "title": "Forward Open negotiates application size plus overhead", "statement": "The connection sizes sent to the target are the application sizes plus 2 bytes for a sequence count (transport class other than 0) plus 4 bytes for a real-time header, the other parameter bits are unchanged, and the path length field is the number of words of the path.", "quantifier": "every parameter set, both request forms", "why_tests_cant": "Carry out of the size field occurs only for specific sizes.", "anchors": ["src/ConnectionManager.cpp: forwardOpen"]}
{"id": "C32", "title": "Connection serial numbers", "statement": "In any history of opens, on any number of managers, two opens less than 65536 opens apart use different connection serial numbers, whether or not the opens succeed.", "quantifier": "every history of opens and every pair in it", "why_tests_cant": "Histories are unbounded; the counter wraps.", "anchors": ["src/ConnectionManager.cpp: forwardOpen (static serialNumberCount)"]}
{"id": "C33", "title": "Originator-chosen connection ids", "statement": "Point-to-point T2O connection ids chosen by the originator are pairwise distinct within any 2^32 consecutive such opens and start from the incarnation id of the first manager; O2T multicast ids likewise.", "quantifier": "every history of opens, every incarnation id", "why_tests_cant": "Histories are unbounded; truncation of the counter matters.", "anchors": ["src/ConnectionManager.cpp: forwardOpen (static idCount)"]}
{"id": "C34", "title": "Successful Forward Open registers the connection", "statement": "If the target accepts, the returned pointer is alive, the connection has the ids and intervals of the response and the sizes, formats, path and originator of the request, and the manager reports open connections.", "quantifier": "every accepted response, every parameter set, every set of connections already open", "why_tests_cant": "Depends on ids of connections already open.", "anchors": ["src/ConnectionManager.cpp: forwardOpen"]}
{"id": "C35", "title": "Failed Forward Open leaves no connection", "statement": "If the target refuses, the request raises an exception, or the receive socket cannot be bound, no connection is registered and the connections already open are untouched.", "quantifier": "every refusal, exception and prior state", "why_tests_cant": "All failure points.", "anchors": ["src/ConnectionManager.cpp: forwardOpen"]}
{"id": "C36", "title": "Destination of originator data", "statement": "Originator data is sent to the address and port of the O2T sockaddr item if the reply has one (the session's host when that address is 0.0.0.0), otherwise to the session's host at port 2222.", "quantifier": "every reply, every list of additional items, every session host", "why_tests_cant": "All item lists and addresses.", "anchors": ["src/ConnectionManager.cpp: forwardOpen"]}
{"id": "C37", "title": "Forward Close removes exactly that connection", "statement": "forwardClose of an open connection sends a Forward Close with that connection's triad and removes that connection and no other, even if the target reports an error; closing a pointer whose connection is gone sends nothing and changes nothing.", "quantifier": "every history leading to the close, every target answer", "why_tests_cant": "Depends on the whole history of opens, timeouts and pointers held by the user.", "anchors": ["src/ConnectionManager.cpp: forwardClose"]}
{"id": "C38", "title": "Datagrams reach the connection they are addressed to", "statement": "A datagram carrying connection id X is delivered to the open connection whose T2O id is X and to no other; if there is none it is dropped without any effect.", "quantifier": "every datagram, every set of open connections reachable by any history", "why_tests_cant": "Depends on all ids in use; failures need ids that collide modulo 2^16.", "anchors": ["src/ConnectionManager.cpp: findOrCreateSocket (receive handler), _connectionMap"]}
{"id": "C39", "title": "Received application data", "statement": "For a datagram in the negotiated format the receive listener gets the run/idle header, the sequence count and exactly the application bytes.", "quantifier": "every header, sequence count, payload and format combination", "why_tests_cant": "All combinations of real-time format and transport class.", "anchors": ["src/IOConnection.cpp: notifyReceiveData"]}
{"id": "C40", "title": "Fixed-size connections reject wrong sizes", "statement": "On a fixed-size connection data whose size differs from the negotiated size is neither delivered nor counted as activity; data of the right size is delivered and restarts the inactivity timer.", "quantifier": "every payload, size and connection state", "why_tests_cant": "All sizes.", "anchors": ["src/IOConnection.cpp: notifyReceiveData"]}
{"id": "C41", "title": "Inactivity timeout", "statement": "A connection is closed by the first tick at which the milliseconds counted since the last accepted datagram exceed t2oAPI times the timeout multiplier, and never before.", "quantifier": "every sequence of ticks and datagrams at arbitrary times", "why_tests_cant": "Timing histories are unbounded.", "anchors": ["src/IOConnection.cpp: notifyTick, notifyReceiveData"]}
{"id": "C42", "title": "Timeout multiplier", "statement": "The timeout multiplier in force is the one negotiated, 4 * 2^m for m = 0..7.", "quantifier": "every multiplier code", "why_tests_cant": "Tests never open a connection.", "anchors": ["src/ConnectionManager.cpp: forwardOpen", "src/IOConnection.h: _connectionTimeoutMultiplier"]}
{"id": "C43", "title": "Close notification exactly once", "statement": "The close listener of a connection is called exactly once if the connection times out, in the same call that removes it, and never if it is closed with forwardClose.", "quantifier": "every history of API calls", "why_tests_cant": "Histories are unbounded.", "anchors": ["src/ConnectionManager.cpp: handleConnections, forwardClose", "src/IOConnection.cpp: notifyTick"]}
{"id": "C44", "title": "Cyclic transmission", "statement": "Data is sent at the first tick at which the counted time since the previous transmission slot reaches o2tAPI; slots are never closer together than o2tAPI; the k-th slot carries encapsulation sequence number k (mod 2^32), sequence count k (mod 2^16) for class 1/2/3, run/idle header 1 when configured and the current output data.", "quantifier": "every sequence of ticks at arbitrary times", "why_tests_cant": "Timing histories are unbounded; counters wrap.", "anchors": ["src/IOConnection.cpp: notifyTick"]}
{"id": "C45", "title": "Outgoing data has the negotiated size", "statement": "On a fixed-size O2T connection nothing is sent unless the output data has exactly the negotiated size, after the send listener has had the opportunity to change it.", "quantifier": "every output data, listener and connection state", "why_tests_cant": "All sizes.", "anchors": ["src/IOConnection.cpp: notifyTick"]}
{"id": "C46", "title": "hasOpenConnections", "statement": "hasOpenConnections is true exactly when some connection was opened and neither closed nor timed out.", "quantifier": "every history of API calls", "why_tests_cant": "Histories are unbounded.", "anchors": ["src/ConnectionManager.cpp: hasOpenConnections"]}
{"id": "C47", "title": "Network input cannot break the connection loop", "statement": "No datagram, whatever its content, makes handleConnections throw or read outside its buffers.", "quantifier": "every datagram", "why_tests_cant": "All byte strings.", "anchors": ["src/ConnectionManager.cpp: findOrCreateSocket (receive handler)", "src/eip/CommonPacket.cpp: expand", "src/sockets/UDPSocket.cpp: Receive"]}
{"id": "C48", "title": "End points can be used as map keys", "statement": "The ordering of end points is a strict weak ordering in which different end points are distinguished, so that every remote end point gets its own entry.", "quantifier": "every pair and triple of end points", "why_tests_cant": "All triples.", "anchors": ["src/sockets/EndPoint.cpp: operator<", "src/ConnectionManager.cpp: _socketMap, findOrCreateSocket"]}
{"id": "C49", "title": "Timeout conversion", "statement": "Converting milliseconds to a timeval preserves the duration, gives a microsecond part in [0, 999999] and maps negative durations to zero.", "quantifier": "every duration", "why_tests_cant": "All durations.", "anchors": ["src/sockets/BaseSocket.cpp: makePortableInterval"]}
{"id": "C50", "title": "Socket polling loop", "statement": "select dispatches every ready socket once per round in order, returns after the first round without ready sockets, reports select errors as exceptions, and returns within the given timeout.", "quantifier": "every schedule of readiness", "why_tests_cant": "Schedules are controlled by the network.", "anchors": ["src/sockets/BaseSocket.cpp: select"]}
{"id": "C51", "title": "File object state synchronisation", "statement": "Constructing a FileObject reads the state attribute once and enters the matching state; unsupported states and error replies raise an exception.", "quantifier": "every reply", "why_tests_cant": "All state codes and replies.", "anchors": ["src/fileObject/FileObjectState.cpp: SyncState", "src/FileObject.cpp"]}
{"id": "C52", "title": "File upload is complete and correct", "statement": "Against an adapter that follows the upload protocol, beginUpload followed by handleTransfers until it returns false calls the handler exactly once, with SUCCESS and exactly the file's bytes.", "quantifier": "every file content up to 2^32-1 bytes and every transfer size 1..255 (transfer numbers wrap modulo 256)", "why_tests_cant": "File sizes are unbounded for practical purposes and the transfer counter wraps.", "anchors": ["src/fileObject/FileObjectLoadedState.cpp", "src/fileObject/FileObjectUploadInProgressState.cpp"]}
{"id": "C53", "title": "Upload errors are reported", "statement": "The handler is never called with SUCCESS unless the received content has the announced size; a wrong transfer number, a wrong total size or an error status is reported with an error code and empty content.", "quantifier": "every sequence of adapter replies", "why_tests_cant": "All reply histories.", "anchors": ["src/fileObject/FileObjectUploadInProgressState.cpp: transfer"]}
{"id": "C54", "title": "The upload handler is called at most once", "statement": "Between beginUpload and the end of the transfer loop the handler is called at most once, and after it has been called with an error no further transfers are requested.", "quantifier": "every sequence of adapter replies", "why_tests_cant": "All reply histories.", "anchors": ["src/fileObject/FileObjectUploadInProgressState.cpp: transfer"]}
{"id": "C55", "title": "Upload calls in other states", "statement": "beginUpload and handleTransfers send nothing and change nothing when the file is empty, nonexistent or (for handleTransfers) not being uploaded; handleTransfers then returns false.", "quantifier": "every state", "why_tests_cant": "All states and replies.", "anchors": ["src/fileObject/FileObjectEmptyState.cpp", "src/fileObject/FileObjectNonExistentState.cpp", "src/fileObject/FileObjectLoadedState.cpp"]}
{"id": "C56", "title": "Identity attributes", "statement": "For a complete Get_Attributes_All reply the getters return exactly the encoded vendor id, device type, product code, revision, status, serial number and product name.", "quantifier": "every identity", "why_tests_cant": "All field values and names.", "anchors": ["src/IdentityObject.cpp"]}
{"id": "C57", "title": "Identity instance", "statement": "IdentityObject(n, session) reads instance n.", "quantifier": "every instance id", "why_tests_cant": "All instance ids; the only test uses instance 1.", "anchors": ["src/IdentityObject.cpp"]}
{"id": "C58", "title": "Parameter attributes", "statement": "For complete replies a ParameterObject has the encoded value, type, flags, names, limits, default, precision and scaling; requests are sent in the documented order.", "quantifier": "every parameter, data size, link path, texts, flags", "why_tests_cant": "All sizes and texts.", "anchors": ["src/ParameterObject.cpp: ParameterObject::ParameterObject"]}
{"id": "C59", "title": "Engineering unit scaling", "statement": "actualToEngValue implements ((actual + offset) * multiplier * base) / (divisor * 10^precision), engToActualValue is its inverse, and both are the identity for non-scalable parameters.", "quantifier": "every value and every scaling attribute", "why_tests_cant": "All attribute combinations, including extreme multipliers.", "anchors": ["src/ParameterObject.cpp: actualToEngValue, engToActualValue"]}
{"id": "C60", "title": "updateValue changes only the value", "statement": "updateValue sends one Get_Attribute_Single for attribute 1 and on success replaces the value and nothing else; on failure it raises an exception and changes nothing.", "quantifier": "every parameter state and reply", "why_tests_cant": "All replies.", "anchors": ["src/ParameterObject.cpp: updateValue"]}
{"id": "C61", "title": "Truncated attribute replies are rejected", "statement": "An identity or parameter reply that is shorter than its contents require raises std::runtime_error.", "quantifier": "every reply and every truncation point", "why_tests_cant": "All truncation points; memory contents after the reply matter.", "anchors": ["src/IdentityObject.cpp: isValid check", "src/ParameterObject.cpp: isValid check"]}
{"id": "C62", "title": "Discovery reports every device", "statement": "discover sends one ListIdentity broadcast and returns, in order of arrival, one entry per identity item of every reply received before the receive timeout, with the identity and socket address encoded in it.", "quantifier": "every number of devices, every identity, every arrival order", "why_tests_cant": "Any number of replies.", "anchors": ["src/DiscoveryManager.cpp: discover"]}
{"id": "C63", "title": "Discovery errors", "statement": "discover ends normally only on the receive timeout; any other socket error is passed on; a malformed reply from one device does not prevent other devices from being reported.", "quantifier": "every sequence of replies and errors", "why_tests_cant": "All reply contents and orders.", "anchors": ["src/DiscoveryManager.cpp: discover"]}
{"id": "C64", "title": "Fault queue handling", "statement": "handleFaultParameters calls the listener once per recorded fault, in order, stopping at the first empty slot and after at most ten, and clears the queue exactly when configured and at least one fault was read.", "quantifier": "every device fault queue and configuration", "why_tests_cant": "All queues.", "anchors": ["src/vendor/ra/powerFlex525/DPIFaultManager.cpp: handleFaultParameters"]}
{"id": "C65", "title": "Fault parameter numbers and engineering values", "statement": "With 16-bit path segments (the default message router), fault n is read from the parameters assigned to it (code, bus voltage, current, frequency); voltages are reported unscaled and currents and frequencies divided by 100; fault numbers outside 1..10 raise an exception without any request.", "quantifier": "every fault number and every raw value", "why_tests_cant": "All fault numbers and raw values.", "anchors": ["src/vendor/ra/powerFlex525/DPIFaultParameter.cpp"]}
{"id": "C66", "title": "Fault descriptions", "statement": "A fault code is described exactly when it is in the PowerFlex 525 table and then by the entry of that code; other codes raise std::runtime_error.", "quantifier": "every integer code", "why_tests_cant": "All integers.", "anchors": ["src/vendor/ra/powerFlex525/DPIFaultCode.cpp", "src/vendor/ra/powerFlex525/DPIFaultCode.h"]}
{"id": "C67", "title": "Fault object decoding", "statement": "A DPIFaultObject holds exactly the encoded code, port, device object, 16-byte text, timer and flags of a complete reply, and error replies raise an exception.", "quantifier": "every reply", "why_tests_cant": "All values.", "anchors": ["src/vendor/ra/powerFlex525/DPIFaultObject.cpp"]}
{"id": "C68", "title": "Log filtering", "statement": "A message is passed to the appender exactly when logging is not OFF and its level is at least as severe as the global level; no message is printed while the level is OFF.", "quantifier": "every level, global level and history of setLogLevel calls", "why_tests_cant": "All histories.", "anchors": ["src/utils/Logger.cpp"]}
{"id": "C69", "title": "Logging never disturbs the program", "statement": "Creating and destroying a Logger of any level never terminates the program.", "quantifier": "every level and global level", "why_tests_cant": "All levels.", "anchors": ["src/utils/Logger.cpp: ~Logger, ConsoleAppender::print"]}
{"id": "C70", "title": "Serial numbers under concurrency", "statement": "Managers used from different threads never give two connections the same serial number.", "quantifier": "every interleaving of two opens", "why_tests_cant": "Interleavings cannot be controlled by tests.", "anchors": ["src/ConnectionManager.cpp: forwardOpen (static serialNumberCount)"]}
{"id": "C71", "title": "handleConnections in every state", "statement": "handleConnections may be called in every reachable state of a manager, including before the first successful open and after all connections are gone.", "quantifier": "every history of API calls", "why_tests_cant": "Histories are unbounded; the failing case is undefined behaviour that usually goes unnoticed.", "anchors": ["src/ConnectionManager.cpp: handleConnections", "src/sockets/BaseSocket.cpp: select"]}
{"id": "C72", "title": "Datagram reception", "statement": "UDPSocket::Receive(n) returns n bytes: the datagram, cut after n bytes, followed by zeros.", "quantifier": "every datagram and every n", "why_tests_cant": "All datagrams.", "anchors": ["src/sockets/UDPSocket.cpp: Receive"]}
{"id": "C73", "title": "Uploads can be repeated", "statement": "When an upload has ended (successfully or not), calling beginUpload on the same object starts a new upload that reports to the new handler.", "quantifier": "every file, every way an upload can end", "why_tests_cant": "The example and the tests upload once per object.", "anchors": ["src/fileObject/FileObjectUploadInProgressState.cpp: initiateUpload"]}
{"id": "C74", "title": "Typed parameter getters", "statement": "getActualValue<T>, getMinValue<T>, getMaxValue<T> and getDefaultValue<T> return the number the stored bytes encode, and the engineering getters its scaled value, for every type T.", "quantifier": "every integer type, value and scaling", "why_tests_cant": "All types, sizes and values; memory contents after the stored bytes matter.", "anchors": ["src/ParameterObject.h: encodeValue, getActualValue, getEngValue"]}
{"id": "C75", "title": "Limits in engineering units", "statement": "setEngMinValue<T>, setEngMaxValue<T> and setEngDefaultValue<T> store the number whose engineering value is given, and change nothing else, for every value T can hold.", "quantifier": "every type, scaling and value", "why_tests_cant": "All scalings and values; rounding errors and out of range conversions depend on them.", "anchors": ["src/ParameterObject.h: setEngMinValue, setEngMaxValue, setEngDefaultValue, decodeValue"]}
{"id": "C76", "title": "Object clients and connection managers over a real session", "statement": "Against an adapter that answers every request of its session, reading an identity, parameter, value, fault or file over TCP gives exactly what the adapter answers, in order, however TCP cuts the replies and whatever signals interrupt recv; in particular registering, opening a file object and uploading delivers the file. Likewise every program of connection managers ends as if it had talked to the adapter itself, leaves nothing of an answer unread, and sends nothing but these requests.", "quantifier": "every adapter (any state machine), every sequence of requests of the clients, every sequence of calls of any managers, every segmentation of every reply", "why_tests_cant": "Segmentations and adapters are unbounded; tests use one recorded reply on a mock session.", "anchors": ["src/SessionInfo.cpp: sendAndReceive", "src/MessageRouter.cpp: sendRequest", "src/FileObject.cpp", "src/ParameterObject.cpp", "src/IdentityObject.cpp", "src/vendor/ra/powerFlex525/DPIFaultManager.cpp", "src/ConnectionManager.cpp: forwardOpen, forwardClose"]}
{"id": "C77", "title": "Listeners may use the manager", "statement": "Receive, send and close listeners may call forwardOpen, forwardClose and setDataToSend during handleConnections: no object is used after its destruction, every connection that no listener closes gets its data and exactly one tick, and a connection opened by a listener stays until it is closed or times out.", "quantifier": "every set of listeners (any calls, depending on everything they can see), every reachable manager, every sequence of datagrams", "why_tests_cant": "Which listener closes what and when is unbounded; a dangling iterator often goes unnoticed in a run.", "anchors": ["src/ConnectionManager.cpp: handleConnections", "src/IOConnection.cpp: notifyTick, notifyReceiveData"]}
{"id": "C78", "title": "Texts and comparisons", "statement": "Numbers are shown as their decimal numerals: a revision as major.minor, an end point as host:port, an address as its four bytes with dots, a path as the ids it has by name; two paths have the same text exactly if they put the same bytes on the wire; revisions, paths and end points are equal (operator==) exactly if all their members are; revisions and end points made from a host text are equal exactly if their texts are; the text of an end point determines host and port.", "quantifier": "all paths, revisions, end points and host texts", "why_tests_cant": "Unbounded pairs of values; tests compare a few texts.", "anchors": ["src/cip/EPath.cpp: toString, operator==", "src/vendor/yaskawa/mp3300iec/Yaskawa_EPath.cpp: toString, operator==", "src/cip/CipRevision.cpp: toString, operator==", "src/sockets/EndPoint.cpp: toString, operator=="]}
{"id": "C79", "title": "Target and managers have the same connections", "statement": "After any sequence of opens, closes and receiving by any number of managers with one target that follows the protocol and may refuse or accept as it likes, the connections the target has open are those the managers have (same serial number, vendor, originator, ids and path), one each.", "quantifier": "every sequence of calls, every number of managers, every policy of the target, every datagram and clock", "why_tests_cant": "The histories and the target's choices of ids are unbounded; tests never look at the target's side.", "anchors": ["src/ConnectionManager.cpp: forwardOpen, largeForwardOpen, forwardClose, handleConnections"]}
{"id": "C80", "title": "Refusals are reported with their status", "statement": "The message logged for a refused request shows the general status and every additional status as hexadecimal numerals, in order, so that both can be read from it.", "quantifier": "every general status and every list of additional statuses", "why_tests_cant": "256 statuses times unbounded lists; no test looks at log texts.", "anchors": ["src/cip/MessageRouterResponse.cpp: logGeneralAndAdditionalStatus", "src/cip/GeneralStatusCodes.h"]}
{"id": "C81", "title": "Descriptors of connections and receiving sockets", "statement": "However managers are used, created and destroyed: a descriptor is used or closed only while it is held; the descriptors held are those of the living connections and of the receiving sockets, one each; destroying the managers releases all of them; and apart from that the values of descriptors do not matter.", "quantifier": "every sequence of calls of any number of managers, every result of the system calls", "why_tests_cant": "Leaks and uses after close show only in particular histories (failed bind, colliding ids, time-outs), and large descriptors only with a thousand others open.", "anchors": ["src/ConnectionManager.cpp: forwardOpen, forwardClose, handleConnections, findOrCreateSocket", "src/sockets/UDPSocket.cpp", "src/sockets/UDPBoundSocket.cpp", "src/sockets/BaseSocket.cpp: select", "src/sockets/TCPSocket.cpp: TCPSocket"]}
{"id": "C82", "title": "Only fresh data is delivered", "statement": "The receive listener of a connection is called only for datagrams that consist of a sequenced address item and a connected data item and whose sequence count is newer than that of the last datagram delivered; copies and late datagrams are discarded.", "quantifier": "every manager state, every sequence of datagrams", "why_tests_cant": "Networks duplicate and reorder datagrams rarely and never in unit tests.", "anchors": ["src/ConnectionManager.cpp: findOrCreateSocket (receive handler)", "src/IOConnection.cpp: notifyReceiveData"]}
{"id": "C83", "title": "The example programs", "statement": "With every device that follows the protocol the example programs run to their end without undefined behaviour and do what they are written to show: read every parameter and the first one's value in both forms, read and write the assemblies, save the file under instance 200, write a line that identifies the device, write one line for each device that answers, and exchange 32 bytes over an implicit connection that is closed at both ends afterwards.", "quantifier": "every device behaviour (parameters, files, assemblies, policies of the target), every datagram and clock", "why_tests_cant": "The examples need a device and are never run by the tests.", "anchors": ["examples/ParameterObjectExample.cpp", "examples/ExplicitMessagingExample.cpp", "examples/FileObjectExample.cpp", "examples/ImplicitMessagingExample.cpp", "examples/IdentityObjectExample.cpp", "examples/DiscoveryManagerExample.cpp", "examples/vendors/yaskawa/mp3300iec/Yaskawa_AssemblyObjectExample.cpp"]}
{"id": "C84", "title": "Failures of the connection reach the caller", "statement": "If an exchange with the device fails during any call of a message router, object client or connection manager, the call makes no further request and ends with that same exception; files, parameters and connections that existed before stay as they were.", "quantifier": "every call, every session and every way and moment in which it fails", "why_tests_cant": "Every request of every call can fail in many ways; tests inject at most one failure in one place.", "anchors": ["src/MessageRouter.cpp: sendRequest", "src/vendor/yaskawa/mp3300iec/Yaskawa_MessageRouter.cpp: sendRequest", "src/IdentityObject.cpp", "src/ParameterObject.cpp", "src/FileObject.cpp", "src/vendor/ra/powerFlex525/DPIFaultManager.cpp: handleFaultParameters", "src/vendor/ra/powerFlex525/DPIFaultObject.cpp", "src/ConnectionManager.cpp: forwardOpen, forwardClose"]}
{"id": "C85", "title": "Refusals are not taken for successes", "statement": "If the device refuses a request, the call makes no further request and ends with the exception for refused requests, and this exception has no other cause (reading identities, parameters, faults and file states, clearing faults, closing connections).", "quantifier": "every device with any answers to any request", "why_tests_cant": "Each of up to 41 requests of a call may be refused with any of 255 statuses.", "anchors": ["src/IdentityObject.cpp", "src/ParameterObject.cpp", "src/FileObject.cpp", "src/vendor/ra/powerFlex525/DPIFaultManager.cpp: handleFaultParameters", "src/vendor/ra/powerFlex525/DPIFaultParameter.cpp", "src/vendor/ra/powerFlex525/DPIFaultObject.cpp", "src/ConnectionManager.cpp: forwardClose"]}
{"id": "C86", "title": "Exceptions out of handleConnections", "statement": "When a listener, a datagram or a socket ends handleConnections with an exception, no connection is lost and none is half handled: a connection that no listener closes stays as it was negotiated, has been given exactly what came for it before the exception and has had its whole tick or none; no event is reported twice, nothing is sent or delivered on a connection after it was reported closed, and no sequence number is skipped.", "quantifier": "every set of listeners (any calls and exceptions), every manager that calls and listeners can lead to, every sequence of datagrams and results of sends", "why_tests_cant": "Any listener may throw at any of its calls; tests use listeners that return.", "anchors": ["src/ConnectionManager.cpp: handleConnections", "src/IOConnection.cpp: notifyTick, notifyReceiveData"]}
{"id": "C87", "title": "Sessions and discovery keep their descriptors in order", "statement": "However sessions are opened, used and destroyed and devices are searched for, with any failures of system calls and any behaviour of the peers: no descriptor is used or closed that the library does not hold, every living session holds exactly one, and nothing else stays open except the descriptors of TCP sockets on which fcntl fails before connecting; this also holds when connection managers are used in between.", "quantifier": "every program of session and discovery calls, every result of every system call, every interleaving with the calls of connection managers", "why_tests_cant": "Leaks and double closes appear only after particular failures (fcntl, connect, registration, a malformed reply) in particular orders.", "anchors": ["src/SessionInfo.cpp: SessionInfo, ~SessionInfo, sendAndReceive", "src/DiscoveryManager.cpp: discover, makeSocket", "src/sockets/TCPSocket.cpp: TCPSocket, ~TCPSocket", "src/sockets/UDPSocket.cpp: UDPSocket, ~UDPSocket"]}
{"id": "C88", "title": "Objects of the wire formats can be used again", "statement": "Whatever calls were made on a path, encapsulation packet, common packet or response before, and whether they failed or not, it accepts and refuses the same bytes as a new object and afterwards holds what those bytes say; setters give each field the last value set, in any order, and change nothing else; new objects are written as zeros and a new response is an empty success.", "quantifier": "every sequence of calls on an object, every byte string", "why_tests_cant": "Stale fields show up only when an object is parsed into a second time, with particular contents before.", "anchors": ["src/cip/EPath.cpp: expandPaddedPath", "src/vendor/yaskawa/mp3300iec/Yaskawa_EPath.cpp: expandPaddedPath", "src/eip/EncapsPacket.cpp", "src/eip/CommonPacket.cpp", "src/cip/MessageRouterResponse.cpp", "src/cip/connectionManager/ConnectionParameters.h"]}
{"id": "C89", "title": "A file object can be synchronised again", "statement": "Reading the state again replaces the state of a file object in whatever state it is, or throws and leaves the object as it was; no handler is called. After it an upload delivers the file, whatever happened before. With calls in any order against an adapter that follows the protocol no call fails, a handler is told the file or an error, and the file at most once per beginUpload; a handler of an upload given up by synchronising is not called again.", "quantifier": "every state of the object and of the adapter, every file and piece size, every sequence of beginUpload, handleTransfers and SyncState, every session", "why_tests_cant": "The reaction depends on the whole history of calls and on where the adapter stands; tests synchronise once, in the constructor.", "anchors": ["src/fileObject/FileObjectState.cpp: SyncState", "src/fileObject/FileObjectState.h: setState", "src/FileObject.cpp: getState"]}
{"id": "C90", "title": "Memory behind received data has no influence unless it is read", "statement": "The result of every parser and of every call of the library, and the state it leaves, are the same whatever lies in memory behind the received data, unless the call reads outside that data. In particular a call that is free of out-of-bounds reads when nothing lies behind the data is free of them, and gives the same, in every memory.", "quantifier": "every byte string, state, session and history of calls, every content of the memory behind each buffer", "why_tests_cant": "What lies behind a buffer is an accident of the allocator; a test sees one allocation.", "anchors": ["src/utils/Buffer.cpp: operator>>", "src/eip/EncapsPacket.cpp: expand", "src/eip/CommonPacket.cpp: expand", "src/cip/MessageRouterResponse.cpp: expand", "src/IOConnection.cpp: notifyReceiveData", "src/IdentityObject.cpp", "src/ParameterObject.cpp", "src/FileObject.cpp", "src/ConnectionManager.cpp", "src/DiscoveryManager.cpp"]}
{"id": "C91", "title": "Upload handlers may use the file object they are called for", "statement": "A handler may begin an upload, make transfers or synchronise the object, or throw: its exception reaches the caller, its calls act on the object as it is after the call that called it, and all together do what the same calls do when the user makes them one after the other. So against an adapter that follows the protocol nothing is undefined, and the file is delivered at most once per beginUpload.", "quantifier": "every behaviour of the handlers (any calls, depending on all results), every session and adapter, every history of calls, every depth of the stack", "why_tests_cant": "Reentrancy depends on which call the handler is called from and on what it does afterwards; tests use handlers that only record.", "anchors": ["src/fileObject/FileObjectLoadedState.cpp: initiateUpload", "src/fileObject/FileObjectUploadInProgressState.cpp: transfer", "src/fileObject/FileObjectState.h: setState", "src/FileObject.cpp"]}
{"id": "C92", "title": "A connection and its target keep each other alive", "statement": "If the target sends at least every A, handleConnections is called at least every P, nothing takes longer than D on the network, and the timeouts of both ends leave room for this, then neither end ever gives the connection up: every item the target sends is received exactly once (in order, if the network keeps the order) by the first call after its arrival, and the target is sent the slots 1, 2, 3, ...", "quantifier": "every schedule of sends, arrivals and calls at such a pace, every negotiated interval, multiplier and format, every output data and send listener, every history of calls on other connections and managers", "why_tests_cant": "Whether timeouts are met depends on the phases of three clocks against each other over the whole life of the connection.", "anchors": ["src/IOConnection.cpp: notifyTick, notifyReceiveData", "src/ConnectionManager.cpp: handleConnections"]}
{"id": "C93", "title": "Listeners may call handleConnections", "statement": "A listener of a connection may call handleConnections of the manager it is called from, for instance to wait for the next data. The outer call then behaves as if the listener had done nothing else: nothing that no longer exists is used, each connection is ticked once in every call, inner or outer, its packets are sent in order, and its close listener is called at most once.", "quantifier": "all listeners that open and close connections, set data, throw or call handleConnections, to any depth of nesting; all datagrams, times and results of the system calls in the inner and outer calls", "why_tests_cant": "What an inner call removes or changes depends on which connections time out or send in which of the nested calls; there are as many cases as interleavings.", "anchors": ["src/ConnectionManager.cpp: handleConnections", "src/IOConnection.cpp: notifyTick, notifyReceiveData"]}
{"id": "C94", "title": "The log tells which connections are open", "statement": "From the messages that a connection manager logs at the default level, one can tell which connections are open: those that were reported as opened and neither refused, closed nor timed out since. Every close listener call has its message with the serial number of the connection, in the same order. Every datagram is announced with its connection id at the level DEBUG, and its data is either given to a receive listener or complained about in the log, and there is a message for every packet that is held back because of its size.", "quantifier": "all sequences of calls, results of the system calls, answers of targets, datagrams, times and numbers of connections", "why_tests_cant": "Tests do not read the log; whether it agrees with the map depends on which of the calls fail at which point and on the ids and serial numbers that targets choose.", "anchors": ["src/ConnectionManager.cpp: forwardOpen, forwardClose, handleConnections, findOrCreateSocket", "src/IOConnection.cpp: notifyReceiveData, notifyTick", "src/MessageRouter.cpp: sendRequest"]}
{"id": "C95", "title": "Errors keep their numbers while messages are logged", "statement": "Whatever a log appender does to errno, and whatever the log level is, a system call that fails is reported to the caller with the number of that call, and no call that did not fail is reported: TCP connecting and receiving, UDP receiving, sending and the discovery of devices behave as if nothing were logged. If a TCP stream ends early, exactly one warning says how many of the wanted bytes arrived, and the byte counts that are logged add up to what was received. The socket of a discovery is reported as opened and as closed, however the discovery ends.", "quantifier": "all appenders and log levels, results of the system calls, streams, datagrams and errno values", "why_tests_cant": "Tests run with one appender that leaves errno alone and with the default level; errors of recvfrom with a failing appender are not tried.", "anchors": ["src/sockets/UDPSocket.cpp: UDPSocket, Send, Receive, ReceiveFrom", "src/sockets/TCPSocket.cpp: TCPSocket, Send, Receive", "src/sockets/BaseSocket.cpp: getLastError", "src/DiscoveryManager.cpp: discover", "src/utils/Logger.cpp: ~Logger"]}
{"id": "C96", "title": "The log tells the state of a file object", "statement": "The messages of a file object carry its id in hexadecimal and the name of its state. From those at the levels DEBUG and TRACE one can tell in which state an object is: every state that is entered is reported, and every one that is left, so that exactly one is open while the object exists and none after it is destroyed or its constructor has thrown; objects with other ids do not disturb this. Messages at level ERROR match the handler calls without a file one by one, with the status the handler gets. The requests in the log are those the adapter gets. A call that has no effect is mentioned, and an upload is initiated when the log says so.", "quantifier": "all object ids, sequences of calls, answers of the adapter, failures of the session and logs written before", "why_tests_cant": "Tests do not read the log; which states are entered and left depends on the answers and on the call that fails.", "anchors": ["src/fileObject/FileObjectState.cpp: FileObjectState, logWithStateName, getStateName, SyncState", "src/fileObject/FileObjectState.h: setState", "src/fileObject/FileObjectLoadedState.cpp: initiateUpload, transfer", "src/fileObject/FileObjectUploadInProgressState.cpp: initiateUpload, transfer", "src/fileObject/FileObjectEmptyState.cpp", "src/fileObject/FileObjectNonExistentState.cpp", "src/FileObject.cpp: FileObject"]}
{"id": "C97", "title": "Requests and refusals in the log", "statement": "The messages of identity, parameter and drive fault objects change nothing else. From those up to level INFO one can tell what was exchanged with the adapter: every request that is made, with service, class, instance and attribute, in order, and behind each one that is refused a message with the additional statuses of the answer. At level DEBUG the number, the flags, the size, the type and the name of a parameter object that is read are told, and the last message only if it is read completely. The number of faults the fault manager logs is the number given to the listener.", "quantifier": "all identifiers, adapters and their answers, failures of the session, path segment formats and logs written before", "why_tests_cant": "Tests do not read the log; refusals can come at any of the requests, of which there are up to seven per object.", "anchors": ["src/MessageRouter.cpp: sendRequest", "src/cip/MessageRouterResponse.cpp: logGeneralAndAdditionalStatus", "src/IdentityObject.cpp: IdentityObject", "src/ParameterObject.cpp: ParameterObject, updateValue", "src/vendor/ra/powerFlex525/DPIFaultManager.cpp: handleFaultParameters, writeCommand", "src/vendor/ra/powerFlex525/DPIFaultParameter.cpp: DPIFaultParameter", "src/vendor/ra/powerFlex525/DPIFaultObject.cpp: DPIFaultObject", "src/vendor/yaskawa/mp3300iec/Yaskawa_MessageRouter.cpp: sendRequest"]}
{"id": "C98", "title": "The log tells which sessions are registered", "statement": "Every session that is constructed is logged as registered with the handle the adapter gave, every one that is destroyed as unregistered with the same handle, and nothing else is; a constructor that throws says nothing. So while the program goes on, the handles registered are, with their multiplicities, those unregistered and those of the sessions that exist; when all sessions are destroyed nothing is left over. If the log says that a session is registered the adapter has said so, and if it says that it is unregistered the adapter was told.", "quantifier": "all programs that construct, use and destroy sessions and look for devices, results of the system calls, adapters and what they send", "why_tests_cant": "Tests do not read the log; the messages depend on the step at which a constructor fails, on short sends and on the order in which sessions are destroyed.", "anchors": ["src/SessionInfo.cpp: SessionInfo, ~SessionInfo, sendAndReceive", "src/sockets/TCPSocket.cpp: TCPSocket, Send, Receive"]}
{"id": "C99", "title": "Only the documented exceptions are thrown", "statement": "The functions whose headers announce std::runtime_error and std::system_error (the constructors of SessionInfo, IdentityObject, ParameterObject and FileObject, ParameterObject::updateValue, MessageRouter::sendRequest in both versions) throw no other exception. Where they do, exactly a reply is to blame that ends before the list of items (std::length_error) or has fewer than two items (std::out_of_range), and it is the last one received.", "quantifier": "all requests, objects, sessions, adapters, results of the system calls and byte streams", "why_tests_cant": "A test sees the exceptions of the replies it makes up; the claim is over every sequence of replies and every place at which a call can fail.", "anchors": ["src/SessionInfo.h: SessionInfo", "src/MessageRouter.cpp: MessageRouter::sendRequest", "src/vendor/yaskawa/mp3300iec/Yaskawa_MessageRouter.cpp: sendRequest", "src/IdentityObject.cpp: IdentityObject", "src/ParameterObject.cpp: ParameterObject, updateValue", "src/FileObject.cpp: FileObject"]}
{"id": "C100", "title": "The example programs as a whole", "statement": "Over any TCP connection to any adapter, each of the example programs that use a session (parameters, explicit and implicit messages, files, identity, Yaskawa assemblies) registers the session, asks exactly what it asks the device itself, gets the same answers and ends with the same result; then the session is unregistered, and nothing else is sent. If the session cannot be had, the program is terminated and no request is sent. A program that has registered a session unregisters it.", "quantifier": "all adapters (any state machine), segmentations of their replies, results of the system calls while connecting, datagrams and clock values", "why_tests_cant": "The examples need a device and are not run by the tests; the adapters they could meet are unbounded.", "anchors": ["examples/ParameterObjectExample.cpp: main", "examples/ExplicitMessagingExample.cpp: main", "examples/FileObjectExample.cpp: main", "examples/IdentityObjectExample.cpp: main", "examples/ImplicitMessagingExample.cpp: main", "examples/vendors/yaskawa/mp3300iec/Yaskawa_AssemblyObjectExample.cpp: main", "src/SessionInfo.cpp: SessionInfo, ~SessionInfo"]}
{"id": "C101", "title": "Texts of exceptions", "statement": "The text of an exception names its cause: a path by the type of the first segment that is not known; a packet of the wrong length by the announced and the available number of bytes, with the word only if there are too few; a refused packet by its status; a refused registration by the address of the device; a parameter by the attribute that was refused; a file object by its id. Nothing but the texts is added to the computations of the other properties.", "quantifier": "all byte strings, peers, devices (any state machine), parameter and file object ids, memories", "why_tests_cant": "The tests check that exceptions are thrown, not their texts, which depend on unbounded inputs.", "anchors": ["src/cip/EPath.cpp: expandPaddedPath", "src/vendor/yaskawa/mp3300iec/Yaskawa_EPath.cpp: expandPaddedPath", "src/eip/EncapsPacket.cpp: expand", "src/SessionInfo.cpp: SessionInfo, sendAndReceive", "src/ParameterObject.cpp: ParameterObject", "src/fileObject/FileObjectState.cpp: SyncState"]}
{"id": "C102", "title": "Listeners that replace listeners", "statement": "The listeners of a connection may be replaced at any time, also by listeners. Every datagram and every timeout is given to the listener set last, once and in order; what a listener sets is set when it returns, and nothing else changes; listeners that replace nothing behave as in C77. Replacing, removing or closing from within a listener neither makes the library use what was destroyed nor raises an exception.", "quantifier": "all sets of callables (functions of the whole state that make calls, replace listeners of any connection and use their captures), slots, connections, datagrams, times, results of select() and sendto(), devices (any state machine), programs before", "why_tests_cant": "Needs listeners that replace themselves or others between events of several connections, in every order; the tests set one listener once and leave it.", "anchors": ["src/IOConnection.cpp: setReceiveDataListener, setSendDataListener, setCloseListener, notifyReceiveData, notifyTick", "src/IOConnection.h: _receiveDataHandle, _closeHandle, _sendDataHandle", "src/ConnectionManager.cpp: handleConnections"]}
{"id": "C103", "title": "One session used by several threads", "statement": "Several threads may use a session at the same time. Every thread makes its calls in its order and none waits for another one; no call shows undefined behaviour, and a packet that is returned has status 0 and the handle of the session; and every call returns the reply to its own request. With a lock around the calls the threads get what one thread gets that makes the calls in the order in which they were sent. Without it, as long as no call begins to read while another one is reading, the replies go to the calls in the order in which these begin to read.", "quantifier": "all numbers of threads and calls, schedules (one step is one system call), peers, segmentations of their replies, signals and timeouts", "why_tests_cant": "A test runs one schedule out of unboundedly many, and the harmful ones need a context switch between two system calls.", "anchors": ["src/SessionInfo.cpp: sendAndReceive", "src/sockets/TCPSocket.cpp: Send, Receive", "src/SessionInfo.h: sendAndReceive", "docs/source/implicit_messaging.rst"]}
{"id": "C104", "title": "What a peer can make the library hold", "statement": "Whatever a peer sends, the amount of memory it can make the library keep is bounded: an exchange takes at most 24 + 65535 bytes from the connection; everything a response holds was in the packet, so at most 65515 bytes; an identity object holds a name of at most 255 bytes, a parameter object seven pieces of at most 255 bytes, and an update changes no size; a datagram adds at most 119 devices to the result of discovery, with names of at most 255 bytes; a datagram for implicit messages makes no connection and calls at most one listener, with at most 8182 bytes; a file object that uploads a file holds no more than was announced.", "quantifier": "all byte streams, segmentations, errors, datagrams, adapters, memories behind the received data, objects and numbers of transfers", "why_tests_cant": "A test knows the sizes it sends; the claim is over everything an adapter, or something else in the network, can send.", "anchors": ["src/sockets/TCPSocket.cpp: Receive", "src/SessionInfo.cpp: sendAndReceive", "src/MessageRouter.cpp: sendRequest", "src/eip/CommonPacket.cpp: expand", "src/IdentityObject.cpp: IdentityObject", "src/ParameterObject.cpp: ParameterObject, updateValue", "src/DiscoveryManager.cpp: discover", "src/ConnectionManager.cpp: handleConnections", "src/fileObject/FileObjectLoadedState.cpp: initiateUpload", "src/fileObject/FileObjectUploadInProgressState.cpp: transfer"]}
{"id": "C105", "title": "How long calls take", "statement": "A call comes back within its timeout: with a timeout of T > 0 milliseconds an exchange ends no later than T after it began, if the send itself does not block; a session is opened within T for the connection and T for the registration; an object takes T for each of its requests (one for an identity, six for a parameter, one for each step of an upload); discovery ends T after the last reply. Time changes nothing else: an exchange with a clock does what the exchange without a clock does on the same bytes, in which at most one recv() has run into the timeout.", "quantifier": "all timeouts, times at which pieces arrive, segmentations, signals, durations of sends, packets, adapters, numbers of datagrams", "why_tests_cant": "A test with an adapter on the same machine sees replies that come at once and in one piece; how long a call can last is decided by replies that come slowly, for which a test would have to wait hours.", "anchors": ["src/sockets/TCPSocket.cpp: Receive, Send", "src/sockets/BaseSocket.cpp: setRecvTimeout, makePortableInterval", "src/SessionInfo.cpp: SessionInfo, sendAndReceive", "src/DiscoveryManager.cpp: discover", "src/ParameterObject.cpp: ParameterObject, updateValue", "src/IdentityObject.cpp: IdentityObject", "src/FileObject.cpp: FileObject, beginUpload, handleTransfers"]}
{"id": "C106", "title": "How long handleConnections takes", "statement": "A call of handleConnections with a timeout lasts, whatever arrives, no longer than the timeout and the handling of the datagrams that were there when it began, so that connections are ticked in time. It takes the datagrams of each socket in the order of arrival, each after its arrival and once, leaves none that was there when it ends, is not early by a millisecond, and does otherwise what the call without a clock does.", "quantifier": "all states of a manager, numbers of sockets, times of arrival, datagrams, durations of their handling, timeouts, ticks", "why_tests_cant": "How long the loop goes on depends on what comes while it handles what came before; tests send a few datagrams.", "anchors": ["src/sockets/BaseSocket.cpp: select, makePortableInterval", "src/ConnectionManager.cpp: handleConnections, findOrCreateSocket", "src/IOConnection.cpp: notifyTick"]}
{"id": "C107", "title": "Sessions that are copied", "statement": "A session object can be copied and assigned like a value (the class does not forbid it): the copies are the same session, each can be used as long as it exists, what it sends goes to its own adapter and the answers come from there, and when the last copy is destroyed, and not before, the session is unregistered and its descriptor closed.", "quantifier": "all programs that construct, copy, assign, use and destroy sessions, results of the system calls, numbers given to descriptors, adapters and what they send", "why_tests_cant": "What a stale number of a descriptor stands for depends on what the program and the system have opened since; a test of a copy that is destroyed at the end of the scope sees nothing, because neither send() nor close() on a closed descriptor is reported.", "anchors": ["src/SessionInfo.h: SessionInfo", "src/SessionInfo.cpp: ~SessionInfo, sendAndReceive", "src/sockets/TCPSocket.h: TCPSocket", "src/sockets/TCPSocket.cpp: ~TCPSocket, Send, Receive", "src/sockets/BaseSocket.h: BaseSocket", "src/sockets/BaseSocket.cpp: Shutdown, Close"]}
{"id": "C108", "title": "Several connection managers", "statement": "Connection managers of one program do not disturb each other: each behaves as if it were the only one, whatever manager a connection is closed through the connection is closed and no other one, a connection is announced as closed once, and copies of a manager can be used like the manager, also when it is gone.", "quantifier": "all programs that construct, copy, assign and destroy managers and open, close, poll and feed connections through any of them, sessions, datagrams, results of the system calls, times", "why_tests_cant": "Managers share connections through weak and shared pointers and sockets through captured this pointers; closing through another manager only fails in debug builds or for equal low 16 bits of the ids, and a dangling capture needs a datagram after the destruction.", "anchors": ["src/ConnectionManager.h: ConnectionManager", "src/ConnectionManager.cpp: forwardClose, handleConnections, findOrCreateSocket", "src/IOConnection.cpp: notifyTick, notifyReceiveData"]}
{"id": "C109", "title": "Windows and macOS", "statement": "What the library does on Windows and macOS is what it does on Linux, up to the numbers of the errors: a failed attempt to connect leaves no descriptor open and ends within its timeout, a socket has the receive timeout that was asked for, select() looks at all sockets it is given, discovery ends with the devices found, handleConnections takes datagrams of any length, and the text of an error has no line end at its end.", "quantifier": "all results of the system calls, timeouts, times, numbers of descriptors, error texts, datagrams, states of a manager", "why_tests_cant": "The tests run on one system; the differences show only with slow or unreachable peers, very long timeouts, many sockets or long datagrams.", "anchors": ["src/sockets/Platform.h: EIPSCANNER_SOCKET_ERROR", "src/sockets/Platform.cpp: win32ErrorCategory::message", "src/sockets/BaseSocket.cpp: setRecvTimeout, makePortableInterval, select", "src/sockets/TCPSocket.cpp: TCPSocket, Receive", "src/sockets/UDPSocket.cpp: Receive", "src/DiscoveryManager.h: DISCOVERY_SOCKET_RECEIVE_END_ERROR_CODE", "src/DiscoveryManager.cpp: discover", "src/ConnectionManager.cpp: handleConnections"]}
{"id": "C110", "title": "Listeners that wait for more data and replace listeners", "statement": "Listeners may call handleConnections, replace listeners of any connection and use their captures, in any combination. Every call, also one made in an inner call of handleConnections, goes to the listener set last; the data and close listeners of a connection are called for exactly the datagrams and timeouts announced for it, once and in order; listeners that make no inner calls behave as in C102, those that replace nothing as in C93. No listener is used after it was destroyed, and no empty one is called.", "quantifier": "all sets of callables (functions of the whole state that make calls, call handleConnections, replace listeners and use their captures), depths of nesting, slots, connections, datagrams, times, results of select() and sendto(), devices (any state machine), programs before", "why_tests_cant": "Needs a datagram or a timeout for the very connection whose listener waits, during the inner call, and a listener that goes on to use what it captured.", "anchors": ["src/IOConnection.cpp: setReceiveDataListener, setSendDataListener, setCloseListener, notifyReceiveData, notifyTick", "src/IOConnection.h: _receiveDataHandle, _closeHandle, _sendDataHandle", "src/ConnectionManager.cpp: handleConnections, findOrCreateSocket"]}
{"id": "C111", "title": "Connections that the application keeps", "statement": "An application may keep what IOConnection::WPtr::lock() returned. The object then stays what it is until the application gives it up, also after the connection was closed or timed out; a connection that has ended stays silent; the manager and all calls behave as if nothing was kept; lock() gives a connection as long as it is open; and closing a connection that has already ended is reported and does nothing.", "quantifier": "all programs that open, close, poll and feed connections and keep and give up pointers to them, sessions, datagrams, results of the system calls, times", "why_tests_cant": "That the connection has ended while a pointer was kept depends on timeouts; closing it again aborts only in debug builds, and hits another connection only if the low 16 bits of the ids are equal.", "anchors": ["src/ConnectionManager.cpp: forwardOpen, forwardClose, handleConnections", "src/ConnectionManager.h: _connectionMap", "src/IOConnection.h: WPtr, SPtr", "src/IOConnection.cpp: setDataToSend"]}
{"id": "C112", "title": "Not enough memory", "statement": "If memory runs out during a call to a session, the call throws std::bad_alloc and the session can be used afterwards: each later call gets the reply to its own request. Destroying a session never ends the program. With enough memory nothing changes.", "quantifier": "all places at which allocations fail (in any combination), packets, requests, devices that answer each packet with one packet, numbers of later calls, levels of the log", "why_tests_cant": "Allocations practically never fail in tests, and then at one place; a session answers wrongly only with the calls after the one that failed.", "anchors": ["src/SessionInfo.cpp: SessionInfo, ~SessionInfo, sendAndReceive", "src/sockets/TCPSocket.cpp: Receive", "src/MessageRouter.cpp: sendRequest", "src/utils/Logger.cpp: ~Logger", "src/eip/EncapsPacket.cpp: getLengthFromHeader"]}
{"id": "C113", "title": "Texts of addresses", "statement": "An end point made from a text and a port has the IPv4 address that the text denotes (in the notations of inet_aton) and that port. The texts which the library shows for addresses denote them, so a device that was found can be addressed by the text shown. A text that denotes no address, and a port that does not exist, are refused. Two texts for the same address give equal end points.", "quantifier": "all texts, ports and addresses", "why_tests_cant": "The set of texts is infinite; the tests use a few dotted quads. A name that is not refused silently means this host.", "anchors": ["src/sockets/EndPoint.cpp: EndPoint, getHost, getPort, operator==", "src/SessionInfo.cpp: SessionInfo", "src/ConnectionManager.cpp: forwardOpen"]}
{"id": "C114", "title": "Who gets the data", "statement": "What a device sends for an open connection, to the address that was agreed on, is given to that connection when its manager is polled, whatever other managers and programs of the host do; data from anybody else is not.", "quantifier": "all runs of any number of managers on a host, all packets (sender, address, port, contents), choices of the system between sockets at one port, members of groups", "why_tests_cant": "With SO_REUSEADDR the system chooses between the sockets at port 2222; it takes two managers or programs and a device that sends. Multicast needs a device and a switch, and tests have no strangers on the network.", "anchors": ["src/ConnectionManager.cpp: forwardOpen, findOrCreateSocket, handleConnections", "src/sockets/UDPBoundSocket.cpp: UDPBoundSocket", "src/sockets/UDPSocket.cpp: Receive"]}
{"id": "C115", "title": "Socket addresses on other hosts", "statement": "On every host, big-endian or little-endian and with or without sin_len in struct sockaddr_in (BSD, macOS), a socket address in a packet is read as the family, address and port it says, for the application and for the system calls; written addresses are in network order; and the data of a connection goes to the address that the adapter named.", "quantifier": "all hosts of the four kinds, addresses, ports, families, packets and items, texts of hosts", "why_tests_cant": "Tests run on one kind of host, mostly Linux on x86. Writing an address and reading it back shows nothing even on a big-endian host, where both are wrong.", "anchors": ["src/utils/Buffer.cpp: operator<<(sockets::EndPoint), operator>>(sockets::EndPoint &)", "src/sockets/EndPoint.cpp: EndPoint, operator==", "src/ConnectionManager.cpp: forwardOpen"]}
{"id": "C116", "title": "Connections when memory runs out", "statement": "If an allocation fails in handleConnections, forwardOpen or forwardClose, the application gets std::bad_alloc, every connection of the manager is still there as agreed on, no connection is announced as closed twice or used after that, no sequence number is skipped, no data that was read is lost, and the target has no connection that the manager does not have. If no allocation fails nothing is different.", "quantifier": "all managers, patterns of failing allocations, datagrams, times, log levels, requests and replies", "why_tests_cant": "Tests do not make single allocations fail, and there are many patterns of failing allocations.", "anchors": ["src/ConnectionManager.cpp: handleConnections, forwardOpen, forwardClose", "src/IOConnection.cpp: notifyTick, notifyReceiveData", "src/utils/Logger.cpp: ~Logger"]}
{"id": "C117", "title": "File uploads when memory runs out", "statement": "If an allocation fails in a call of a file object, the application gets std::bad_alloc, the object is as it was before the call, and the upload can be carried on with another call: the handler gets the file as the adapter has it, once. If no allocation fails nothing is different.", "quantifier": "all files, adapters, patterns of failing allocations, log levels, numbers of calls", "why_tests_cant": "Tests do not make single allocations fail, and there are many patterns of failing allocations.", "anchors": ["src/FileObject.cpp: FileObject, beginUpload, handleTransfers", "src/fileObject/FileObjectUploadInProgressState.cpp: transfer", "src/fileObject/FileObjectLoadedState.cpp: initiateUpload", "src/fileObject/FileObjectState.cpp: ~FileObjectState, logWithStateName"]}
{"id": "C118", "title": "Discovery when memory runs out", "statement": "If an allocation fails in discover, the application gets std::bad_alloc, the socket is closed once and not used after that, no other descriptor is touched, and the request was sent as usual or not at all. If no allocation fails nothing is different.", "quantifier": "all patterns of failing allocations, datagrams, results of system calls, descriptors held by others", "why_tests_cant": "Tests do not make single allocations fail, and there are many patterns of failing allocations.", "anchors": ["src/DiscoveryManager.cpp: discover, makeSocket", "src/sockets/UDPSocket.cpp: UDPSocket, ~UDPSocket, Receive"]}
{"id": "C119", "title": "Faults when memory runs out", "statement": "If an allocation fails in handleFaultParameters, the application gets std::bad_alloc, the listener has got the first of the faults it would have got, the queue of the drive is cleared only after the listener has got all of them, and a fault that was handed over is not handed over again. If no allocation fails nothing is different.", "quantifier": "all drives, patterns of failing allocations, sessions, log levels, settings of the manager", "why_tests_cant": "Tests do not make single allocations fail, and there are many patterns of failing allocations.", "anchors": ["src/vendor/ra/powerFlex525/DPIFaultManager.cpp: handleFaultParameters, writeCommand", "src/vendor/ra/powerFlex525/DPIFaultParameter.cpp: DPIFaultParameter, getFaultDetail", "src/vendor/ra/powerFlex525/DPIFaultCode.h: _faultMap"]}
{"id": "C120", "title": "Fault listeners that throw", "statement": "If the fault listener throws, the exception comes out of handleFaultParameters, the listener has got the faults up to that one, the queue of the drive is not cleared, and the next call goes on with the fault the listener refused. A listener may use the session, also to clear the queue; every fault is still handed over once.", "quantifier": "all listeners (that throw for any faults, whatever they got before), devices, queues, settings of the manager, sessions, numbers of calls", "why_tests_cant": "The listeners of the tests only record what they get; when one throws depends on the faults before, and it takes several calls to see a fault twice.", "anchors": ["src/vendor/ra/powerFlex525/DPIFaultManager.cpp: handleFaultParameters, writeCommand, setNewFaultListener"]}
{"id": "C121", "title": "Each request over a session gets its own reply, also after memory ran out", "statement": "A request that ends with a result has the reply to itself, also if earlier requests ended with std::bad_alloc; the connections, uploads and faults of the clients run over real TCP sessions as over the sessions assumed elsewhere, except that they may end for want of memory.", "quantifier": "all peers that answer each packet with one well-formed packet, requests, places where memory runs out, states of the session", "why_tests_cant": "Memory does not run out in tests; a reply that was left unread shows only in a later request, for something else.", "anchors": ["src/MessageRouter.cpp: MessageRouter::sendRequest", "src/SessionInfo.cpp: SessionInfo::sendAndReceive", "src/ConnectionManager.cpp: forwardOpen"]}
{"id": "C122", "title": "Identity and parameter objects when memory runs out", "statement": "Constructing an identity or parameter object, or updating a parameter, when memory runs out ends with std::bad_alloc: an update leaves the object as it was, nothing is written to the device, and the call can be made again with the result it would have had; the program does not end.", "quantifier": "all devices and sessions, ids and kinds of parameters, contents of the object, places where memory runs out, levels of the log", "why_tests_cant": "Memory does not run out in tests; there are up to twenty places in one constructor.", "anchors": ["src/ParameterObject.cpp: ParameterObject::ParameterObject, updateValue", "src/IdentityObject.cpp: IdentityObject::IdentityObject"]}
{"id": "C123", "title": "The console log when output fails", "statement": "Every message that is shown comes out on the console as a line of its own with its level. If writing to the console fails, the program goes on; what could not be written is lost, and messages appear again as lines when writing succeeds again.", "quantifier": "all sequences of messages, level changes, output of the program and calls of std::cout.clear(); any writes and flushes that fail, after any number of characters", "why_tests_cant": "Tests log to an own appender or to a console that works; a full disk or a closed pipe is needed to see it.", "anchors": ["src/utils/Logger.cpp: ConsoleAppender::print, Logger::~Logger"]}
{"id": "C124", "title": "Requests with Yaskawa paths when memory runs out", "statement": "A request through Yaskawa_MessageRouter for which there is not enough memory ends with std::bad_alloc and leaves the session usable: every request that ends otherwise has the reply to itself, the program does not end, and with enough memory requests are as without this consideration.", "quantifier": "all peers that answer each packet with one well-formed packet, services, paths, data, additional items, places where memory runs out, levels of the log, states of the session", "why_tests_cant": "Memory does not run out in tests, and there are no tests of this router; a reply that was left unread shows only in a later request, for something else.", "anchors": ["src/vendor/yaskawa/mp3300iec/Yaskawa_MessageRouter.cpp: Yaskawa_MessageRouter::sendRequest", "src/SessionInfo.cpp: SessionInfo::sendAndReceive"]}
