{
 "claims": [
  {
   "property": "C01",
   "status": "proved",
   "theorems": [
    "C01_buffer_roundtrip",
    "C01_buffer_queue"
   ],
   "note": "all encodable value types, separate and interleaved encode/decode"
  },
  {
   "property": "C02",
   "status": "proved",
   "theorems": [
    "C02_wire_layout",
    "C02_width"
   ],
   "note": "closed-form layout of any sequence of writes on any contents"
  },
  {
   "property": "C03",
   "status": "proved",
   "theorems": [
    "C03_in_bounds",
    "C03_in_bounds_addr",
    "C03_overread_undefined",
    "C03_valid_iff_in_bounds",
    "C03_invalid_stays",
    "C03_decode_result"
   ],
   "note": "for every content of the memory after the buffer; over-reads are undefined behaviour, isValid exact"
  },
  {
   "property": "C04",
   "status": "partial",
   "theorems": [
    "C04_short_string_any_length",
    "C04_string_any_length",
    "C04_roundtrip_partial",
    "C04_refuted",
    "C04_string_refuted",
    "C04_default",
    "C04_default_refuted"
   ],
   "note": "REFUTED as stated (texts longer than 255/65535 bytes lose data, C04_refuted, C04_string_refuted; a default constructed string is encoded with an arbitrary length, C04_default_refuted); round trip proved for every admissible length, exact behaviour proved for every length and for strings without a text"
  },
  {
   "property": "C05",
   "status": "proved",
   "theorems": [
    "C05_address_roundtrip",
    "C05_from_host_text"
   ],
   "note": "every address, port, family; and end points made from host text with any parser"
  },
  {
   "property": "C06",
   "status": "partial",
   "theorems": [
    "C06_pack_layout_partial",
    "C06_default_path",
    "C06_refuted",
    "C06_text"
   ],
   "note": "REFUTED for the default-constructed path (C06_refuted: no words announced but one segment emitted); layout proved for every other path, default path characterised exactly"
  },
  {
   "property": "C07",
   "status": "partial",
   "theorems": [
    "C07_roundtrip_iff",
    "C07_equality",
    "C07_refuted"
   ],
   "note": "REFUTED when an id is zero or does not fit the 8-bit form (C07_refuted); the exact condition is proved as an equivalence"
  },
  {
   "property": "C08",
   "status": "proved",
   "theorems": [
    "C08_cases",
    "C08_well_formed",
    "C08_unknown_segment",
    "C08_truncated_not_accepted",
    "C08_truncated_reads_out_of_bounds",
    "C08_accepted_iff"
   ],
   "note": "equivalence for every content of memory beyond the input; also shows that a truncated segment is read out of bounds before it is refused"
  },
  {
   "property": "C09",
   "status": "partial",
   "theorems": [
    "C09_pack_layout_partial",
    "C09_refuted",
    "C09_roundtrip",
    "C09_expand",
    "C09_accepted_iff",
    "C09_unknown_segment",
    "C09_truncated_not_accepted",
    "C09_request"
   ],
   "note": "REFUTED for the default-constructed path (C09_refuted); everything else proved"
  },
  {
   "property": "C10",
   "status": "partial",
   "theorems": [
    "C10_request_partial",
    "C10_request_bytes",
    "C10_refuted"
   ],
   "note": "REFUTED for the default-constructed path (C10_refuted); proved for every other path; bytes proved for all"
  },
  {
   "property": "C11",
   "status": "proved",
   "theorems": [
    "C11_cases",
    "C11_good",
    "C11_short",
    "C11_bad_size",
    "C11_memory_safe",
    "C11_accepted_iff"
   ],
   "note": "complete case analysis of every byte string"
  },
  {
   "property": "C12",
   "status": "partial",
   "theorems": [
    "C12_roundtrip_partial",
    "C12_any_count",
    "C12_item_bytes",
    "C12_refuted",
    "C12_item_equality"
   ],
   "note": "REFUTED above the 16-bit limits (C12_refuted); proved below them, any item count characterised"
  },
  {
   "property": "C13",
   "status": "proved",
   "theorems": [
    "C13_accepted_iff",
    "C13_cases",
    "C13_cut_not_accepted",
    "C13_cut_reads_out_of_bounds",
    "C13_no_count",
    "C13_no_count_reads_out_of_bounds"
   ],
   "note": "equivalence for every content of memory; also shows that a cut item is read out of bounds before it is refused"
  },
  {
   "property": "C14",
   "status": "proved",
   "theorems": [
    "C14_setters",
    "C14_roundtrip",
    "C14_any_size",
    "C14_equality"
   ],
   "note": "including data larger than the length field"
  },
  {
   "property": "C15",
   "status": "proved",
   "theorems": [
    "C15_validation",
    "C15_value",
    "C15_header",
    "C15_length_from_header",
    "C15_length_from_short_header"
   ],
   "note": "complete outcome for every byte string, and the resulting packet"
  },
  {
   "property": "C16",
   "status": "proved",
   "theorems": [
    "C16_register_session",
    "C16_unregister_session",
    "C16_send_rr_data",
    "C16_list_identity"
   ],
   "note": "closed-form bytes"
  },
  {
   "property": "C17",
   "status": "proved",
   "theorems": [
    "C17_one_packet",
    "C17_adapter_recovers",
    "C17_yaskawa_one_packet",
    "C17_yaskawa_adapter_recovers",
    "C17_too_long"
   ],
   "note": "for every path but the default-constructed one (see C10); an independent parser recovers everything; Yaskawa router too"
  },
  {
   "property": "C18",
   "status": "partial",
   "theorems": [
    "C18_well_formed",
    "C18_sound",
    "C18_too_short",
    "C18_few_items",
    "C18_never_aborts",
    "C18_refuted"
   ],
   "note": "proved except: a valid reply packet that ends right after the timeout is not refused by an exception but read out of bounds (C18_refuted)"
  },
  {
   "property": "C19",
   "status": "proved",
   "theorems": [
    "C19_receive",
    "C19_sequence",
    "C19_pieces"
   ],
   "note": "every segmentation, EINTR placement and sequence of sizes; the remaining stream is exact"
  },
  {
   "property": "C20",
   "status": "partial",
   "theorems": [
    "C20_error_partial",
    "C20_exact",
    "C20_refuted"
   ],
   "note": "REFUTED: a connection closed by the peer is not reported, the missing bytes are returned as zeros (C20_refuted); errors and timeouts are reported; C20_exact gives every outcome"
  },
  {
   "property": "C21",
   "status": "partial",
   "theorems": [
    "C21_send_partial",
    "C21_refuted"
   ],
   "note": "REFUTED: a failed send (-1) is compared as 2^64-1 and goes unnoticed (C21_refuted); short counts are reported"
  },
  {
   "property": "C22",
   "status": "partial",
   "theorems": [
    "C22_register_partial",
    "C22_register_succeeds",
    "C22_register_refused",
    "C22_refuted"
   ],
   "note": "REFUTED: a peer that closes the connection without a byte gives a session with handle 0 (C22_refuted); otherwise proved sound and complete"
  },
  {
   "property": "C23",
   "status": "partial",
   "theorems": [
    "C23_reply_partial",
    "C23_refuted",
    "C23_verdict",
    "C23_sound"
   ],
   "note": "status always checked; the handle is only checked when the session's own handle is not 0 (C23_refuted); verdict on every complete reply proved"
  },
  {
   "property": "C24",
   "status": "partial",
   "theorems": [
    "C24_paired_partial",
    "C24_refuted"
   ],
   "note": "REFUTED after a timeout: a late reply is taken as the answer to the next request (C24_refuted); proved for every history of complete replies with any segmentation, signals, error statuses and wrong handles"
  },
  {
   "property": "C25",
   "status": "partial",
   "theorems": [
    "C25_life",
    "C25_life_partial",
    "C25_destroy",
    "C25_short_send_terminates",
    "C25_refuted"
   ],
   "note": "What the peer receives is exact for all results of all sends and all peers (C25_life). Proved for every peer when send() accepts the packets. REFUTED: a failing send() in the destructor goes unnoticed and no packet is sent, a short one terminates the program (C25_refuted, C25_short_send_terminates)"
  },
  {
   "property": "C26",
   "status": "partial",
   "theorems": [
    "C26_connect_partial",
    "C26_flags",
    "C26_success",
    "C26_errors",
    "C26_refuted",
    "C26_only_leak",
    "C26_session_open"
   ],
   "note": "REFUTED: a failing fcntl before the try block leaks the descriptor (C26_refuted), and this is the only leak (C26_only_leak); otherwise proved; the exception carries the first failure (C26_errors)"
  },
  {
   "property": "C27",
   "status": "partial",
   "theorems": [
    "C27_any_order_partial",
    "C27_fields",
    "C27_layout",
    "C27_refuted",
    "C27_chain_value",
    "C27_chain_variable",
    "C27_chain_refuted"
   ],
   "note": "REFUTED: sizes above 511 are clipped in the 16-bit layout (C27_refuted), and a chain of setters loses everything after setRedundantOwner in the variable it was called on (C27_chain_refuted); all orders, all values and both layouts proved otherwise"
  },
  {
   "property": "C28",
   "status": "proved",
   "theorems": [
    "C28_forward_open",
    "C28_large_forward_open",
    "C28_parse"
   ],
   "note": "both request forms, every parameter value and path; the small form carries the low 16 bits of the parameter words"
  },
  {
   "property": "C29",
   "status": "partial",
   "theorems": [
    "C29_layout",
    "C29_words_partial",
    "C29_refuted"
   ],
   "note": "REFUTED for odd paths and paths of more than 510 bytes (C29_refuted); layout proved for every path, length field proved for whole words up to 255"
  },
  {
   "property": "C30",
   "status": "partial",
   "theorems": [
    "C30_complete",
    "C30_exact",
    "C30_incomplete_partial",
    "C30_refuted"
   ],
   "note": "REFUTED: an incomplete response is read beyond its end (C30_refuted); exact equivalence proved for complete responses"
  },
  {
   "property": "C31",
   "status": "partial",
   "theorems": [
    "C31_sent",
    "C31_sizes_partial",
    "C31_size_refuted",
    "C31_path_refuted"
   ],
   "note": "REFUTED when the sum leaves the size field (510/511-byte class 1 data in the 16-bit form flips the variable bit, C31_size_refuted) and for paths over 255 words (C31_path_refuted); otherwise proved for every history of calls, exact words for all inputs (C31_sent)"
  },
  {
   "property": "C32",
   "status": "partial",
   "theorems": [
    "C32_serials_partial",
    "C32_refuted"
   ],
   "note": "proved for every history of up to 2^31-1 opens; the next open overflows a signed counter (C32_refuted)"
  },
  {
   "property": "C33",
   "status": "partial",
   "theorems": [
    "C33_ids_partial",
    "C33_refuted"
   ],
   "note": "T2O ids proved distinct for every history, exact values in expected_open; REFUTED for O2T multicast ids, which are 16 bits wide and ignore the incarnation id (C33_refuted)"
  },
  {
   "property": "C34",
   "status": "partial",
   "theorems": [
    "C34_registers_partial",
    "C34_accepted",
    "C34_refuted"
   ],
   "note": "REFUTED when an open connection has a T2O id with the same low 16 bits: the returned pointer is dead (C34_refuted); proved exactly for every reachable state otherwise"
  },
  {
   "property": "C35",
   "status": "proved",
   "theorems": [
    "C35_untouched",
    "C35_no_pointer"
   ],
   "note": "every failure point, every reachable and unreachable manager state"
  },
  {
   "property": "C36",
   "status": "proved",
   "theorems": [
    "C36_item",
    "C36_default",
    "C36_short_item"
   ],
   "note": "every reply and item list; an item too short to hold an address is read out of bounds (C36_short_item)"
  },
  {
   "property": "C37",
   "status": "partial",
   "theorems": [
    "C37_removes_partial",
    "C37_packet",
    "C37_dead",
    "C37_no_answer",
    "C37_refuted"
   ],
   "note": "REFUTED for pointers the application keeps alive: closing again aborts or removes another connection (C37_refuted); proved for every reachable state for pointers owned by the manager alone"
  },
  {
   "property": "C38",
   "status": "partial",
   "theorems": [
    "C38_delivery_partial",
    "C38_items",
    "C38_refuted"
   ],
   "note": "REFUTED: the map key is 16 bits wide, so ids equal modulo 2^16 are confused (C38_refuted); proved when no such alias is open"
  },
  {
   "property": "C39",
   "status": "partial",
   "theorems": [
    "C39_received_partial",
    "C39_refuted",
    "C39_order"
   ],
   "note": "REFUTED when both sequence count and run/idle header are present: read in the wrong order (C39_refuted); proved otherwise"
  },
  {
   "property": "C40",
   "status": "proved",
   "theorems": [
    "C40_size_gate",
    "C40_total"
   ],
   "note": "every byte string (C40_total)"
  },
  {
   "property": "C41",
   "status": "partial",
   "theorems": [
    "C41_refines_partial",
    "C41_real_time_partial",
    "C41_early_refuted",
    "C41_late_refuted",
    "C41_wrap_refuted",
    "C41_history"
   ],
   "note": "REFUTED in real time: closed right after data (C41_early_refuted), never closed when ticked more than once per millisecond (C41_late_refuted), 32-bit wrap of the limit (C41_wrap_refuted); proved: exact refinement of a millisecond-counting clock and real-time bounds, for one connection and (C41_history) inside every history of a manager"
  },
  {
   "property": "C42",
   "status": "partial",
   "theorems": [
    "C42_multiplier_partial",
    "C42_zero",
    "C42_refuted"
   ],
   "note": "REFUTED for m = 6, 7: the multiplier is stored in 8 bits and becomes 0 (C42_refuted); proved for m <= 5"
  },
  {
   "property": "C43",
   "status": "proved",
   "theorems": [
    "C43_notified_once",
    "C43_short_send"
   ],
   "note": "every history of calls on any number of managers; assumes sendto() on a datagram socket is all or nothing (necessary: C43_short_send)"
  },
  {
   "property": "C44",
   "status": "partial",
   "theorems": [
    "C44_numbers",
    "C44_history",
    "C44_spacing",
    "C44_late_refuted"
   ],
   "note": "contents, numbering and spacing proved for every sequence of events, also inside every history of a manager (C44_history); REFUTED in real time: ticks closer than a millisecond count no time, so nothing is ever sent (C44_late_refuted)"
  },
  {
   "property": "C45",
   "status": "proved",
   "theorems": [
    "C45_fixed_size"
   ],
   "note": "every state, listener and output"
  },
  {
   "property": "C46",
   "status": "proved",
   "theorems": [
    "C46_has_open"
   ],
   "note": "every history of calls; same assumption about sendto() as C43"
  },
  {
   "property": "C47",
   "status": "partial",
   "theorems": [
    "C47_exact",
    "C47_refuted"
   ],
   "note": "REFUTED (C47_refuted): empty or cut datagrams throw out of handleConnections or are read out of bounds; exact condition proved (C47_exact)"
  },
  {
   "property": "C48",
   "status": "partial",
   "theorems": [
    "C48_partial_order_partial",
    "C48_weak_refuted",
    "C48_same_port",
    "C48_distinct_refuted",
    "C48_one_socket"
   ],
   "note": "REFUTED: incomparability is not transitive and end points with equal ports are equivalent; proved: strict partial order, and every manager has at most one socket"
  },
  {
   "property": "C49",
   "status": "proved",
   "theorems": [
    "C49_interval",
    "C49_no_loss"
   ],
   "note": "every duration"
  },
  {
   "property": "C50",
   "status": "partial",
   "theorems": [
    "C50_dispatch_partial",
    "C50_ready",
    "C50_in_order",
    "C50_throws",
    "C50_timeouts",
    "C50_refuted",
    "C50_handlers"
   ],
   "note": "dispatch, order, errors and timeouts proved for every schedule; REFUTED: the loop goes on past the deadline while data keeps arriving (C50_refuted)"
  },
  {
   "property": "C51",
   "status": "partial",
   "theorems": [
    "C51_state",
    "C51_error",
    "C51_no_reply",
    "C51_refuted"
   ],
   "note": "REFUTED for a successful reply without data: the state byte is read outside the vector (C51_refuted). Proved for every reply with a state byte, every error reply and every failing session: one request, the matching state or an exception."
  },
  {
   "property": "C52",
   "status": "proved",
   "theorems": [
    "C52_upload"
   ],
   "note": "Against the protocol-following adapter 'uploader' (which reads requests from the bytes of the packets), for every file below 2^32 bytes, piece size 1..255, checksum, instance and segment width."
  },
  {
   "property": "C53",
   "status": "partial",
   "theorems": [
    "C53_reported",
    "C53_told",
    "C53_refused",
    "C53_refuted"
   ],
   "note": "REFUTED for packets shorter than the announced transfer size: they are completed with bytes from outside the reply and reported as SUCCESS (C53_refuted). Proved for executions without out-of-bounds reads, for every device and every number of transfers: the handler calls are exactly those the answers call for, SUCCESS only with the announced size and the received pieces, everything else an error code and no content."
  },
  {
   "property": "C54",
   "status": "partial",
   "theorems": [
    "C54_calls_partial",
    "C54_refuted"
   ],
   "note": "REFUTED: an answer with an error status calls the handler and the loop goes on (C54_refuted: one call per transfer, for ever). Proved: the handler is called once per error answer plus once at the end, so at most once if no transfer is refused."
  },
  {
   "property": "C55",
   "status": "proved",
   "theorems": [
    "C55_transfers",
    "C55_begin"
   ],
   "note": "All sessions, all states; the session state is unchanged, so nothing was sent."
  },
  {
   "property": "C56",
   "status": "proved",
   "theorems": [
    "C56_attributes",
    "C56_error",
    "C56_setters"
   ],
   "note": "All complete replies, whatever follows the encoded attributes; error replies raise runtime_error. The reply is to a request for instance 1 (see C57). Identities made by hand: every sequence of setters (C56_setters)."
  },
  {
   "property": "C57",
   "status": "partial",
   "theorems": [
    "C57_refuted",
    "C57_always_one"
   ],
   "note": "REFUTED: the request names instance 1 for every n (C57_refuted, C57_always_one)."
  },
  {
   "property": "C58",
   "status": "proved",
   "theorems": [
    "C58_attributes",
    "C58_error",
    "C58_setters"
   ],
   "note": "Against a device that holds the parameter; also: an error answer to any request raises runtime_error and ends the requests. C58_setters: a parameter made without a session shows what its setters were last given."
  },
  {
   "property": "C59",
   "status": "partial",
   "theorems": [
    "C59_formula",
    "C59_inverse_partial",
    "C59_identity",
    "C59_double_nearest",
    "C59_double_close",
    "C59_double_inverse",
    "C59_refuted",
    "C59_overflow",
    "C59_inexact_refuted"
   ],
   "note": "Formula, inverse and identity proved over exact numbers (inverse: nonzero attributes, multiplier*base < 2^31); in binary64 actualToEngValue gives the nearest double while the numerator has at most 53 bits, and a relative error below 2^-51 otherwise (values of 32 bits, precision up to 11), and engToActualValue of it differs from the number by less than 2^-49 of number plus offset (C59_double_inverse). REFUTED for the code: multiplier*base overflows int (C59_refuted, C59_overflow), and in binary64 the inverse is not exact (C59_inexact_refuted)."
  },
  {
   "property": "C60",
   "status": "partial",
   "theorems": [
    "C60_update",
    "C60_error",
    "C60_no_reply",
    "C60_refuted",
    "C60_no_router"
   ],
   "note": "Proved for replies long enough, error replies and missing replies. REFUTED: a short successful reply is read outside its end (C60_refuted); an object built without a session dereferences a null router (C60_no_router)."
  },
  {
   "property": "C61",
   "status": "partial",
   "theorems": [
    "C61_identity_truncated",
    "C61_size_missing",
    "C61_attributes_truncated",
    "C61_scaling_truncated",
    "C61_no_exception",
    "C61_refuted"
   ],
   "note": "REFUTED: the exception is constructed but not thrown. Every truncation reads outside the reply and no exception is ever thrown."
  },
  {
   "property": "C62",
   "status": "partial",
   "theorems": [
    "C62_partial",
    "C62_too_long",
    "C62_refuted",
    "C62_type_refuted"
   ],
   "note": "REFUTED for replies longer than 504 bytes (C62_refuted; C62_too_long: never all devices) and item types are not looked at (C62_type_refuted); proved for any number of replies of at most 504 bytes, any devices and order"
  },
  {
   "property": "C63",
   "status": "partial",
   "theorems": [
    "C63_all",
    "C63_normal_end",
    "C63_receive_error",
    "C63_socket_error",
    "C63_send_short",
    "C63_send_refuted",
    "C63_malformed_refuted"
   ],
   "note": "REFUTED: a malformed reply loses all devices (C63_malformed_refuted) and a failed sendto is not noticed (C63_send_refuted); proved: normal end only on timeout, other errors passed on, exact outcome for every sequence of datagrams and errors"
  },
  {
   "property": "C64",
   "status": "partial",
   "theorems": [
    "C64_known_partial",
    "C64_unknown_code",
    "C64_any_device",
    "C64_refusals",
    "C64_device_error",
    "C64_refuted"
   ],
   "note": "Proved for every drive whose recorded codes are in the table, and for every device: shape of the requests, order and number of the calls, when the queue is cleared, and that no refused request goes unnoticed (C64_refusals). REFUTED in general (C64_refuted, C64_unknown_code): a code missing from the table ends the handling with an exception; later faults are not reported and the queue is not cleared."
  },
  {
   "property": "C65",
   "status": "proved",
   "theorems": [
    "C65_read",
    "C65_number",
    "C65_narrow_segments"
   ],
   "note": "With 16-bit path segments (the default message router). Voltages exact, currents and frequencies the double nearest to raw/100. C65_narrow_segments: with a message router set to 8-bit segments the parameter numbers are cut to 8 bits."
  },
  {
   "property": "C66",
   "status": "proved",
   "theorems": [
    "C66_known",
    "C66_explained",
    "C66_all_explained",
    "C66_unknown",
    "C66_unique"
   ],
   "note": "The catalogue of the specification lists code, type, name and description of the 48 faults."
  },
  {
   "property": "C67",
   "status": "proved",
   "theorems": [
    "C67_decoded",
    "C67_error",
    "C67_truncated"
   ],
   "note": "A reply shorter than 30 bytes is read past its end (C67_truncated)."
  },
  {
   "property": "C68",
   "status": "proved",
   "theorems": [
    "C68_passed",
    "C68_other_calls",
    "C68_off",
    "C68_console"
   ],
   "note": "every history of level and appender changes; a message of level OFF counts as more severe than ERROR"
  },
  {
   "property": "C69",
   "status": "partial",
   "theorems": [
    "C69_partial",
    "C69_exact",
    "C69_appenders",
    "C69_refuted"
   ],
   "note": "REFUTED for messages of level OFF on the console (C69_refuted); proved for every history without them; exact condition proved"
  },
  {
   "property": "C70",
   "status": "partial",
   "theorems": [
    "C70_partial",
    "C70_alone",
    "C70_overflow",
    "C70_two_opens",
    "C70_exact",
    "C70_refuted"
   ],
   "note": "REFUTED by a lost update (C70_refuted); proved for schedules that do not interleave the increments, and exactly these schedules, up to 65536 opens, give distinct numbers (C70_exact)"
  },
  {
   "property": "C71",
   "status": "partial",
   "theorems": [
    "C71_callable_partial",
    "C71_after_open",
    "C71_stays",
    "C71_fresh",
    "C71_refuted"
   ],
   "note": "REFUTED before the first successful open: the end iterator is dereferenced (C71_refuted); proved exact: safe iff the manager has a socket, which it has from the first successful open on"
  },
  {
   "property": "C72",
   "status": "proved",
   "theorems": [
    "C72_receive",
    "C72_length"
   ],
   "note": "zero padding is the reason several decoders see data the peer never sent"
  },
  {
   "property": "C73",
   "status": "partial",
   "theorems": [
    "C73_ignored_partial",
    "C73_after_refusal",
    "C73_refuted"
   ],
   "note": "REFUTED: the upload state is never left by uploading, beginUpload is ignored for ever after the first accepted upload (C73_ignored_partial, C73_refuted). True after a refused Initiate_Upload (C73_after_refusal) and after reading the state again through getState() (C89_again)."
  },
  {
   "property": "C74",
   "status": "partial",
   "theorems": [
    "C74_getters",
    "C74_engineering",
    "C74_wide",
    "C74_refuted",
    "C74_real",
    "C74_real_engineering",
    "C74_real_wide",
    "C74_real_scaled"
   ],
   "note": "Proved when T is not wider than the stored bytes: integer types, and REAL and LREAL against the numbers of IEEE 754 patterns (C74_real, C74_real_engineering); with scaling the REAL and LREAL getters are within 2^-50 of the exact engineering value (C74_real_scaled; LREAL between 2^-300 and 2^300). REFUTED for wider T: read outside the bytes (C74_wide, C74_real_wide)."
  },
  {
   "property": "C75",
   "status": "partial",
   "theorems": [
    "C75_double_stored",
    "C75_not_finite",
    "C75_no_base",
    "C75_large_base",
    "C75_stored",
    "C75_too_big",
    "C75_round_trip_partial",
    "C75_refuted",
    "C75_double",
    "C75_double_unscaled",
    "C75_real",
    "C75_nan",
    "C75_real_scaled",
    "C75_real_exact",
    "C75_real_refuted",
    "C75_lreal_refuted",
    "C75_real_nan"
   ],
   "note": "Over exact numbers the integer part of the actual value is stored, and the round trip holds. REFUTED in binary64: integer values lose a whole unit by truncation (C75_refuted); never more than that, and never for parameters that are not scalable (C75_double, C75_double_unscaled; numbers of 32 bits, precision up to 11); out of range values are undefined (C75_too_big, C75_double_stored), as are infinities and NaNs (C75_not_finite) and every value if multiplier or base is 0 (C75_no_base). REAL and LREAL limits of parameters that are not scalable are stored exactly (C75_real), a NaN as a NaN (C75_nan). With scaling, REAL limits come back bit by bit unless they are zero or a million times smaller than the offset (C75_real_exact); REAL and LREAL limits (LREAL between 2^-300 and 2^300) come back within 2^-43 and 2^-48 of number plus offset (C75_real_scaled). REFUTED: zero with an offset is stored as another number (C75_real_refuted), huge LREAL limits as infinity (C75_lreal_refuted)."
  },
  {
   "property": "C76",
   "status": "proved",
   "theorems": [
    "C76_request",
    "C76_identity",
    "C76_parameter",
    "C76_value",
    "C76_file",
    "C76_upload",
    "C76_transfer",
    "C76_faults",
    "C76_fault_object",
    "C76_session",
    "C76_peers",
    "C76_connection",
    "C76_connections"
   ],
   "note": "Simulation for every client function of the library and for every program of connection managers (one session, any number of managers); requests with service below 128 and ids that fit the segment width in use, connection paths up to 50000 bytes; send() accepts everything (short sends: C21)"
  },
  {
   "property": "C77",
   "status": "partial",
   "theorems": [
    "C77_passive",
    "C77_safe_partial",
    "C77_undisturbed",
    "C77_refuted",
    "C77_send_refuted",
    "C77_lost_refuted"
   ],
   "note": "Proved: the model agrees with that of C37-C47 for listeners without calls (C77_passive); for listeners whose close and send listeners do not close the connection they are called for, nothing goes wrong beyond what their own calls, the datagrams and the sockets do (C77_safe_partial); every connection no listener closes gets its data and exactly one tick, whatever the others do (C77_undisturbed). REFUTED in general: a close or send listener that closes its own connection leaves a dangling iterator and object in use (C77_refuted, C77_send_refuted); a connection opened under the 16-bit key of one that has just timed out is removed without notice (C77_lost_refuted)."
  },
  {
   "property": "C78",
   "status": "proved",
   "theorems": [
    "C78_number",
    "C78_path",
    "C78_built",
    "C78_path_text",
    "C78_yaskawa",
    "C78_yaskawa_text",
    "C78_revision",
    "C78_end_point",
    "C78_host",
    "C78_address_text",
    "C78_address"
   ],
   "note": "Shapes of the texts (C78_revision, C78_end_point, C78_address_text, C78_path_text), texts as functions of all members, comparisons as equality. Ports are taken to be non-negative (they come from 16-bit values in every use); inet_ntoa is modelled as dotted decimal. C78_built records that the default path and the path of class 0 have the same text although they differ."
  },
  {
   "property": "C79",
   "status": "partial",
   "theorems": [
    "C79_known",
    "C79_closes",
    "C79_equal_partial",
    "C79_alias_refuted",
    "C79_timeout_refuted",
    "C79_throw_refuted",
    "C79_orphan_comes",
    "C79_orphans_stay",
    "C79_known_over_tcp",
    "C79_closes_over_tcp"
   ],
   "note": "Proved for all histories: each connection of a manager is exactly one of the target's, no two share one (C79_known); closing a live connection removes it at both ends and nothing else (C79_closes); if every accepted open gave a connection and receiving lost none, the sets are equal (C79_equal_partial); the only other ways are an accepted open without a connection and a timeout (C79_orphan_comes), and what is lost stays lost (C79_orphans_stay). REFUTED in general: ids equal modulo 65536 (C79_alias_refuted), timeout without Forward Close (C79_timeout_refuted), exception after acceptance (C79_throw_refuted). The target's own timeouts are not modelled: between calls it keeps what it has. C79_known and C79_closes also hold when the managers reach the target through a TCP session (C79_known_over_tcp, C79_closes_over_tcp)."
  },
  {
   "property": "C80",
   "status": "partial",
   "theorems": [
    "C80_text",
    "C80_determines",
    "C80_never",
    "C80_refuted"
   ],
   "note": "Proved: the exact text, additional statuses as hexadecimal numerals (C80_text); the message determines both (C80_determines). REFUTED: the general status is written as a character because its enumeration has an 8-bit underlying type (C80_refuted), for every status (C80_never). Depends on the overload rule of CWG 1601 (GCC and Clang since 10)."
  },
  {
   "property": "C81",
   "status": "partial",
   "theorems": [
    "C81_audit",
    "C81_released",
    "C81_same_partial",
    "C81_refuted",
    "C81_overflow",
    "C81_connect_overflow",
    "C81_connect"
   ],
   "note": "Proved for all histories: no descriptor is used or closed unless held, those held are the ones of the living connections and receiving sockets, one each (C81_audit); destroying the managers releases all (C81_released); calls do what the model without descriptors says while receiving sockets have descriptors below 1024 (C81_same_partial), TCP connects likewise (C81_connect). REFUTED: from 1024 on, handleConnections writes outside the fd_set (C81_refuted, always: C81_overflow), and so does a TCP connect that has to wait (C81_connect_overflow). Assumes that the application keeps no owning pointer to a connection."
  },
  {
   "property": "C82",
   "status": "partial",
   "theorems": [
    "C82_refuted",
    "C82_repeated",
    "C82_alike"
   ],
   "note": "REFUTED: the code checks neither item types nor sequence counts (C82_refuted). Proved instead: every copy of a datagram is delivered again (C82_repeated), and delivery depends on the connection id and the data of the second item alone (C82_alike)."
  },
  {
   "property": "C83",
   "status": "partial",
   "theorems": [
    "C83_parameters_partial",
    "C83_short_parameter",
    "C83_explicit_partial",
    "C83_explicit_short",
    "C83_assembly_read_partial",
    "C83_assembly_short",
    "C83_assembly_written",
    "C83_assemblies_partial",
    "C83_fill",
    "C83_refuted",
    "C83_file_partial",
    "C83_file_refuted",
    "C83_implicit",
    "C83_identity",
    "C83_identity_refuted",
    "C83_discovery_partial"
   ],
   "note": "REFUTED: with devices whose first parameter has one byte or whose assemblies have fewer than 128 bytes the programs read out of bounds (C83_refuted), and with a device that refuses transfers the file example never ends (C83_file_refuted). Proved: exact runs with all devices that give enough data (C83_*_partial), exactly when too little is read out of bounds (C83_*_short), and all endings of the implicit example with any target, datagrams and clock (C83_implicit). The identity example writes the attributes of the device in one line (C83_identity), but different devices have the same line (C83_identity_refuted); the discovery example writes one line for each device announced in replies of at most 504 bytes (C83_discovery_partial)."
  },
  {
   "property": "C84",
   "status": "proved",
   "theorems": [
    "C84_router",
    "C84_yaskawa",
    "C84_identity",
    "C84_parameter",
    "C84_update",
    "C84_file",
    "C84_begin",
    "C84_transfers",
    "C84_faults",
    "C84_fault_object",
    "C84_open",
    "C84_close"
   ],
   "note": "All routers, object clients and managers of the model, over every session. What a failed exchange is: the session's sendAndReceive ends with an exception (or worse)."
  },
  {
   "property": "C85",
   "status": "partial",
   "theorems": [
    "C85_identity_partial",
    "C85_parameter_partial",
    "C85_update_partial",
    "C85_file_partial",
    "C85_fault_object_partial",
    "C85_faults_partial",
    "C85_refuted"
   ],
   "note": "REFUTED for closing: a refused Forward Close removes the connection and returns (C85_refuted). Proved for all other calls listed, for every device with well-formed answers (C85_*_partial). Uploads report refusals to their handler (C53, C54), opens return no connection (C35)."
  },
  {
   "property": "C86",
   "status": "partial",
   "theorems": [
    "C86_kept_partial",
    "C86_reaches",
    "C86_twice_refuted",
    "C86_revived_refuted",
    "C86_gap_refuted"
   ],
   "note": "Proved: a call that ends with any exception leaves every connection that no listener closes in the manager, as negotiated, after exactly the data in the datagrams handled before and either its whole tick or none; if its own send listener threw, all of the tick but the datagram (C86_kept_partial); an exception of a listener is not swallowed (C86_reaches). The managers are all that calls and (throwing) listeners can lead to, and so are those of C77, which therefore describes the calls that follow. REFUTED: the close listener is called twice if it throws (C86_twice_refuted); the connection may receive and send after that (C86_revived_refuted); a throwing send listener skips a sequence number (C86_gap_refuted)."
  },
  {
   "property": "C87",
   "status": "proved",
   "theorems": [
    "C87_audit",
    "C87_released",
    "C87_together",
    "C87_discovery_same",
    "C87_session_same",
    "C87_alone",
    "C87_connects"
   ],
   "note": "For every program: no use or close of a descriptor that is not held; those held are the ones of the living sessions, one each, and the leaks of C26 (C87_audit); after all sessions are destroyed only these leaks remain (C87_released); any interleaving with connection managers (C87_together, with C81). Results are those of the models without descriptors (C87_discovery_same, C87_session_same); every session keeps its handle and exchanges what it would exchange alone (C87_alone). Undefined behaviour and std::terminate end the program."
  },
  {
   "property": "C88",
   "status": "proved",
   "theorems": [
    "C88_path",
    "C88_path_any",
    "C88_yaskawa_path",
    "C88_yaskawa_path_any",
    "C88_left",
    "C88_packet",
    "C88_response",
    "C88_items",
    "C88_setters",
    "C88_response_setters",
    "C88_new",
    "C88_new_packet",
    "C88_new_path"
   ],
   "note": "Paths and common packets for any contents before, packets and responses after any calls (the additional items of a response are not part of the bytes and stay). The default path is written with a class although it has no words (C88_new_path, see C06). C88_left: what a path has after an exception for an unknown segment."
  },
  {
   "property": "C89",
   "status": "partial",
   "theorems": [
    "C89_state",
    "C89_error",
    "C89_no_reply",
    "C89_again",
    "C89_any_order",
    "C89_abandoned",
    "C89_refuted"
   ],
   "note": "Proved for every state of the object, every history and every session: what synchronising does when the adapter answers with a state byte, an error or not at all (C89_state, C89_error, C89_no_reply), that it makes a further upload possible (C89_again), all orders of calls against a protocol-following adapter (C89_any_order), and that an upload given up is forgotten (C89_abandoned). False for a successful reply without data: the byte behind the empty vector decides the state (C89_refuted). Handlers that call back into the object are the subject of C91."
  },
  {
   "property": "C90",
   "status": "proved",
   "theorems": [
    "C90_wire",
    "C90_typed",
    "C90_session",
    "C90_sessions",
    "C90_request",
    "C90_objects",
    "C90_files",
    "C90_connections",
    "C90_discover"
   ],
   "note": "For each parser, the session, the object clients, files, connection manager (with listeners that act) and discovery; also for sequences of exchanges, of calls on a file object and of calls on managers. The session used by the clients may itself be one over TCP in the same memory. Each theorem compares with the memory in which nothing lies behind any buffer. Examples show that memory does matter for calls that read outside."
  },
  {
   "property": "C91",
   "status": "partial",
   "theorems": [
    "C91_idle",
    "C91_called",
    "C91_stack",
    "C91_flat",
    "C91_safe_partial",
    "C91_adapter",
    "C91_told",
    "C91_retry",
    "C91_for_ever",
    "C91_dangling",
    "C91_refuted"
   ],
   "note": "Proved for every session and handler behaviour: handlers that do nothing give the model of C51-C54 and C89 (C91_idle); exceptions and calls of a handler (C91_called); every history with nested calls that returns is one of plain calls (C91_flat), hence what handlers are told (C91_told); independence of the stack size while it suffices (C91_stack); begin again on refusal (C91_retry). Nothing undefined is added by handlers that do not synchronise, or do so last and make no transfers (C91_safe_partial, C91_adapter). REFUTED in general: a handler called by a transfer that synchronises the object and goes on uses itself after its destruction (C91_refuted, always: C91_dangling); asking again for ever exhausts the stack (C91_for_ever). Assumes that a handler needs its captures for every call and looks at the content before its first call."
  },
  {
   "property": "C92",
   "status": "partial",
   "theorems": [
    "C92_kept_partial",
    "C92_ordered",
    "C92_one_run",
    "C92_history",
    "C92_refuted",
    "C92_tight",
    "C92_slow"
   ],
   "note": "Proved for all schedules with calls at least m >= 1 ms apart, with explicit bounds for both timeouts (C92_kept_partial, C92_ordered), also within any history of managers (C92_history). REFUTED without the lower bound: calls less than 1 ms apart count no time, nothing is sent, the target gives up and the originator does not notice (C92_refuted). The bound for this end is tight to 1 ms (C92_tight); the factor (m+1)/m is needed (C92_slow)."
  },
  {
   "property": "C93",
   "status": "partial",
   "theorems": [
    "C93_same",
    "C93_safe_partial",
    "C93_each_partial",
    "C93_run_partial",
    "C93_refuted",
    "C93_order_refuted",
    "C93_twice_refuted"
   ],
   "note": "False if close or send listeners make the inner calls: a close listener's inner call destroys its own connection (C93_refuted), a send listener's inner call sends packets out of order (C93_order_refuted) or has a close listener called twice (C93_twice_refuted). Proved for receive listeners that make inner calls of any depth, if no close or send listener closes its own connection: nothing goes wrong but what a call in it did (C93_safe_partial); each connection that no listener closes behaves as the tree of calls says (C93_each_partial), which is one history of a connection (C93_run_partial); without inner calls it is the model of C77 (C93_same)."
  },
  {
   "property": "C94",
   "status": "partial",
   "theorems": [
    "C94_same",
    "C94_open_partial",
    "C94_close_refuted",
    "C94_open_refuted",
    "C94_timeout_refuted",
    "C94_serial_refuted",
    "C94_timeouts",
    "C94_datagram",
    "C94_returns"
   ],
   "note": "False in four ways: a close that fails after its message (C94_close_refuted), an open that fails after its message (C94_open_refuted), a failing send after the message about a timeout (C94_timeout_refuted), two connections with one serial number (C94_serial_refuted). Proved if every call returns and no connection is opened with the serial number of an open one: the connections that are open according to the log are those in the map (C94_open_partial). Proved for all calls: timeout messages correspond to close listener calls (C94_timeouts); what is logged about a datagram (C94_datagram); each datagram is delivered or complained about, and held back packets are reported, if handleConnections returns (C94_returns). The log changes nothing (C94_same)."
  },
  {
   "property": "C95",
   "status": "partial",
   "theorems": [
    "C95_tcp_receive",
    "C95_tcp_connect",
    "C95_warning",
    "C95_bytes",
    "C95_send",
    "C95_short_refuted",
    "C95_udp_receive",
    "C95_discovery",
    "C95_discovery_partial",
    "C95_timeout_refuted",
    "C95_hidden_refuted",
    "C95_opened_closed"
   ],
   "note": "Proved for TCP: receiving and connecting do not depend on the log (C95_tcp_receive, C95_tcp_connect), one warning per early end (C95_warning), byte counts add up (C95_bytes). The socket of a discovery is reported as opened and closed (C95_opened_closed). REFUTED: UDPSocket::Receive logs before it reads errno, so an appender that changes errno at level TRACE makes discover() fail on its normal timeout (C95_timeout_refuted) or hides an error (C95_hidden_refuted); a short send is reported with a stale number (C95_short_refuted). Exact behaviour for every appender: C95_send, C95_udp_receive, C95_discovery; equal to the model without log if TRACE is off or errno is kept (C95_discovery_partial)."
  },
  {
   "property": "C96",
   "status": "partial",
   "theorems": [
    "C96_state",
    "C96_plain",
    "C96_always",
    "C96_names",
    "C96_apart",
    "C96_errors",
    "C96_errors_call",
    "C96_requests",
    "C96_packet",
    "C96_begin",
    "C96_uploading",
    "C96_idle",
    "C96_silent_refuted",
    "C96_again_refuted"
   ],
   "note": "Proved: states in the log (C96_state, C96_apart), at no point during a call is the object without a state (C96_always), errors and handler calls one by one (C96_errors, C96_errors_call), requests (C96_requests), single messages (C96_packet, C96_begin, C96_uploading) and exactly what is said about a call that is not possible (C96_idle). REFUTED: handleTransfers of a loaded object does nothing and says nothing (C96_silent_refuted); beginUpload during an upload logs that it initiates the upload again, but sends nothing and drops the handler (C96_again_refuted). Handlers that use the object are in C91."
  },
  {
   "property": "C97",
   "status": "partial",
   "theorems": [
    "C97_same",
    "C97_identity",
    "C97_parameter",
    "C97_update",
    "C97_fault_object",
    "C97_command",
    "C97_faults",
    "C97_attributes",
    "C97_count",
    "C97_yaskawa",
    "C97_sync_refuted",
    "C97_segments_refuted",
    "C97_count_refuted"
   ],
   "note": "Proved: the messages change nothing else (C97_same); exchanges and refusals one by one for identity, parameter and drive fault objects and the commands and handling of the fault manager (C97_identity, C97_parameter, C97_update, C97_fault_object, C97_command, C97_faults), DEBUG messages of parameter objects (C97_attributes), the number of faults (C97_count), the Yaskawa router (C97_yaskawa, which logs no refusals). Hypothesis sendable: with 8-bit segments the number is below 256. REFUTED: file objects throw without a message when their state is refused (C97_sync_refuted); with 8-bit segments the log shows a number that is not sent (C97_segments_refuted); faults given to the listener are not counted if a later request is refused (C97_count_refuted)."
  },
  {
   "property": "C98",
   "status": "partial",
   "theorems": [
    "C98_live",
    "C98_distinct",
    "C98_released",
    "C98_call",
    "C98_registered_partial",
    "C98_unregistered_partial",
    "C98_registered_refuted",
    "C98_unregistered_refuted",
    "C98_which_refuted"
   ],
   "note": "Proved: registered = unregistered + existing, as multisets of handles, over all programs (C98_live), the same as a test for one handle when handles are distinct (C98_distinct), nothing left over at the end (C98_released), exactly what is said of each call (C98_call), the answer behind a registration (C98_registered_partial: or the peer closed early, C22) and the packet behind an unregistration (C98_unregistered_partial: if send() accepts everything). REFUTED: an adapter that closes at once is registered with handle 0 (C98_registered_refuted); a failing send() in the destructor is logged as unregistered (C98_unregistered_refuted); equal handles of different adapters cannot be told apart (C98_which_refuted)."
  },
  {
   "property": "C99",
   "status": "partial",
   "theorems": [
    "C99_session",
    "C99_exchange",
    "C99_request",
    "C99_yaskawa",
    "C99_identity",
    "C99_parameter",
    "C99_update",
    "C99_file",
    "C99_recording",
    "C99_misshaped",
    "C99_refuted"
   ],
   "note": "Proved: a constructor of a session throws only what is announced (C99_session); every TCP session throws only that and delivers bytes (C99_exchange); over all such sessions each of the other functions throws only that, or the last packet received is misshaped in the way that belongs to the exception (C99_request, C99_yaskawa, C99_identity, C99_parameter, C99_update, C99_file; C99_recording: keeping the packets changes nothing); and a misshaped packet does cause its exception, or a read past its end when it has 6 or 7 bytes of data (C99_misshaped). REFUTED: an adapter can make a constructor throw std::length_error and std::out_of_range, which no header announces (C99_refuted)."
  },
  {
   "property": "C100",
   "status": "partial",
   "theorems": [
    "C100_parameters",
    "C100_explicit",
    "C100_identity",
    "C100_yaskawa",
    "C100_file",
    "C100_implicit",
    "C100_no_session",
    "C100_file_saved",
    "C100_implicit_target",
    "C100_refuted"
   ],
   "note": "All six programs equal the runs with the device itself, around which the session is registered and unregistered; false part: an uncaught exception terminates the program with its session registered (C100_refuted). The file program is followed for any number of steps."
  },
  {
   "property": "C101",
   "status": "partial",
   "theorems": [
    "C101_same",
    "C101_path",
    "C101_length",
    "C101_length_refuted",
    "C101_status",
    "C101_status_refuted",
    "C101_plain",
    "C101_register",
    "C101_register_refuted",
    "C101_parameter",
    "C101_file"
   ],
   "note": "Exact for every case: types, lengths, attributes and ids are named; false for packets that are too long (the word only), for statuses of 2^31 or more (shown as negative numbers) and for the address of a device that refuses the registration (never shown). Texts without numbers of the other objects are not modelled."
  },
  {
   "property": "C102",
   "status": "partial",
   "theorems": [
    "C102_latest",
    "C102_made",
    "C102_replaced",
    "C102_same",
    "C102_safe_partial",
    "C102_called_partial",
    "C102_refuted",
    "C102_close_refuted",
    "C102_empty_refuted"
   ],
   "note": "False as stated: a listener that replaces itself, or a receive listener that closes its connection, is destroyed while it runs (C102_refuted, C102_close_refuted), and an empty listener is called and throws (C102_empty_refuted). Proved: every call goes to the listener set last (_latest), datagrams and timeouts are handed over once and in order (_made), what a listener sets takes effect and nothing else changes (_replaced), listeners that replace nothing are those of C77 (_same), and no use after destruction and no such exception under the conditions named in _safe_partial and _called_partial."
  },
  {
   "property": "C103",
   "status": "partial",
   "theorems": [
    "C103_calls",
    "C103_safe",
    "C103_finishes",
    "C103_locked",
    "C103_own_partial",
    "C103_order",
    "C103_order_exact",
    "C103_refuted",
    "C103_torn_refuted"
   ],
   "note": "Proved for all schedules, peers and numbers of threads: every thread makes its calls in order (C103_calls), can finish them without the others (C103_finishes), and no call shows undefined behaviour or returns a packet with a wrong status or handle (C103_safe). With a lock around the calls the threads get what one thread gets that makes the calls in the order of sending, timeouts and failures included (C103_locked), so each gets its own reply from a peer that answers (C103_own_partial). Without a lock, and if no call begins to read while another one is reading, the replies go to the calls in the order in which these begin to read (C103_order), so the right ones are given exactly if the threads read in the order in which they sent (C103_order_exact). REFUTED: sendAndReceive takes no lock, so two threads can silently get each other's values (C103_refuted), and if they read at the same time one can return a packet that the peer never sent (C103_torn_refuted)."
  },
  {
   "property": "C104",
   "status": "partial",
   "theorems": [
    "C104_exchange",
    "C104_session",
    "C104_response",
    "C104_request",
    "C104_identity",
    "C104_parameter",
    "C104_update",
    "C104_discovery",
    "C104_io",
    "C104_upload_partial",
    "C104_refuted"
   ],
   "note": "False of uploads (C104_refuted): the announced size is not a bound, and there is none; C104_upload_partial bounds what one transfer adds. Everything else in the statement is proved."
  },
  {
   "property": "C105",
   "status": "partial",
   "theorems": [
    "C105_wait",
    "C105_returns",
    "C105_same",
    "C105_session",
    "C105_bound",
    "C105_prompt_partial",
    "C105_silent",
    "C105_objects",
    "C105_open",
    "C105_open_same",
    "C105_discovery",
    "C105_slow",
    "C105_slowest",
    "C105_refuted",
    "C105_forever_refuted",
    "C105_discovery_refuted"
   ],
   "note": "False as stated: the timeout holds for each recv(), so an exchange with a peer that sends byte by byte takes up to 65559 times the timeout (C105_slow for every reply, C105_slowest and C105_refuted for the longest), with a timeout of 0 or in a send that blocks it does not end (C105_forever_refuted), and discovery goes on as long as datagrams come (C105_discovery_refuted). Proved: a positive timeout and sends that return make every exchange return (C105_returns), with the outcome of the model without a clock on the same bytes with at most one timeout (C105_same, C105_open_same; C105_session carries C99 and C104 over), within 65559 timeouts beside its send and signals (C105_bound); an end within the timeout after the last event if everything is there by then (C105_prompt_partial: the statement for peers that are not slow); the same count per request for the objects (C105_objects) and for opening (C105_open); discovery hears exactly what comes before a gap of its timeout (C105_discovery). C105_wait: the unit. Simplification: only system calls take time, and an event exactly at the end of the timeout is met."
  },
  {
   "property": "C106",
   "status": "partial",
   "theorems": [
    "C106_handle",
    "C106_none",
    "C106_load_partial",
    "C106_once",
    "C106_flood",
    "C106_refuted"
   ],
   "note": "False as stated: select polls until nothing is ready, also after its timeout, so datagrams that come as fast as they are handled keep the call going (C106_flood for every manager with one socket and every datagram for no connection; C106_refuted for a reachable manager whose adapter gives up after 40 ms), and each call sends at most once per connection (C106_once). Proved: it ends whenever finitely many datagrams come, in order, without loss, not early, within the timeout and the handling of what it took, and refines the call without a clock (C106_handle; C106_none for a manager without sockets); a bound that does not depend on how much comes, if handling takes less than the time (C106_load_partial). Simplifications: ::select() does not fail here (it may in C50), a ready socket has a datagram, only waiting and handlers take time."
  },
  {
   "property": "C107",
   "status": "partial",
   "theorems": [
    "C107_equal",
    "C107_sound_partial",
    "C107_last",
    "C107_uncopied",
    "C107_held",
    "C107_stale",
    "C107_taken",
    "C107_assigned",
    "C107_refuted",
    "C107_other_refuted",
    "C107_assign_refuted"
   ],
   "note": "Copies are equal (C107_equal). While a copy is only destroyed after all others, each object uses its own connection and nothing else (C107_sound_partial), the last one unregisters and closes (C107_last); without copies everything is as in C87 (C107_uncopied, C107_held). In general the claim is false: a destroyed copy makes all others unusable (C107_stale, C107_refuted), or makes them use the connection of another session (C107_taken, C107_other_refuted); assignment leaks a session (C107_assigned, C107_assign_refuted)."
  },
  {
   "property": "C108",
   "status": "partial",
   "theorems": [
    "C108_separate_partial",
    "C108_close",
    "C108_deaf",
    "C108_safe",
    "C108_dangles",
    "C108_copied",
    "C108_assigned",
    "C108_destroyed",
    "C108_fed",
    "C108_polled",
    "C108_received",
    "C108_refuted",
    "C108_erase_refuted",
    "C108_dangling_refuted",
    "C108_deaf_refuted",
    "C108_twice_refuted"
   ],
   "note": "False as stated: a connection closed through another manager stays open (and the program aborts in debug builds or another connection is dropped), copies of a manager use it after it is gone, do not get data of their connections and announce closings again (C108_refuted, _erase_refuted, _dangling_refuted, _deaf_refuted, _twice_refuted). Proved: programs that copy no manager and close connections through their own manager (C108_separate_partial); for all programs the exact effect of closing through any manager, of copies, assignment, destruction, output data, polls and datagrams, and when a handler runs on a destroyed manager."
  },
  {
   "property": "C109",
   "status": "partial",
   "theorems": [
    "C109_linux",
    "C109_connect",
    "C109_errors",
    "C109_leak",
    "C109_leak_refuted",
    "C109_in_time_partial",
    "C109_blocking",
    "C109_in_time_refuted",
    "C109_timeout_partial",
    "C109_interval_partial",
    "C109_timeout",
    "C109_timeout_refuted",
    "C109_receive",
    "C109_message",
    "C109_no_message",
    "C109_discovery_partial",
    "C109_long",
    "C109_discovery_refuted",
    "C109_select_partial",
    "C109_set",
    "C109_deaf",
    "C109_select_refuted",
    "C109_handle_partial",
    "C109_handle_long",
    "C109_handle_large",
    "C109_handle_refuted"
   ],
   "note": "Receiving, error texts and connecting (result and mode of the socket) are proved without restriction. False in full: C109_leak_refuted (macOS), C109_in_time_refuted (Windows), C109_timeout_refuted, C109_discovery_refuted, C109_select_refuted and C109_handle_refuted (Windows). Proved: equality with the Linux models up to error numbers for datagrams that fit and at most 64 sockets, timeouts below 2^32 ms, and exactly what happens otherwise (C109_leak, C109_blocking, C109_timeout, C109_long, C109_set, C109_deaf, C109_handle_long, C109_handle_large, C109_errors)."
  },
  {
   "property": "C110",
   "status": "partial",
   "theorems": [
    "C110_flat",
    "C110_lasting",
    "C110_latest",
    "C110_made",
    "C110_safe_partial",
    "C110_called_partial",
    "C110_use",
    "C110_lost",
    "C110_refuted",
    "C110_replaced_refuted"
   ],
   "note": "False as stated: a receive listener that calls handleConnections is destroyed while it runs if its connection times out in the inner call (C110_refuted) or if it is called again there and replaces itself (C110_replaced_refuted). Proved: without inner calls it is C102 (_flat), without assignments C93 (_lasting); every call goes to the listener set last (_latest); datagrams and timeouts are handed over once and in order (_made); nothing destroyed is used if only receive listeners make inner calls and none uses its captures after one (_safe_partial); no empty listener is called if none is emptied (_called_partial); exactly when captures are gone after an inner call (_use, _lost)."
  },
  {
   "property": "C111",
   "status": "partial",
   "theorems": [
    "C111_same",
    "C111_exists",
    "C111_stays",
    "C111_silent",
    "C111_data",
    "C111_again",
    "C111_asked",
    "C111_refuted",
    "C111_other_refuted",
    "C111_lock_refuted"
   ],
   "note": "False of the code: closing a kept connection that timed out asks the target again and aborts (C111_refuted), closing one twice can drop another connection (C111_other_refuted), lock() succeeds for connections that are not open (C111_lock_refuted). Proved for all programs: calls as without the pointers as long as no ended connection is closed (C111_same), exactly when the object exists (C111_exists), it stays the same connection (C111_stays), ended connections stay silent (C111_silent, C111_data), the exact result of closing again (C111_again) and the request it sends (C111_asked)."
  },
  {
   "property": "C112",
   "status": "partial",
   "theorems": [
    "C112_same",
    "C112_where",
    "C112_throws",
    "C112_paired_partial",
    "C112_shifted",
    "C112_request",
    "C112_request_places",
    "C112_register",
    "C112_register_places",
    "C112_ended",
    "C112_not_ended",
    "C112_destroy",
    "C112_refuted",
    "C112_garbage_refuted",
    "C112_ends_refuted"
   ],
   "note": "False: after std::bad_alloc a reply stays unread and later calls get the wrong replies (C112_refuted, C112_garbage_refuted, C112_shifted for all later calls), and the destructor and shown messages end the program (C112_ends_refuted, C112_destroy). Exact tables of what happens at each place where memory runs out: C112_where (an exchange), C112_request_places, C112_register_places, C112_ended and C112_not_ended (receiving), C112_destroy; C112_throws, C112_request and C112_register say how the calls end in general; C112_paired_partial is the true part: as long as nothing is left unread each call gets its own reply or throws; C112_same: with enough memory everything is as in C19-C24. Memory for the exceptions themselves, and allocations outside of sessions, are not modelled."
  },
  {
   "property": "C113",
   "status": "partial",
   "theorems": [
    "C113_accepted",
    "C113_one",
    "C113_end_point",
    "C113_shown",
    "C113_any",
    "C113_refuted",
    "C113_port_refuted",
    "C113_spelling_refuted"
   ],
   "note": "False: texts that denote nothing become 0.0.0.0 (C113_refuted), ports are cut to 16 bits (C113_port_refuted), end points compare their texts (C113_spelling_refuted); C113_any is what happens with any text and port. Proved: inet_aton (as in glibc) accepts exactly the texts of the grammar (C113_accepted, C113_one), end points of texts that denote an address (C113_end_point), texts shown by the library (C113_shown). On Windows inet_pton is used, which takes dotted decimal quads only; it is not modelled."
  },
  {
   "property": "C114",
   "status": "partial",
   "theorems": [
    "C114_alone_partial",
    "C114_delivered_partial",
    "C114_shared",
    "C114_any",
    "C114_group",
    "C114_elsewhere",
    "C114_reads",
    "C114_sender",
    "C114_items",
    "C114_history",
    "C114_refuted",
    "C114_multicast_refuted",
    "C114_sender_refuted"
   ],
   "note": "False: with two managers on a host the data of a connection may be read by the other one (C114_refuted), connections of type multicast get nothing (C114_multicast_refuted), and anybody can send data (C114_sender_refuted; C114_sender). Proved: a manager that is alone on its host reads exactly what is sent to port 2222 of the host, in order (C114_alone_partial), and what is for an open connection is given to it (C114_delivered_partial, ids as in C38); what a call reads of what is waiting (C114_reads); several managers share what comes, nothing is lost or doubled (C114_shared), and any of them may get it (C114_any); groups (C114_group, C114_elsewhere); which items matter (C114_items); all theorems on histories apply (C114_history)."
  },
  {
   "property": "C115",
   "status": "partial",
   "theorems": [
    "C115_read_partial",
    "C115_write_partial",
    "C115_text",
    "C115_bsd",
    "C115_big",
    "C115_big_write",
    "C115_round",
    "C115_linux",
    "C115_same",
    "C115_dest",
    "C115_dest_big",
    "C115_dest_none",
    "C115_refuted",
    "C115_big_refuted"
   ],
   "note": "C115_read_partial/C115_write_partial/C115_text: right on little-endian hosts with 16-bit sin_family (written form and texts on more or all hosts). C115_bsd, C115_big, C115_big_write, C115_dest, C115_dest_big, C115_dest_none, C115_round, C115_same: the exact behaviour on the other kinds of hosts. C115_linux: this model is the main model on Linux, for all buffers. False in general: C115_refuted (macOS: the destination has family 0), C115_big_refuted (octets exchanged)."
  },
  {
   "property": "C116",
   "status": "partial",
   "theorems": [
    "C116_enough",
    "C116_ends",
    "C116_handle_partial",
    "C116_tick",
    "C116_open_partial",
    "C116_unsent",
    "C116_twice_refuted",
    "C116_revived_refuted",
    "C116_gap_refuted",
    "C116_lost_refuted",
    "C116_abort_refuted",
    "C116_leak_refuted"
   ],
   "note": "C116_enough: equal to the main model if no allocation fails. C116_ends: a call ends as there, with std::bad_alloc, or ends the program. C116_handle_partial, C116_tick, C116_open_partial, C116_unsent: after std::bad_alloc every connection is there as agreed on, what was done is a first part of what would have been done, exact state of the connection whose turn it was. False: C116_twice_refuted (announced twice), C116_revived_refuted (used after that), C116_gap_refuted (number skipped), C116_lost_refuted (datagram lost), C116_abort_refuted (the message ends the program), C116_leak_refuted (open connection left at the target). Memory that listeners need is not modelled."
  },
  {
   "property": "C117",
   "status": "partial",
   "theorems": [
    "C117_enough",
    "C117_ends",
    "C117_begin",
    "C117_transfer_partial",
    "C117_again",
    "C117_doubled_refuted",
    "C117_lost_refuted",
    "C117_destroy_refuted",
    "C117_message_refuted"
   ],
   "note": "C117_enough, C117_ends: equal to the main model if no allocation fails, or if the call ends otherwise than with std::bad_alloc (or the end of the program). C117_begin, C117_transfer_partial: what std::bad_alloc leaves. C117_again: with an adapter that sends packets again the handler gets the exact file once, for all patterns of failures (at most 256 packets). False: C117_doubled_refuted (a last packet is counted twice and a wrong file handed over as complete), C117_lost_refuted (an adapter that does not send packets again: the upload fails), C117_destroy_refuted (the destructor ends the program). Memory that handlers need is not modelled. A shown message that cannot be copied ends the program (C117_message_refuted)."
  },
  {
   "property": "C118",
   "status": "proved",
   "theorems": [
    "C118_enough",
    "C118_ends",
    "C118_released",
    "C118_sent",
    "C118_first"
   ],
   "note": "C118_enough, C118_ends: equal to the main model if no allocation fails, or if the call does not throw std::bad_alloc. C118_released: the descriptor is closed once and not used after that. C118_sent: the request was sent as usual or not at all. C118_first: the first failing allocations are reported at once. The devices found so far are lost."
  },
  {
   "property": "C119",
   "status": "partial",
   "theorems": [
    "C119_enough",
    "C119_ends",
    "C119_prefix",
    "C119_cleared",
    "C119_first",
    "C119_heeded",
    "C119_twice_refuted",
    "C119_message_refuted"
   ],
   "note": "The listener gets a prefix of the faults (C119_prefix), the queue is cleared last and only after all of them were handed over (C119_cleared), no failing allocation is passed over (C119_heeded). False: a fault is handed over again by the next call if memory runs out between the listener and the clear command (C119_twice_refuted); the message at level INFO, if shown, can end the program (C119_message_refuted)."
  },
  {
   "property": "C120",
   "status": "partial",
   "theorems": [
    "C120_passive",
    "C120_throws",
    "C120_kept",
    "C120_again_refuted",
    "C120_cleared_refuted"
   ],
   "note": "Proved for every device, session and listener that throws or not: which faults it gets and what comes out (C120_throws, C120_passive), and that nothing but parameters was asked for, so the queue was not cleared (C120_kept). False: the next call begins with the first fault again, so faults come twice (C120_again_refuted); a listener that clears the queue itself loses the others (C120_cleared_refuted)."
  },
  {
   "property": "C121",
   "status": "partial",
   "theorems": [
    "C121_session",
    "C121_next",
    "C121_late",
    "C121_open_refuted",
    "C121_value_refuted"
   ],
   "note": "Proved: requests over a TCP session (C112) are requests as C116, C117 and C119 assume them (C121_session); if every reply was read before, a request that ends has the reply to itself and every reply has been read again (C121_next); if a reply was left unread, a request that ends has that one and leaves its own unread (C121_late), so the session stays one reply behind. REFUTED: a Forward_Open tried again after std::bad_alloc gives the manager the connection of the first try (C121_open_refuted); an attribute has the value of another one (C121_value_refuted)."
  },
  {
   "property": "C122",
   "status": "partial",
   "theorems": [
    "C122_enough",
    "C122_ends",
    "C122_kept",
    "C122_reads",
    "C122_begins",
    "C122_again",
    "C122_heeded",
    "C122_message_refuted",
    "C122_other_refuted"
   ],
   "note": "Proved over all sessions that keep to C116's assumption (TCP sessions do, C121_session): with enough memory as in the rest of the model (C122_enough), and so does every call that ends (C122_ends); a failed update leaves the object as it was (C122_kept); the calls only read, each from its own object, and an update asks once at most (C122_reads); no failing allocation is passed over (C122_heeded). C122_begins: the requests made are a beginning of those made with enough memory. C122_again: if the device answers reads as before, the call made again has the result it would have had. REFUTED: the message about a refused request can end the program (C122_message_refuted); after an update that ran out of memory the next one, of another parameter, gives it the value of the first (C122_other_refuted)."
  },
  {
   "property": "C123",
   "status": "partial",
   "theorems": [
    "C123_parts",
    "C123_all",
    "C123_begins",
    "C123_silent",
    "C123_noticed",
    "C123_same",
    "C123_refuted",
    "C123_line_refuted"
   ],
   "note": "Proved: whatever fails the program goes on and the console gets a beginning of each text, in order, and nothing else (C123_parts); everything if nothing fails (C123_all); a beginning of the whole if the program does not clear std::cout (C123_begins), and nothing after a failure (C123_silent); std::cout is good exactly as long as no write or flush has failed (C123_noticed); without failures the logger of C68 (C123_same). REFUTED: after one failed write all later messages are lost although writing would succeed (C123_refuted); after std::cout.clear() a message continues the line that was cut (C123_line_refuted)."
  },
  {
   "property": "C124",
   "status": "partial",
   "theorems": [
    "C124_enough",
    "C124_ends",
    "C124_next",
    "C124_late",
    "C124_places",
    "C124_value_refuted",
    "C124_message_refuted"
   ],
   "note": "Proved for a TCP session and all patterns of failures: with enough memory as the Yaskawa router of the rest of the model (C124_enough), and so does every request that ends (C124_ends); on a session whose replies have all been read it has the reply to itself (C124_next); the exact effect of each place (C124_places). REFUTED: after a request that ran out of memory before its reply was read, the next one has that reply (C124_late for all cases, C124_value_refuted); the message about a request can end the program (C124_message_refuted)."
  }
 ]
}