{
 "claims": [
  {
   "property": "C01",
   "status": "proved",
   "theorems": [
    "C01_integers_are_big_endian"
   ],
   "note": "both host byte orders, all widths"
  },
  {
   "property": "C02",
   "status": "proved",
   "theorems": [
    "C02_table_roundtrip",
    "C02_allocation_failure"
   ],
   "note": "buffers below 2^30 bytes"
  },
  {
   "property": "C03",
   "status": "proved",
   "theorems": [
    "C03_table_encoding_exact"
   ],
   "note": "buffers below 2^32 bytes; also fails for unknown kinds"
  },
  {
   "property": "C04",
   "status": "proved",
   "theorems": [
    "C04_table_decoding_total_and_safe"
   ],
   "note": "inputs below 2^30 bytes (the C entry counter is an int)"
  },
  {
   "property": "C05",
   "status": "proved",
   "theorems": [
    "C05_depth_limit"
   ],
   "note": ""
  },
  {
   "property": "C06",
   "status": "partial",
   "theorems": [
    "C06_sent_table_is_received_partial",
    "C06_long_key_refuted",
    "C06_deep_nesting_refuted"
   ],
   "note": "False as stated: keys longer than 255 bytes are sent with a truncated length octet; nesting deeper than 100 is accepted for sending. Proved for short keys and depth <= 100."
  },
  {
   "property": "C07",
   "status": "proved",
   "theorems": [
    "C07_structs_match_catalogue",
    "C07_method_layout",
    "C07_method_roundtrip"
   ],
   "note": "catalogue written by hand from the AMQP 0-9-1 specification (plus the RabbitMQ extensions); codec statements extracted from amqp_framing.c"
  },
  {
   "property": "C08",
   "status": "proved",
   "theorems": [
    "C08_method_decoding_total_and_safe",
    "C08_unknown_method_refused",
    "C08_long_shortstr_refused",
    "C15_properties_decoding_safe_partial"
   ],
   "note": "input below 2^30 bytes; property data with three or more flag words is the subject of C15"
  },
  {
   "property": "C09",
   "status": "proved",
   "theorems": [
    "C09_basic_properties_roundtrip"
   ],
   "note": "flags with only defined bits come back unchanged; otherwise the wire form wire_flags"
  },
  {
   "property": "C15",
   "status": "partial",
   "theorems": [
    "C15_properties_decoding_safe_partial",
    "C15_three_flag_words_refuted"
   ],
   "note": "False as stated: three flag words (and only these) make the library shift a 32 bit value by 32. Everything else proved safe."
  },
  {
   "property": "C10",
   "status": "proved",
   "theorems": [
    "C10_frame_bytes",
    "C10_frames_received",
    "C10_frame_roundtrip"
   ],
   "note": "send buffer of at least 20 bytes and below 2^31, frame_max below 2^30; body fragments must fit (C41)"
  },
  {
   "property": "C11",
   "status": "proved",
   "theorems": [
    "C11_segmentation_independent",
    "C11_segmentation_independent_midway"
   ],
   "note": "pieces below 2^31 bytes, frame_max below 2^30"
  },
  {
   "property": "C12",
   "status": "proved",
   "theorems": [
    "C12_delivery_sound",
    "C12_oversized_refused",
    "C12_bad_end_marker_refused",
    "C12_errors_stay"
   ],
   "note": "from an idle connection; the very first frame of a connection is the subject of C14; running out of memory first is reported as AMQP_STATUS_NO_MEMORY"
  },
  {
   "property": "C13",
   "status": "partial",
   "theorems": [
    "C13_only_malformed_frames_partial",
    "C13_malformed_frame_refuted"
   ],
   "note": "False as stated: short method and header frames (and three flag words) make the library read outside the frame. Proved: nothing else does."
  },
  {
   "property": "C14",
   "status": "partial",
   "theorems": [
    "C14_protocol_header",
    "C14_first_frame_loses_a_byte_partial",
    "C14_first_heartbeat_refuted"
   ],
   "note": "False as stated: the eighth byte of a first frame other than the protocol header is lost. Proved exactly what happens instead."
  },
  {
   "property": "C16",
   "status": "proved",
   "theorems": [
    "C16_pool_blocks",
    "C16_no_spurious_null",
    "C16_huge_request_refuted"
   ],
   "note": "requests up to 2^64-8 bytes, page sizes below 2^63; the bound is needed (C16_huge_request_refuted)"
  },
  {
   "property": "C17",
   "status": "proved",
   "theorems": [
    "C17_recycle_keeps_pages",
    "C17_empty_frees_everything",
    "C17_empty_safe_after_failures",
    "C17_leak_after_failure_refuted"
   ],
   "note": "with allocator failures nothing is freed twice, but a page whose recording fails is leaked (C17_leak_after_failure_refuted)"
  },
  {
   "property": "C18",
   "status": "proved",
   "theorems": [
    "C18_one_pool_per_channel",
    "C18_no_spurious_null"
   ],
   "note": ""
  },
  {
   "property": "C24",
   "status": "partial",
   "theorems": [
    "C24_special_cases",
    "C24_deadline_exact_partial",
    "C24_seconds_exact",
    "C24_clock_failed",
    "C24_wraparound_refuted"
   ],
   "note": "False as stated: some out-of-range timeouts wrap around. Proved for timevals in the documented range"
  },
  {
   "property": "C25",
   "status": "partial",
   "theorems": [
    "C25_poll_timeout_partial",
    "C25_far_deadlines_refuted"
   ],
   "note": "False as stated for deadlines 2^31 ms or more away; proved for nearer ones"
  },
  {
   "property": "C26",
   "status": "proved",
   "theorems": [
    "C26_timeval_until",
    "C26_first_is_earlier",
    "C26_has_past"
   ],
   "note": ""
  },
  {
   "property": "C54",
   "status": "proved",
   "theorems": [
    "C54_timeouts_stored",
    "C54_status"
   ],
   "note": ""
  },
  {
   "property": "C32",
   "status": "partial",
   "theorems": [
    "C32_every_code_partial",
    "C32_documented_statuses",
    "C32_int_min_refuted"
   ],
   "note": "False as stated: INT_MIN overflows the negation. Proved for all other codes"
  },
  {
   "property": "C30",
   "status": "proved",
   "theorems": [
    "C30_whole_words"
   ],
   "note": ""
  },
  {
   "property": "C31",
   "status": "partial",
   "theorems": [
    "C31_plain_response",
    "C31_plain_unambiguous",
    "C31_external_response_partial",
    "C31_empty_identity_refuted"
   ],
   "note": "False as stated: the empty EXTERNAL identity is refused as out of memory. Proved for all non-empty identities and all PLAIN credentials"
  },
  {
   "property": "C21",
   "status": "proved",
   "theorems": [
    "C21_dictionary_order",
    "C21_total_order",
    "C21_gigantic_keys_refuted"
   ],
   "note": "keys shorter than 2^31 bytes; the bound is needed (C21_gigantic_keys_refuted)"
  },
  {
   "property": "C22",
   "status": "proved",
   "theorems": [
    "C22_clone",
    "C22_clone_faithful"
   ],
   "note": "values are pure in the model: equality of contents, not where the copy lives"
  },
  {
   "property": "C23",
   "status": "partial",
   "theorems": [
    "C23_merge_sound",
    "C23_merge_succeeds_partial",
    "C23_nothing_to_add",
    "C23_empty_tables_refuted",
    "C23_duplicate_keys_refuted"
   ],
   "note": "False as stated for two empty tables (refused as out of memory) and for repeated keys (NULL dereference); proved for tables with distinct keys otherwise"
  },
  {
   "property": "C27",
   "status": "proved",
   "theorems": [
    "C27_parse_url_total"
   ],
   "note": "Every NUL-terminated string, any CHAR_MAX, either behaviour of sscanf on 0x."
  },
  {
   "property": "C28",
   "status": "proved",
   "theorems": [
    "C28_components"
   ],
   "note": "Components may be percent-encoded anywhere; host as name, in brackets, or left out. Characters above CHAR_MAX cannot be escaped (the code refuses %80..%ff where char is signed)."
  },
  {
   "property": "C29",
   "status": "partial",
   "theorems": [
    "C29_accepted_urls_partial",
    "C29_scheme",
    "C29_query_fragment",
    "C29_escapes_partial",
    "C29_bad_escape_refuted",
    "C29_bad_port_refuted",
    "C29_zero_x"
   ],
   "note": "Foreign schemes, queries and fragments are refused; the grammar of what is accepted is proved. Not true in full: escapes such as %+5 or '% 5' are accepted (sscanf %2x), as are ports with blanks or a sign and a second port."
  },
  {
   "property": "C33",
   "status": "proved",
   "theorems": [
    "C33_frame_reaches_the_wire",
    "C33_send_frame"
   ],
   "note": ""
  },
  {
   "property": "C34",
   "status": "partial",
   "theorems": [
    "C34_send_header",
    "C34_login_header_partial",
    "C34_login_header_refuted"
   ],
   "note": "amqp_send_header satisfies the property in full. The variant with a deadline that login uses does not: it reports a partial send as its byte count, and a send cut off before the first byte as success."
  },
  {
   "property": "C19",
   "status": "proved",
   "theorems": [
    "C19_queued_frames_stay_valid",
    "C19_returned_frame_is_valid",
    "C19_release_buffers",
    "C19_release_on_channel",
    "C19_release_does_release"
   ],
   "note": ""
  },
  {
   "property": "C38",
   "status": "partial",
   "theorems": [
    "C38_rpc",
    "C38_right_channel",
    "C38_none_lost",
    "C38_reply_lost_refuted"
   ],
   "note": "The result is always the last frame received and one of the expected replies on the request's channel, a channel.close on it, or a connection.close on channel 0. That no reply is lost is proved with heartbeats off, and refuted by a concrete run with heartbeats on: sending a heartbeat while waiting may read data into the socket buffer, which the next read overwrites."
  },
  {
   "property": "C39",
   "status": "proved",
   "theorems": [
    "C39_timeout_closes",
    "C39_calls",
    "C39_no_later_reply"
   ],
   "note": "If close() itself fails the descriptor number is kept in the socket object, as in the code."
  },
  {
   "property": "C55",
   "status": "proved",
   "theorems": [
    "C55_calls",
    "C55_complete",
    "C55_acks",
    "C55_closes",
    "C55_get"
   ],
   "note": "All twenty generated calls, acknowledgements, amqp_basic_get and the two close calls."
  },
  {
   "property": "C36",
   "status": "proved",
   "theorems": [
    "C36_links_are_a_list",
    "C36_net_uses_the_list",
    "C36_queued_first",
    "C36_put_back_next"
   ],
   "note": "Pointer-level model of the frame queue (Queue.v) refined to a list."
  },
  {
   "property": "C37",
   "status": "partial",
   "theorems": [
    "C37_on_channel_partial",
    "C37_earlier_frames_dropped_refuted",
    "C37_other_channel_refuted"
   ],
   "note": "The frame returned is the right one. Not true in full: amqp_simple_wait_frame_on_channel throws away the pending frames of other channels that precede the one it returns."
  },
  {
   "property": "C47",
   "status": "proved",
   "theorems": [
    "C47_confirms",
    "C47_pending_confirm"
   ],
   "note": "If memory for the link runs out the frame cannot be put back (as in the code)."
  },
  {
   "property": "C48",
   "status": "proved",
   "theorems": [
    "C48_unexpected_frames_kept",
    "C48_consume_message",
    "C48_session"
   ],
   "note": "If memory for the link runs out the frame cannot be put back (as in the code)."
  },
  {
   "property": "C35",
   "status": "partial",
   "theorems": [
    "C35_frames_in_order",
    "C35_with_heartbeats_partial",
    "C35_heartbeat_returned_refuted",
    "C35_frame_lost_refuted"
   ],
   "note": "Full with heartbeats off: every stream of well-formed frames, every schedule; at a timeout or end of file every complete frame received has been returned. With heartbeats on the property is false (two concrete runs): a heartbeat read while the library's own heartbeat is blocked is queued and returned as a frame, and a frame read at that point is overwritten by the next read. The partial theorem covers the runs in which no received bytes are overwritten. Connections that received nothing before: C14."
  },
  {
   "property": "C56",
   "status": "partial",
   "theorems": [
    "C56_no_undefined_behaviour_partial",
    "C56_new_connection_partial",
    "C56_established",
    "C56_established_heartbeats_partial",
    "C56_malformed_refuted"
   ],
   "note": "On an established connection with heartbeats off and a server that sends well-formed basic-class frames: full (C56_established). Arbitrary servers and sessions with login and tuning: undefined behaviour only after one of the listed causes (a malformed frame, a content header of another class, an earlier failure of amqp_handle_input, overwritten unread bytes, a frame limit below 20 bytes or above the size of the send buffer). The property is false without them (C13, C41, C42). C88 does without the hypothesis on earlier failures."
  },
  {
   "property": "C42",
   "status": "partial",
   "theorems": [
    "C42_read_message",
    "C42_message",
    "C42_session",
    "C56_established",
    "C42_foreign_header_refuted",
    "C42_connection_close_refuted"
   ],
   "note": "Reassembly, the frames used up and every error case are proved for all schedules, fragmentations and interleavings (allocations for the frame queue succeed, no unread bytes overwritten; both shown for sessions with heartbeats off); no write past the body buffer: C56_established covers this call. Not true in full: a content header of another class is copied as if it were of class basic (undefined behaviour, C42_foreign_header_refuted), and a connection.close arriving on channel 0 does not end the call (C42_connection_close_refuted)."
  },
  {
   "property": "C40",
   "status": "proved",
   "theorems": [
    "C40_pieces",
    "C40_publish"
   ],
   "note": "For every connection whose frame limit is at least 20 and at most the size of the send buffer (the protocol's minimum is 4096; C41 is about the others). A method or content header longer than the buffer is refused (C53_refused)."
  },
  {
   "property": "C53",
   "status": "proved",
   "theorems": [
    "C53_incomplete_is_reported",
    "C53_refused"
   ],
   "note": "Same conditions as C40."
  },
  {
   "property": "C43",
   "status": "partial",
   "theorems": [
    "C43_consumed",
    "C43_published_is_consumed",
    "C35_frame_lost_refuted"
   ],
   "note": "All messages, properties, frame limits, fragmentations, segmentations and interleavings with other channels: the consumer gets the message or an error. With heartbeats on it needs that no received bytes are overwritten, which the library does not guarantee (C35_frame_lost_refuted)."
  },
  {
   "property": "C20",
   "status": "partial",
   "theorems": [
    "C20_table_sent_partial",
    "C20_refuted"
   ],
   "note": "REFUTED in part: the table returned is the one sent in start-ok (proved for every successful login), but its memory is the channel-0 pool, which amqp_login itself recycles right after start-ok: after EVERY successful login the returned table is no longer valid (C20_refuted is universally quantified)."
  },
  {
   "property": "C41",
   "status": "proved",
   "theorems": [
    "C41_negotiated",
    "C41_buffer_respected",
    "C41_publish_terminates",
    "C57_never_spins",
    "C40_publish",
    "C41_before_login_refuted",
    "C41_failed_tune_refuted"
   ],
   "note": "After every successful login frame_max is at least 20 and is the size of the send buffer, and no sequence of calls after it (without a second login / tune) writes outside the buffer. Termination: no loop spins (C57), what is sent is always a prefix of the message (C40), and with heartbeats off one answer per byte of the message is enough (C41_publish_terminates). Outside the property as stated: a server proposing frame_max 8 makes the client write outside the buffer during the login itself (C41_before_login_refuted), and a login that failed for lack of memory leaves a send buffer that is shorter than recorded (C41_failed_tune_refuted)."
  },
  {
   "property": "C45",
   "status": "proved",
   "theorems": [
    "C45_limits_agreed",
    "C45_rules"
   ],
   "note": "For every server, schedule and allocation behaviour: the limits reported, the limits sent in tune-ok and the size of the send buffer after a successful login are the agreed ones (spec in LoginSpec.v); C45_rules spells the rules out."
  },
  {
   "property": "C46",
   "status": "partial",
   "theorems": [
    "C46_login_partial",
    "C46_socket_left_open_refuted",
    "C46_header_not_sent_refuted",
    "C46_plain_login"
   ],
   "note": "Proved for every server and schedule: success implies the whole conversation in order (except that the header may not have been sent), exceptions are the server's close, library errors close the socket except for parameter errors and errors while opening the virtual host. Both exceptions are real: refuted by concrete runs."
  },
  {
   "property": "C57",
   "status": "proved",
   "theorems": [
    "C57_never_spins",
    "C57_bound_irrelevant",
    "C57_small_bounds"
   ],
   "note": "From a new connection or one between two frames; frame sizes passed to login/tune below 2^30. Also shows that the model's bound on loop rounds is harmless."
  },
  {
   "property": "C44",
   "status": "partial",
   "theorems": [
    "C44_never_late",
    "C44_attentive",
    "C44_attentive_on_channel",
    "C44_timeout_closes_partial",
    "C44_timeout_closes_refuted"
   ],
   "note": "Every schedule and clock (the claims are void once the clock goes backwards): no poll of any call (login and tuning excepted) waits past the receive deadline; waiting for a frame never polls for input with an unsent heartbeat due, never waits past the send deadline, and stops after the second poll begun after the peer was overdue. AMQP_STATUS_HEARTBEAT_TIMEOUT follows a timed out poll and the closing of the socket, except when the heartbeat could not be sent for lack of room: then the socket is left open (C44_timeout_closes_refuted)."
  },
  {
   "property": "C51",
   "status": "proved",
   "theorems": [
    "C51_tries_in_order",
    "C51_open_socket",
    "C51_open_socket_noblock",
    "C51_no_leak",
    "C51_connected"
   ],
   "note": "Spec: ConnectSpec.opens. For every outcome of every system call. C51_no_leak/C51_connected assume that getaddrinfo never succeeds with an empty list (POSIX); C51_no_address shows what would happen otherwise."
  },
  {
   "property": "C49",
   "status": "partial",
   "theorems": [
    "C49_verified",
    "C49_default",
    "C49_handshake",
    "C49_settings",
    "C49_failure_partial",
    "C49_failure_refuted"
   ],
   "note": "Success implies handshake, certificate, verification result and host name match, in every combination of settings and outcomes. The clean-up after a failure is complete if the timeout is sane and the clock works; a bad timeout leaves the TLS object behind (refuted)."
  },
  {
   "property": "C50",
   "status": "partial",
   "theorems": [
    "C50_lifetime_partial",
    "C50_out_of_memory_partial",
    "C50_lifetime_refuted",
    "C50_abort_refuted"
   ],
   "note": "All interleavings without BIO_meth_new running out of memory, and (NDEBUG) all interleavings in which no thread overtakes the clean-up of a failed one. Refuted in general: an overtaken failure frees the method under a live socket; with assert() a failure aborts."
  },
  {
   "property": "C58",
   "status": "partial",
   "theorems": [
    "C58_tcp_socket_partial",
    "C58_tcp_socket_delete_partial",
    "C58_tcp_socket_refuted",
    "C58_tls_socket_partial",
    "C58_tls_socket_delete_partial",
    "C58_tls_socket_refuted"
   ],
   "note": "All sequences, all outcomes, as long as close() succeeds (TLS: and timeouts are sane and the clock works). A failing close() leads to a second close of the same number and, for TLS, to SSL_shutdown(NULL): refuted."
  },
  {
   "property": "C52",
   "status": "partial",
   "theorems": [
    "C52_read_all_partial",
    "C52_read_all_refuted",
    "C52_write_all_partial",
    "C52_write_all_terminates",
    "C52_write_all_refuted",
    "C52_copy_body_partial",
    "C52_copy_body_refuted"
   ],
   "note": "Every schedule of short reads, interruptions and short writes: what is returned / written is exactly the input / a prefix of the argument, all of it if the call returns. Not true in full: read_all uses a NULL pointer when out of memory, write_all does not retry after an interruption, and a body longer than announced is written and waited for beyond its announced size."
  },
  {
   "property": "C59",
   "status": "partial",
   "theorems": [
    "C59_authfile_exact",
    "C59_authfile_refuted",
    "C59_undefined_partial"
   ],
   "note": "Exact for every file (both directions). A value that is empty and not ended by a newline makes the tool read the byte before its memory instead of ending with a message (refuted; C59_undefined_partial: nothing else does)."
  },
  {
   "property": "C60",
   "status": "partial",
   "theorems": [
    "C60_options_exact",
    "C60_otherwise_dies_partial",
    "C60_plain_port",
    "C60_options_refuted"
   ],
   "note": "Exact for every combination of options (both directions), with the URL's meaning taken from C28 and the auth file's from C59. Not true in full: the port in --server is taken modulo 2^32 (and with leading blanks or a sign), and --ssl without --server leaves the port at 5672 although --server together with --ssl selects 5671 (both in C60_options_refuted); the undefined case of C59. Allocations succeed."
  },
  {
   "property": "C61",
   "status": "partial",
   "theorems": [
    "C61_keeps_timeout_partial",
    "C61_consume_partial",
    "C61_login_partial",
    "C61_plain_login_partial",
    "C61_login_refuted",
    "C61_timeout_when_due",
    "C61_consume_refuted",
    "C61_request_refuted",
    "C61_late_reply_refuted"
   ],
   "note": "For timeouts up to 2^31-1 ms and a clock that does not go back. Every poll for the peer ends by the deadline: all calls with a timeout except amqp_consume_message after a delivery has begun, whose content is waited for without limit (C61_consume_refuted). Waits for room to send (and to read during a TLS write) are not limited (C61_request_refuted), and while data keeps arriving a synchronous call goes on after its deadline (C61_late_reply_refuted). amqp_login keeps its timeout up to the time that passes between two readings of the clock (C61_login_partial; exactly: refuted); when it reports a timeout is not covered."
  },
  {
   "property": "C62",
   "status": "partial",
   "theorems": [
    "C62_publish_partial",
    "C62_no_destination",
    "C62_body_and_lines_refuted",
    "C62_nul_refuted",
    "C62_long_line_refuted",
    "C62_colonless_refuted"
   ],
   "note": "Built on C40 (the wire format of a message, every schedule) and C52. For every combination of options and every input, except: --body with --line-buffered (succeeds and publishes nothing), a NUL in a line (rest of the line lost), a line of 32768 bytes or more (split in two messages), a header without colon (said to be ignored, but nothing can be published: C62_colonless_refuted, for every run), out of memory."
  },
  {
   "property": "C63",
   "status": "partial",
   "theorems": [
    "C63_consume_partial",
    "C63_acknowledged_only_after_success",
    "C63_prefetch",
    "C63_count_refuted",
    "C63_overflow_refuted"
   ],
   "note": "For every history of frames (fewer than 2^31), command runs and acknowledgement statuses. Not true: --count counts frames that are not deliveries (C63_count_refuted); without --count the counter overflows after 2^31 frames (C63_overflow_refuted)."
  },
  {
   "property": "C64",
   "status": "partial",
   "theorems": [
    "C64_setup_partial",
    "C64_setup_queue_only",
    "C64_printed_name",
    "C64_printed_exact",
    "C64_empty_key_refuted",
    "C64_no_key_refuted"
   ],
   "note": "For every list of nonempty keys. Empty keys are not bound (a fanout exchange with -r \"\" is not bound at all), and --exchange without --routing-key duplicates a null pointer (both refuted)."
  },
  {
   "property": "C65",
   "status": "proved",
   "theorems": [
    "C65_get"
   ],
   "note": "The reply of amqp_basic_get is the one C55 describes; frames as delivered by amqp_simple_wait_frame (C17)."
  },
  {
   "property": "C66",
   "status": "proved",
   "theorems": [
    "C66_never_after_close",
    "C66_no_calls",
    "C66_send_fails"
   ],
   "note": "Every list of calls of the API, including login. C66_never_after_close: also inside one call, for calls that leave a trace in the log (a send or receive that fails does not); C66_no_calls: every call on the descriptor, successful or not, once it is closed at the start of an API call. A close() that fails leaves the descriptor in use (C58)."
  },
  {
   "property": "C67",
   "status": "partial",
   "theorems": [
    "C67_memory_partial",
    "C67_all_freed_partial",
    "C67_destroy",
    "C67_copies",
    "C67_new_refuted",
    "C67_body_refuted",
    "C67_zero_refuted"
   ],
   "note": "Refuted: amqp_new_connection forgets its send buffer when the malloc of the receive buffer fails, amqp_read_message forgets the copied properties when the malloc of the body fails, and with frame_max 0 the send buffer is freed twice. Proved for all programs without frame_max 0 and without a failing malloc of a body: never undefined; the live blocks are those of the existing objects, each once, plus at most one block for each failed recording of a page (C17) and each failed amqp_new_connection of that kind."
  },
  {
   "property": "C68",
   "status": "proved",
   "theorems": [
    "C68_method_name",
    "C68_all_methods",
    "C68_names_differ",
    "C68_has_content",
    "C68_constant_name",
    "C68_macros",
    "C68_hard_error"
   ],
   "note": "The specification (NameSpec.v) is written by hand; the tables of the model are extracted from amqp_framing.c."
  },
  {
   "property": "C69",
   "status": "proved",
   "theorems": [
    "C69_nothing_left",
    "C69_all_returned",
    "C69_enqueued",
    "C69_buffered"
   ],
   "note": "All calls that do not retune (not only waits) for C69_nothing_left and C69_buffered; with heartbeats on, for runs in which no received bytes are overwritten (C35_frame_lost_refuted). TLS: bytes OpenSSL has decrypted and not handed over are not modelled (SSL_read is one call at the level of the plain text)."
  },
  {
   "property": "C70",
   "status": "proved",
   "theorems": [
    "C70_no_false_alarm",
    "C70_calls"
   ],
   "note": "Calls other than amqp_tune_connection and login (those change the limits). Timeouts of more than 2,000,000 s are excluded because of C25, content headers that announce 2^63 bytes or more because malloc cannot give them, tables with empty keys because they cannot be copied (C22). Runs that end; that they do is C57, that they are defined is C56."
  },
  {
   "property": "C71",
   "status": "proved",
   "theorems": [
    "C71_session_works",
    "C71_session_calls",
    "C71_usual_login_works"
   ],
   "note": "Hypothesis about memory: byte 7 of the first memory page is 0. The library does not copy the 8th byte of the first frame it receives (DESIGN.md finding 3); that byte is the high byte of the class, 0, and on a new connection the block comes from calloc (amqp_mem.c:89, 111), so the hypothesis holds. The server accepts the login; a refusal is C46. Runs that end; that they do is C57, that they are defined is C56."
  },
  {
   "property": "C72",
   "status": "proved",
   "theorems": [
    "C72_wire",
    "C72_wire_unexpected"
   ],
   "note": "Calls other than login and amqp_tune_connection (those change the limits; the conversation of the login is C46); a body frame is sent by amqp_basic_publish only. C72_wire: waits that end with AMQP_STATUS_OK or AMQP_STATUS_TIMEOUT, any clock. C72_wire_unexpected: also UNEXPECTED_STATE and WRONG_METHOD; there the clock must not go back, because amqp_time_ms_until can wrap and amqp_poll returns the negative number as a status (C25, C26)."
  },
  {
   "property": "C73",
   "status": "proved",
   "theorems": [
    "C73_codes",
    "C73_declared",
    "C73_wait_exact",
    "C73_send_exact",
    "C73_other_cases"
   ],
   "note": "CodesSpec.failures is the list per call (all calls of the model, login and tune included). Hypotheses: the clock does not go back, timeouts are negative, none or at most 2000000 s, heartbeats at most 65535 s (all that can be negotiated). Without the limit on timeouts the number reported means nothing (C73_excessive_timeout). amqp_login reports 1 to 7 when the time is up while the protocol header is half sent. The exact lists are longer than those in the comments of amqp.h."
  },
  {
   "property": "C74",
   "status": "partial",
   "theorems": [
    "C74_failed_send_partial",
    "C74_no_timer_partial",
    "C74_refused",
    "C74_message_was_sent_refuted",
    "C74_frame_was_not_sent_refuted",
    "C74_partly_sent_refuted",
    "C74_half_message_refuted",
    "C74_left_open_refuted"
   ],
   "note": "The notes in amqp.h are refuted, each by a schedule: publish reports TIMER_FAILURE after the whole message went out; amqp_send_frame reports TIMER_FAILURE with nothing sent, and BAD_AMQP_DATA with part of the frame sent; publish reports TABLE_TOO_BIG after the first frame; waits report SOCKET_ERROR, HEARTBEAT_TIMEOUT and WRONG_METHOD with the socket open. What is true and proved for all schedules: a failure other than TIMER_FAILURE means not everything was sent (clock readings below 2^63 ns), TIMER_FAILURE needs heartbeats, and a refusal by the encoder sends nothing."
  },
  {
   "property": "C75",
   "status": "partial",
   "theorems": [
    "C75_calls",
    "C75_publish_partial",
    "C75_held_back_refuted"
   ],
   "note": "Refuted for every body whose length is a nonzero multiple of frame_max - 8 (C75_held_back_refuted: every send of such a publish has MSG_MORE); proved for all other bodies and all other calls. With TLS the mark has no effect on the socket (SSL_write)."
  },
  {
   "property": "C76",
   "status": "proved",
   "theorems": [
    "C76_one_frame_judged",
    "C76_frame_taken"
   ],
   "note": "Equality of the two runs (result, connection, remaining events, observations), after any history of calls with valid arguments on a connection that started idle; content headers of class basic, as everywhere. C76_frame_taken: a pending frame, without any system call."
  },
  {
   "property": "C77",
   "status": "proved",
   "theorems": [
    "C77_never_older",
    "C77_default",
    "C77_versions",
    "C77_versions_last",
    "C77_key_pair",
    "C77_statuses",
    "C77_no_leak",
    "C77_trust",
    "C77_refused_unchanged_refuted",
    "C77_failed_key_refuted"
   ],
   "note": "The two _refuted theorems are not part of the claim, they mark its limits: if OpenSSL itself refuses the second half of a setting, the first half stays (a minimum above the maximum: no version is accepted; a new certificate with the old key). Hostname and peer verification and the handshake are C49. The deprecated engine functions are not modelled."
  },
  {
   "property": "C78",
   "status": "proved",
   "theorems": [
    "C78_no_queue",
    "C78_declare",
    "C78_delete"
   ],
   "note": "The programs from the established connection on (make_connection: C60, C45, C46, C71). Lossy printing: the name is printed up to its first NUL. Send buffer between 20 bytes and 2^31 (AMQP frames are at least 4096), as in C55."
  },
  {
   "property": "C79",
   "status": "proved",
   "theorems": [
    "C79_one_socket",
    "C79_destroyed"
   ],
   "note": "The balances of descriptors, TLS objects, peer certificates and contexts over all sequences; C79_forgotten shows the exception of the statement (amqp_tcp_socket_set_sockfd on an open socket), C79_no_memory a failing constructor. close() always releases the descriptor; an answer of -1 from it is excluded (amqp_os_socket_close then keeps the number)."
  },
  {
   "property": "C80",
   "status": "proved",
   "theorems": [
    "C80_goes_on",
    "C80_report",
    "C80_steady",
    "C80_status"
   ],
   "note": "From a new or an idle connection through any calls; Examples C80_case (a refusal whose text has a NUL) and C80_unknown. snprintf is modelled on the conversions used (%s, %.*s, %d, %u, 0x%08X); a status of INT_MIN is excluded and C80_steady shows that it does not occur on a steady clock."
  },
  {
   "property": "C81",
   "status": "proved",
   "theorems": [
    "C81_never_ahead",
    "C81_credentials_kept"
   ],
   "note": "On a connection on which nothing has been negotiated (fresh; fresh_new: every new connection). Moments in the middle of a call are runs whose events end there. The header may be missing (finding of C46). Examples C81_refused, C81_middle."
  },
  {
   "property": "C82",
   "status": "proved",
   "theorems": [
    "C82_declare",
    "C82_delete",
    "C82_no_queue"
   ],
   "note": "sane_options: the URL has no NUL, the port is an int, strings shorter than 2^63. The text of messages about bad options is not modelled. The program may also be stuck in the read of a malformed authentication file (C59). Examples C82_success, C82_no_host, C82_refused, C82_options."
  },
  {
   "property": "C83",
   "status": "partial",
   "theorems": [
    "C83_publish_partial",
    "C83_no_destination",
    "C83_ignored_headers"
   ],
   "note": "Partial as C62: not with --body and --line-buffered together, a header without colon, a line of 32768 bytes or more or with a NUL, or out of memory (the C62 _refuted theorems show that the claim fails in the first three cases). Examples C83_success, C83_failure."
  },
  {
   "property": "C84",
   "status": "proved",
   "theorems": [
    "C84_get",
    "C84_no_queue"
   ],
   "note": "Examples C84_success (two fragments, short writes), C84_empty, C84_failure (unexpected frame, broken pipe)."
  },
  {
   "property": "C85",
   "status": "proved",
   "theorems": [
    "C85_consume",
    "C85_no_command"
   ],
   "note": "Needs an exchange to come with a routing key (without: undefined behaviour, finding of C64) and strings shorter than 2^63. Examples C85_success (server-named queue, two keys, a delivery before basic.consume-ok, a heartbeat within a body, one run of the command fails), C85_failure (command not started, broken socket in the body)."
  },
  {
   "property": "C86",
   "status": "proved",
   "theorems": [
    "C86_no_signal",
    "C86_tcp_send",
    "C86_tcp_recv",
    "C86_tcp_waits",
    "C86_retry_flags",
    "C86_tls_send",
    "C86_tls_recv",
    "C86_tls_refused",
    "C86_closed"
   ],
   "note": "Linux error numbers; MSG_NOSIGNAL exists. The theorems on send and recv also show that Net.v, on which the other properties rest, says the same of the corresponding events. Examples C86_tcp_case, C86_tls_case."
  },
  {
   "property": "C87",
   "status": "partial",
   "theorems": [
    "C87_frame_partial",
    "C87_frames_partial",
    "C87_net",
    "C87_bad_retry",
    "C87_old_record_refuted",
    "C87_corrupted_refuted"
   ],
   "note": "Proved as long as no earlier call has failed; and up to the first failure Net.v is right about TLS (C87_net). False after a failure that leaves a blocked record (C87_old_record_refuted, for every such state and frame): the next frame from the same buffer is counted as sent although the peer gets the old record instead of its beginning; C87_corrupted_refuted is a run: heartbeat timeout, then a successful amqp_basic_ack that the peer cannot parse. Example C87_case."
  },
  {
   "property": "C88",
   "status": "partial",
   "theorems": [
    "C88_whole_session_partial",
    "C88_whole_session_heartbeats_partial",
    "C88_any_server_partial",
    "C41_failed_tune_refuted",
    "C42_foreign_header_refuted"
   ],
   "note": "No hypothesis about earlier failures: what amqp_handle_input does after it has refused a frame is part of the proof (this removes the hypothesis no_bad of C56). Excuses that remain: an allocation failed and left the send buffer smaller than the limit on frames (real: C41_failed_tune_refuted); a limit below 20 bytes asked for by the client or proposed by the server (C41); with heartbeats also overwritten unread bytes (C34) or a clock outside (0, 2^63); allocations inside amqp_handle_input do not fail. C88_any_server_partial: servers that send malformed frames, up to the first one. Examples C88_case, C88_case_unexpected."
  },
  {
   "property": "C89",
   "status": "partial",
   "theorems": [
    "C89_poll_partial",
    "C89_select_partial",
    "C89_same_partial",
    "C89_clock_failure",
    "C89_large_descriptor_refuted",
    "C89_net"
   ],
   "note": "Excuses: deadlines 2^31 ms or more away (C25: there the code with poll() waits too long or fails); with select(), descriptors of 1024 or more: FD_SET writes outside of the set (real: C89_large_descriptor_refuted, finding 32). C89_net: the amqp_poll on which the theorems about connections rest is the one with poll().  Example C89_case."
  },
  {
   "property": "C90",
   "status": "proved",
   "theorems": [
    "C90_descriptors",
    "C90_end_of_file",
    "C90_connection_not_inherited",
    "C90_exit_status",
    "C90_commands",
    "C90_acknowledged_after_exit_0",
    "C90_without_descriptor_0"
   ],
   "note": "Hypotheses: the kernel gives pipe() two descriptors that are not in use; descriptor 0 is in use when a command is started (it is: the connection was opened first, and takes it if nothing else does; C90_without_descriptor_0 shows why it matters). C90_commands: C63 and C85 see the commands only through what is written to them and their exit status; this is a correct abstraction. Example C90_case."
  },
  {
   "property": "C91",
   "status": "partial",
   "theorems": [
    "C91_engines",
    "C91_result",
    "C91_alone",
    "C91_key_alone",
    "C91_no_use_after_free_partial",
    "C91_setting_is_safe",
    "C91_unsupported",
    "C91_race_refuted"
   ],
   "note": "Refuted: amqp_ssl_socket_set_key_engine reads the engine without taking the mutex, so that a key can be asked from an engine that another thread's amqp_set_ssl_engine has just given back (C91_race_refuted). Proved: everything else for all schedules, and this part for the programs that never set an engine while a key is being loaded. Example C91_example."
  },
  {
   "property": "C92",
   "status": "partial",
   "theorems": [
    "C92_values_partial",
    "C92_all_freed",
    "C92_empty_refuted"
   ],
   "note": "Refuted only by the letter of C11 7.24.1: amqp_bytes_malloc_dup(amqp_empty_bytes) calls memcpy with NULL for no bytes (C92_empty_refuted). Proved with a memcpy and memcmp that take NULL for no bytes, for all programs. Example C92_example."
  }
 ]
}