#!/usr/bin/env python3
"""Writes /verif/properties.jsonl (one JSON object per line)."""
import json, os
P = []
def p(id, title, statement, quantifier, why, anchors):
    P.append(dict(id=id, title=title, statement=statement, quantifier=quantifier,
                  why_tests_cant=why, anchors=anchors))

p("C01","Integers travel in network byte order",
  "For every 8/16/32/64-bit unsigned value the library writes exactly the big-endian bytes of the value and reads back exactly that value, on little- and big-endian hosts alike, and a read or write that does not fit in the remaining buffer is refused without touching memory outside it.",
  "all values of each width, both host byte orders, all buffers and offsets",
  "2^64 values times all offsets; only one host endianness can be exercised by a test run",
  ["librabbitmq/amqp_private.h: amqp_e16 amqp_d16 amqp_e32 amqp_d32 amqp_e64 amqp_d64 DECLARE_CODEC_BASE_TYPE amqp_encode_bytes amqp_decode_bytes is_bigendian"])
p("C02","Field tables round-trip",
  "Encoding any field table (any nesting of tables and arrays within the depth limit, keys of at most 255 bytes, any values of any of the 18 kinds) with amqp_encode_table and decoding the bytes with amqp_decode_table succeeds, gives back the same table (booleans normalised to 0/1) and leaves the offset just past the encoding, wherever in the buffer the table starts.",
  "all well-formed tables, all buffers large enough, all starting offsets",
  "unbounded recursive input space; tests only cover a handful of literal tables",
  ["librabbitmq/amqp_table.c: amqp_encode_table amqp_decode_table amqp_encode_field_value amqp_decode_field_value amqp_encode_array amqp_decode_array"])
p("C03","Table encoding is exact and in bounds",
  "amqp_encode_table either succeeds, having written exactly the AMQP 0-9-1 serialisation of the table at the given offset and nothing else, or fails with a negative status; it fails exactly when the serialisation does not fit; in neither case does it modify a byte before the starting offset or at/after the end of the buffer.",
  "all well-formed tables, all buffer lengths, all offsets, all memory contents around the buffer",
  "the boundary depends on the exact length of every table; tests cannot try every buffer length for every table",
  ["librabbitmq/amqp_table.c: amqp_encode_table amqp_encode_array amqp_encode_field_value","librabbitmq/amqp_private.h: amqp_encode_bytes"])
p("C04","Table decoding is total and memory safe",
  "For every byte string whatsoever, amqp_decode_table terminates, returns either success or an error, never reads a byte outside the given buffer, and on success every decoded value is in its type's range, every key is at most 255 bytes and the offset advanced by exactly the size of the table's own encoding (so it lies inside the buffer).",
  "all byte strings, all starting offsets inside the buffer",
  "arbitrary attacker-controlled input; fuzzing samples it",
  ["librabbitmq/amqp_table.c: amqp_decode_table_internal amqp_decode_array amqp_decode_field_value"])
p("C05","Nesting depth of decoded tables is bounded",
  "amqp_decode_table accepts tables whose values nest at most 100 levels of table/array and rejects, with AMQP_STATUS_BAD_AMQP_DATA, every serialised table nested more deeply, so the recursion depth is bounded for every input.",
  "all byte strings; all serialised tables of every depth",
  "depth is unbounded; a test fixes one depth",
  ["librabbitmq/amqp_table.c: TABLE_DEPTH_LIMIT amqp_decode_field_value"])
p("C06","Every table accepted for sending is received as that table",
  "If amqp_encode_table reports success, decoding the produced bytes gives the same table - including for tables with long keys.",
  "all tables",
  "needs all key lengths; tests use short keys",
  ["librabbitmq/amqp_table.c: amqp_encode_table (key.len cast to uint8_t)"])
p("C07","Methods round-trip and follow the AMQP 0-9-1 layout",
  "For every AMQP method known to the library and every combination of argument values (short strings at most 255 bytes), amqp_encode_method writes the arguments in the order and with the widths given by the AMQP 0-9-1/RabbitMQ method catalogue, consecutive bit arguments packed in one octet from the low bit up, and amqp_decode_method returns the same values.",
  "all 60+ methods, all argument values, all buffers that fit",
  "the argument space of each method is unbounded and the code is generated; tests exercise a few methods against a live broker",
  ["librabbitmq/amqp_framing.c: amqp_encode_method amqp_decode_method","include/rabbitmq-c/framing.h: AMQP_*_METHOD"])
p("C08","Method and property decoding of arbitrary data is memory safe",
  "For every method number or class id and every byte string, amqp_decode_method / amqp_decode_properties returns success or an error (unknown methods and classes are refused, truncated data is AMQP_STATUS_BAD_AMQP_DATA) and never reads outside the bytes given (for property data with at most two flag words; see C15 for more); over-long short strings are refused on encoding.",
  "all method numbers, all class ids, all byte strings",
  "attacker-controlled input space",
  ["librabbitmq/amqp_framing.c: amqp_decode_method amqp_decode_properties amqp_encode_method amqp_encode_properties"])
p("C09","Basic content properties round-trip",
  "For every subset of the 14 basic properties and every value of each, encoding with amqp_encode_properties and decoding with amqp_decode_properties gives back the same flags and the same value for every property whose flag is set.",
  "all flag words, all property values",
  "2^14 subsets times unbounded values",
  ["librabbitmq/amqp_framing.c: amqp_encode_properties amqp_decode_properties","include/rabbitmq-c/framing.h: AMQP_BASIC_*_FLAG"])
p("C10","Frames round-trip",
  "The bytes amqp_send_frame produces for any method, content-header, body or heartbeat frame that fits in frame_max are type, channel, payload length, payload, 0xCE, and feeding these bytes to amqp_handle_input on an idle connection yields a frame with the same type, channel and payload, consumes all of them and returns the connection to idle.",
  "all frames, all channels, all payloads up to frame_max, all contents of recycled memory",
  "unbounded payloads; result depends on uninitialised pool memory",
  ["librabbitmq/amqp_connection.c: amqp_frame_to_bytes amqp_handle_input consume_data return_to_idle"])
p("C11","Reassembly does not depend on how TCP splits the stream",
  "Feeding a byte stream to amqp_handle_input in any sequence of pieces produces the same sequence of frames, the same final state and the same error as feeding it in one piece.",
  "all byte streams, all ways of cutting them into pieces, all reachable connection states",
  "exponentially many segmentations; a test sees the one the kernel happened to choose",
  ["librabbitmq/amqp_connection.c: amqp_handle_input consume_data"])
p("C12","Corrupt or oversized frames are never delivered",
  "A frame whose end marker is not 0xCE, whose declared length is 2^31-1 or more, or whose total size exceeds frame_max makes amqp_handle_input return AMQP_STATUS_BAD_AMQP_DATA and yields no frame; the connection stays in error: every later call with more data fails again and never yields a frame.",
  "all frame headers, all payloads, all later input",
  "2^56 headers and unbounded continuations",
  ["librabbitmq/amqp_connection.c: amqp_handle_input"])
p("C13","amqp_handle_input never leaves the frame it received",
  "For every input and every reachable state amqp_handle_input reads only bytes of the frame being decoded, whatever the frame type and declared length.",
  "all byte streams",
  "attacker-controlled input; an out-of-bounds read inside a pool page is invisible to a test",
  ["librabbitmq/amqp_connection.c: amqp_handle_input"])
p("C14","The first frame on a connection is decoded like any other",
  "A frame received as the very first bytes from the server (before any protocol header) is decoded exactly as the same frame received later.",
  "all frames",
  "tests only see connection.start, whose eighth byte happens to be zero",
  ["librabbitmq/amqp_connection.c: amqp_handle_input (memcpy HEADER_SIZE), amqp_new_connection"])
p("C15","Property flag words of any length are decoded without undefined behaviour",
  "amqp_decode_properties handles any number of continuation flag words without undefined behaviour.",
  "all byte strings",
  "needs inputs with three or more continuation words, which no broker sends",
  ["librabbitmq/amqp_framing.c: amqp_decode_properties (partial_flags << flagword_index*16)"])
p("C16","Pool allocations are aligned, in bounds and pairwise disjoint",
  "For every sequence of amqp_pool_alloc calls (each for at most 2^64-8 bytes) on a pool of any page size, each non-NULL result is a block of at least the requested size inside memory obtained from the system, 8-byte aligned relative to its page, and disjoint from every other block handed out since the last recycle.",
  "all page sizes, all allocation histories including recycling",
  "unbounded histories; overlap shows up only as silent corruption",
  ["librabbitmq/amqp_mem.c: amqp_pool_alloc init_amqp_pool recycle_amqp_pool record_pool_block"])
p("C17","Pools neither leak nor double-free",
  "After any history of allocations and recycles in which the system allocator succeeds, empty_amqp_pool frees every block obtained from the system exactly once; recycle_amqp_pool frees exactly the large blocks and keeps every page for reuse.",
  "all histories",
  "unbounded histories",
  ["librabbitmq/amqp_mem.c: empty_amqp_pool recycle_amqp_pool empty_blocklist amqp_pool_alloc"])
p("C18","Each channel has exactly one pool",
  "amqp_get_or_create_channel_pool returns, for any history of channels, always the same pool for the same channel and different pools for different channels; amqp_get_channel_pool finds a pool exactly for channels that have one.",
  "all sequences of channel numbers",
  "65536 channels hashed in 16 chains; orders are unbounded",
  ["librabbitmq/amqp_mem.c: amqp_get_or_create_channel_pool amqp_get_channel_pool"])
p("C19","Releasing buffers never invalidates a queued frame",
  "In every history of API calls, frames waiting in the connection's queue stay valid: amqp_release_buffers, amqp_maybe_release_buffers, amqp_maybe_release_buffers_on_channel and the implicit release on heartbeats recycle a channel's memory only when no queued frame belongs to that channel.",
  "all histories of API calls and server behaviour",
  "use-after-recycle is silent; needs all interleavings of queueing and releasing",
  ["librabbitmq/amqp_connection.c: amqp_release_buffers amqp_maybe_release_buffers_on_channel","librabbitmq/amqp_socket.c: amqp_queue_frame wait_frame_inner"])
p("C20","Client properties stay readable after login",
  "The table returned by amqp_get_client_properties after a successful login is the one sent to the broker and remains valid until the connection is destroyed.",
  "all successful logins",
  "the memory usually still holds the old bytes when a test looks",
  ["librabbitmq/amqp_socket.c: amqp_login_inner (client_properties allocated from channel 0's pool)","librabbitmq/amqp_connection.c: amqp_get_client_properties"])
p("C21","amqp_table_entry_cmp is a total order",
  "For keys shorter than 2^31 bytes amqp_table_entry_cmp compares keys as byte strings with the shorter first on a common prefix: it is reflexive, antisymmetric, transitive and total, and returns 0 exactly for equal keys, so sorting a table with qsort is well defined.",
  "all pairs and triples of entries",
  "transitivity quantifies over all triples",
  ["librabbitmq/amqp_table.c: amqp_table_entry_cmp"])
p("C22","Cloning a table is a faithful deep copy",
  "amqp_table_clone of any table without empty keys whose values are of known kinds and whose arrays are canonical succeeds and yields an equal table; it refuses tables containing an empty key or an unknown kind.",
  "all tables",
  "unbounded recursive input",
  ["librabbitmq/amqp_table.c: amqp_table_clone amqp_table_entry_clone amqp_field_value_clone"])
p("C23","Client capability tables merge as documented",
  "amqp_merge_capabilities yields a table in which each key of the added table maps to the added value (recursively merged when both values are tables), each other key of the base keeps its value, and no other key appears.",
  "all pairs of tables",
  "unbounded recursive input",
  ["librabbitmq/amqp_socket.c: amqp_merge_capabilities","librabbitmq/amqp_table.c: amqp_table_get_entry_by_key"])
p("C24","Deadlines are never earlier than asked for",
  "When a timeout is accepted, the deadline computed from it is the current monotonic time plus the timeout, or infinity for no timeout; negative timeouts are refused and timeouts too large to represent are refused rather than silently shortened.",
  "all timeval values, all clock readings",
  "overflow needs extreme values and clock readings a test cannot produce",
  ["librabbitmq/amqp_time.c: amqp_time_from_now amqp_time_s_from_now"])
p("C25","Waiting time passed to poll never exceeds the deadline nor waits forever by accident",
  "The millisecond timeout derived from a deadline is -1 exactly for an infinite deadline, 0 for a deadline that has passed, and otherwise the number of whole milliseconds remaining, for every deadline.",
  "all deadlines, all clock readings",
  "needs deadlines weeks away",
  ["librabbitmq/amqp_time.c: amqp_time_ms_until amqp_time_tv_until","librabbitmq/amqp_socket.c: amqp_poll"])
p("C26","Timeval conversion is accurate to a microsecond",
  "amqp_time_tv_until returns the remaining time truncated to whole microseconds (never more than the remaining time, less than one microsecond short), zero once the deadline has passed, and no timeout for an infinite deadline; amqp_time_first picks the earlier deadline.",
  "all deadlines and clock readings whose difference is below 2^31 seconds",
  "all 64-bit pairs",
  ["librabbitmq/amqp_time.c: amqp_time_tv_until amqp_time_first amqp_time_equal amqp_time_has_past"])
p("C27","amqp_parse_url is total and memory safe",
  "For every NUL-terminated string amqp_parse_url terminates, never reads or writes outside the string, and returns AMQP_STATUS_OK or AMQP_STATUS_BAD_URL; on success every returned component is a NUL-terminated string inside the buffer or a default.",
  "all strings",
  "in-place decoding of arbitrary strings; off-by-one reads are silent",
  ["librabbitmq/amqp_url.c: amqp_parse_url find_delim"])
p("C28","URLs built from percent-encoded components parse to those components",
  "For all user, password, host, vhost (strings of 7-bit non-NUL characters) and every port, the URL amqp[s]://user:password@host:port/vhost with every character percent-encoded where needed parses successfully to exactly these components, with ssl set exactly for amqps; the forms without userinfo, port or vhost give the documented defaults.",
  "all component strings and ports",
  "unbounded strings",
  ["librabbitmq/amqp_url.c: amqp_parse_url find_delim amqp_default_connection_info"])
p("C29","URLs with a foreign scheme, bad escapes or stray delimiters are refused",
  "amqp_parse_url returns AMQP_STATUS_BAD_URL for every string that does not start with amqp:// or amqps://, and never accepts a URL in which a component contains a malformed percent escape, a query or a fragment.",
  "all strings",
  "unbounded strings",
  ["librabbitmq/amqp_url.c: amqp_parse_url"])
p("C30","SASL mechanism selection matches whole words",
  "The library accepts a SASL mechanism exactly when its name is one of the space-separated words offered by the server; prefixes, suffixes and other substrings do not match.",
  "all mechanism lists",
  "unbounded strings",
  ["librabbitmq/amqp_socket.c: sasl_mechanism_in_list bytes_equal"])
p("C31","SASL responses carry exactly the credentials",
  "The PLAIN response is NUL user NUL password and determines user and password uniquely; the EXTERNAL response is the identity string, for every identity.",
  "all credential strings",
  "unbounded strings",
  ["librabbitmq/amqp_socket.c: sasl_response"])
p("C32","Every status code has a description",
  "amqp_error_string2 returns, for every int, a valid string: the documented message for each defined status and '(unknown error)' for every other code that is not an alias by the 16-bit mask; distinct defined statuses of one category have their own table entries and no table is indexed out of bounds.",
  "all int values",
  "2^32 codes",
  ["librabbitmq/amqp_api.c: amqp_error_string2 amqp_error_string base_error_strings tcp_error_strings ssl_error_strings"])
p("C33","A sent frame reaches the wire intact whatever the socket does",
  "For every schedule of partial sends, EINTR, would-block and poll wake-ups, the bytes amqp_send_frame has handed to the socket are always a prefix of the frame's encoding, and are exactly the encoding when it reports success.",
  "all schedules of socket behaviour, all frames",
  "schedules are chosen by kernel and network",
  ["librabbitmq/amqp_connection.c: amqp_send_frame_inner","librabbitmq/amqp_socket.c: amqp_try_send do_poll amqp_poll","librabbitmq/amqp_tcp_socket.c: amqp_tcp_socket_send"])
p("C34","The protocol header is sent whole or an error is reported",
  "amqp_send_header / the first step of login reports success only if the eight bytes AMQP 0 0 9 1 were all handed to the socket, and otherwise reports a negative status.",
  "all schedules of socket behaviour, all deadlines",
  "needs a timeout in the middle of an eight byte send",
  ["librabbitmq/amqp_socket.c: send_header_inner amqp_try_send"])
p("C35","Received frames are delivered in order, without loss or duplication",
  "For every server byte stream consisting of well-formed frames and every schedule of reads, EINTR, would-block and heartbeats, successive amqp_simple_wait_frame calls return exactly the non-heartbeat frames of the stream in order.",
  "all frame sequences, all segmentations and schedules",
  "schedules are chosen by kernel and network",
  ["librabbitmq/amqp_socket.c: wait_frame_inner recv_with_timeout consume_one_frame amqp_simple_wait_frame","librabbitmq/amqp_tcp_socket.c: amqp_tcp_socket_recv"])
p("C36","The queue of pending frames is FIFO",
  "Frames queued because nobody was waiting for them are returned by amqp_simple_wait_frame in arrival order before anything newly read; a frame put back is the next one returned; amqp_frames_enqueued tells exactly whether the queue is non-empty.",
  "all sequences of queue operations",
  "unbounded histories over a hand-written linked list",
  ["librabbitmq/amqp_socket.c: amqp_queue_frame amqp_put_back_frame amqp_simple_wait_frame_noblock amqp_frames_enqueued"])
p("C37","Reading from one channel does not disturb other channels",
  "amqp_simple_wait_frame_on_channel (used by amqp_read_message) returns the first pending frame of its channel and leaves all pending frames of other channels queued in their order.",
  "all queue contents, all channels",
  "needs interleaved traffic on several channels",
  ["librabbitmq/amqp_socket.c: amqp_simple_wait_frame_on_channel"])
p("C38","An RPC returns the right reply and keeps everything else",
  "amqp_simple_rpc returns AMQP_RESPONSE_NORMAL only with a method of an expected id on the request's channel, AMQP_RESPONSE_SERVER_EXCEPTION only with a channel.close on that channel or a connection.close on channel 0, and all other frames received while waiting are appended to the queue in arrival order, none lost, none duplicated.",
  "all interleavings of unrelated frames with the reply, all schedules",
  "asynchronous deliveries interleave arbitrarily with replies",
  ["librabbitmq/amqp_socket.c: simple_rpc_inner amqp_simple_rpc amqp_simple_rpc_decoded amqp_id_in_reply_list"])
p("C39","A timed-out RPC closes the socket",
  "If an RPC returns AMQP_STATUS_TIMEOUT the socket has been closed, so no later call can mistake the late reply for its own.",
  "all schedules",
  "needs every point at which the timeout can fire",
  ["librabbitmq/amqp_socket.c: simple_rpc_inner amqp_login_inner","librabbitmq/amqp_tcp_socket.c: amqp_tcp_socket_close"])
p("C40","Publishing sends exactly the message",
  "A successful amqp_basic_publish sends on the given channel a basic.publish method with the given exchange, routing key and flags, a content header with the body's length and the given properties, and body frames each at most frame_max bytes in total whose payloads concatenate to the body; no body frame is empty.",
  "all bodies of any length, all frame_max from the protocol minimum up, all schedules",
  "body length / frame_max boundaries are unbounded",
  ["librabbitmq/amqp_api.c: amqp_basic_publish"])
p("C41","Publishing terminates and stays inside the send buffer for every frame_max that can be negotiated",
  "For every frame_max a connection can have after a successful login, amqp_basic_publish terminates and never writes past the outbound buffer.",
  "all negotiated frame_max, all bodies",
  "needs a broker announcing a tiny frame_max",
  ["librabbitmq/amqp_api.c: amqp_basic_publish","librabbitmq/amqp_connection.c: amqp_frame_to_bytes amqp_tune_connection","librabbitmq/amqp_socket.c: amqp_login_inner"])
p("C42","Reading a message reassembles exactly its body",
  "A successful amqp_read_message returns a body whose length is the size announced in the content header and whose content is the concatenation of the body frames' payloads on that channel; it never writes past the body buffer; an over-long body, a wrong frame or a close frame yields an error.",
  "all messages, all fragmentations, all interleavings with other channels",
  "fragmentation and interleaving are chosen by the broker",
  ["librabbitmq/amqp_consumer.c: amqp_read_message amqp_basic_properties_clone"])
p("C43","What is published is what is consumed",
  "A message published with amqp_basic_publish whose content header and body frames are relayed by a broker after a basic.deliver is returned by amqp_consume_message with the same body and properties and the delivery's tag, exchange and routing key, for every segmentation of the stream.",
  "all messages, properties, frame_max and segmentations",
  "composition of all the above",
  ["librabbitmq/amqp_api.c: amqp_basic_publish","librabbitmq/amqp_consumer.c: amqp_consume_message amqp_read_message"])
p("C44","Heartbeats: a dead peer is detected, a live client says so",
  "While waiting, the library never waits past the receive deadline (twice the heartbeat interval after the last bytes received): when it expires it closes the socket and returns AMQP_STATUS_HEARTBEAT_TIMEOUT; and it sends a heartbeat frame before waiting whenever the send deadline has passed.",
  "all schedules and clock readings",
  "time-dependent",
  ["librabbitmq/amqp_socket.c: wait_frame_inner recv_with_timeout","librabbitmq/amqp_private.h: amqp_heartbeat_send amqp_heartbeat_recv"])
p("C45","Connection tuning picks the smaller limit",
  "After a successful login channel_max, frame_max and heartbeat are the smaller of the client's and the server's non-zero proposals (documented rules for zero), are the values sent in tune-ok, and are what amqp_get_channel_max/frame_max/heartbeat report.",
  "all client and server proposals",
  "2^80 combinations",
  ["librabbitmq/amqp_socket.c: amqp_login_inner","librabbitmq/amqp_connection.c: amqp_tune_connection amqp_get_channel_max amqp_get_frame_max amqp_get_heartbeat"])
p("C46","Login succeeds only after the full handshake",
  "amqp_login returns AMQP_RESPONSE_NORMAL only if the server sent connection.start with version 0.9 offering the chosen SASL mechanism, connection.tune and connection.open-ok, and the client sent, in order, the protocol header, start-ok with the SASL response, tune-ok and open for the requested vhost; every other server behaviour yields an exception reply, and every library error closes the socket.",
  "all server behaviours and schedules",
  "arbitrary servers",
  ["librabbitmq/amqp_socket.c: amqp_login_inner simple_wait_method_inner amqp_simple_wait_method_list"])
p("C47","Publisher confirms are reported faithfully",
  "amqp_publisher_confirm_wait returns the ack, nack or reject it received with its channel and arguments, and puts any other frame back so that it is the next one read.",
  "all frames",
  "all frames in all orders",
  ["librabbitmq/amqp_api.c: amqp_publisher_confirm_wait"])
p("C48","A consumer that meets an unexpected frame does not lose it",
  "If amqp_consume_message finds a frame that is not a basic.deliver, it returns AMQP_STATUS_UNEXPECTED_STATE and the next amqp_simple_wait_frame returns that very frame.",
  "all frames",
  "all frames in all states",
  ["librabbitmq/amqp_consumer.c: amqp_consume_message","librabbitmq/amqp_socket.c: amqp_put_back_frame"])
p("C49","TLS connections are opened only to verified peers",
  "With peer (hostname) verification enabled, amqp_socket_open on a TLS socket reports success only if the handshake completed, the peer presented a certificate, its verification succeeded (and the certificate matches the host name); in every failure case the socket is closed and no TLS object is left behind.",
  "all OpenSSL outcomes and poll schedules",
  "needs every combination of TLS library outcomes",
  ["librabbitmq/amqp_openssl.c: amqp_ssl_socket_open amqp_ssl_socket_close"])
p("C50","TLS global state lives exactly as long as some TLS socket",
  "In every interleaving of creating and deleting TLS sockets in any number of threads, the shared BIO method exists whenever at least one TLS socket exists and is freed when the last one is deleted, never twice.",
  "all interleavings and all failure points of socket creation",
  "thread schedules and allocation failures",
  ["librabbitmq/amqp_openssl.c: initialize_ssl_and_increment_connections decrement_ssl_connections amqp_ssl_socket_new amqp_ssl_socket_delete","librabbitmq/amqp_openssl_bio.c: amqp_openssl_bio_init amqp_openssl_bio_destroy"])
p("C51","Opening a TCP connection tries the addresses in order and leaks no descriptor",
  "amqp_open_socket returns the descriptor of the first address that accepts the connection, a negative status if none does or the timeout fires, and every descriptor it created and does not return has been closed.",
  "all address lists, all outcomes of the socket calls",
  "needs every failure point of every system call",
  ["librabbitmq/amqp_socket.c: amqp_open_socket_inner connect_socket"])
p("C52","Command line tools move message bodies unchanged",
  "The tools' read_all returns exactly the bytes of its input and write_all writes exactly its argument, for every schedule of short reads, short writes and interruptions.",
  "all inputs, all schedules",
  "short reads and writes are chosen by the kernel",
  ["tools/common.c: read_all write_all copy_body"])
p("C53","After a failed send of a publish the caller learns about it",
  "If any frame of amqp_basic_publish could not be sent completely, amqp_basic_publish returns a negative status; it returns AMQP_STATUS_OK only if all its frames were handed to the socket completely and in order.",
  "all schedules",
  "needs failures at every byte of the stream",
  ["librabbitmq/amqp_api.c: amqp_basic_publish","librabbitmq/amqp_connection.c: amqp_send_frame_inner"])
p("C54","Timeout settings are stored as given",
  "amqp_set_rpc_timeout/amqp_set_handshake_timeout store a copy of a non-negative timeout which amqp_get_* returns, NULL disables the timeout, negative values are refused leaving the setting unchanged.",
  "all timevals, all call sequences",
  "unbounded histories",
  ["librabbitmq/amqp_api.c: amqp_set_rpc_timeout amqp_get_rpc_timeout amqp_set_handshake_timeout amqp_get_handshake_timeout"])
p("C55","Application calls translate to the documented method",
  "Each synchronous API call (amqp_queue_declare, amqp_basic_consume, amqp_exchange_bind, ...) sends exactly one method frame on the given channel with the id and argument values documented for it (reserved fields zero, nowait off) and waits for that method's -ok reply.",
  "all API calls, all argument values",
  "all argument values of 26 generated wrappers",
  ["librabbitmq/amqp_framing.c: amqp_channel_open amqp_exchange_declare amqp_queue_declare amqp_basic_consume ..."])

p("C56","Whole sessions are memory safe",
  "No sequence of API calls with valid arguments reads or writes outside the memory the library owns, or uses memory it has given back, whatever the server sends and however system calls and allocations turn out.",
  "all sequences of calls, all streams from the server, all schedules and failures",
  "ranges over all programs and all servers",
  ["librabbitmq/amqp_connection.c: amqp_handle_input amqp_frame_to_bytes amqp_release_buffers", "librabbitmq/amqp_socket.c: wait_frame_inner amqp_login_inner", "librabbitmq/amqp_consumer.c: amqp_read_message amqp_basic_properties_clone"])

p("C57","No call spins",
  "Every loop of the library goes round only while the operating system keeps answering system calls: for every sequence of API calls, every server and every schedule, the number of rounds of each loop is bounded by the number of answers received, the bytes and frames waiting in the connection and the number of calls. In particular a call that gets no more answers does not keep the processor busy.",
  "all sequences of calls, all byte streams, all schedules and allocation failures",
  "an endless loop needs the one input or schedule on which no progress is made",
  ["librabbitmq/amqp_socket.c: wait_frame_inner amqp_try_send recv_with_timeout amqp_try_recv amqp_simple_wait_frame_on_channel simple_rpc_inner", "librabbitmq/amqp_connection.c: amqp_send_frame_inner", "librabbitmq/amqp_consumer.c: amqp_read_message", "librabbitmq/amqp_api.c: amqp_basic_publish"])

p("C58","A socket object owns its descriptor",
  "For every sequence of opening and closing a TCP or TLS socket object and finally deleting it, every descriptor the system handed out is closed exactly once, unless the socket holds it; a TLS socket has a TLS object exactly while it is open; nothing is used after it has been given back.",
  "all sequences of calls, all outcomes of the system's and OpenSSL's calls",
  "needs every failure point of every system call in every history",
  ["librabbitmq/amqp_tcp_socket.c: amqp_tcp_socket_open amqp_tcp_socket_close amqp_tcp_socket_delete", "librabbitmq/amqp_openssl.c: amqp_ssl_socket_open amqp_ssl_socket_close amqp_ssl_socket_delete"])

p("C59","The tools' auth file yields exactly the credentials written in it",
  "For every file content, the tools read a user name and a password from --authfile exactly if the file consists of the line `username:<user name>` and the line `password:<password>` (each ended by a newline and shorter than 128 bytes), and then exactly these; with any other content the program ends with a message.",
  "all file contents",
  "the files are arbitrary byte strings",
  ["tools/common.c: read_authfile"])

p("C60","The tools connect where their options say",
  "For every combination and content of the options --url, --server, --port, --vhost, --username, --password, --authfile, --ssl, --heartbeat: the tools either end with a message or connect with exactly the parameters the options stand for: with --url those of the URL (and none of the other options is accepted beside it, except an --ssl that agrees with it); otherwise the given host, port, virtual host, user name and password, or their documented defaults; contradictory options are rejected.",
  "all combinations of options, all contents",
  "the combinations and the contents of the strings are unbounded",
  ["tools/common.c: init_connection_info read_authfile", "librabbitmq/amqp_url.c: amqp_parse_url"])

p("C61","A timeout bounds how long a call waits",
  "A call that is given a timeout (amqp_simple_wait_frame_noblock, amqp_consume_message, amqp_publisher_confirm_wait; every synchronous call after amqp_set_rpc_timeout; amqp_login with amqp_set_handshake_timeout) never waits for the peer past the time of the call plus the timeout, whatever the server sends in the meantime, however often the wait is interrupted and whatever heartbeats are due. It reports AMQP_STATUS_TIMEOUT only when that time has come (to the millisecond).",
  "all calls, timeouts, states of the connection, byte streams, clock readings and schedules",
  "every pattern of partial data, interruptions and heartbeats must be considered, each with its clock readings",
  ["librabbitmq/amqp_socket.c: recv_with_timeout wait_frame_inner amqp_simple_wait_frame_noblock simple_rpc_inner amqp_simple_rpc amqp_poll", "librabbitmq/amqp_time.c: amqp_time_from_now amqp_time_ms_until amqp_time_first", "librabbitmq/amqp_consumer.c: amqp_consume_message", "librabbitmq/amqp_api.c: amqp_publisher_confirm_wait"])

p("C62","amqp-publish publishes exactly the messages asked for",
  "If amqp-publish succeeds, it has sent, one after the other and each completely, exactly the messages asked for: the argument of --body, or every line of standard input (--line-buffered), or all of standard input; each to the given exchange with the given routing key, with exactly the properties of the options (persistent or not, content type and encoding, reply-to, the headers 'key: value'; a header without a colon is ignored). If it fails, it has sent a beginning of that; without exchange and routing key it sends nothing.",
  "all combinations of options, inputs, schedules of reads, servers and socket schedules",
  "inputs and options are unbounded and every interruption point of the connection must be considered",
  ["tools/publish.c: main do_publish", "tools/common.c: read_all die_amqp_error", "librabbitmq/amqp_api.c: amqp_basic_publish"])
p("C63","amqp-consume acknowledges a message only after the command succeeded",
  "amqp-consume gives every message to its own run of the command, with the complete body as standard input, in order, and acknowledges it if and only if the command exited with status 0 and --no-ack was not given. With --count n it ends after n messages. The prefetch count it sets is the smaller of --count and --prefetch-count.",
  "all sequences of frames, behaviours of the commands (writes, exit statuses) and statuses of acknowledgements",
  "histories of frames and command runs are unbounded",
  ["tools/consume.c: do_consume", "tools/unix/process.c: pipeline finish_pipeline", "tools/common.c: copy_body write_all"])
p("C64","amqp-consume binds the queue with every routing key",
  "With --exchange and --routing-key k1,k2,... amqp-consume declares the queue and binds it to the exchange with every one of the comma separated keys before it consumes from it (from the queue the server named, if --queue was not given); it does not go on if one of these calls fails. Without --exchange it declares the queue only if asked to or if it has no name. Printing the name of the queue writes only into its block.",
  "all options, numbers of keys and replies of the server",
  "key lists are unbounded strings",
  ["tools/consume.c: setup_queue stringify_bytes"])
p("C65","amqp-get: exit status and output tell what happened",
  "amqp-get exits with status 2 and prints nothing exactly if the queue was empty, with status 0 only after it has printed the complete body of a message, with another status (or not at all) otherwise, having printed a beginning of the body.",
  "all replies, sequences of frames and schedules of writes",
  "frames and write schedules are unbounded",
  ["tools/get.c: main do_get", "tools/common.c: copy_body"])

p("C66","A descriptor the library has closed is never touched again",
  "Once the library has closed the socket (an RPC timed out, the server missed its heartbeats, login failed), no call, however many follow and in whatever order, sends, receives, polls or closes on the old descriptor or waits on it; the connection stays closed, and no call that sends (header, frame, method, publish, ack, nack, reject) reports success.",
  "all sequences of calls, connection states, inputs and answers of the operating system",
  "the descriptor may have been reused by another part of the process, which a test does not see; every path of every call must check",
  ["librabbitmq/amqp_tcp_socket.c: amqp_tcp_socket_send_inner amqp_tcp_socket_recv amqp_tcp_socket_close", "librabbitmq/amqp_openssl.c: amqp_ssl_socket_send amqp_ssl_socket_recv amqp_ssl_socket_close", "librabbitmq/amqp_socket.c: do_poll recv_with_timeout wait_frame_inner amqp_simple_rpc"])

p("C67","Connections, messages and envelopes give back all their memory, once",
  "A program creates connections with amqp_new_connection, uses them (tuning, receiving frames on any channels, releasing buffers, logging in, creating sockets), reads messages and envelopes, and destroys each object with its destroy function, in any order and with failures of malloc, realloc or the clock anywhere. No block is ever freed twice and no block that does not belong to the object being destroyed is freed; at every moment the live memory is exactly what the objects that still exist can reach, and when all are destroyed nothing is left. A call that fails leaves no memory behind.",
  "all programs (lists of creations, uses and destructions of any number of objects) and all failures of malloc, realloc and the clock",
  "Leaks and double frees depend on the history of the object (which channels got pools, which pages were recycled, which socket was replaced) and on which of the allocations fails; tests exercise a few histories without failures.",
  ["librabbitmq/amqp_connection.c: amqp_new_connection amqp_destroy_connection amqp_tune_connection amqp_set_socket amqp_maybe_release_buffers_on_channel", "librabbitmq/amqp_mem.c: amqp_get_or_create_channel_pool amqp_pool_alloc recycle_amqp_pool empty_amqp_pool amqp_bytes_malloc_dup", "librabbitmq/amqp_consumer.c: amqp_read_message amqp_consume_message amqp_destroy_message amqp_destroy_envelope"])

p("C68","Methods and constants are named as the protocol names them",
  "amqp_method_name(n) is the name of the AMQP 0-9-1 (or RabbitMQ) method with number n and NULL for every other number; amqp_method_has_content(n) is true exactly for basic.publish, return, deliver and get-ok; amqp_constant_name(n) is the name of the constant, or (unknown); amqp_constant_is_hard_error(n) is true exactly for the reply codes that close the connection.",
  "all method numbers and all integers",
  "A test checks some of the 2^32 numbers; that no other number has a name, and no two methods the same name, needs all of them.",
  ["librabbitmq/amqp_framing.c: amqp_constant_name amqp_constant_is_hard_error amqp_method_name amqp_method_has_content"])
p("C69","Programs with their own event loop miss no frame",
  "A program that waits for the socket itself (select, poll, epoll) asks amqp_frames_enqueued and amqp_data_in_buffer first. If both say no, every frame received completely has been taken out of the library and only a proper part of a frame is left, so waiting for the socket cannot stall. If frames are enqueued, or the bytes received contain a complete frame, the next amqp_simple_wait_frame(_noblock) returns the first of them without any system call (but the clock).",
  "all histories of calls, all streams of well-formed frames, all ways the stream is cut into reads, all timeouts",
  "Whether a frame is stuck in a buffer depends on how TCP cut the stream; tests see a few cuts.",
  ["librabbitmq/amqp_socket.c: amqp_frames_enqueued amqp_data_in_buffer amqp_simple_wait_frame_noblock wait_frame_inner consume_one_frame"])

p("C70","Nothing fails without a cause",
  "While the operating system and the network do not fail, memory suffices, the clock does not go back and the server sends correct frames, no call reports a false error: a call that sends succeeds if what it is to send has a representation that fits into a frame; an RPC whose request fits never ends with a library error; waiting for a frame never reports a timeout, a closed connection or bad data; reading a message fails only when the server sent something else. This holds for each call of any history: no call leaves the connection in a state that makes a later one fail.",
  "all histories of calls (with timeouts up to 23 days), all answers of the system that are not failures (short writes, interrupted calls, sockets not ready, any cut of the stream into reads), all streams of well-formed frames",
  "A false error needs a particular interleaving (EINTR here, a short write there, half a frame, a heartbeat that has come due) that tests do not produce.",
  ["librabbitmq/amqp_socket.c: amqp_poll do_poll amqp_try_send recv_with_timeout amqp_try_recv wait_frame_inner amqp_simple_wait_frame_on_channel simple_rpc_inner", "librabbitmq/amqp_api.c: amqp_basic_publish amqp_channel_close amqp_basic_get amqp_publisher_confirm_wait", "librabbitmq/amqp_consumer.c: amqp_read_message amqp_consume_message", "librabbitmq/amqp_connection.c: amqp_send_frame amqp_handle_input"])

p("C71","A session with a well-behaved server works from the login on",
  "A program opens a connection, logs in (amqp_login, amqp_login_with_properties) and makes any calls. If nothing fails (as in C70), the arguments are in the documented ranges and fit, and the server speaks AMQP 0-9-1, offers the mechanism, proposes limits and opens the virtual host (with heartbeats in between wherever it likes, its frames cut in any way), then the login reports success, and every later call reports errors only as C70 allows, with the frame size that was negotiated as the limit.",
  "all servers (properties, mechanisms, limits), all logins and all histories of calls after them, all answers of the system that are not failures, all cuts of the stream, all timeouts up to 23 days",
  "The login is the part of the protocol where limits change under way: buffers are reallocated while half of a later frame may have arrived. Tests have one server and one timing.",
  ["librabbitmq/amqp_socket.c: amqp_login_inner amqp_login amqp_login_with_properties simple_wait_method_list amqp_send_method_inner", "librabbitmq/amqp_connection.c: amqp_tune_connection amqp_handle_input", "librabbitmq/amqp_table.c: amqp_table_clone"])

p("C72","The bytes a session puts on the wire are exactly the frames asked for",
  "Take any history of calls on an established connection. As long as no call has reported a broken connection (every call so far succeeded, got an answer of the server, was a wait that ended with a frame, an unexpected frame or a timeout, or was refused because the frame cannot be represented or does not fit), the bytes written to the socket are exactly the frames these calls ask for - the documented frame of each call, whole, in the order of the calls - with nothing but whole heartbeat frames between them and none within a frame. One more call, whatever becomes of it (failure, blocking forever, process killed in the middle), extends this to a beginning of what that call asks for. (That a wait which ended with an unexpected frame has not left half a heartbeat is shown for clocks that do not go back.)",
  "all histories of sending, waiting, RPC, publishing and acknowledging calls with valid arguments, all answers of the system (partial writes, EINTR, would-block, errors, clock readings), all frames received in between, heartbeats on or off",
  "The stream of bytes is produced by many calls, each with its own retries, and by heartbeats that are inserted by whatever call happens to wait. One schedule where a heartbeat or a frame goes out in part and a later call goes on as if nothing had happened ruins the connection; tests see one schedule.",
  ["librabbitmq/amqp_connection.c: amqp_send_frame_inner amqp_send_frame", "librabbitmq/amqp_socket.c: amqp_try_send wait_frame_inner amqp_try_recv amqp_simple_rpc simple_rpc_inner amqp_send_header", "librabbitmq/amqp_api.c: amqp_basic_publish amqp_channel_close amqp_connection_close amqp_basic_ack amqp_basic_get", "librabbitmq/amqp_consumer.c: amqp_consume_message amqp_read_message"])

p("C73","Each call reports only the statuses on its list",
  "For each call there is a complete list of what it can report besides success and an answer of the server: waiting for a frame reports the five ways the link or the clock fails, the four ways input is refused, a missed heartbeat, and a timeout only if a timeout was given (INVALID_PARAMETER and nothing else if it is negative); sending adds the five ways the frame cannot be encoded; a synchronous call reports a timeout only if one is set for RPCs; and so on. Internal codes (would block, want read, want write) never escape. Everything reported is a value declared in amqp.h, except that amqp_login can report the numbers 1 to 7. The lists for waiting and sending are exact: each status on them occurs.",
  "all histories of calls (timeouts negative, none or up to 23 days), all behaviours of the system, the peer and the allocator, open, closed and broken connections, clocks that do not go back",
  "A program that switches over the status must know all of them. A rare one needs a rare schedule: a test that never produced it says nothing about its absence.",
  ["include/rabbitmq-c/amqp.h: amqp_status_enum_ amqp_send_frame amqp_simple_wait_frame amqp_basic_publish", "librabbitmq/amqp_socket.c: amqp_poll do_poll amqp_try_send recv_with_timeout wait_frame_inner simple_rpc_inner amqp_login_inner", "librabbitmq/amqp_connection.c: amqp_send_frame amqp_tune_connection amqp_handle_input", "librabbitmq/amqp_consumer.c: amqp_read_message amqp_consume_message"])

p("C74","What a status says about the effect of the call",
  "A call that only sends (amqp_send_frame, amqp_send_method, ack, nack, reject, publish) and reports a failure other than TIMER_FAILURE has not sent everything it was asked to send: at most a beginning of its frames. Without heartbeats TIMER_FAILURE does not occur. TABLE_TOO_BIG and INVALID_PARAMETER from a call that sends one frame (synchronous calls included) mean that nothing was sent. The statuses' notes in amqp.h about the effect of the call are true: \"the message was not sent\", \"the frame was not sent\", \"the connection has been closed\".",
  "all calls that send, all messages and frames, all behaviours of the system, the peer and the clock, heartbeats on or off",
  "A program decides from the status whether to send again. Whether a failed call can still have sent its message depends on the point in the schedule where it failed; a test produces a few of them.",
  ["include/rabbitmq-c/amqp.h: amqp_send_frame amqp_send_method amqp_basic_publish amqp_simple_wait_frame amqp_simple_wait_method", "librabbitmq/amqp_connection.c: amqp_send_frame_inner amqp_send_frame", "librabbitmq/amqp_socket.c: amqp_try_send amqp_simple_rpc simple_rpc_inner wait_frame_inner", "librabbitmq/amqp_api.c: amqp_basic_publish"])

p("C75","What a call has sent is not held back by the system",
  "The library marks a send with MSG_MORE when more data follows, so that the kernel may wait for it. Every call other than amqp_basic_publish sends all its bytes without the mark; a successful amqp_basic_publish ends with a send without it, so the whole message is transmitted at once and does not wait for the next call.",
  "all calls, arguments and messages, all frame sizes, all answers of the system (partial writes, EINTR, would-block), heartbeats on or off",
  "A message held back shows up only as a delay of its last segment, for particular body lengths, on particular systems; tests compare contents.",
  ["librabbitmq/amqp_api.c: amqp_basic_publish", "librabbitmq/amqp_tcp_socket.c: amqp_tcp_socket_send", "librabbitmq/amqp_connection.c: amqp_send_frame_inner", "librabbitmq/amqp_socket.c: amqp_try_send"])

p("C76","Waiting for a method takes one frame and judges it",
  "amqp_simple_wait_method does to the connection exactly what amqp_simple_wait_frame without a timeout does: the same system calls in the same order, the same bytes sent (heartbeats), the same frames read, the same frame taken from the front. It reports OK and the decoded arguments if and only if that frame is a method frame on the channel asked for with the method asked for; WRONG_METHOD if there was a frame and it is another one, and that frame is gone; and the status of the wait otherwise.",
  "all histories of calls before it, all channels and methods asked for, all frames pending or arriving, all behaviours of the system and the clock",
  "Which frame comes next depends on what earlier calls left pending and on the server; a test that always gets the expected method does not see what becomes of the others.",
  ["librabbitmq/amqp_socket.c: amqp_simple_wait_method simple_wait_method_inner simple_wait_method_list amqp_simple_wait_frame"])

p("C77","A TLS socket never accepts an old protocol version, and its settings mean what they say",
  "Whatever settings are called with whatever arguments and whatever OpenSSL answers, a TLS socket never accepts a protocol version other than TLS 1.2 and TLS 1.3; a new one accepts both. amqp_ssl_socket_set_ssl_versions succeeds only for a range of supported versions, then exactly that range is accepted until the next accepted call; a range that is reversed or names an unsupported version is refused with the documented status and changes nothing. A certificate and key that were accepted stay in use until another call on keys; a key in memory of more than INT_MAX bytes is refused. No setting leaks an OpenSSL object.",
  "all sequences of settings with all arguments, all answers of OpenSSL to each call",
  "The guarantee is about every sequence of settings, including those where OpenSSL refuses half of a setting; tests call each setting once, with an OpenSSL that accepts.",
  ["librabbitmq/amqp_openssl.c: amqp_ssl_socket_new amqp_ssl_socket_set_ssl_versions get_tls_version amqp_ssl_socket_set_key amqp_ssl_socket_set_key_buffer amqp_ssl_socket_set_cert amqp_ssl_socket_set_cacert amqp_ssl_socket_enable_default_verify_paths amqp_ssl_socket_set_key_passwd", "include/rabbitmq-c/ssl_socket.h: amqp_tls_version_t"])

p("C78","amqp-declare-queue and amqp-delete-queue: exit status 0 means done",
  "If amqp-declare-queue (amqp-delete-queue) exits with status 0, then it has sent the queue.declare (queue.delete) frame for the queue and the options given, the server has answered it, the name of the queue (the number of messages) from that answer and nothing else was printed, and the channel and then the connection were closed with code 200. Whatever happens otherwise - an error, a server that refuses, no answer - what was sent is a beginning of these frames (with heartbeats between them), anything printed comes from the server's answer, the status is 1 and one line on standard error says which step failed and why. Without a queue name, status 1 and nothing is sent.",
  "all queue names and options, all frames the server sends, all behaviours of the system, the clock and the allocator",
  "Scripts rely on the exit status; whether it can be 0 without the queue existing depends on the server's answers and on where the connection breaks.",
  ["tools/declare_queue.c: main", "tools/delete_queue.c: main", "tools/common.c: close_connection die_rpc die_amqp_error", "librabbitmq/amqp_framing.c: amqp_queue_declare amqp_queue_delete", "librabbitmq/amqp_api.c: amqp_channel_close amqp_connection_close"])

p("C79","A connection owns its sockets",
 "Whatever sequence of socket constructors, handing over of descriptors, opens, verification settings and closes a program makes on one connection, every descriptor that the library opened or was given is closed exactly once, by the replacement of its socket, by its close or by amqp_destroy_connection, and never twice; every TLS object, certificate and TLS context that was created is freed; a constructor that fails leaves the connection with its old socket, still open. After amqp_destroy_connection nothing is left, except descriptors which the program itself dropped by calling amqp_tcp_socket_set_sockfd on a socket that is open, which the header forbids.",
 "all sequences of socket operations and all answers of the operating system and of OpenSSL for which close() succeeds, the clock works and timeouts are sane",
 "A leaked or doubly closed descriptor depends on which call of a long sequence failed and how; double closes only hurt when another thread reuses the number.",
 ["librabbitmq/amqp_connection.c: amqp_set_socket amqp_set_sockfd amqp_get_sockfd amqp_destroy_connection","librabbitmq/amqp_socket.c: amqp_socket_delete amqp_socket_open_noblock amqp_socket_close","librabbitmq/amqp_tcp_socket.c: amqp_tcp_socket_new amqp_tcp_socket_set_sockfd","librabbitmq/amqp_openssl.c: amqp_ssl_socket_new amqp_ssl_socket_delete"])
p("C80","A failed tool says what went wrong",
 "After any history of calls, when a synchronous call of a command line tool fails, the tool stops with exactly one line on standard error: the context it was given, a colon, and either the library's text for the status or, when the server closed the channel or the connection during this call, which of the two, the server's reply code and the server's reply text (up to its first NUL), never truncated and never read or written outside the tool's 512 byte buffer. It goes on only after a normal reply.",
 "all histories of calls, all calls, all channels and arguments, all bytes a server sends, all contexts, all reply codes and texts; the status must differ from INT_MIN (which never occurs on a steady clock)",
 "The reply code and the text are chosen by the server; whether the fixed buffer suffices must be known for every text, and whether the report is of this call and not of an earlier one for every history.",
 ["tools/common.c: die_rpc die_amqp_error amqp_rpc_reply_string amqp_server_exception_string","librabbitmq/amqp_api.c: amqp_error_string2"])
p("C81","A login never gets ahead of the server and keeps the credentials until the mechanism is offered",
 "At every moment of amqp_login (or amqp_login_with_properties), whether it has returned or is stuck or fails anywhere, what has been put on the wire is: the protocol header or a beginning of it; only after a greeting with version 0-9 whose list of mechanisms has the mechanism of the credentials as a word, also start-ok or a beginning of it; only after the server's tune, also tune-ok with the limits agreed on or a beginning of it; then open or a beginning of it, and heartbeats. In particular no part of the user name or the password is sent to a server that has not greeted so.",
 "all servers (every sequence of bytes), all schedules, timeouts and failures of the system and of the allocator, all points in time, all credentials and parameters",
 "That a password is not leaked early is a statement about every prefix of every run against every misbehaving server.",
 ["librabbitmq/amqp_socket.c: amqp_login amqp_login_with_properties amqp_login_inner sasl_mechanism_in_list amqp_simple_wait_method"])
p("C82","amqp-declare-queue and amqp-delete-queue as whole programs",
 "Started with options that determine a host, port, virtual host, user and password, the program exits with 0 only if it connected to exactly that host and port (with TLS: to a peer whose certificate was verified for the host), logged in as that user in that virtual host, opened channel 1, put on the wire the request asked for on the command line followed by the orderly closes and nothing else but heartbeats, and printed what the server answered. It exits with 1 otherwise, with one line on standard error that names the step (opening the socket to host:port, logging in, opening the channel, the request, a close) and the reason (text of the library's status or the server's own words), and the wire holds a beginning of that conversation. At any moment before, the wire holds a beginning of it. Without a queue name nothing is connected to. Bad options: a message and no connection.",
 "all option values, all answers of the operating system, the resolver, OpenSSL and the server, all schedules and failures, all points in time",
 "Each run of a test is one server and one schedule; that no run sends the request on a connection not verified or to the wrong host concerns all of them.",
 ["tools/common.c: make_connection init_connection_info die_amqp_error die_rpc close_connection","tools/declare_queue.c: main","tools/delete_queue.c: main"])
p("C83","amqp-publish as a whole program",
 "Started with an exchange or a routing key and options that determine a host, port, virtual host, user and password, amqp-publish exits with 0 only if it connected to exactly that host and port (with TLS: verified for that host), logged in as that user in that virtual host, opened channel 1 and put on the wire every message it was asked to publish (the body, all of standard input, or each line), complete, once, in order, cut into frames of the agreed size, with the exchange, routing key, headers and properties of the options, followed by the orderly closes and nothing else but heartbeats between messages. Otherwise it exits with 1 and one line on standard error that names the step and the reason; then and at any moment before, the wire holds a beginning of that; if reading standard input failed, nothing is published. Without exchange and routing key nothing is connected to. Standard error begins with one line for each header that has no colon, in order.",
 "all option values, all inputs, all answers of the operating system, the resolver, OpenSSL and the server, all schedules and failures, all points in time",
 "Each run of a test is one server, one input and one schedule; that success means that all messages were handed over completely, and on the right connection, concerns all of them.",
 ["tools/publish.c: main do_publish","tools/common.c: make_connection read_all close_connection die_amqp_error"])
p("C84","amqp-get as a whole program",
 "Started with a queue name and options that determine a host, port, virtual host, user and password, amqp-get exits with 0 only if it connected to exactly that host and port, logged in there, asked for a message of that queue on channel 1, the server answered basic.get-ok, and standard output is the body of a message the server sent: a header frame and body frames whose fragments, in order, are exactly the output, of exactly the announced size, and (if nothing was lost for lack of memory) they are the first frames other than heartbeats that came beside the answer; then channel and connection were closed. It exits with 2 only if the server said that the queue is empty, and then it prints nothing. Otherwise it exits with 1, one line on standard error says what failed (including the type of an unexpected frame), and what it printed is a beginning of the content that was received. At any moment the wire holds a beginning of login, channel.open, this one request and the closes.",
 "all option values, all answers of the operating system, the resolver, OpenSSL and the server, all schedules of short writes, all failures, all points in time",
 "A test has one message, one fragmentation and one schedule; that exit status 0 means that the whole body and nothing else was printed concerns all of them.",
 ["tools/get.c: main do_get","tools/common.c: copy_body write_all make_connection close_connection die_amqp_error die_rpc"])
p("C85","amqp-consume as a whole program",
 "Started with a command and options that determine where to connect, amqp-consume opens one session there, and on channel 1 it makes exactly the calls that its options say, in order: queue.declare (auto-delete) unless a queue is named and neither an exchange nor --declare nor --exclusive is given, queue.bind of the queue (the named one, or the one that the server has named) for every non-empty comma-separated routing key, basic.qos for --count and for a smaller --prefetch-count, basic.consume. Then it takes the frames of the server in the order in which they came, those that came early, between the answers, included: of every delivered message the whole body and nothing else is given to one run of the command, and the message is acknowledged, with its own delivery tag and alone, if and only if the command has exited with status 0 and --no-ack was not given; the acknowledgement follows the exit of the command. It exits with 0 only after --count messages (frames that are no delivery count too), and then channel and connection were closed. If a call, a frame, the command, an acknowledgement or a close fails, it exits with 1 and standard error says what has failed; no later message is acknowledged. At any moment the wire holds a beginning of the login, these requests, the acknowledgements of the messages handled so far and the closes.",
 "all option values, all numbers of messages, all fragmentations, all answers of the operating system, the resolver, OpenSSL and the server, all results of the command, all failures, all points in time",
 "A message that is acknowledged although it was not completely handled is lost; that this happens under no order of frames, fragmentation, failure of the command or of the connection cannot be tested.",
 ["tools/consume.c: main do_consume setup_queue stringify_bytes","tools/common.c: copy_body make_connection close_connection die_amqp_error die_rpc","tools/unix/process.c: pipeline finish_pipeline"])
p("C86","signals, interruptions and blocking",
 "Sending or receiving on a connection whose peer is gone never raises SIGPIPE, plain or TLS, handshake and shutdown included: it gives an error status. On a plain socket a system call that was interrupted by a signal is repeated with the same arguments until it is answered otherwise, an interruption is never reported; would-block is told from failure, end of file from both. Under TLS the retry flag that OpenSSL reads says after every use of the socket exactly whether that use may be repeated (would block, interrupted, not yet connected), never something left over from an earlier use, and the four kinds of results of SSL_write and SSL_read are told apart. A closed socket is never used.",
 "all results and error numbers of send and recv, any number of interruptions, all behaviours of OpenSSL (any program over the BIO), all data",
 "Signals and interruptions come at any moment, and what OpenSSL does with the BIO depends on the peer; a test sees few of the combinations and cannot provoke most error numbers.",
 ["librabbitmq/amqp_tcp_socket.c: amqp_tcp_socket_send amqp_tcp_socket_recv","librabbitmq/amqp_openssl.c: amqp_ssl_socket_send amqp_ssl_socket_recv","librabbitmq/amqp_openssl_bio.c: amqp_openssl_bio_write amqp_openssl_bio_read amqp_openssl_bio_should_retry"])
p("C87","frames over TLS",
 "Over TLS the peer gets, decrypted, the frames that were sent, in order and unchanged: a frame all of it if the call succeeds, a beginning of it if it fails, however OpenSSL cuts the data into records and whenever a record blocks and has to be sent again.",
 "all frames, all sequences of frames, all sizes of records, all schedules of blocking, renegotiation, timeouts and errors",
 "Records block only when the peer is slow, and what must then be repeated depends on the moment; the failures need a blocked record, an error and another send in a certain order.",
 ["librabbitmq/amqp_openssl.c: amqp_ssl_socket_send","librabbitmq/amqp_socket.c: amqp_try_send","librabbitmq/amqp_connection.c: amqp_send_frame_inner"])
p("C88","a whole session with a server that keeps to the frame format is memory safe",
 "From amqp_new_connection on, with amqp_login, amqp_tune_connection and any other calls in any order: as long as the server sends frames of the protocol - methods of its catalogue with arguments of their types, content headers of class basic, bodies and heartbeats, in any order, at any time, on any channel, of any size - the library never reads or writes memory that it should not, in whatever pieces the bytes arrive, and also when the login fails, when frames are larger than agreed, when the network fails, or when calls are made after one that has failed.",
 "all sequences of calls with arguments of their types, all sequences of frames, all schedules, fragmentations and failures of the network and of the timers",
 "A test can replay a few servers; a server may send any frame at any moment, and an error leaves the connection in a state in which the next calls have to be safe as well.",
 ["librabbitmq/amqp_socket.c: amqp_login amqp_login_inner wait_frame_inner amqp_simple_wait_method_list","librabbitmq/amqp_connection.c: amqp_handle_input amqp_tune_connection amqp_send_frame_inner","librabbitmq/amqp_framing.c: amqp_decode_method amqp_decode_properties"])
p("C89","waiting for the socket: poll() and select() versions",
 "The library waits for its own socket to become readable or writable by one system call after the other until one is not interrupted by a signal: each asks for the time that is left until the deadline then - without limit if there is none, not at all if it has passed - and the caller is told ready, timed out or failed as the last one says.  Built with poll() and built with select() it tells the same, whatever a previous select() left in the sets.",
 "all descriptors, directions, deadlines, sequences of clock readings, interruptions and results of the system calls",
 "A test cannot interrupt every round of the loop, and select() changes its arguments; only the code with poll() is compiled where the tests run.",
 ["librabbitmq/amqp_socket.c: amqp_poll","librabbitmq/amqp_time.c: amqp_time_ms_until amqp_time_tv_until"])
p("C90","amqp-consume: the commands' file descriptors and exit status",
 "Every command that amqp-consume starts has a new pipe as its standard input and otherwise the descriptors that amqp-consume itself was given - not the connection, not an end of any other command's pipe, and nothing that could be written to its own pipe, so that it sees the end of the message as end of file.  After each command amqp-consume has the same descriptors as before, over any number of messages.  A message is acknowledged only if its command exited with status 0, not if it was killed by a signal.",
 "all descriptor tables, all sequences of messages, all failures of pipe, posix_spawn, close and waitpid, all ways in which the commands end",
 "A leak of a descriptor or a write end left open in a child shows after many messages or as a command that hangs; a test cannot try every table and every failure.",
 ["tools/unix/process.c: pipeline finish_pipeline","tools/consume.c: do_consume","librabbitmq/amqp_socket.c: connect_socket"])
p("C91","The TLS engine is set once, given back once, and used only while it is set",
 "amqp_set_ssl_engine, which is documented to be thread-safe, and amqp_ssl_socket_set_key_engine may be called by any number of threads.  No engine is given back to OpenSSL twice and at most one is held; when no call of amqp_set_ssl_engine is in progress, it is the one that is set.  AMQP_STATUS_OK means that the engine asked for is set (none, for NULL), AMQP_STATUS_SSL_SET_ENGINE_FAILED that none is; in any case the previous one has been given back.  A private key is never asked from an engine that has been given back.  Without engine support every call returns AMQP_STATUS_SSL_UNIMPLEMENTED.",
 "all schedules of all calls in any number of threads, all failures of OpenSSL",
 "What goes wrong depends on where one thread is interrupted by another.",
 ["librabbitmq/amqp_openssl.c: amqp_set_ssl_engine amqp_ssl_socket_set_key_engine"])
p("C92","Byte strings are values",
 "Whatever a program does with amqp_cstring_bytes, amqp_empty_bytes, amqp_bytes_malloc, amqp_bytes_malloc_dup, amqp_bytes_free and amqp_bytes_equal - not using a string that was freed or could not be allocated, freeing only what amqp_bytes_malloc and amqp_bytes_malloc_dup returned, and that once - it is as if every variable had contents of its own: amqp_cstring_bytes gives the bytes before the NUL, a duplicate has the contents of its source at the time and neither changes with the other, amqp_bytes_equal says whether the contents are the same. When there is no memory the result is NULL with the length asked for, and amqp_bytes_free takes it. Nothing is read or freed that may not be, and when everything has been freed nothing is left.",
 "all programs of these calls and stores, all contents, all failures of malloc",
 "Aliasing between strings depends on the whole history of duplications, stores and frees.",
 ["librabbitmq/amqp_mem.c: amqp_cstring_bytes amqp_bytes_malloc amqp_bytes_malloc_dup amqp_bytes_free amqp_bytes_equal"])
with open(os.path.join(os.path.dirname(__file__), "..", "properties.jsonl"), "w") as f:
    for x in P: f.write(json.dumps(x, ensure_ascii=False) + "\n")
print(len(P))
