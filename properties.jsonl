{"id": "C01", "title": "Integers travel in network byte order", "statement": "For every 8/16/32/64-bit unsigned value the library writes exactly the big-endian bytes of the value and reads back exactly that value, on little- and big-endian hosts alike, and a read or write that does not fit in the remaining buffer is refused without touching memory outside it.", "quantifier": "all values of each width, both host byte orders, all buffers and offsets", "why_tests_cant": "2^64 values times all offsets; only one host endianness can be exercised by a test run", "anchors": ["librabbitmq/amqp_private.h: amqp_e16 amqp_d16 amqp_e32 amqp_d32 amqp_e64 amqp_d64 DECLARE_CODEC_BASE_TYPE amqp_encode_bytes amqp_decode_bytes is_bigendian"]}
{"id": "C02", "title": "Field tables round-trip", "statement": "Encoding any field table (any nesting of tables and arrays within the depth limit, keys of at most 255 bytes, any values of any of the 18 kinds) with amqp_encode_table and decoding the bytes with amqp_decode_table succeeds, gives back the same table (booleans normalised to 0/1) and leaves the offset just past the encoding, wherever in the buffer the table starts.", "quantifier": "all well-formed tables, all buffers large enough, all starting offsets", "why_tests_cant": "unbounded recursive input space; tests only cover a handful of literal tables", "anchors": ["librabbitmq/amqp_table.c: amqp_encode_table amqp_decode_table amqp_encode_field_value amqp_decode_field_value amqp_encode_array amqp_decode_array"]}
{"id": "C03", "title": "Table encoding is exact and in bounds", "statement": "amqp_encode_table either succeeds, having written exactly the AMQP 0-9-1 serialisation of the table at the given offset and nothing else, or fails with a negative status; it fails exactly when the serialisation does not fit; in neither case does it modify a byte before the starting offset or at/after the end of the buffer.", "quantifier": "all well-formed tables, all buffer lengths, all offsets, all memory contents around the buffer", "why_tests_cant": "the boundary depends on the exact length of every table; tests cannot try every buffer length for every table", "anchors": ["librabbitmq/amqp_table.c: amqp_encode_table amqp_encode_array amqp_encode_field_value", "librabbitmq/amqp_private.h: amqp_encode_bytes"]}
{"id": "C04", "title": "Table decoding is total and memory safe", "statement": "For every byte string whatsoever, amqp_decode_table terminates, returns either success or an error, never reads a byte outside the given buffer, and on success every decoded value is in its type's range, every key is at most 255 bytes and the offset advanced by exactly the size of the table's own encoding (so it lies inside the buffer).", "quantifier": "all byte strings, all starting offsets inside the buffer", "why_tests_cant": "arbitrary attacker-controlled input; fuzzing samples it", "anchors": ["librabbitmq/amqp_table.c: amqp_decode_table_internal amqp_decode_array amqp_decode_field_value"]}
{"id": "C05", "title": "Nesting depth of decoded tables is bounded", "statement": "amqp_decode_table accepts tables whose values nest at most 100 levels of table/array and rejects, with AMQP_STATUS_BAD_AMQP_DATA, every serialised table nested more deeply, so the recursion depth is bounded for every input.", "quantifier": "all byte strings; all serialised tables of every depth", "why_tests_cant": "depth is unbounded; a test fixes one depth", "anchors": ["librabbitmq/amqp_table.c: TABLE_DEPTH_LIMIT amqp_decode_field_value"]}
{"id": "C06", "title": "Every table accepted for sending is received as that table", "statement": "If amqp_encode_table reports success, decoding the produced bytes gives the same table - including for tables with long keys.", "quantifier": "all tables", "why_tests_cant": "needs all key lengths; tests use short keys", "anchors": ["librabbitmq/amqp_table.c: amqp_encode_table (key.len cast to uint8_t)"]}
{"id": "C07", "title": "Methods round-trip and follow the AMQP 0-9-1 layout", "statement": "For every AMQP method known to the library and every combination of argument values (short strings at most 255 bytes), amqp_encode_method writes the arguments in the order and with the widths given by the AMQP 0-9-1/RabbitMQ method catalogue, consecutive bit arguments packed in one octet from the low bit up, and amqp_decode_method returns the same values.", "quantifier": "all 60+ methods, all argument values, all buffers that fit", "why_tests_cant": "the argument space of each method is unbounded and the code is generated; tests exercise a few methods against a live broker", "anchors": ["librabbitmq/amqp_framing.c: amqp_encode_method amqp_decode_method", "include/rabbitmq-c/framing.h: AMQP_*_METHOD"]}
{"id": "C08", "title": "Method and property decoding of arbitrary data is memory safe", "statement": "For every method number or class id and every byte string, amqp_decode_method / amqp_decode_properties returns success or an error (unknown methods and classes are refused, truncated data is AMQP_STATUS_BAD_AMQP_DATA) and never reads outside the bytes given (for property data with at most two flag words; see C15 for more); over-long short strings are refused on encoding.", "quantifier": "all method numbers, all class ids, all byte strings", "why_tests_cant": "attacker-controlled input space", "anchors": ["librabbitmq/amqp_framing.c: amqp_decode_method amqp_decode_properties amqp_encode_method amqp_encode_properties"]}
{"id": "C09", "title": "Basic content properties round-trip", "statement": "For every subset of the 14 basic properties and every value of each, encoding with amqp_encode_properties and decoding with amqp_decode_properties gives back the same flags and the same value for every property whose flag is set.", "quantifier": "all flag words, all property values", "why_tests_cant": "2^14 subsets times unbounded values", "anchors": ["librabbitmq/amqp_framing.c: amqp_encode_properties amqp_decode_properties", "include/rabbitmq-c/framing.h: AMQP_BASIC_*_FLAG"]}
{"id": "C10", "title": "Frames round-trip", "statement": "The bytes amqp_send_frame produces for any method, content-header, body or heartbeat frame that fits in frame_max are type, channel, payload length, payload, 0xCE, and feeding these bytes to amqp_handle_input on an idle connection yields a frame with the same type, channel and payload, consumes all of them and returns the connection to idle.", "quantifier": "all frames, all channels, all payloads up to frame_max, all contents of recycled memory", "why_tests_cant": "unbounded payloads; result depends on uninitialised pool memory", "anchors": ["librabbitmq/amqp_connection.c: amqp_frame_to_bytes amqp_handle_input consume_data return_to_idle"]}
{"id": "C11", "title": "Reassembly does not depend on how TCP splits the stream", "statement": "Feeding a byte stream to amqp_handle_input in any sequence of pieces produces the same sequence of frames, the same final state and the same error as feeding it in one piece.", "quantifier": "all byte streams, all ways of cutting them into pieces, all reachable connection states", "why_tests_cant": "exponentially many segmentations; a test sees the one the kernel happened to choose", "anchors": ["librabbitmq/amqp_connection.c: amqp_handle_input consume_data"]}
{"id": "C12", "title": "Corrupt or oversized frames are never delivered", "statement": "A frame whose end marker is not 0xCE, whose declared length is 2^31-1 or more, or whose total size exceeds frame_max makes amqp_handle_input return AMQP_STATUS_BAD_AMQP_DATA and yields no frame; the connection stays in error: every later call with more data fails again and never yields a frame.", "quantifier": "all frame headers, all payloads, all later input", "why_tests_cant": "2^56 headers and unbounded continuations", "anchors": ["librabbitmq/amqp_connection.c: amqp_handle_input"]}
{"id": "C13", "title": "amqp_handle_input never leaves the frame it received", "statement": "For every input and every reachable state amqp_handle_input reads only bytes of the frame being decoded, whatever the frame type and declared length.", "quantifier": "all byte streams", "why_tests_cant": "attacker-controlled input; an out-of-bounds read inside a pool page is invisible to a test", "anchors": ["librabbitmq/amqp_connection.c: amqp_handle_input"]}
{"id": "C14", "title": "The first frame on a connection is decoded like any other", "statement": "A frame received as the very first bytes from the server (before any protocol header) is decoded exactly as the same frame received later.", "quantifier": "all frames", "why_tests_cant": "tests only see connection.start, whose eighth byte happens to be zero", "anchors": ["librabbitmq/amqp_connection.c: amqp_handle_input (memcpy HEADER_SIZE), amqp_new_connection"]}
{"id": "C15", "title": "Property flag words of any length are decoded without undefined behaviour", "statement": "amqp_decode_properties handles any number of continuation flag words without undefined behaviour.", "quantifier": "all byte strings", "why_tests_cant": "needs inputs with three or more continuation words, which no broker sends", "anchors": ["librabbitmq/amqp_framing.c: amqp_decode_properties (partial_flags << flagword_index*16)"]}
{"id": "C16", "title": "Pool allocations are aligned, in bounds and pairwise disjoint", "statement": "For every sequence of amqp_pool_alloc calls (each for at most 2^64-8 bytes) on a pool of any page size, each non-NULL result is a block of at least the requested size inside memory obtained from the system, 8-byte aligned relative to its page, and disjoint from every other block handed out since the last recycle.", "quantifier": "all page sizes, all allocation histories including recycling", "why_tests_cant": "unbounded histories; overlap shows up only as silent corruption", "anchors": ["librabbitmq/amqp_mem.c: amqp_pool_alloc init_amqp_pool recycle_amqp_pool record_pool_block"]}
{"id": "C17", "title": "Pools neither leak nor double-free", "statement": "After any history of allocations and recycles in which the system allocator succeeds, empty_amqp_pool frees every block obtained from the system exactly once; recycle_amqp_pool frees exactly the large blocks and keeps every page for reuse.", "quantifier": "all histories", "why_tests_cant": "unbounded histories", "anchors": ["librabbitmq/amqp_mem.c: empty_amqp_pool recycle_amqp_pool empty_blocklist amqp_pool_alloc"]}
{"id": "C18", "title": "Each channel has exactly one pool", "statement": "amqp_get_or_create_channel_pool returns, for any history of channels, always the same pool for the same channel and different pools for different channels; amqp_get_channel_pool finds a pool exactly for channels that have one.", "quantifier": "all sequences of channel numbers", "why_tests_cant": "65536 channels hashed in 16 chains; orders are unbounded", "anchors": ["librabbitmq/amqp_mem.c: amqp_get_or_create_channel_pool amqp_get_channel_pool"]}
{"id": "C19", "title": "Releasing buffers never invalidates a queued frame", "statement": "In every history of API calls, frames waiting in the connection's queue stay valid: amqp_release_buffers, amqp_maybe_release_buffers, amqp_maybe_release_buffers_on_channel and the implicit release on heartbeats recycle a channel's memory only when no queued frame belongs to that channel.", "quantifier": "all histories of API calls and server behaviour", "why_tests_cant": "use-after-recycle is silent; needs all interleavings of queueing and releasing", "anchors": ["librabbitmq/amqp_connection.c: amqp_release_buffers amqp_maybe_release_buffers_on_channel", "librabbitmq/amqp_socket.c: amqp_queue_frame wait_frame_inner"]}
{"id": "C20", "title": "Client properties stay readable after login", "statement": "The table returned by amqp_get_client_properties after a successful login is the one sent to the broker and remains valid until the connection is destroyed.", "quantifier": "all successful logins", "why_tests_cant": "the memory usually still holds the old bytes when a test looks", "anchors": ["librabbitmq/amqp_socket.c: amqp_login_inner (client_properties allocated from channel 0's pool)", "librabbitmq/amqp_connection.c: amqp_get_client_properties"]}
{"id": "C21", "title": "amqp_table_entry_cmp is a total order", "statement": "For keys shorter than 2^31 bytes amqp_table_entry_cmp compares keys as byte strings with the shorter first on a common prefix: it is reflexive, antisymmetric, transitive and total, and returns 0 exactly for equal keys, so sorting a table with qsort is well defined.", "quantifier": "all pairs and triples of entries", "why_tests_cant": "transitivity quantifies over all triples", "anchors": ["librabbitmq/amqp_table.c: amqp_table_entry_cmp"]}
{"id": "C22", "title": "Cloning a table is a faithful deep copy", "statement": "amqp_table_clone of any table without empty keys whose values are of known kinds and whose arrays are canonical succeeds and yields an equal table; it refuses tables containing an empty key or an unknown kind.", "quantifier": "all tables", "why_tests_cant": "unbounded recursive input", "anchors": ["librabbitmq/amqp_table.c: amqp_table_clone amqp_table_entry_clone amqp_field_value_clone"]}
{"id": "C23", "title": "Client capability tables merge as documented", "statement": "amqp_merge_capabilities yields a table in which each key of the added table maps to the added value (recursively merged when both values are tables), each other key of the base keeps its value, and no other key appears.", "quantifier": "all pairs of tables", "why_tests_cant": "unbounded recursive input", "anchors": ["librabbitmq/amqp_socket.c: amqp_merge_capabilities", "librabbitmq/amqp_table.c: amqp_table_get_entry_by_key"]}
{"id": "C24", "title": "Deadlines are never earlier than asked for", "statement": "When a timeout is accepted, the deadline computed from it is the current monotonic time plus the timeout, or infinity for no timeout; negative timeouts are refused and timeouts too large to represent are refused rather than silently shortened.", "quantifier": "all timeval values, all clock readings", "why_tests_cant": "overflow needs extreme values and clock readings a test cannot produce", "anchors": ["librabbitmq/amqp_time.c: amqp_time_from_now amqp_time_s_from_now"]}
{"id": "C25", "title": "Waiting time passed to poll never exceeds the deadline nor waits forever by accident", "statement": "The millisecond timeout derived from a deadline is -1 exactly for an infinite deadline, 0 for a deadline that has passed, and otherwise the number of whole milliseconds remaining, for every deadline.", "quantifier": "all deadlines, all clock readings", "why_tests_cant": "needs deadlines weeks away", "anchors": ["librabbitmq/amqp_time.c: amqp_time_ms_until amqp_time_tv_until", "librabbitmq/amqp_socket.c: amqp_poll"]}
{"id": "C26", "title": "Timeval conversion is accurate to a microsecond", "statement": "amqp_time_tv_until returns the remaining time truncated to whole microseconds (never more than the remaining time, less than one microsecond short), zero once the deadline has passed, and no timeout for an infinite deadline; amqp_time_first picks the earlier deadline.", "quantifier": "all deadlines and clock readings whose difference is below 2^31 seconds", "why_tests_cant": "all 64-bit pairs", "anchors": ["librabbitmq/amqp_time.c: amqp_time_tv_until amqp_time_first amqp_time_equal amqp_time_has_past"]}
{"id": "C27", "title": "amqp_parse_url is total and memory safe", "statement": "For every NUL-terminated string amqp_parse_url terminates, never reads or writes outside the string, and returns AMQP_STATUS_OK or AMQP_STATUS_BAD_URL; on success every returned component is a NUL-terminated string inside the buffer or a default.", "quantifier": "all strings", "why_tests_cant": "in-place decoding of arbitrary strings; off-by-one reads are silent", "anchors": ["librabbitmq/amqp_url.c: amqp_parse_url find_delim"]}
{"id": "C28", "title": "URLs built from percent-encoded components parse to those components", "statement": "For all user, password, host, vhost (strings of 7-bit non-NUL characters) and every port, the URL amqp[s]://user:password@host:port/vhost with every character percent-encoded where needed parses successfully to exactly these components, with ssl set exactly for amqps; the forms without userinfo, port or vhost give the documented defaults.", "quantifier": "all component strings and ports", "why_tests_cant": "unbounded strings", "anchors": ["librabbitmq/amqp_url.c: amqp_parse_url find_delim amqp_default_connection_info"]}
{"id": "C29", "title": "URLs with a foreign scheme, bad escapes or stray delimiters are refused", "statement": "amqp_parse_url returns AMQP_STATUS_BAD_URL for every string that does not start with amqp:// or amqps://, and never accepts a URL in which a component contains a malformed percent escape, a query or a fragment.", "quantifier": "all strings", "why_tests_cant": "unbounded strings", "anchors": ["librabbitmq/amqp_url.c: amqp_parse_url"]}
{"id": "C30", "title": "SASL mechanism selection matches whole words", "statement": "The library accepts a SASL mechanism exactly when its name is one of the space-separated words offered by the server; prefixes, suffixes and other substrings do not match.", "quantifier": "all mechanism lists", "why_tests_cant": "unbounded strings", "anchors": ["librabbitmq/amqp_socket.c: sasl_mechanism_in_list bytes_equal"]}
{"id": "C31", "title": "SASL responses carry exactly the credentials", "statement": "The PLAIN response is NUL user NUL password and determines user and password uniquely; the EXTERNAL response is the identity string, for every identity.", "quantifier": "all credential strings", "why_tests_cant": "unbounded strings", "anchors": ["librabbitmq/amqp_socket.c: sasl_response"]}
{"id": "C32", "title": "Every status code has a description", "statement": "amqp_error_string2 returns, for every int, a valid string: the documented message for each defined status and '(unknown error)' for every other code that is not an alias by the 16-bit mask; distinct defined statuses of one category have their own table entries and no table is indexed out of bounds.", "quantifier": "all int values", "why_tests_cant": "2^32 codes", "anchors": ["librabbitmq/amqp_api.c: amqp_error_string2 amqp_error_string base_error_strings tcp_error_strings ssl_error_strings"]}
{"id": "C33", "title": "A sent frame reaches the wire intact whatever the socket does", "statement": "For every schedule of partial sends, EINTR, would-block and poll wake-ups, the bytes amqp_send_frame has handed to the socket are always a prefix of the frame's encoding, and are exactly the encoding when it reports success.", "quantifier": "all schedules of socket behaviour, all frames", "why_tests_cant": "schedules are chosen by kernel and network", "anchors": ["librabbitmq/amqp_connection.c: amqp_send_frame_inner", "librabbitmq/amqp_socket.c: amqp_try_send do_poll amqp_poll", "librabbitmq/amqp_tcp_socket.c: amqp_tcp_socket_send"]}
{"id": "C34", "title": "The protocol header is sent whole or an error is reported", "statement": "amqp_send_header / the first step of login reports success only if the eight bytes AMQP 0 0 9 1 were all handed to the socket, and otherwise reports a negative status.", "quantifier": "all schedules of socket behaviour, all deadlines", "why_tests_cant": "needs a timeout in the middle of an eight byte send", "anchors": ["librabbitmq/amqp_socket.c: send_header_inner amqp_try_send"]}
{"id": "C35", "title": "Received frames are delivered in order, without loss or duplication", "statement": "For every server byte stream consisting of well-formed frames and every schedule of reads, EINTR, would-block and heartbeats, successive amqp_simple_wait_frame calls return exactly the non-heartbeat frames of the stream in order.", "quantifier": "all frame sequences, all segmentations and schedules", "why_tests_cant": "schedules are chosen by kernel and network", "anchors": ["librabbitmq/amqp_socket.c: wait_frame_inner recv_with_timeout consume_one_frame amqp_simple_wait_frame", "librabbitmq/amqp_tcp_socket.c: amqp_tcp_socket_recv"]}
{"id": "C36", "title": "The queue of pending frames is FIFO", "statement": "Frames queued because nobody was waiting for them are returned by amqp_simple_wait_frame in arrival order before anything newly read; a frame put back is the next one returned; amqp_frames_enqueued tells exactly whether the queue is non-empty.", "quantifier": "all sequences of queue operations", "why_tests_cant": "unbounded histories over a hand-written linked list", "anchors": ["librabbitmq/amqp_socket.c: amqp_queue_frame amqp_put_back_frame amqp_simple_wait_frame_noblock amqp_frames_enqueued"]}
{"id": "C37", "title": "Reading from one channel does not disturb other channels", "statement": "amqp_simple_wait_frame_on_channel (used by amqp_read_message) returns the first pending frame of its channel and leaves all pending frames of other channels queued in their order.", "quantifier": "all queue contents, all channels", "why_tests_cant": "needs interleaved traffic on several channels", "anchors": ["librabbitmq/amqp_socket.c: amqp_simple_wait_frame_on_channel"]}
{"id": "C38", "title": "An RPC returns the right reply and keeps everything else", "statement": "amqp_simple_rpc returns AMQP_RESPONSE_NORMAL only with a method of an expected id on the request's channel, AMQP_RESPONSE_SERVER_EXCEPTION only with a channel.close on that channel or a connection.close on channel 0, and all other frames received while waiting are appended to the queue in arrival order, none lost, none duplicated.", "quantifier": "all interleavings of unrelated frames with the reply, all schedules", "why_tests_cant": "asynchronous deliveries interleave arbitrarily with replies", "anchors": ["librabbitmq/amqp_socket.c: simple_rpc_inner amqp_simple_rpc amqp_simple_rpc_decoded amqp_id_in_reply_list"]}
{"id": "C39", "title": "A timed-out RPC closes the socket", "statement": "If an RPC returns AMQP_STATUS_TIMEOUT the socket has been closed, so no later call can mistake the late reply for its own.", "quantifier": "all schedules", "why_tests_cant": "needs every point at which the timeout can fire", "anchors": ["librabbitmq/amqp_socket.c: simple_rpc_inner amqp_login_inner", "librabbitmq/amqp_tcp_socket.c: amqp_tcp_socket_close"]}
{"id": "C40", "title": "Publishing sends exactly the message", "statement": "A successful amqp_basic_publish sends on the given channel a basic.publish method with the given exchange, routing key and flags, a content header with the body's length and the given properties, and body frames each at most frame_max bytes in total whose payloads concatenate to the body; no body frame is empty.", "quantifier": "all bodies of any length, all frame_max from the protocol minimum up, all schedules", "why_tests_cant": "body length / frame_max boundaries are unbounded", "anchors": ["librabbitmq/amqp_api.c: amqp_basic_publish"]}
{"id": "C41", "title": "Publishing terminates and stays inside the send buffer for every frame_max that can be negotiated", "statement": "For every frame_max a connection can have after a successful login, amqp_basic_publish terminates and never writes past the outbound buffer.", "quantifier": "all negotiated frame_max, all bodies", "why_tests_cant": "needs a broker announcing a tiny frame_max", "anchors": ["librabbitmq/amqp_api.c: amqp_basic_publish", "librabbitmq/amqp_connection.c: amqp_frame_to_bytes amqp_tune_connection", "librabbitmq/amqp_socket.c: amqp_login_inner"]}
{"id": "C42", "title": "Reading a message reassembles exactly its body", "statement": "A successful amqp_read_message returns a body whose length is the size announced in the content header and whose content is the concatenation of the body frames' payloads on that channel; it never writes past the body buffer; an over-long body, a wrong frame or a close frame yields an error.", "quantifier": "all messages, all fragmentations, all interleavings with other channels", "why_tests_cant": "fragmentation and interleaving are chosen by the broker", "anchors": ["librabbitmq/amqp_consumer.c: amqp_read_message amqp_basic_properties_clone"]}
{"id": "C43", "title": "What is published is what is consumed", "statement": "A message published with amqp_basic_publish whose content header and body frames are relayed by a broker after a basic.deliver is returned by amqp_consume_message with the same body and properties and the delivery's tag, exchange and routing key, for every segmentation of the stream.", "quantifier": "all messages, properties, frame_max and segmentations", "why_tests_cant": "composition of all the above", "anchors": ["librabbitmq/amqp_api.c: amqp_basic_publish", "librabbitmq/amqp_consumer.c: amqp_consume_message amqp_read_message"]}
{"id": "C44", "title": "Heartbeats: a dead peer is detected, a live client says so", "statement": "While waiting, the library never waits past the receive deadline (twice the heartbeat interval after the last bytes received): when it expires it closes the socket and returns AMQP_STATUS_HEARTBEAT_TIMEOUT; and it sends a heartbeat frame before waiting whenever the send deadline has passed.", "quantifier": "all schedules and clock readings", "why_tests_cant": "time-dependent", "anchors": ["librabbitmq/amqp_socket.c: wait_frame_inner recv_with_timeout", "librabbitmq/amqp_private.h: amqp_heartbeat_send amqp_heartbeat_recv"]}
{"id": "C45", "title": "Connection tuning picks the smaller limit", "statement": "After a successful login channel_max, frame_max and heartbeat are the smaller of the client's and the server's non-zero proposals (documented rules for zero), are the values sent in tune-ok, and are what amqp_get_channel_max/frame_max/heartbeat report.", "quantifier": "all client and server proposals", "why_tests_cant": "2^80 combinations", "anchors": ["librabbitmq/amqp_socket.c: amqp_login_inner", "librabbitmq/amqp_connection.c: amqp_tune_connection amqp_get_channel_max amqp_get_frame_max amqp_get_heartbeat"]}
{"id": "C46", "title": "Login succeeds only after the full handshake", "statement": "amqp_login returns AMQP_RESPONSE_NORMAL only if the server sent connection.start with version 0.9 offering the chosen SASL mechanism, connection.tune and connection.open-ok, and the client sent, in order, the protocol header, start-ok with the SASL response, tune-ok and open for the requested vhost; every other server behaviour yields an exception reply, and every library error closes the socket.", "quantifier": "all server behaviours and schedules", "why_tests_cant": "arbitrary servers", "anchors": ["librabbitmq/amqp_socket.c: amqp_login_inner simple_wait_method_inner amqp_simple_wait_method_list"]}
{"id": "C47", "title": "Publisher confirms are reported faithfully", "statement": "amqp_publisher_confirm_wait returns the ack, nack or reject it received with its channel and arguments, and puts any other frame back so that it is the next one read.", "quantifier": "all frames", "why_tests_cant": "all frames in all orders", "anchors": ["librabbitmq/amqp_api.c: amqp_publisher_confirm_wait"]}
{"id": "C48", "title": "A consumer that meets an unexpected frame does not lose it", "statement": "If amqp_consume_message finds a frame that is not a basic.deliver, it returns AMQP_STATUS_UNEXPECTED_STATE and the next amqp_simple_wait_frame returns that very frame.", "quantifier": "all frames", "why_tests_cant": "all frames in all states", "anchors": ["librabbitmq/amqp_consumer.c: amqp_consume_message", "librabbitmq/amqp_socket.c: amqp_put_back_frame"]}
{"id": "C49", "title": "TLS connections are opened only to verified peers", "statement": "With peer (hostname) verification enabled, amqp_socket_open on a TLS socket reports success only if the handshake completed, the peer presented a certificate, its verification succeeded (and the certificate matches the host name); in every failure case the socket is closed and no TLS object is left behind.", "quantifier": "all OpenSSL outcomes and poll schedules", "why_tests_cant": "needs every combination of TLS library outcomes", "anchors": ["librabbitmq/amqp_openssl.c: amqp_ssl_socket_open amqp_ssl_socket_close"]}
{"id": "C50", "title": "TLS global state lives exactly as long as some TLS socket", "statement": "In every interleaving of creating and deleting TLS sockets in any number of threads, the shared BIO method exists whenever at least one TLS socket exists and is freed when the last one is deleted, never twice.", "quantifier": "all interleavings and all failure points of socket creation", "why_tests_cant": "thread schedules and allocation failures", "anchors": ["librabbitmq/amqp_openssl.c: initialize_ssl_and_increment_connections decrement_ssl_connections amqp_ssl_socket_new amqp_ssl_socket_delete", "librabbitmq/amqp_openssl_bio.c: amqp_openssl_bio_init amqp_openssl_bio_destroy"]}
{"id": "C51", "title": "Opening a TCP connection tries the addresses in order and leaks no descriptor", "statement": "amqp_open_socket returns the descriptor of the first address that accepts the connection, a negative status if none does or the timeout fires, and every descriptor it created and does not return has been closed.", "quantifier": "all address lists, all outcomes of the socket calls", "why_tests_cant": "needs every failure point of every system call", "anchors": ["librabbitmq/amqp_socket.c: amqp_open_socket_inner connect_socket"]}
{"id": "C52", "title": "Command line tools move message bodies unchanged", "statement": "The tools' read_all returns exactly the bytes of its input and write_all writes exactly its argument, for every schedule of short reads, short writes and interruptions.", "quantifier": "all inputs, all schedules", "why_tests_cant": "short reads and writes are chosen by the kernel", "anchors": ["tools/common.c: read_all write_all copy_body"]}
{"id": "C53", "title": "After a failed send of a publish the caller learns about it", "statement": "If any frame of amqp_basic_publish could not be sent completely, amqp_basic_publish returns a negative status; it returns AMQP_STATUS_OK only if all its frames were handed to the socket completely and in order.", "quantifier": "all schedules", "why_tests_cant": "needs failures at every byte of the stream", "anchors": ["librabbitmq/amqp_api.c: amqp_basic_publish", "librabbitmq/amqp_connection.c: amqp_send_frame_inner"]}
{"id": "C54", "title": "Timeout settings are stored as given", "statement": "amqp_set_rpc_timeout/amqp_set_handshake_timeout store a copy of a non-negative timeout which amqp_get_* returns, NULL disables the timeout, negative values are refused leaving the setting unchanged.", "quantifier": "all timevals, all call sequences", "why_tests_cant": "unbounded histories", "anchors": ["librabbitmq/amqp_api.c: amqp_set_rpc_timeout amqp_get_rpc_timeout amqp_set_handshake_timeout amqp_get_handshake_timeout"]}
{"id": "C55", "title": "Application calls translate to the documented method", "statement": "Each synchronous API call (amqp_queue_declare, amqp_basic_consume, amqp_exchange_bind, ...) sends exactly one method frame on the given channel with the id and argument values documented for it (reserved fields zero, nowait off) and waits for that method's -ok reply.", "quantifier": "all API calls, all argument values", "why_tests_cant": "all argument values of 26 generated wrappers", "anchors": ["librabbitmq/amqp_framing.c: amqp_channel_open amqp_exchange_declare amqp_queue_declare amqp_basic_consume ..."]}
{"id": "C56", "title": "Whole sessions are memory safe", "statement": "No sequence of API calls with valid arguments reads or writes outside the memory the library owns, or uses memory it has given back, whatever the server sends and however system calls and allocations turn out.", "quantifier": "all sequences of calls, all streams from the server, all schedules and failures", "why_tests_cant": "ranges over all programs and all servers", "anchors": ["librabbitmq/amqp_connection.c: amqp_handle_input amqp_frame_to_bytes amqp_release_buffers", "librabbitmq/amqp_socket.c: wait_frame_inner amqp_login_inner", "librabbitmq/amqp_consumer.c: amqp_read_message amqp_basic_properties_clone"]}
{"id": "C57", "title": "No call spins", "statement": "Every loop of the library goes round only while the operating system keeps answering system calls: for every sequence of API calls, every server and every schedule, the number of rounds of each loop is bounded by the number of answers received, the bytes and frames waiting in the connection and the number of calls. In particular a call that gets no more answers does not keep the processor busy.", "quantifier": "all sequences of calls, all byte streams, all schedules and allocation failures", "why_tests_cant": "an endless loop needs the one input or schedule on which no progress is made", "anchors": ["librabbitmq/amqp_socket.c: wait_frame_inner amqp_try_send recv_with_timeout amqp_try_recv amqp_simple_wait_frame_on_channel simple_rpc_inner", "librabbitmq/amqp_connection.c: amqp_send_frame_inner", "librabbitmq/amqp_consumer.c: amqp_read_message", "librabbitmq/amqp_api.c: amqp_basic_publish"]}
{"id": "C58", "title": "A socket object owns its descriptor", "statement": "For every sequence of opening and closing a TCP or TLS socket object and finally deleting it, every descriptor the system handed out is closed exactly once, unless the socket holds it; a TLS socket has a TLS object exactly while it is open; nothing is used after it has been given back.", "quantifier": "all sequences of calls, all outcomes of the system's and OpenSSL's calls", "why_tests_cant": "needs every failure point of every system call in every history", "anchors": ["librabbitmq/amqp_tcp_socket.c: amqp_tcp_socket_open amqp_tcp_socket_close amqp_tcp_socket_delete", "librabbitmq/amqp_openssl.c: amqp_ssl_socket_open amqp_ssl_socket_close amqp_ssl_socket_delete"]}
{"id": "C59", "title": "The tools' auth file yields exactly the credentials written in it", "statement": "For every file content, the tools read a user name and a password from --authfile exactly if the file consists of the line `username:<user name>` and the line `password:<password>` (each ended by a newline and shorter than 128 bytes), and then exactly these; with any other content the program ends with a message.", "quantifier": "all file contents", "why_tests_cant": "the files are arbitrary byte strings", "anchors": ["tools/common.c: read_authfile"]}
{"id": "C60", "title": "The tools connect where their options say", "statement": "For every combination and content of the options --url, --server, --port, --vhost, --username, --password, --authfile, --ssl, --heartbeat: the tools either end with a message or connect with exactly the parameters the options stand for: with --url those of the URL (and none of the other options is accepted beside it, except an --ssl that agrees with it); otherwise the given host, port, virtual host, user name and password, or their documented defaults; contradictory options are rejected.", "quantifier": "all combinations of options, all contents", "why_tests_cant": "the combinations and the contents of the strings are unbounded", "anchors": ["tools/common.c: init_connection_info read_authfile", "librabbitmq/amqp_url.c: amqp_parse_url"]}
{"id": "C61", "title": "A timeout bounds how long a call waits", "statement": "A call that is given a timeout (amqp_simple_wait_frame_noblock, amqp_consume_message, amqp_publisher_confirm_wait; every synchronous call after amqp_set_rpc_timeout; amqp_login with amqp_set_handshake_timeout) never waits for the peer past the time of the call plus the timeout, whatever the server sends in the meantime, however often the wait is interrupted and whatever heartbeats are due. It reports AMQP_STATUS_TIMEOUT only when that time has come (to the millisecond).", "quantifier": "all calls, timeouts, states of the connection, byte streams, clock readings and schedules", "why_tests_cant": "every pattern of partial data, interruptions and heartbeats must be considered, each with its clock readings", "anchors": ["librabbitmq/amqp_socket.c: recv_with_timeout wait_frame_inner amqp_simple_wait_frame_noblock simple_rpc_inner amqp_simple_rpc amqp_poll", "librabbitmq/amqp_time.c: amqp_time_from_now amqp_time_ms_until amqp_time_first", "librabbitmq/amqp_consumer.c: amqp_consume_message", "librabbitmq/amqp_api.c: amqp_publisher_confirm_wait"]}
{"id": "C62", "title": "amqp-publish publishes exactly the messages asked for", "statement": "If amqp-publish succeeds, it has sent, one after the other and each completely, exactly the messages asked for: the argument of --body, or every line of standard input (--line-buffered), or all of standard input; each to the given exchange with the given routing key, with exactly the properties of the options (persistent or not, content type and encoding, reply-to, the headers 'key: value'; a header without a colon is ignored). If it fails, it has sent a beginning of that; without exchange and routing key it sends nothing.", "quantifier": "all combinations of options, inputs, schedules of reads, servers and socket schedules", "why_tests_cant": "inputs and options are unbounded and every interruption point of the connection must be considered", "anchors": ["tools/publish.c: main do_publish", "tools/common.c: read_all die_amqp_error", "librabbitmq/amqp_api.c: amqp_basic_publish"]}
{"id": "C63", "title": "amqp-consume acknowledges a message only after the command succeeded", "statement": "amqp-consume gives every message to its own run of the command, with the complete body as standard input, in order, and acknowledges it if and only if the command exited with status 0 and --no-ack was not given. With --count n it ends after n messages. The prefetch count it sets is the smaller of --count and --prefetch-count.", "quantifier": "all sequences of frames, behaviours of the commands (writes, exit statuses) and statuses of acknowledgements", "why_tests_cant": "histories of frames and command runs are unbounded", "anchors": ["tools/consume.c: do_consume", "tools/unix/process.c: pipeline finish_pipeline", "tools/common.c: copy_body write_all"]}
{"id": "C64", "title": "amqp-consume binds the queue with every routing key", "statement": "With --exchange and --routing-key k1,k2,... amqp-consume declares the queue and binds it to the exchange with every one of the comma separated keys before it consumes from it (from the queue the server named, if --queue was not given); it does not go on if one of these calls fails. Without --exchange it declares the queue only if asked to or if it has no name. Printing the name of the queue writes only into its block.", "quantifier": "all options, numbers of keys and replies of the server", "why_tests_cant": "key lists are unbounded strings", "anchors": ["tools/consume.c: setup_queue stringify_bytes"]}
{"id": "C65", "title": "amqp-get: exit status and output tell what happened", "statement": "amqp-get exits with status 2 and prints nothing exactly if the queue was empty, with status 0 only after it has printed the complete body of a message, with another status (or not at all) otherwise, having printed a beginning of the body.", "quantifier": "all replies, sequences of frames and schedules of writes", "why_tests_cant": "frames and write schedules are unbounded", "anchors": ["tools/get.c: main do_get", "tools/common.c: copy_body"]}
{"id": "C66", "title": "A descriptor the library has closed is never touched again", "statement": "Once the library has closed the socket (an RPC timed out, the server missed its heartbeats, login failed), no call, however many follow and in whatever order, sends, receives, polls or closes on the old descriptor or waits on it; the connection stays closed, and no call that sends (header, frame, method, publish, ack, nack, reject) reports success.", "quantifier": "all sequences of calls, connection states, inputs and answers of the operating system", "why_tests_cant": "the descriptor may have been reused by another part of the process, which a test does not see; every path of every call must check", "anchors": ["librabbitmq/amqp_tcp_socket.c: amqp_tcp_socket_send_inner amqp_tcp_socket_recv amqp_tcp_socket_close", "librabbitmq/amqp_openssl.c: amqp_ssl_socket_send amqp_ssl_socket_recv amqp_ssl_socket_close", "librabbitmq/amqp_socket.c: do_poll recv_with_timeout wait_frame_inner amqp_simple_rpc"]}
{"id": "C67", "title": "Connections, messages and envelopes give back all their memory, once", "statement": "A program creates connections with amqp_new_connection, uses them (tuning, receiving frames on any channels, releasing buffers, logging in, creating sockets), reads messages and envelopes, and destroys each object with its destroy function, in any order and with failures of malloc, realloc or the clock anywhere. No block is ever freed twice and no block that does not belong to the object being destroyed is freed; at every moment the live memory is exactly what the objects that still exist can reach, and when all are destroyed nothing is left. A call that fails leaves no memory behind.", "quantifier": "all programs (lists of creations, uses and destructions of any number of objects) and all failures of malloc, realloc and the clock", "why_tests_cant": "Leaks and double frees depend on the history of the object (which channels got pools, which pages were recycled, which socket was replaced) and on which of the allocations fails; tests exercise a few histories without failures.", "anchors": ["librabbitmq/amqp_connection.c: amqp_new_connection amqp_destroy_connection amqp_tune_connection amqp_set_socket amqp_maybe_release_buffers_on_channel", "librabbitmq/amqp_mem.c: amqp_get_or_create_channel_pool amqp_pool_alloc recycle_amqp_pool empty_amqp_pool amqp_bytes_malloc_dup", "librabbitmq/amqp_consumer.c: amqp_read_message amqp_consume_message amqp_destroy_message amqp_destroy_envelope"]}
{"id": "C68", "title": "Methods and constants are named as the protocol names them", "statement": "amqp_method_name(n) is the name of the AMQP 0-9-1 (or RabbitMQ) method with number n and NULL for every other number; amqp_method_has_content(n) is true exactly for basic.publish, return, deliver and get-ok; amqp_constant_name(n) is the name of the constant, or (unknown); amqp_constant_is_hard_error(n) is true exactly for the reply codes that close the connection.", "quantifier": "all method numbers and all integers", "why_tests_cant": "A test checks some of the 2^32 numbers; that no other number has a name, and no two methods the same name, needs all of them.", "anchors": ["librabbitmq/amqp_framing.c: amqp_constant_name amqp_constant_is_hard_error amqp_method_name amqp_method_has_content"]}
{"id": "C69", "title": "Programs with their own event loop miss no frame", "statement": "A program that waits for the socket itself (select, poll, epoll) asks amqp_frames_enqueued and amqp_data_in_buffer first. If both say no, every frame received completely has been taken out of the library and only a proper part of a frame is left, so waiting for the socket cannot stall. If frames are enqueued, or the bytes received contain a complete frame, the next amqp_simple_wait_frame(_noblock) returns the first of them without any system call (but the clock).", "quantifier": "all histories of calls, all streams of well-formed frames, all ways the stream is cut into reads, all timeouts", "why_tests_cant": "Whether a frame is stuck in a buffer depends on how TCP cut the stream; tests see a few cuts.", "anchors": ["librabbitmq/amqp_socket.c: amqp_frames_enqueued amqp_data_in_buffer amqp_simple_wait_frame_noblock wait_frame_inner consume_one_frame"]}
{"id": "C70", "title": "Nothing fails without a cause", "statement": "While the operating system and the network do not fail, memory suffices, the clock does not go back and the server sends correct frames, no call reports a false error: a call that sends succeeds if what it is to send has a representation that fits into a frame; an RPC whose request fits never ends with a library error; waiting for a frame never reports a timeout, a closed connection or bad data; reading a message fails only when the server sent something else. This holds for each call of any history: no call leaves the connection in a state that makes a later one fail.", "quantifier": "all histories of calls (with timeouts up to 23 days), all answers of the system that are not failures (short writes, interrupted calls, sockets not ready, any cut of the stream into reads), all streams of well-formed frames", "why_tests_cant": "A false error needs a particular interleaving (EINTR here, a short write there, half a frame, a heartbeat that has come due) that tests do not produce.", "anchors": ["librabbitmq/amqp_socket.c: amqp_poll do_poll amqp_try_send recv_with_timeout amqp_try_recv wait_frame_inner amqp_simple_wait_frame_on_channel simple_rpc_inner", "librabbitmq/amqp_api.c: amqp_basic_publish amqp_channel_close amqp_basic_get amqp_publisher_confirm_wait", "librabbitmq/amqp_consumer.c: amqp_read_message amqp_consume_message", "librabbitmq/amqp_connection.c: amqp_send_frame amqp_handle_input"]}
{"id": "C71", "title": "A session with a well-behaved server works from the login on", "statement": "A program opens a connection, logs in (amqp_login, amqp_login_with_properties) and makes any calls. If nothing fails (as in C70), the arguments are in the documented ranges and fit, and the server speaks AMQP 0-9-1, offers the mechanism, proposes limits and opens the virtual host (with heartbeats in between wherever it likes, its frames cut in any way), then the login reports success, and every later call reports errors only as C70 allows, with the frame size that was negotiated as the limit.", "quantifier": "all servers (properties, mechanisms, limits), all logins and all histories of calls after them, all answers of the system that are not failures, all cuts of the stream, all timeouts up to 23 days", "why_tests_cant": "The login is the part of the protocol where limits change under way: buffers are reallocated while half of a later frame may have arrived. Tests have one server and one timing.", "anchors": ["librabbitmq/amqp_socket.c: amqp_login_inner amqp_login amqp_login_with_properties simple_wait_method_list amqp_send_method_inner", "librabbitmq/amqp_connection.c: amqp_tune_connection amqp_handle_input", "librabbitmq/amqp_table.c: amqp_table_clone"]}
{"id": "C72", "title": "The bytes a session puts on the wire are exactly the frames asked for", "statement": "Take any history of calls on an established connection. As long as no call has reported a broken connection (every call so far succeeded, got an answer of the server, was a wait that ended with a frame, an unexpected frame or a timeout, or was refused because the frame cannot be represented or does not fit), the bytes written to the socket are exactly the frames these calls ask for - the documented frame of each call, whole, in the order of the calls - with nothing but whole heartbeat frames between them and none within a frame. One more call, whatever becomes of it (failure, blocking forever, process killed in the middle), extends this to a beginning of what that call asks for. (That a wait which ended with an unexpected frame has not left half a heartbeat is shown for clocks that do not go back.)", "quantifier": "all histories of sending, waiting, RPC, publishing and acknowledging calls with valid arguments, all answers of the system (partial writes, EINTR, would-block, errors, clock readings), all frames received in between, heartbeats on or off", "why_tests_cant": "The stream of bytes is produced by many calls, each with its own retries, and by heartbeats that are inserted by whatever call happens to wait. One schedule where a heartbeat or a frame goes out in part and a later call goes on as if nothing had happened ruins the connection; tests see one schedule.", "anchors": ["librabbitmq/amqp_connection.c: amqp_send_frame_inner amqp_send_frame", "librabbitmq/amqp_socket.c: amqp_try_send wait_frame_inner amqp_try_recv amqp_simple_rpc simple_rpc_inner amqp_send_header", "librabbitmq/amqp_api.c: amqp_basic_publish amqp_channel_close amqp_connection_close amqp_basic_ack amqp_basic_get", "librabbitmq/amqp_consumer.c: amqp_consume_message amqp_read_message"]}
{"id": "C73", "title": "Each call reports only the statuses on its list", "statement": "For each call there is a complete list of what it can report besides success and an answer of the server: waiting for a frame reports the five ways the link or the clock fails, the four ways input is refused, a missed heartbeat, and a timeout only if a timeout was given (INVALID_PARAMETER and nothing else if it is negative); sending adds the five ways the frame cannot be encoded; a synchronous call reports a timeout only if one is set for RPCs; and so on. Internal codes (would block, want read, want write) never escape. Everything reported is a value declared in amqp.h, except that amqp_login can report the numbers 1 to 7. The lists for waiting and sending are exact: each status on them occurs.", "quantifier": "all histories of calls (timeouts negative, none or up to 23 days), all behaviours of the system, the peer and the allocator, open, closed and broken connections, clocks that do not go back", "why_tests_cant": "A program that switches over the status must know all of them. A rare one needs a rare schedule: a test that never produced it says nothing about its absence.", "anchors": ["include/rabbitmq-c/amqp.h: amqp_status_enum_ amqp_send_frame amqp_simple_wait_frame amqp_basic_publish", "librabbitmq/amqp_socket.c: amqp_poll do_poll amqp_try_send recv_with_timeout wait_frame_inner simple_rpc_inner amqp_login_inner", "librabbitmq/amqp_connection.c: amqp_send_frame amqp_tune_connection amqp_handle_input", "librabbitmq/amqp_consumer.c: amqp_read_message amqp_consume_message"]}
{"id": "C74", "title": "What a status says about the effect of the call", "statement": "A call that only sends (amqp_send_frame, amqp_send_method, ack, nack, reject, publish) and reports a failure other than TIMER_FAILURE has not sent everything it was asked to send: at most a beginning of its frames. Without heartbeats TIMER_FAILURE does not occur. TABLE_TOO_BIG and INVALID_PARAMETER from a call that sends one frame (synchronous calls included) mean that nothing was sent. The statuses' notes in amqp.h about the effect of the call are true: \"the message was not sent\", \"the frame was not sent\", \"the connection has been closed\".", "quantifier": "all calls that send, all messages and frames, all behaviours of the system, the peer and the clock, heartbeats on or off", "why_tests_cant": "A program decides from the status whether to send again. Whether a failed call can still have sent its message depends on the point in the schedule where it failed; a test produces a few of them.", "anchors": ["include/rabbitmq-c/amqp.h: amqp_send_frame amqp_send_method amqp_basic_publish amqp_simple_wait_frame amqp_simple_wait_method", "librabbitmq/amqp_connection.c: amqp_send_frame_inner amqp_send_frame", "librabbitmq/amqp_socket.c: amqp_try_send amqp_simple_rpc simple_rpc_inner wait_frame_inner", "librabbitmq/amqp_api.c: amqp_basic_publish"]}
{"id": "C75", "title": "What a call has sent is not held back by the system", "statement": "The library marks a send with MSG_MORE when more data follows, so that the kernel may wait for it. Every call other than amqp_basic_publish sends all its bytes without the mark; a successful amqp_basic_publish ends with a send without it, so the whole message is transmitted at once and does not wait for the next call.", "quantifier": "all calls, arguments and messages, all frame sizes, all answers of the system (partial writes, EINTR, would-block), heartbeats on or off", "why_tests_cant": "A message held back shows up only as a delay of its last segment, for particular body lengths, on particular systems; tests compare contents.", "anchors": ["librabbitmq/amqp_api.c: amqp_basic_publish", "librabbitmq/amqp_tcp_socket.c: amqp_tcp_socket_send", "librabbitmq/amqp_connection.c: amqp_send_frame_inner", "librabbitmq/amqp_socket.c: amqp_try_send"]}
{"id": "C76", "title": "Waiting for a method takes one frame and judges it", "statement": "amqp_simple_wait_method does to the connection exactly what amqp_simple_wait_frame without a timeout does: the same system calls in the same order, the same bytes sent (heartbeats), the same frames read, the same frame taken from the front. It reports OK and the decoded arguments if and only if that frame is a method frame on the channel asked for with the method asked for; WRONG_METHOD if there was a frame and it is another one, and that frame is gone; and the status of the wait otherwise.", "quantifier": "all histories of calls before it, all channels and methods asked for, all frames pending or arriving, all behaviours of the system and the clock", "why_tests_cant": "Which frame comes next depends on what earlier calls left pending and on the server; a test that always gets the expected method does not see what becomes of the others.", "anchors": ["librabbitmq/amqp_socket.c: amqp_simple_wait_method simple_wait_method_inner simple_wait_method_list amqp_simple_wait_frame"]}
{"id": "C77", "title": "A TLS socket never accepts an old protocol version, and its settings mean what they say", "statement": "Whatever settings are called with whatever arguments and whatever OpenSSL answers, a TLS socket never accepts a protocol version other than TLS 1.2 and TLS 1.3; a new one accepts both. amqp_ssl_socket_set_ssl_versions succeeds only for a range of supported versions, then exactly that range is accepted until the next accepted call; a range that is reversed or names an unsupported version is refused with the documented status and changes nothing. A certificate and key that were accepted stay in use until another call on keys; a key in memory of more than INT_MAX bytes is refused. No setting leaks an OpenSSL object.", "quantifier": "all sequences of settings with all arguments, all answers of OpenSSL to each call", "why_tests_cant": "The guarantee is about every sequence of settings, including those where OpenSSL refuses half of a setting; tests call each setting once, with an OpenSSL that accepts.", "anchors": ["librabbitmq/amqp_openssl.c: amqp_ssl_socket_new amqp_ssl_socket_set_ssl_versions get_tls_version amqp_ssl_socket_set_key amqp_ssl_socket_set_key_buffer amqp_ssl_socket_set_cert amqp_ssl_socket_set_cacert amqp_ssl_socket_enable_default_verify_paths amqp_ssl_socket_set_key_passwd", "include/rabbitmq-c/ssl_socket.h: amqp_tls_version_t"]}
{"id": "C78", "title": "amqp-declare-queue and amqp-delete-queue: exit status 0 means done", "statement": "If amqp-declare-queue (amqp-delete-queue) exits with status 0, then it has sent the queue.declare (queue.delete) frame for the queue and the options given, the server has answered it, the name of the queue (the number of messages) from that answer and nothing else was printed, and the channel and then the connection were closed with code 200. Whatever happens otherwise - an error, a server that refuses, no answer - what was sent is a beginning of these frames (with heartbeats between them), anything printed comes from the server's answer, the status is 1 and one line on standard error says which step failed and why. Without a queue name, status 1 and nothing is sent.", "quantifier": "all queue names and options, all frames the server sends, all behaviours of the system, the clock and the allocator", "why_tests_cant": "Scripts rely on the exit status; whether it can be 0 without the queue existing depends on the server's answers and on where the connection breaks.", "anchors": ["tools/declare_queue.c: main", "tools/delete_queue.c: main", "tools/common.c: close_connection die_rpc die_amqp_error", "librabbitmq/amqp_framing.c: amqp_queue_declare amqp_queue_delete", "librabbitmq/amqp_api.c: amqp_channel_close amqp_connection_close"]}
{"id": "C79", "title": "A connection owns its sockets", "statement": "Whatever sequence of socket constructors, handing over of descriptors, opens, verification settings and closes a program makes on one connection, every descriptor that the library opened or was given is closed exactly once, by the replacement of its socket, by its close or by amqp_destroy_connection, and never twice; every TLS object, certificate and TLS context that was created is freed; a constructor that fails leaves the connection with its old socket, still open. After amqp_destroy_connection nothing is left, except descriptors which the program itself dropped by calling amqp_tcp_socket_set_sockfd on a socket that is open, which the header forbids.", "quantifier": "all sequences of socket operations and all answers of the operating system and of OpenSSL for which close() succeeds, the clock works and timeouts are sane", "why_tests_cant": "A leaked or doubly closed descriptor depends on which call of a long sequence failed and how; double closes only hurt when another thread reuses the number.", "anchors": ["librabbitmq/amqp_connection.c: amqp_set_socket amqp_set_sockfd amqp_get_sockfd amqp_destroy_connection", "librabbitmq/amqp_socket.c: amqp_socket_delete amqp_socket_open_noblock amqp_socket_close", "librabbitmq/amqp_tcp_socket.c: amqp_tcp_socket_new amqp_tcp_socket_set_sockfd", "librabbitmq/amqp_openssl.c: amqp_ssl_socket_new amqp_ssl_socket_delete"]}
{"id": "C80", "title": "A failed tool says what went wrong", "statement": "After any history of calls, when a synchronous call of a command line tool fails, the tool stops with exactly one line on standard error: the context it was given, a colon, and either the library's text for the status or, when the server closed the channel or the connection during this call, which of the two, the server's reply code and the server's reply text (up to its first NUL), never truncated and never read or written outside the tool's 512 byte buffer. It goes on only after a normal reply.", "quantifier": "all histories of calls, all calls, all channels and arguments, all bytes a server sends, all contexts, all reply codes and texts; the status must differ from INT_MIN (which never occurs on a steady clock)", "why_tests_cant": "The reply code and the text are chosen by the server; whether the fixed buffer suffices must be known for every text, and whether the report is of this call and not of an earlier one for every history.", "anchors": ["tools/common.c: die_rpc die_amqp_error amqp_rpc_reply_string amqp_server_exception_string", "librabbitmq/amqp_api.c: amqp_error_string2"]}
{"id": "C81", "title": "A login never gets ahead of the server and keeps the credentials until the mechanism is offered", "statement": "At every moment of amqp_login (or amqp_login_with_properties), whether it has returned or is stuck or fails anywhere, what has been put on the wire is: the protocol header or a beginning of it; only after a greeting with version 0-9 whose list of mechanisms has the mechanism of the credentials as a word, also start-ok or a beginning of it; only after the server's tune, also tune-ok with the limits agreed on or a beginning of it; then open or a beginning of it, and heartbeats. In particular no part of the user name or the password is sent to a server that has not greeted so.", "quantifier": "all servers (every sequence of bytes), all schedules, timeouts and failures of the system and of the allocator, all points in time, all credentials and parameters", "why_tests_cant": "That a password is not leaked early is a statement about every prefix of every run against every misbehaving server.", "anchors": ["librabbitmq/amqp_socket.c: amqp_login amqp_login_with_properties amqp_login_inner sasl_mechanism_in_list amqp_simple_wait_method"]}
{"id": "C82", "title": "amqp-declare-queue and amqp-delete-queue as whole programs", "statement": "Started with options that determine a host, port, virtual host, user and password, the program exits with 0 only if it connected to exactly that host and port (with TLS: to a peer whose certificate was verified for the host), logged in as that user in that virtual host, opened channel 1, put on the wire the request asked for on the command line followed by the orderly closes and nothing else but heartbeats, and printed what the server answered. It exits with 1 otherwise, with one line on standard error that names the step (opening the socket to host:port, logging in, opening the channel, the request, a close) and the reason (text of the library's status or the server's own words), and the wire holds a beginning of that conversation. At any moment before, the wire holds a beginning of it. Without a queue name nothing is connected to. Bad options: a message and no connection.", "quantifier": "all option values, all answers of the operating system, the resolver, OpenSSL and the server, all schedules and failures, all points in time", "why_tests_cant": "Each run of a test is one server and one schedule; that no run sends the request on a connection not verified or to the wrong host concerns all of them.", "anchors": ["tools/common.c: make_connection init_connection_info die_amqp_error die_rpc close_connection", "tools/declare_queue.c: main", "tools/delete_queue.c: main"]}
{"id": "C83", "title": "amqp-publish as a whole program", "statement": "Started with an exchange or a routing key and options that determine a host, port, virtual host, user and password, amqp-publish exits with 0 only if it connected to exactly that host and port (with TLS: verified for that host), logged in as that user in that virtual host, opened channel 1 and put on the wire every message it was asked to publish (the body, all of standard input, or each line), complete, once, in order, cut into frames of the agreed size, with the exchange, routing key, headers and properties of the options, followed by the orderly closes and nothing else but heartbeats between messages. Otherwise it exits with 1 and one line on standard error that names the step and the reason; then and at any moment before, the wire holds a beginning of that; if reading standard input failed, nothing is published. Without exchange and routing key nothing is connected to. Standard error begins with one line for each header that has no colon, in order.", "quantifier": "all option values, all inputs, all answers of the operating system, the resolver, OpenSSL and the server, all schedules and failures, all points in time", "why_tests_cant": "Each run of a test is one server, one input and one schedule; that success means that all messages were handed over completely, and on the right connection, concerns all of them.", "anchors": ["tools/publish.c: main do_publish", "tools/common.c: make_connection read_all close_connection die_amqp_error"]}
{"id": "C84", "title": "amqp-get as a whole program", "statement": "Started with a queue name and options that determine a host, port, virtual host, user and password, amqp-get exits with 0 only if it connected to exactly that host and port, logged in there, asked for a message of that queue on channel 1, the server answered basic.get-ok, and standard output is the body of a message the server sent: a header frame and body frames whose fragments, in order, are exactly the output, of exactly the announced size, and (if nothing was lost for lack of memory) they are the first frames other than heartbeats that came beside the answer; then channel and connection were closed. It exits with 2 only if the server said that the queue is empty, and then it prints nothing. Otherwise it exits with 1, one line on standard error says what failed (including the type of an unexpected frame), and what it printed is a beginning of the content that was received. At any moment the wire holds a beginning of login, channel.open, this one request and the closes.", "quantifier": "all option values, all answers of the operating system, the resolver, OpenSSL and the server, all schedules of short writes, all failures, all points in time", "why_tests_cant": "A test has one message, one fragmentation and one schedule; that exit status 0 means that the whole body and nothing else was printed concerns all of them.", "anchors": ["tools/get.c: main do_get", "tools/common.c: copy_body write_all make_connection close_connection die_amqp_error die_rpc"]}
{"id": "C85", "title": "amqp-consume as a whole program", "statement": "Started with a command and options that determine where to connect, amqp-consume opens one session there, and on channel 1 it makes exactly the calls that its options say, in order: queue.declare (auto-delete) unless a queue is named and neither an exchange nor --declare nor --exclusive is given, queue.bind of the queue (the named one, or the one that the server has named) for every non-empty comma-separated routing key, basic.qos for --count and for a smaller --prefetch-count, basic.consume. Then it takes the frames of the server in the order in which they came, those that came early, between the answers, included: of every delivered message the whole body and nothing else is given to one run of the command, and the message is acknowledged, with its own delivery tag and alone, if and only if the command has exited with status 0 and --no-ack was not given; the acknowledgement follows the exit of the command. It exits with 0 only after --count messages (frames that are no delivery count too), and then channel and connection were closed. If a call, a frame, the command, an acknowledgement or a close fails, it exits with 1 and standard error says what has failed; no later message is acknowledged. At any moment the wire holds a beginning of the login, these requests, the acknowledgements of the messages handled so far and the closes.", "quantifier": "all option values, all numbers of messages, all fragmentations, all answers of the operating system, the resolver, OpenSSL and the server, all results of the command, all failures, all points in time", "why_tests_cant": "A message that is acknowledged although it was not completely handled is lost; that this happens under no order of frames, fragmentation, failure of the command or of the connection cannot be tested.", "anchors": ["tools/consume.c: main do_consume setup_queue stringify_bytes", "tools/common.c: copy_body make_connection close_connection die_amqp_error die_rpc", "tools/unix/process.c: pipeline finish_pipeline"]}
{"id": "C86", "title": "signals, interruptions and blocking", "statement": "Sending or receiving on a connection whose peer is gone never raises SIGPIPE, plain or TLS, handshake and shutdown included: it gives an error status. On a plain socket a system call that was interrupted by a signal is repeated with the same arguments until it is answered otherwise, an interruption is never reported; would-block is told from failure, end of file from both. Under TLS the retry flag that OpenSSL reads says after every use of the socket exactly whether that use may be repeated (would block, interrupted, not yet connected), never something left over from an earlier use, and the four kinds of results of SSL_write and SSL_read are told apart. A closed socket is never used.", "quantifier": "all results and error numbers of send and recv, any number of interruptions, all behaviours of OpenSSL (any program over the BIO), all data", "why_tests_cant": "Signals and interruptions come at any moment, and what OpenSSL does with the BIO depends on the peer; a test sees few of the combinations and cannot provoke most error numbers.", "anchors": ["librabbitmq/amqp_tcp_socket.c: amqp_tcp_socket_send amqp_tcp_socket_recv", "librabbitmq/amqp_openssl.c: amqp_ssl_socket_send amqp_ssl_socket_recv", "librabbitmq/amqp_openssl_bio.c: amqp_openssl_bio_write amqp_openssl_bio_read amqp_openssl_bio_should_retry"]}
{"id": "C87", "title": "frames over TLS", "statement": "Over TLS the peer gets, decrypted, the frames that were sent, in order and unchanged: a frame all of it if the call succeeds, a beginning of it if it fails, however OpenSSL cuts the data into records and whenever a record blocks and has to be sent again.", "quantifier": "all frames, all sequences of frames, all sizes of records, all schedules of blocking, renegotiation, timeouts and errors", "why_tests_cant": "Records block only when the peer is slow, and what must then be repeated depends on the moment; the failures need a blocked record, an error and another send in a certain order.", "anchors": ["librabbitmq/amqp_openssl.c: amqp_ssl_socket_send", "librabbitmq/amqp_socket.c: amqp_try_send", "librabbitmq/amqp_connection.c: amqp_send_frame_inner"]}
{"id": "C88", "title": "a whole session with a server that keeps to the frame format is memory safe", "statement": "From amqp_new_connection on, with amqp_login, amqp_tune_connection and any other calls in any order: as long as the server sends frames of the protocol - methods of its catalogue with arguments of their types, content headers of class basic, bodies and heartbeats, in any order, at any time, on any channel, of any size - the library never reads or writes memory that it should not, in whatever pieces the bytes arrive, and also when the login fails, when frames are larger than agreed, when the network fails, or when calls are made after one that has failed.", "quantifier": "all sequences of calls with arguments of their types, all sequences of frames, all schedules, fragmentations and failures of the network and of the timers", "why_tests_cant": "A test can replay a few servers; a server may send any frame at any moment, and an error leaves the connection in a state in which the next calls have to be safe as well.", "anchors": ["librabbitmq/amqp_socket.c: amqp_login amqp_login_inner wait_frame_inner amqp_simple_wait_method_list", "librabbitmq/amqp_connection.c: amqp_handle_input amqp_tune_connection amqp_send_frame_inner", "librabbitmq/amqp_framing.c: amqp_decode_method amqp_decode_properties"]}
{"id": "C89", "title": "waiting for the socket: poll() and select() versions", "statement": "The library waits for its own socket to become readable or writable by one system call after the other until one is not interrupted by a signal: each asks for the time that is left until the deadline then - without limit if there is none, not at all if it has passed - and the caller is told ready, timed out or failed as the last one says.  Built with poll() and built with select() it tells the same, whatever a previous select() left in the sets.", "quantifier": "all descriptors, directions, deadlines, sequences of clock readings, interruptions and results of the system calls", "why_tests_cant": "A test cannot interrupt every round of the loop, and select() changes its arguments; only the code with poll() is compiled where the tests run.", "anchors": ["librabbitmq/amqp_socket.c: amqp_poll", "librabbitmq/amqp_time.c: amqp_time_ms_until amqp_time_tv_until"]}
{"id": "C90", "title": "amqp-consume: the commands' file descriptors and exit status", "statement": "Every command that amqp-consume starts has a new pipe as its standard input and otherwise the descriptors that amqp-consume itself was given - not the connection, not an end of any other command's pipe, and nothing that could be written to its own pipe, so that it sees the end of the message as end of file.  After each command amqp-consume has the same descriptors as before, over any number of messages.  A message is acknowledged only if its command exited with status 0, not if it was killed by a signal.", "quantifier": "all descriptor tables, all sequences of messages, all failures of pipe, posix_spawn, close and waitpid, all ways in which the commands end", "why_tests_cant": "A leak of a descriptor or a write end left open in a child shows after many messages or as a command that hangs; a test cannot try every table and every failure.", "anchors": ["tools/unix/process.c: pipeline finish_pipeline", "tools/consume.c: do_consume", "librabbitmq/amqp_socket.c: connect_socket"]}
{"id": "C91", "title": "The TLS engine is set once, given back once, and used only while it is set", "statement": "amqp_set_ssl_engine, which is documented to be thread-safe, and amqp_ssl_socket_set_key_engine may be called by any number of threads.  No engine is given back to OpenSSL twice and at most one is held; when no call of amqp_set_ssl_engine is in progress, it is the one that is set.  AMQP_STATUS_OK means that the engine asked for is set (none, for NULL), AMQP_STATUS_SSL_SET_ENGINE_FAILED that none is; in any case the previous one has been given back.  A private key is never asked from an engine that has been given back.  Without engine support every call returns AMQP_STATUS_SSL_UNIMPLEMENTED.", "quantifier": "all schedules of all calls in any number of threads, all failures of OpenSSL", "why_tests_cant": "What goes wrong depends on where one thread is interrupted by another.", "anchors": ["librabbitmq/amqp_openssl.c: amqp_set_ssl_engine amqp_ssl_socket_set_key_engine"]}
{"id": "C92", "title": "Byte strings are values", "statement": "Whatever a program does with amqp_cstring_bytes, amqp_empty_bytes, amqp_bytes_malloc, amqp_bytes_malloc_dup, amqp_bytes_free and amqp_bytes_equal - not using a string that was freed or could not be allocated, freeing only what amqp_bytes_malloc and amqp_bytes_malloc_dup returned, and that once - it is as if every variable had contents of its own: amqp_cstring_bytes gives the bytes before the NUL, a duplicate has the contents of its source at the time and neither changes with the other, amqp_bytes_equal says whether the contents are the same. When there is no memory the result is NULL with the length asked for, and amqp_bytes_free takes it. Nothing is read or freed that may not be, and when everything has been freed nothing is left.", "quantifier": "all programs of these calls and stores, all contents, all failures of malloc", "why_tests_cant": "Aliasing between strings depends on the whole history of duplications, stores and frees.", "anchors": ["librabbitmq/amqp_mem.c: amqp_cstring_bytes amqp_bytes_malloc amqp_bytes_malloc_dup amqp_bytes_free amqp_bytes_equal"]}
