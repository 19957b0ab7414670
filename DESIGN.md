# Formal model of rabbitmq-c in Rocq (Coq 8.16.1)

This file is written before the proofs and kept current.  It says what is
modelled and how, how every property of `properties.jsonl` is treated, what
is trusted, and what was found wrong in the code.

## 1. Layout

`rocq/theories/`.  Model files hold definitions only, each with a comment citing
the C lines; specifications are separate; proofs are in files of their own, so
that editing a model as a buggy program would change it exercises the theorems.

| model | specification | proofs | final statements | C code |
|---|---|---|---|---|
| `Base.v` (bytes, machine integers, blocks), `Codec.v` | - | `CodecProofs.v`, `CodecSwap.v` | `Prop_Table.v` | amqp_private.h |
| `TableModel.v` | `TableSpec.v` | `Table{Enc,Dec,RT}.v` | `Prop_Table.v` | amqp_table.c (codec) |
| `TableOps.v` | in `Prop_TableOps.v` | | `Prop_TableOps.v` | amqp_table.c (clone, merge, compare) |
| `FramingStmt.v`, `FramingGen.v` (extracted from the text of amqp_framing.c by `scripts/`), `FramingModel.v` | `MethodSpec.v` (hand-written AMQP 0-9-1 catalogue) | `Framing{Enc,Dec,Props}.v`, `EncStatus.v` | `Prop_Method.v` | amqp_framing.c |
| (names, from `FramingGen.v`) | `NameSpec.v` | | `Prop_Names.v` | amqp_framing.c:16-254 |
| `Frame.v` | `FrameSpec.v` | `Frame{Facts,Init,New,Proofs,Stream}.v` | `Prop_Frame.v` | amqp_connection.c:160-505 |
| `Pool.v` | `PoolSpec.v` | `PoolProofs.v` | `Prop_Pool.v` | amqp_mem.c |
| `Life.v` (blocks of connections, messages, envelopes; on the heap of `Pool.v`) | `LifeSpec.v` | `LifeProofs.v` | `Prop_Life.v` | amqp_connection.c (new, tune, destroy, release), amqp_mem.c, amqp_consumer.c (clone, read, destroy) |
| `Time.v` | - | | `Prop_Time.v` | amqp_time.c, timeouts of amqp_api.c |
| `Url.v` | `UrlSpec.v` | `UrlParse.v`, `UrlProofs.v` | `Prop_Url.v` | amqp_url.c |
| `Sasl.v`, `ErrStr.v` | | | `Prop_Sasl.v`, `Prop_ErrStr.v` | amqp_socket.c:508-616, amqp_api.c:21-158 |
| `Queue.v` (pointers) | | | `Prop_Queue.v` | amqp_socket.c (queued frames) |
| `Net.v`, `NetApi.v` | `NetSpec.v`, `CallSpec.v`, `HeartbeatSpec.v`, `TimeoutSpec.v`, `ClosedSpec.v`, `LoginSpec.v`, `CalmSpec.v`, `SessionSpec.v`, `SpeakSpec.v`, `CodesSpec.v`, `PushSpec.v`, `ParleySpec.v` | `Net*.v` | `Prop_{Send,Receive,Rpc,Calls,Release,Consume,Message,Publish,Relay,Safe,Login,Heartbeat,Progress,Timeout,Closed,Pending,Calm,Session,Wire,Codes,Effect,Push,WaitMethod,Parley}.v` | amqp_socket.c, amqp_tcp_socket.c, amqp_openssl.c (send, receive), amqp_connection.c, amqp_api.c, amqp_consumer.c, the RPC wrappers of amqp_framing.c |
| `Os.v` | `ConnectSpec.v` | `OsFacts.v`, `OsAcct.v` | `Prop_Connect.v`, `Prop_Tls.v` | amqp_socket.c:278-484, amqp_tcp_socket.c, amqp_openssl.c (open, close, delete, settings) |
| `Sockets.v` | in `Prop_Sockets.v` | | `Prop_Sockets.v` | amqp_connection.c (set_socket, set_sockfd, get_sockfd, destroy), amqp_socket.c (dispatch), constructors of sockets |
| `TlsConfig.v` | in `Prop_TlsConfig.v` | | `Prop_TlsConfig.v` | amqp_openssl.c (settings of the context) |
| `SslGlobal.v` | | | `Prop_SslGlobal.v` | amqp_openssl.c, amqp_openssl_bio.c (global state, threads) |
| `Tools.v`, `ToolOpts.v` | in the `Prop_` files | | `Prop_Tools.v`, `Prop_ToolOpts.v` | tools/common.c |
| `ToolError.v` | `ReportSpec.v` | | `Prop_ToolError.v` | tools/common.c:26-124 (error reports) |
| `ToolMain.v` | `ProgramSpec.v` | | `Prop_ToolMain.v` | tools/common.c:332-371, declare_queue.c, delete_queue.c (whole programs) |
| `ToolRun.v` | `RunSpec.v` | | `Prop_ToolRun.v` | tools/publish.c (whole program) |
| `ToolGet.v` | `GetSpec.v` | | `Prop_ToolGet.v` | tools/get.c (whole program), copy_body |
| `ToolListen.v` | `ListenSpec.v` | | `Prop_ToolListen.v` | tools/consume.c (whole program) |
| `Bio.v` | in `Prop_Bio.v` | | `Prop_Bio.v` | amqp_tcp_socket.c, amqp_openssl.c: send and recv; amqp_openssl_bio.c: read, write |
| `TlsRecords.v` | in `Prop_TlsRecords.v` | | `Prop_TlsRecords.v` | the sending functions over SSL_write with its records |
| `Net.v`, `NetApi.v` | in `Prop_Whole.v` | `NetStuck.v`, `NetRoomLogin.v`, `NetProper.v` | `Prop_Whole.v` | C88: whole sessions |
| `Waiting.v` | amqp_socket.c:135-231 (amqp_poll, both versions) | in `Prop_Waiting.v` | `Prop_Waiting.v` | C89 |
| `Process.v` | tools/unix/process.c, the loop of tools/consume.c | in `Prop_Process.v` | `Prop_Process.v` | C90 |
| `Engine.v` | amqp_openssl.c:39-43, 416-446, 598-632 | in `Prop_Engine.v` | `Prop_Engine.v` | C91 |
| `ByteStr.v` | amqp_mem.c:135-159, 204-210 | in `Prop_ByteStr.v` | `Prop_ByteStr.v` | C92 |
| `ToolPublish.v`, `ToolConsume.v`, `ToolQueue.v` | `ToolSpec.v` | | `Prop_ToolPublish.v`, `Prop_ToolConsume.v`, `Prop_ToolQueue.v` | tools/publish.c, consume.c, get.c, unix/process.c, declare_queue.c, delete_queue.c |

## 2. Modelling conventions

* Bytes are `Coq.Init.Byte.byte`; a C memory object is a `list byte`; pointers
  into it are offsets.  All reads and writes go through `slice`/`write`, which
  are `None` out of bounds: *undefined behaviour is an outcome* (`UB`) and
  memory safety theorems say that it does not occur.
* Machine integers are `Z` with explicit wrap-around (LP64: `size_t` 64 bit,
  `int` 32 bit).  Signed overflow is undefined behaviour or is proved absent.
* Host byte order is a parameter of the integer codec, both orders are proved.
* Allocation is an oracle which may fail, and whose blocks have arbitrary
  contents unless zeroed.
* The operating system (recv, send, poll, clock) is an oracle stream universally
  quantified over in the theorems: every schedule of partial sends, EINTR,
  would-block, errors, clock readings.  When the stream ends, the run is
  `Blocked`; prefix-style safety theorems hold for blocked runs as well.
* Loops that need not terminate (network loops) take fuel; theorems quantify over
  all fuel values; the outcome `OutOfFuel` is distinct from every C result.

## 3. Properties: what is modelled, how it is proved

A property that is false of the code has the status `partial`: a `_refuted` theorem
with a concrete history is the proof that it is false, a `_partial` theorem is the
strongest restriction proved.  The exact theorem names are in `MANIFEST.json`.

* C01 codec functions with mask/shift/memcpy for both host orders; proved equal to base-256 expansion.
* C02 C03 C04 C05 C06 the table codec, function by function; structural induction on (nested) values, recursion on the depth budget for the decoder.  C06 is false (keys over 255 bytes, deep nesting).
* C07 C08 per-method field lists are *extracted separately* from the encoder, the decoder, the struct declarations and the wrappers of amqp_framing.c; a generic interpreter stands for the uniform generated code; independent hand-written AMQP catalogue; round trip by induction on field lists.
* C09 C15 basic properties with the real flag bit positions; C15 is false (shift by >= 32).
* C10 C11 C12 C13 C14 amqp_handle_input as a state machine over (state, buffer, offset, target); segmentation independence by a lemma "feeding a ++ b is feeding a, then b"; delivery soundness against a specification of the frame format.  C13, C14 are false for short payloads / the first frame.
* C16 C17 C18 pools as a state machine with an allocation log; invariant over all histories.
* C19 C20 pool generations: every queued or returned frame remembers the generation of its channel's pool; invariant over API histories; C20 is false (the merged client properties live in a pool that login itself recycles).
* C21 C22 C23 table operations; C23 is false in corner cases.
* C24 C25 C26 C54 time arithmetic with wrap-around; C24, C25 are false at extremes.
* C27 C28 C29 URL parser over a NUL-terminated buffer; C29 is false for some bad escapes and ports.
* C30 C31 SASL; C32 error strings with the tables' sizes (C32 is false for INT_MIN, C31 for an empty external identity).
* C33 C34 C35 C36 C37 C38 C39 C40 C41 C42 C43 C44 C45 C46 C47 C48 C53 C55 C56 C57 the connection level in a state/oracle monad: a run consumes a list of events (what the operating system does) and yields a log of observations.  A weakest-precondition calculus (`NetFacts.v`) carries invariants and log specifications through every function; `exec_all` is a program that makes any list of API calls, and theorems over sessions are by induction on it.
    * C33 C34 C53 C40 C41: the bytes accepted by the socket are a prefix of the wire image, and the whole of it on success (`NetSend`, `NetWalk`, `Prop_Publish`).
    * C35 C38 C36 C37 C48 C47: an accounting identity between the bytes received, the frames decoded, the queue before and after and the frames returned (`NetAcct`, `NetOrder`, `NetWait`).
    * C56: a typing invariant of everything in the connection (`NetTyped`), the generation invariant and room in the send buffer (`NetRoom`) exclude undefined behaviour and aborts for sessions of "sane" calls.
    * C57: a measure on events: every loop consumes an event per round (`NetProg`, `NetFuel`), so the loop bounds of the model are irrelevant.
    * C44: two automata that read the log (`NetWatch`, `NetAttend`).
    * C45 C46: a specification of the handshake in terms of the frames of the log (`LoginSpec`).
    * C43 composes C40 and C42 across a server that relays.
* C49 C51 C58 the calls to the operating system and to OpenSSL with arbitrary answers; specification as inductive predicates on logs (`ConnectSpec`); resource balances.
* C50 a transition system of threads that create and delete TLS sockets; invariant over interleavings.
* C61 timeouts: the log of a call is checked by a small automaton that knows the last clock reading (`TimeoutSpec.v`); `NetPunctual.v` shows that every function keeps it out of the overslept state, `NetTimeUp.v` that the status TIMEOUT is returned only after a poll that lasted up to the deadline.
* C52 C59 C60 the tools' I/O loops, auth file and options.
* C62 amqp-publish as a program over the connection model: every message is a call that C40 describes; composition over the messages.  C63 C64 C65 amqp-consume and amqp-get over histories of frames, command runs and replies; `ToolSpec.v` says what "handled" means; induction on the history.
* C66 closed descriptors: `NetFd.v` shows that every function keeps the log within the automaton `fd_use` (`ClosedSpec.v`); `NetDeaf.v` that a run on a closed connection never takes an answer about the socket, so that it makes no such call.
* C67 memory: `LifeProofs.v` shows for every operation that the live blocks are the reachable ones plus a given rest (`holds`), `Prop_Life.v` lifts this to all programs by induction; the leaks and the double free are witnesses.
* C68 names: the extracted tables equal the hand-written ones by computation; lifted to all numbers.
* C69 event loops: `NetWell.v` (well-formed streams) gives what is left of the bytes; `wait_buffered` (`Prop_Pending.v`) runs the wait over a buffered frame by induction on the heartbeats before it.
* C70 no false errors: `CalmSpec.v` says which answers of the system are no failures and what each call may report then; `NetCalm*.v` is a Hoare logic of total correctness of results (`calmly`) over the invariant "the bytes in the receiver, the buffer and the rest of the schedule are a beginning of the remaining frames", one lemma per function.
* C71 sessions: `SessionSpec.v` says what a server and a login are; `NetCalmLogin.v` extends the logic of C70 with triples that change the stage (`trans`: other limits, a new part of the server's stream), through amqp_login_inner; then C70's lemma for all calls applies with the negotiated limit.  `Prop_Session.v` also derives the hypotheses for the usual login from lengths.
* C72 wire: `SpeakSpec.v` says which frames a call asks for (`asks`) and what a stream of whole frames with heartbeats between them is (`sent`, `part`).  `NetSpeak.v` (waits send whole heartbeats unless they fail), `NetWire.v` (each call; histories by induction), `NetNear.v`, `NetNearAll.v` and `DecStatus.v` (which statuses the heartbeat inside a wait can return, with a clock that does not go back) prove it; `Prop_Wire.v` has the statements.
* C73 statuses: `CodesSpec.v` has the list of each call and the hypotheses.  `NetCodes.v` (a weakest-precondition logic that carries the time and that every deadline is within 23 days), `NetCodesAll.v`, `NetCodesLogin.v` (each function) prove completeness; `Prop_Codes.v` has the statements, and a schedule for each status of the lists for waiting and sending.
* C74 effects: `NetShort.v` (a failed send has sent less than the frame, unless the clock failed), `Prop_Publish.v` (`publish_cuts`: the same for a message), `NetRefused.v` (a status of the encoder means nothing was sent; without heartbeats no clock is read); `Prop_Effect.v` has the statements, and a schedule against each note of amqp.h that is not true.
* C75 nothing held back: `NetPush.v` (the flag of every send() of every call, by the relation `flat`), `Prop_Push.v` (induction over the body frames of a publish; refuted for bodies that fill their last frame).
* C76 waiting for a method: both runs are computed side by side; a method frame carries a decoded method by the typing invariant of `NetTyped.v`.
* C77 TLS settings: `TlsConfig.v`, the answers of OpenSSL are a list; induction over the settings.
* C78 declare and delete tools: `ToolQueue.v` on top of the session model; C55 for the request and the closes, composed with the wire relation `sent`/`part` of C72.
* C79 ownership of sockets: `Sockets.v` puts the connection's socket pointer on top of `Os.v`; the balances of C58 are carried through arbitrary sequences of constructors, opens, closes.
* C80 reports of the tools: `ToolError.v` (snprintf into the static buffer), `ReportSpec.v`; the typing invariant of received frames gives the reply's members, C32 the status texts.
* C81 the wire during a login: `ParleySpec.v` says what may be out at any moment; proved along amqp_login_inner with postconditions for runs that stop anywhere (`NetLoginWire.v`).
* C82 whole programs: `ToolMain.v` joins the options (C60), the dialling of `Os.v`/`Sockets.v` (C49, C51), the login (C46, C81) and the rest (C78); `ProgramSpec.v` says what a run looks like.
* C83 amqp-publish as a whole program: `ToolRun.v` (with the texts on standard error), `RunSpec.v` (a session of any tool), by composing C82's dialling and login with C40 for each message and C55 for the closes.
* C84 amqp-get as a whole program: `ToolGet.v` (copy_body on the connection itself, not on a list of frames as in C52), `GetSpec.v` (what the content of a message is, where its frames come from); an invariant over the frames of the body, with the accounting of C38 (what arrives beside the answer stays queued, in order).
* C85 amqp-consume as a whole program: `ToolListen.v` (main, setup_queue and do_consume on the connection itself, the command as a list of results), `ListenSpec.v` (the calls that the options say, what it means that frames were consumed, where they come from); induction over the messages, with an invariant that says which received frames are still waiting.
* C86 signals, interruptions, blocking: `Bio.v` (system calls with flags and errno below Net.v; OpenSSL as an arbitrary program over the BIO, as a tree); induction over interruptions and over the tree, and a refinement to the events of Net.v.
* C87 frames over TLS: `TlsRecords.v` (SSL_write with the record that is still to be sent; the sending functions again on top of it); an invariant says what the peer will get, a simulation links it to Net.v.
* C88 whole sessions with login: `NetStuck.v` (after a refused frame the parser refuses every further byte and stays as it is, or goes on to read frames: a relation that holds of every call), `NetProper.v` (a stream of frames of the protocol, also with its eighth byte lost, contains no malformed frame), `NetRoomLogin.v` (the send buffer keeps up with the limit through login and tuning).
* C89 waiting with poll() and select(): `Waiting.v` (both versions of amqp_poll, with the arguments of the system calls).
* C90 the commands of amqp-consume: `Process.v` (pipeline and finish_pipeline with descriptor tables, file actions, exec and the status of waitpid; the loop of consume.c with them), refined to `ToolConsume.v`.
* C91 the TLS engine: `Engine.v` (amqp_set_ssl_engine and amqp_ssl_socket_set_key_engine cut at every access to the global pointer and every call of OpenSSL, any number of threads); invariant over all schedules.
* C92 byte strings: `ByteStr.v` (a memory of blocks, the five functions of amqp_mem.c and all programs that use them); invariant linking each variable to the block that it owns, then refinement of a specification in which variables are plain values.

Not expressible in a model: nothing in the list; section 5 says which code is left out.

## 4. Trusted base

* Coq's kernel (8.16.1), including the bytecode evaluator used by `vm_compute`
  (concrete cases and finite checks over the generated tables only).
* `Print Assumptions` is run for each final theorem at the end of its `Prop_` file and
  says "Closed under the global context": no axiom is used, not even of the standard
  library.  (Libraries that are merely loaded define axioms; no theorem here depends on them.)
* There is no `Axiom`, `Parameter`, `Admitted`, functor, module type or switched-off check.
* The correspondence between the C text and the model, by reading.  For amqp_framing.c it
  is mechanical: `scripts/` extract the field lists from the text.
* The reading of C: LP64, two's complement, `size_t` 64 bit, no strict-aliasing or
  struct padding effects.  The model of the operating system: `send` accepts at most what it
  is given, `recv` delivers at most what is asked for, `poll` with a negative timeout
  does not time out, `malloc` refuses more than PTRDIFF_MAX.  Of OpenSSL (`TlsRecords.v`): SSL_write
  with a blocked record checks address and length only (SSL_R_BAD_WRITE_RETRY) and sends that record.

## 5. What is not modelled

* Windows code paths, platforms without `MSG_MORE`.
* OpenSSL beyond its answers (section 1, `Os.v`; in `Net.v` SSL_write and SSL_read are one
  call each at the level of the plain text, and the session does not know that a failed close()
  of a TLS socket leaves no SSL object: C58 has that; the BIO callbacks and the records below
  SSL_write are in `Bio.v` and `TlsRecords.v`, which say when `Net.v` is right).
* `internal_error`, getters that only read a field.
* A connection whose socket was never set (every call would dereference a null pointer).
* In tools/: popt itself, SIGPIPE (a failing write() ends the program in the model, too).
* Simplifications inside a modelled function are named in the comment of its definition.

## 6. Findings

Things a user would call bugs, each with a machine-checked witness unless marked (reading).

1. A field table key longer than 255 bytes is encoded with a truncated length: the receiver gets another table or an error (C06_long_key_refuted); tables nested deeper than the decoder accepts can be sent (C06_deep_nesting_refuted).
2. Property flags: a third continuation word shifts an int by 32 or more (C15_three_flag_words_refuted).
3. A frame whose payload is shorter than its fixed part is read beyond its end (C13_malformed_frame_refuted, C56_malformed_refuted); the first frame of a connection is decoded by another path that loses a byte: a heartbeat as the first frame is refused (C14_first_heartbeat_refuted).
4. A pool request near SIZE_MAX wraps when it is rounded up (C16_huge_request_refuted); after an allocation failure a block can leak (C17_leak_after_failure_refuted).
5. amqp_simple_wait_frame_on_channel drops the queued frames before the one it returns (C37_earlier_frames_dropped_refuted).
6. amqp_try_recv (called while a frame is being sent, or by a publish after a missed heartbeat) overwrites unread bytes (C35_frame_lost_refuted, C38_reply_lost_refuted); heartbeats queued there are later returned to the application (C35_heartbeat_returned_refuted).
7. The last body frame of a message whose size is a multiple of the frame size is sent with MSG_MORE; a server that proposes frames of 8 bytes makes the client write outside its send buffer (C41_before_login_refuted).
8. amqp_handle_input after running out of memory leaves the connection in a state in which the bytes received are processed twice (reading).
9. amqp_table_entry_cmp with keys longer than INT_MAX (C21_gigantic_keys_refuted); merging tables with duplicate keys or empty tables (C23_*_refuted).
10. Deadlines: a timeout near the end of the range wraps around (C24_wraparound_refuted); amqp_time_ms_until truncates to int, so a deadline more than 24.8 days away gives a negative or arbitrary poll timeout (C25_far_deadlines_refuted).
11. amqp_error_string2(INT_MIN) reads outside its table (C32_int_min_refuted).
12. URLs: escapes such as "%+5" or "% 5" and ports such as " +5672" or "x:5672" are accepted (C29_*_refuted).
13. amqp_login treats a protocol header that was sent only in part as sent (C34_login_header_refuted, C46_header_not_sent_refuted); a server that refuses the login leaves the socket open (C46_socket_left_open_refuted).
14. amqp_get_client_properties after login reads memory that login has recycled (C20_refuted).
15. A connection.close or a content header of another class in the middle of a message (C42_connection_close_refuted, C42_foreign_header_refuted).
16. If a heartbeat cannot be sent, the call fails but leaves the socket open (C44_timeout_closes_refuted); heartbeats are sent without a deadline (reading).
17. TLS: a negative timeout leaks the SSL object (C49_failure_refuted); a failed close() leads to a double close and to SSL_shutdown(NULL) (C58_*_refuted); a failed initialisation in one thread frees the BIO method under another's live socket, and with assert() it aborts (C50_*_refuted).
18. amqp_release_buffers aborts in the middle of a frame, and login calls it where a frame may be half received (reading; excluded by hypothesis in C56).
19. After a failed amqp_tune_connection the recorded size of the send buffer exceeds the block (C41_failed_tune_refuted); a login with frame_max 0 calls realloc(p, 0), which frees the buffer that stays referenced.
20. Tools: read_all ignores allocation failures and doubles without bound, write_all does not retry after EINTR, copy_body underflows on a body longer than announced (C52_*_refuted); an auth file with an empty value that is not ended by a newline makes the tool read before its buffer (C59_authfile_refuted); --ssl without a port keeps 5672 and port numbers are taken modulo 2^32 (C60_options_refuted).
21. Timeouts: the content of a delivery is waited for without limit (C61_consume_refuted), and so is room to send the request of a synchronous call (C61_request_refuted); data that keeps arriving keeps a synchronous call going after its deadline (C61_late_reply_refuted); login turns its deadline into a timeout and back, so it slips by the time between two clock readings (C61_login_refuted).
22. amqp-publish: `--body` with `--line-buffered` publishes nothing and succeeds; a header without colon is said to be ignored but leaves an entry of kind 0 in the table, so nothing can be published; lines of 32768 bytes or more are split, and a NUL cuts a line (C62_*_refuted).
23. amqp-consume: `--count` also counts frames that are not deliveries (C63_count_refuted); without it the int counter overflows after 2^31 frames; empty routing keys are never bound, so `-r ""` leaves a fanout exchange unbound; `--exchange` without `--routing-key` calls strdup(NULL) (C64_*_refuted).  The limit of 1024 keys is never reached, the counter is not incremented.
24. Leaks: amqp_new_connection forgets the send buffer if the receive buffer cannot be allocated (amqp_connection.c:67-70, out_nomem does not free outbound_buffer); amqp_read_message forgets the pool with the copied properties if the body cannot be allocated (amqp_consumer.c:225, 232: `goto error_out1` should be error_out3; the server chooses the size of the body) (C67_*_refuted).
25. Statuses: amqp_simple_wait_frame also reports CONNECTION_CLOSED and SOCKET_CLOSED, amqp_send_frame also INVALID_PARAMETER, NO_MEMORY, HEARTBEAT_TIMEOUT, CONNECTION_CLOSED and SOCKET_CLOSED, none of which amqp.h lists (C73_wait_exact, C73_send_exact); amqp_login can report a positive number (C73_other_cases); with a timeout over 24.8 days the status is an arbitrary number (C73_excessive_timeout).
26. The notes of amqp.h on the effect of a failed call mislead: publish can report TIMER_FAILURE although the whole message was sent (a program that sends again duplicates it); amqp_send_frame can report TIMER_FAILURE though nothing was sent, BAD_AMQP_DATA though a part was sent; publish can report TABLE_TOO_BIG with its first frame sent, which leaves the channel in the middle of a message; SOCKET_ERROR, HEARTBEAT_TIMEOUT and WRONG_METHOD can be reported with the socket still open (C74_*_refuted).
27. amqp_basic_publish sends the last body frame with MSG_MORE when the body is a nonzero multiple of the usable payload (amqp_api.c:233 tests `remaining >= usable`, not `>`): the kernel may hold the end of the message back (up to 200 ms on Linux, or until the next send) although the call has succeeded (C75_held_back_refuted).
28. TLS settings are not atomic: when OpenSSL refuses the second half, amqp_ssl_socket_set_ssl_versions leaves the new minimum with the old maximum and amqp_ssl_socket_set_key the new certificate with the old key (C77_refused_unchanged_refuted, C77_failed_key_refuted).  The tools ignore the results of set_cacert and set_key (reading, tools/common.c).
29. amqp_tcp_socket_set_sockfd on a socket that is open forgets the old descriptor, which is never closed (C79_forgotten; tcp_socket.h forbids the call, nothing checks it).
30. The tools do not check amqp_new_connection for NULL, nor the results of amqp_ssl_socket_set_cacert and _set_key: with an unreadable CA file the program goes on (and then fails to verify the peer), with an unreadable key without a client certificate (reading, tools/common.c:340-356).
31. Over TLS a send that fails while a record is blocked (heartbeat timeout, a failing poll) leaves the record in OpenSSL; the next frame is encoded at the same address, so OpenSSL takes the call for the repetition of the old one, sends the old record and reports its length: the call succeeds, and the peer gets a stream that is no sequence of frames (C87_corrupted_refuted; SSL_write(3) requires the same arguments, and nothing closes the socket after the failure).
32. Built with select() instead of poll(), a connection whose descriptor is 1024 or more writes outside of the fd_set (FD_SET, amqp_socket.c:195-203) whenever it waits (C89_large_descriptor_refuted); nothing in amqp_open_socket or amqp_socket_open refuses such a descriptor.
33. amqp_ssl_socket_set_key_engine reads the global engine without the mutex: while another thread is in amqp_set_ssl_engine (documented to be thread-safe) it can ask for its key from an engine that has been given back (C91_race_refuted).
34. `amqp_bytes_malloc_dup(amqp_empty_bytes)` calls `memcpy` with a null pointer for 0 bytes, which C11 7.24.1 makes undefined and all implementations in use take (C92_empty_refuted; amqp_mem.c:142-150).

## 7. Tests against wrong programs

`scripts/mutate.py` applies each edit of `seeded/mutations.py` to a scratch copy of the
model and rebuilds everything; `seeded/LOG.jsonl` has the results: which proofs failed
and which theorems were tightened because an edit was not noticed.  A failing lemma
hides the theorems that depend on it, so the log names the first proof that breaks in
each file.
