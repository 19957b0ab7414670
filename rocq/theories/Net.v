(** Model of the connection layer: librabbitmq/amqp_tcp_socket.c,
    amqp_socket.c (sending, receiving, waiting, queueing) and the parts of
    amqp_connection.c that use them.

    The operating system is a list of events, consumed one per system call (and
    per allocation); if the list is exhausted, or the next event is not an answer
    to the call made, the run stops there ([Halt Blocked]).  So the set of all
    event lists is the set of all behaviours of the environment, and stopping at
    every possible point of every run is included.  The result of a run is the
    value returned, the new state of the connection and the list of observations
    made in the run. *)
From Coq Require Import String ZArith List Bool.
From Verif Require Import Base Codec TableModel FramingStmt FramingGen FramingModel Frame Time.
Import ListNotations.
Local Open Scope Z_scope.

(** ** The operating system *)
(** What send or SSL_write, and recv or SSL_read, may answer.  A connection has either
    kind of socket: the answers of both are possible for every connection (a superset of
    the behaviours of each).  [SAgain] and [RAgain] are EAGAIN and EWOULDBLOCK, or
    SSL_ERROR_WANT_WRITE for SSL_write and SSL_ERROR_WANT_READ for SSL_read.
    [SWantRead] and [RWantWrite] are the other two (a TLS renegotiation or key update).
    [SEof] and [ROk []] are SSL_ERROR_ZERO_RETURN (and end of file), [STls] and [RTls]
    any other TLS error.  SSL_write is modelled at the level of the plain text: what it
    accepted when it returned, not the records under way below it. *)
Inductive send_result := SOk (n : Z) | SIntr | SAgain | SErr | SWantRead | SEof | STls.
Inductive recv_result := ROk (bs : bytes) | RIntr | RAgain | RErr | RWantWrite | RTls.
Inductive poll_result := PReady | PTimeout | PIntr | PErr.
Inductive event :=
| EvClock (now : Z)                 (* clock_gettime, as nanoseconds; 0: it failed *)
| EvSend (r : send_result)
| EvRecv (r : recv_result)
| EvPoll (r : poll_result)
| EvClose (ok : bool)
| EvAlloc (ok : bool)               (* one or several allocations *)
| EvClone (oom : nat -> bool).      (* the allocations of a deep copy *)

(** What happened.  The first six are calls made; the others mark what the
    library did with what it received: a complete frame came out of
    amqp_handle_input; amqp_handle_input failed; unread bytes in
    sock_inbound_buffer were overwritten. *)
Inductive obs :=
| OClock (now : Z)
| OSend (more : bool) (bs : bytes)  (* the bytes accepted *)
| ORecv (bs : bytes)
| OPoll (write : bool) (timeout_ms : Z) (r : poll_result)
| OClose (ok : bool)
| OAlloc (ok : bool)
| OFrame (f : frame)
| OBad (st : Z)
| OLost (bs : bytes).

(** include/rabbitmq-c/amqp.h:554-573 amqp_rpc_reply_t *)
Inductive rpc_reply_t :=
| RNone                                     (* AMQP_RESPONSE_NONE *)
| RNormal (id : Z) (decoded : mstruct)      (* AMQP_RESPONSE_NORMAL *)
| RLibrary (library_error : Z)              (* AMQP_RESPONSE_LIBRARY_EXCEPTION *)
| RServer (id : Z) (decoded : mstruct).     (* AMQP_RESPONSE_SERVER_EXCEPTION *)

(** amqp_private.h:114-159, struct amqp_connection_state_t_.
    [c_in] has state, frame_max, header_buffer, inbound_buffer, inbound_offset,
    target_size (Frame.v).  [c_fd] is the descriptor of the socket (-1: closed); a
    connection whose socket was never set is not modelled.  [c_outbuf] is the
    block outbound_buffer points to.  [c_sbuf] are the unread bytes of
    sock_inbound_buffer (from sock_inbound_offset to sock_inbound_limit).
    [c_queue] is the list first_queued_frame .. last_queued_frame (Queue.v has the
    pointers), with the generation (Frame.v) of the pool its link was allocated in.
    [c_cprops] is client_properties with the generation of its pool; None is the
    empty table of a new connection. *)
Record conn := mkC {
  c_in : inst;
  c_fd : Z;
  c_outbuf : bytes;
  c_sbuf : bytes;
  c_queue : list (frame * nat);
  c_next_send : Z;              (* next_send_heartbeat *)
  c_next_recv : Z;              (* next_recv_heartbeat *)
  c_chmax : Z;
  c_hb : Z;
  c_to : timeouts;
  c_recent : rpc_reply_t;       (* most_recent_api_result *)
  c_sprops : table;             (* server_properties *)
  c_cprops : option (table * nat) }.

Definition set_in (c : conn) (s : inst) : conn :=
  mkC s (c_fd c) (c_outbuf c) (c_sbuf c) (c_queue c) (c_next_send c) (c_next_recv c) (c_chmax c) (c_hb c) (c_to c) (c_recent c) (c_sprops c) (c_cprops c).
Definition set_fd (c : conn) (fd : Z) : conn :=
  mkC (c_in c) fd (c_outbuf c) (c_sbuf c) (c_queue c) (c_next_send c) (c_next_recv c) (c_chmax c) (c_hb c) (c_to c) (c_recent c) (c_sprops c) (c_cprops c).
Definition set_outbuf (c : conn) (b : bytes) : conn :=
  mkC (c_in c) (c_fd c) b (c_sbuf c) (c_queue c) (c_next_send c) (c_next_recv c) (c_chmax c) (c_hb c) (c_to c) (c_recent c) (c_sprops c) (c_cprops c).
Definition set_sbuf (c : conn) (b : bytes) : conn :=
  mkC (c_in c) (c_fd c) (c_outbuf c) b (c_queue c) (c_next_send c) (c_next_recv c) (c_chmax c) (c_hb c) (c_to c) (c_recent c) (c_sprops c) (c_cprops c).
Definition set_queue (c : conn) (q : list (frame * nat)) : conn :=
  mkC (c_in c) (c_fd c) (c_outbuf c) (c_sbuf c) q (c_next_send c) (c_next_recv c) (c_chmax c) (c_hb c) (c_to c) (c_recent c) (c_sprops c) (c_cprops c).
Definition set_next_send (c : conn) (t : Z) : conn :=
  mkC (c_in c) (c_fd c) (c_outbuf c) (c_sbuf c) (c_queue c) t (c_next_recv c) (c_chmax c) (c_hb c) (c_to c) (c_recent c) (c_sprops c) (c_cprops c).
Definition set_next_recv (c : conn) (t : Z) : conn :=
  mkC (c_in c) (c_fd c) (c_outbuf c) (c_sbuf c) (c_queue c) (c_next_send c) t (c_chmax c) (c_hb c) (c_to c) (c_recent c) (c_sprops c) (c_cprops c).
Definition set_limits (c : conn) (channel_max frame_max heartbeat : Z) : conn :=
  let s := c_in c in
  mkC (mkIn (i_state s) frame_max (i_hdr s) (i_buf s) (i_off s) (i_target s) (i_gens s) (i_nf s))
      (c_fd c) (c_outbuf c) (c_sbuf c) (c_queue c) (c_next_send c) (c_next_recv c) channel_max heartbeat (c_to c) (c_recent c) (c_sprops c) (c_cprops c).
Definition set_recent (c : conn) (r : rpc_reply_t) : conn :=
  mkC (c_in c) (c_fd c) (c_outbuf c) (c_sbuf c) (c_queue c) (c_next_send c) (c_next_recv c) (c_chmax c) (c_hb c) (c_to c) r (c_sprops c) (c_cprops c).
Definition set_sprops (c : conn) (t : table) : conn :=
  mkC (c_in c) (c_fd c) (c_outbuf c) (c_sbuf c) (c_queue c) (c_next_send c) (c_next_recv c) (c_chmax c) (c_hb c) (c_to c) (c_recent c) t (c_cprops c).
Definition set_cprops (c : conn) (t : table * nat) : conn :=
  mkC (c_in c) (c_fd c) (c_outbuf c) (c_sbuf c) (c_queue c) (c_next_send c) (c_next_recv c) (c_chmax c) (c_hb c) (c_to c) (c_recent c) (c_sprops c) (Some t).
Definition set_to (c : conn) (t : timeouts) : conn :=
  mkC (c_in c) (c_fd c) (c_outbuf c) (c_sbuf c) (c_queue c) (c_next_send c) (c_next_recv c) (c_chmax c) (c_hb c) t (c_recent c) (c_sprops c) (c_cprops c).
Definition set_gens (c : conn) (g : Z -> nat) : conn :=
  let s := c_in c in
  set_in c (mkIn (i_state s) (i_frame_max s) (i_hdr s) (i_buf s) (i_off s) (i_target s) g (i_nf s)).

Definition frame_max (c : conn) : Z := i_frame_max (c_in c).
Definition gens (c : conn) : Z -> nat := i_gens (c_in c).

(** ** Computations *)
Inductive stop :=
| Blocked      (* the system call does not return (or the process is killed) *)
| Fuel         (* more rounds of a loop than the model's bound *)
| UB           (* undefined behaviour *)
| Abort.       (* amqp_abort *)
Inductive run (A : Type) :=
| Done (a : A) (c : conn) (ev : list event) (l : list obs)
| Halt (s : stop) (c : conn) (l : list obs).
Arguments Done {A}. Arguments Halt {A}.
Definition M (A : Type) := conn -> list event -> run A.

Definition ret {A} (a : A) : M A := fun c ev => Done a c ev [].
Definition bind {A B} (m : M A) (k : A -> M B) : M B := fun c ev =>
  match m c ev with
  | Halt s c l => Halt s c l
  | Done a c ev l =>
    match k a c ev with
    | Halt s c l' => Halt s c (l ++ l')
    | Done b c ev l' => Done b c ev (l ++ l')
    end
  end.
Notation "x <- m ;; k" := (bind m (fun x => k)) (at level 61, m at next level, right associativity).
Notation "' p <- m ;; k" := (bind m (fun x => let p := x in k)) (at level 61, p pattern, m at next level, right associativity).
Notation "m ;; k" := (bind m (fun _ => k)) (at level 61, right associativity).
Definition halt {A} (s : stop) : M A := fun c _ => Halt s c [].
Definition get : M conn := fun c ev => Done c c ev [].
Definition upd (f : conn -> conn) : M unit := fun c ev => Done tt (f c) ev [].
Definition note (o : obs) : M unit := fun c ev => Done tt c ev [o].

(** ** System calls *)
Definition sys_clock : M Z := fun c ev =>
  match ev with EvClock now :: ev => Done (u64 now) c ev [OClock (u64 now)] | _ => Halt Blocked c [] end.
(** send() or SSL_write(): accepts at most the bytes it is given.  That SSL_write must
    read before it can write is observed as no bytes accepted. *)
Definition sys_send (more : bool) (buf : bytes) : M send_result := fun c ev =>
  match ev with
  | EvSend (SOk n) :: ev =>
    let n := Z.max 0 (Z.min n (zlen buf)) in
    Done (SOk n) c ev [OSend more (firstn (Z.to_nat n) buf)]
  | EvSend SWantRead :: ev => Done SWantRead c ev [OSend more []]
  | EvSend r :: ev => Done r c ev []
  | _ => Halt Blocked c []
  end.
(** recv() or SSL_read(): delivers at most [len] bytes *)
Definition sys_recv (len : Z) : M recv_result := fun c ev =>
  match ev with
  | EvRecv (ROk bs) :: ev => let bs := firstn (Z.to_nat len) bs in Done (ROk bs) c ev [ORecv bs]
  | EvRecv r :: ev => Done r c ev []
  | _ => Halt Blocked c []
  end.
(** poll(): never times out if the timeout is negative *)
Definition sys_poll (write : bool) (ms : Z) : M poll_result := fun c ev =>
  match ev with
  | EvPoll PTimeout :: ev => if ms <? 0 then Halt Blocked c [] else Done PTimeout c ev [OPoll write ms PTimeout]
  | EvPoll r :: ev => Done r c ev [OPoll write ms r]
  | _ => Halt Blocked c []
  end.
Definition sys_close : M bool := fun c ev =>
  match ev with EvClose ok :: ev => Done ok c ev [OClose ok] | _ => Halt Blocked c [] end.
Definition sys_alloc : M bool := fun c ev =>
  match ev with EvAlloc ok :: ev => Done ok c ev [OAlloc ok] | _ => Halt Blocked c [] end.
Definition sys_clone : M (nat -> bool) := fun c ev =>
  match ev with EvClone oom :: ev => Done oom c ev [] | _ => Halt Blocked c [] end.

(** ** Time (amqp_time.c; Time.v).  The clock is read only where the C code
    reads it. *)
(** amqp_time.c:85-114 *)
Definition time_from_now (timeout : option timeval) : M (Z * option Z) :=
  match timeout with
  | None => ret (amqp_time_from_now 0 None)
  | Some tv =>
    if (tv_sec tv <? 0) || (tv_usec tv <? 0) then ret (amqp_time_from_now 0 (Some tv))
    else now <- sys_clock;; ret (amqp_time_from_now now (Some tv))
  end.
(** amqp_time.c:116-138 *)
Definition time_s_from_now (seconds : Z) : M (Z * option Z) :=
  if seconds <=? 0 then ret (amqp_time_s_from_now 0 seconds)
  else now <- sys_clock;; ret (amqp_time_s_from_now now seconds).
(** amqp_time.c:146-171 *)
Definition time_ms_until (time : Z) : M Z :=
  if (UINT64_MAX =? time) || (0 =? time) then ret (amqp_time_ms_until 0 time)
  else now <- sys_clock;; ret (amqp_time_ms_until now time).
(** amqp_time.c:173-208 *)
Definition time_tv_until (time : Z) : M (Z * option (option timeval)) :=
  if (UINT64_MAX =? time) || (0 =? time) then ret (amqp_time_tv_until 0 time)
  else now <- sys_clock;; ret (amqp_time_tv_until now time).
(** amqp_time.c:210-225 *)
Definition time_has_past (time : Z) : M Z :=
  if UINT64_MAX =? time then ret (amqp_time_has_past 0 time)
  else now <- sys_clock;; ret (amqp_time_has_past now time).

(** amqp_private.h:166-172; ints (2 * heartbeat wraps around) *)
Definition amqp_heartbeat_send (c : conn) : Z := c_hb c.
Definition amqp_heartbeat_recv (c : conn) : Z := signed M32 (2 * c_hb c).

(** amqp_time_s_from_now(&state->next_send_heartbeat, amqp_heartbeat_send(state)) *)
Definition update_next_send : M Z :=
  c <- get;;
  '(res, t) <- time_s_from_now (amqp_heartbeat_send c);;
  upd (fun c => match t with Some t => set_next_send c t | None => c end);;
  ret res.
Definition update_next_recv : M Z :=
  c <- get;;
  '(res, t) <- time_s_from_now (amqp_heartbeat_recv c);;
  upd (fun c => match t with Some t => set_next_recv c t | None => c end);;
  ret res.

(** amqp_private.h:87-93 *)
Definition NEEDREAD := -0x1301.
Definition NEEDWRITE := -0x1302.
(** amqp_connection.c:25-27 *)
Definition SOCK_BUFFER_SIZE := 131072.

Section Net.
(** [N]: bound on the rounds of each loop (theorems hold for every N);
    [E]: the allocations inside amqp_handle_input (Frame.v). *)
Context (N : nat) (E : nat -> aenv).

(** *** amqp_tcp_socket.c, and amqp_openssl.c *)
(** amqp_tcp_socket.c:74-103: retry on EINTR; amqp_openssl.c:82-110 *)
Fixpoint tcp_send_loop (fuel : nat) (more : bool) (buf : bytes) : M Z :=
  match fuel with
  | O => halt Fuel
  | S fuel =>
    r <- sys_send more buf;;
    match r with
    | SOk n => ret n
    | SIntr => tcp_send_loop fuel more buf
    | SAgain => ret NEEDWRITE
    | SErr => ret AMQP_STATUS_SOCKET_ERROR
    | SWantRead => ret NEEDREAD
    | SEof => ret AMQP_STATUS_CONNECTION_CLOSED
    | STls => ret AMQP_STATUS_SSL_ERROR
    end
  end.
(** amqp_tcp_socket.c:32-104 (MSG_MORE exists: lines 46-49, not 52-71);
    amqp_openssl.c:65-112 (len > INT_MAX, lines 76-78, is left out: frame_max is an
    int, so no frame is that long; the flags are ignored there) *)
Definition amqp_socket_send (more : bool) (buf : bytes) : M Z :=
  c <- get;;
  if c_fd c =? -1 then ret AMQP_STATUS_SOCKET_CLOSED else tcp_send_loop N more buf.

(** amqp_tcp_socket.c:114-143; amqp_openssl.c:129-146 *)
Fixpoint tcp_recv_loop (fuel : nat) (len : Z) : M (Z * bytes) :=
  match fuel with
  | O => halt Fuel
  | S fuel =>
    r <- sys_recv len;;
    match r with
    | ROk [] => ret (AMQP_STATUS_CONNECTION_CLOSED, [])
    | ROk bs => ret (zlen bs, bs)
    | RIntr => tcp_recv_loop fuel len
    | RAgain => ret (NEEDREAD, [])
    | RErr => ret (AMQP_STATUS_SOCKET_ERROR, [])
    | RWantWrite => ret (NEEDWRITE, [])
    | RTls => ret (AMQP_STATUS_SSL_ERROR, [])
    end
  end.
(** amqp_tcp_socket.c:106-144; amqp_openssl.c:114-147 (len is 131072) *)
Definition amqp_socket_recv (len : Z) : M (Z * bytes) :=
  c <- get;;
  if c_fd c =? -1 then ret (AMQP_STATUS_SOCKET_CLOSED, []) else tcp_recv_loop N len.

(** amqp_tcp_socket.c:161-174 *)
Definition amqp_socket_close : M Z :=
  c <- get;;
  if c_fd c =? -1 then ret AMQP_STATUS_SOCKET_CLOSED
  else
    ok <- sys_close;;
    if negb ok then ret AMQP_STATUS_SOCKET_ERROR
    else upd (fun c => set_fd c (-1));; ret AMQP_STATUS_OK.

(** *** amqp_socket.c *)
(** amqp_socket.c:135-177 (HAVE_POLL) *)
Fixpoint amqp_poll (fuel : nat) (write : bool) (deadline : Z) : M Z :=
  match fuel with
  | O => halt Fuel
  | S fuel =>
    timeout_ms <- time_ms_until deadline;;
    if timeout_ms <? -1 then ret timeout_ms
    else
      r <- sys_poll write timeout_ms;;
      match r with
      | PReady => ret AMQP_STATUS_OK
      | PTimeout => ret AMQP_STATUS_TIMEOUT
      | PIntr => amqp_poll fuel write deadline
      | PErr => ret AMQP_STATUS_SOCKET_ERROR
      end
  end.

(** amqp_socket.c:233-248 *)
Definition do_poll (res deadline : Z) : M Z :=
  c <- get;;
  if c_fd c =? -1 then ret AMQP_STATUS_SOCKET_CLOSED
  else if res =? NEEDREAD then amqp_poll N false deadline
  else if res =? NEEDWRITE then amqp_poll N true deadline
  else ret res.

(** amqp_socket.c:257-275; [left] is buf_left .. buf_left + len_left *)
Fixpoint try_send_loop (fuel : nat) (len : Z) (left : bytes) (deadline : Z) (more : bool) : M Z :=
  match fuel with
  | O => halt Fuel
  | S fuel =>
    res <- amqp_socket_send more left;;
    if 0 <? res then
      let left := skipn (Z.to_nat res) left in
      if zlen left =? 0 then ret len else try_send_loop fuel len left deadline more
    else
      res <- do_poll res deadline;;
      if res =? AMQP_STATUS_OK then try_send_loop fuel len left deadline more
      else if res =? AMQP_STATUS_TIMEOUT then ret (len - zlen left)
      else ret res
  end.
(** amqp_socket.c:250-276 *)
Definition amqp_try_send (buf : bytes) (deadline : Z) (more : bool) : M Z :=
  try_send_loop N (zlen buf) buf deadline more.

(** amqp_socket.c:485-501; AMQP_PROTOCOL_VERSION_* are 0, 9, 1
    (include/rabbitmq-c/framing.h:27-29) *)
Definition protocol_header : bytes := [x41; x4d; x51; x50; x00; x00; x09; x01].
Definition send_header_inner (deadline : Z) : M Z :=
  res <- amqp_try_send protocol_header deadline false;;
  if res =? zlen protocol_header then ret AMQP_STATUS_OK else ret res.
(** amqp_socket.c:503-505 *)
Definition amqp_send_header : M Z := send_header_inner amqp_time_infinite.

(** amqp_socket.c:618-620, 626-628 *)
Definition amqp_frames_enqueued (c : conn) : bool := match c_queue c with [] => false | _ => true end.
Definition amqp_data_in_buffer (c : conn) : bool := match c_sbuf c with [] => false | _ => true end.

(** amqp_socket.c:630-647 *)
Definition consume_one_frame : M (Z * frame) := fun c ev =>
  match amqp_handle_input E (c_in c) (c_sbuf c) with
  | HRet res f s =>
    if res <? 0 then Done (res, f) (set_in c s) ev [OBad res]
    else Done (AMQP_STATUS_OK, f) (set_sbuf (set_in c s) (skipn (Z.to_nat res) (c_sbuf c))) ev
              (if f_type f =? 0 then [] else [OFrame f])
  | HUB => Halt UB c []
  | HAbort => Halt Abort c []
  end.

(** amqp_socket.c:679-680: the buffer now holds what was received *)
Definition store_received (bs : bytes) : M unit :=
  c <- get;;
  (match c_sbuf c with [] => ret tt | old => note (OLost old) end);;
  upd (fun c => set_sbuf c bs).

(** amqp_socket.c:649-688 (a TCP socket never answers NEEDWRITE to recv) *)
Fixpoint recv_with_timeout (fuel : nat) (timeout : Z) : M Z :=
  match fuel with
  | O => halt Fuel
  | S fuel =>
    '(res, bs) <- amqp_socket_recv SOCK_BUFFER_SIZE;;
    if res <? 0 then
      c <- get;;
      if c_fd c =? -1 then ret AMQP_STATUS_CONNECTION_CLOSED
      else if (res =? NEEDREAD) || (res =? NEEDWRITE) then
        res <- amqp_poll N (res =? NEEDWRITE) timeout;;
        if res =? AMQP_STATUS_OK then recv_with_timeout fuel timeout else ret res
      else ret res
    else
      store_received bs;;
      update_next_recv
  end.

(** amqp_socket.c:707-717, 805-828, 1056-1066: memory for a link and a copy of the
    frame; None: no memory.  The entry is put into the queue by the caller. *)
Definition create_link (f : frame) : M (option (frame * nat)) :=
  ok <- sys_alloc;;
  c <- get;;
  ret (if ok then Some (f, gens c (f_chan f)) else None).
(** amqp_socket.c:719-729, 836-843, 1068-1078 *)
Definition append_entry (e : frame * nat) : M unit := upd (fun c => set_queue c (c_queue c ++ [e])).

(** amqp_socket.c:694-731 *)
Fixpoint try_recv_drain (fuel : nat) : M Z :=
  match fuel with
  | O => halt Fuel
  | S fuel =>
    c <- get;;
    if negb (amqp_data_in_buffer c) then ret AMQP_STATUS_OK
    else
      '(res, f) <- consume_one_frame;;
      if negb (res =? AMQP_STATUS_OK) then ret res
      else if negb (f_type f =? 0) then
        l <- create_link f;;
        match l with
        | None => ret AMQP_STATUS_NO_MEMORY
        | Some e => append_entry e;; try_recv_drain fuel
        end
      else try_recv_drain fuel
  end.
(** amqp_socket.c:690-738 *)
Definition amqp_try_recv : M Z :=
  res <- try_recv_drain N;;
  if negb (res =? AMQP_STATUS_OK) then ret res
  else
    '(res, timeout) <- time_from_now (Some (mkTv 0 0));;
    match timeout with
    | Some timeout => if res =? AMQP_STATUS_OK then recv_with_timeout N timeout else ret res
    | None => ret res
    end.

(** amqp_connection.c:530-562; [encoded] is what is left to send *)
Fixpoint send_frame_loop (fuel : nat) (encoded : bytes) (more : bool) (deadline : Z) : M Z :=
  match fuel with
  | O => halt Fuel
  | S fuel =>
    c <- get;;
    let next_timeout := amqp_time_first deadline (c_next_recv c) in
    sent <- amqp_try_send encoded next_timeout more;;
    if sent <? 0 then ret sent
    else if negb (zlen encoded =? sent) then
      if amqp_time_equal next_timeout deadline then ret AMQP_STATUS_TIMEOUT
      else
        res <- amqp_try_recv;;
        if res =? AMQP_STATUS_TIMEOUT then ret AMQP_STATUS_HEARTBEAT_TIMEOUT
        else if negb (res =? AMQP_STATUS_OK) then ret res
        else send_frame_loop fuel (skipn (Z.to_nat sent) encoded) more deadline
    else update_next_send
  end.
(** amqp_connection.c:512-563 *)
Definition amqp_send_frame_inner (f : frame) (more : bool) (deadline : Z) : M Z :=
  c <- get;;
  match amqp_frame_to_bytes f (c_outbuf c) with
  | FUB => halt UB
  | FRet res buf encoded =>
    upd (fun c => set_outbuf c buf);;
    if negb (res =? AMQP_STATUS_OK) then ret res else send_frame_loop N encoded more deadline
  end.
(** amqp_connection.c:507-510 *)
Definition amqp_send_frame (f : frame) : M Z := amqp_send_frame_inner f false amqp_time_infinite.

(** *** Releasing memory *)
(** The data of a queue entry is still there: neither the pool of its link nor
    the pool of its contents has been recycled.  Heartbeats and protocol headers
    have no contents in a pool. *)
Definition entry_alive (g : Z -> nat) (e : frame * nat) : bool :=
  Nat.eqb (snd e) (g (f_chan (fst e))) &&
  match f_pay (fst e) with
  | PMethod _ _ | PHeader _ _ _ _ | PBody _ => Nat.eqb (f_gen (fst e)) (g (f_chan (fst e)))
  | _ => true
  end.
Definition on_channel (channel : Z) (e : frame * nat) : bool := channel =? f_chan (fst e).

(** amqp_connection.c:405-429: walks through the queue (an entry that is no longer
    there: undefined behaviour; simplification: also if it comes after a frame of
    the channel).  Recycling a pool that does not exist changes nothing. *)
Definition amqp_maybe_release_buffers_on_channel (channel : Z) : M unit :=
  c <- get;;
  match i_state (c_in c) with
  | IDLE =>
    if negb (forallb (entry_alive (gens c)) (c_queue c)) then halt UB
    else if existsb (on_channel channel) (c_queue c) then ret tt
    else upd (fun c => set_gens c (fun k => if k =? channel then S (gens c k) else gens c k))
  | _ => ret tt
  end.
(** amqp_connection.c:386-397 (the channels whose pool does not exist: see above) *)
Definition amqp_release_buffers : M unit :=
  c <- get;;
  match i_state (c_in c) with
  | IDLE =>
    if negb (forallb (entry_alive (gens c)) (c_queue c)) then halt UB
    else upd (fun c => set_gens c (fun k => if existsb (on_channel k) (c_queue c) then gens c k else S (gens c k)))
  | _ => halt Abort
  end.
(** amqp_connection.c:382-384, 399-403 *)
Definition amqp_release_buffers_ok (c : conn) : bool := match i_state (c_in c) with IDLE => true | _ => false end.
Definition amqp_maybe_release_buffers : M unit :=
  c <- get;;
  if amqp_release_buffers_ok c then amqp_release_buffers else ret tt.

(** *** Waiting for frames *)
(** amqp_socket.c:770-772 *)
Definition heartbeat_frame : frame := mkFrame AMQP_FRAME_HEARTBEAT 0 PNone 0.

(** amqp_socket.c:740-803.  One round of the outer or inner loop per unit of
    fuel; [skip]: the jump to beginrecv. *)
Fixpoint wait_frame_loop (fuel : nat) (skip : bool) (timeout_deadline : Z) : M (Z * frame) :=
  match fuel with
  | O => halt Fuel
  | S fuel =>
    c <- get;;
    if negb skip && amqp_data_in_buffer c then
      '(res, f) <- consume_one_frame;;
      if negb (res =? AMQP_STATUS_OK) then ret (res, f)
      else if AMQP_FRAME_HEARTBEAT =? f_type f then
        amqp_maybe_release_buffers_on_channel 0;;
        wait_frame_loop fuel false timeout_deadline
      else if negb (f_type f =? 0) then ret (AMQP_STATUS_OK, f)
      else wait_frame_loop fuel false timeout_deadline
    else
      res <- time_has_past (c_next_send c);;
      if res =? AMQP_STATUS_TIMER_FAILURE then ret (res, no_frame)
      else
        res <- (if res =? AMQP_STATUS_TIMEOUT then amqp_send_frame heartbeat_frame else ret AMQP_STATUS_OK);;
        if negb (res =? AMQP_STATUS_OK) then ret (res, no_frame)
        else
          c <- get;;
          let deadline := amqp_time_first timeout_deadline (amqp_time_first (c_next_recv c) (c_next_send c)) in
          res <- recv_with_timeout N deadline;;
          if res =? AMQP_STATUS_TIMEOUT then
            c <- get;;
            if amqp_time_equal deadline (c_next_recv c) then
              amqp_socket_close;; ret (AMQP_STATUS_HEARTBEAT_TIMEOUT, no_frame)
            else if amqp_time_equal deadline timeout_deadline then ret (AMQP_STATUS_TIMEOUT, no_frame)
            else if amqp_time_equal deadline (c_next_send c) then wait_frame_loop fuel true timeout_deadline
            else halt Abort
          else if negb (res =? AMQP_STATUS_OK) then ret (res, no_frame)
          else wait_frame_loop fuel false timeout_deadline
  end.
Definition wait_frame_inner (timeout_deadline : Z) : M (Z * frame) := wait_frame_loop N false timeout_deadline.

(** amqp_socket.c:830-846 *)
Definition amqp_queue_frame (f : frame) : M Z :=
  l <- create_link f;;
  match l with
  | None => ret AMQP_STATUS_NO_MEMORY
  | Some e => append_entry e;; ret AMQP_STATUS_OK
  end.
(** amqp_socket.c:848-864 *)
Definition amqp_put_back_frame (f : frame) : M Z :=
  l <- create_link f;;
  match l with
  | None => ret AMQP_STATUS_NO_MEMORY
  | Some e => upd (fun c => set_queue c (e :: c_queue c));; ret AMQP_STATUS_OK
  end.

(** amqp_socket.c:873-886: the first entry of the channel, and what becomes the
    queue: everything after it (the entries before it are gone, line 877).  None
    in the first component: an entry visited is no longer there. *)
Fixpoint find_on_channel (g : Z -> nat) (channel : Z) (q : list (frame * nat)) : option (option (frame * list (frame * nat))) :=
  match q with
  | [] => Some None
  | e :: q =>
    if negb (entry_alive g e) then None
    else if on_channel channel e then Some (Some (fst e, q))
    else find_on_channel g channel q
  end.
(** amqp_socket.c:888-903 *)
Fixpoint wait_on_channel_loop (fuel : nat) (channel : Z) : M (Z * frame) :=
  match fuel with
  | O => halt Fuel
  | S fuel =>
    '(res, f) <- wait_frame_inner amqp_time_infinite;;
    if negb (res =? AMQP_STATUS_OK) then ret (res, f)
    else if channel =? f_chan f then ret (AMQP_STATUS_OK, f)
    else
      res <- amqp_queue_frame f;;
      if negb (res =? AMQP_STATUS_OK) then ret (res, f) else wait_on_channel_loop fuel channel
  end.
(** amqp_socket.c:866-904 *)
Definition amqp_simple_wait_frame_on_channel (channel : Z) : M (Z * frame) :=
  c <- get;;
  match find_on_channel (gens c) channel (c_queue c) with
  | None => halt UB
  | Some (Some (f, q)) => upd (fun c => set_queue c q);; ret (AMQP_STATUS_OK, f)
  | Some None => wait_on_channel_loop N channel
  end.

(** amqp_socket.c:911-932 *)
Definition amqp_simple_wait_frame_noblock (timeout : option timeval) : M (Z * frame) :=
  '(res, deadline) <- time_from_now timeout;;
  match deadline with
  | Some deadline =>
    if negb (res =? AMQP_STATUS_OK) then ret (res, no_frame)
    else
      c <- get;;
      match c_queue c with
      | e :: q =>
        if negb (entry_alive (gens c) e) then halt UB
        else upd (fun c => set_queue c q);; ret (AMQP_STATUS_OK, fst e)
      | [] => wait_frame_inner deadline
      end
  | None => ret (res, no_frame)
  end.
(** amqp_socket.c:906-909 *)
Definition amqp_simple_wait_frame : M (Z * frame) := amqp_simple_wait_frame_noblock None.

(** amqp_connection.c:109-143.  frame_max is a non-negative int here; the contents
    of a block after realloc do not matter (zeros).  outbound_buffer.len is set before
    the allocation (line 135): if realloc fails, the block is the old one (a request for
    0 bytes that returns NULL has freed it: glibc) but the recorded length is the new
    one.  If the block is at least as long as recorded, its first bytes are the buffer;
    if it is shorter, simplification: the model treats it as a buffer of no bytes, so
    that everything encoded into it later is undefined behaviour (in the program: only
    what reaches past the block). *)
Definition amqp_tune_connection (channel_max fm heartbeat : Z) : M Z :=
  c <- get;;
  match i_state (c_in c) with
  | IDLE =>
    upd (fun c => set_limits c channel_max fm (if heartbeat <? 0 then 0 else heartbeat));;
    res <- update_next_send;;
    if negb (res =? AMQP_STATUS_OK) then ret res
    else
      res <- update_next_recv;;
      if negb (res =? AMQP_STATUS_OK) then ret res
      else
        ok <- sys_alloc;;
        if ok then
          upd (fun c => set_outbuf c (firstn (Z.to_nat fm) (c_outbuf c) ++ repeat x00 (Z.to_nat fm - length (c_outbuf c))));;
          ret AMQP_STATUS_OK
        else
          upd (fun c => set_outbuf c (if zlen (c_outbuf c) <? fm then [] else firstn (Z.to_nat fm) (c_outbuf c)));;
          ret AMQP_STATUS_NO_MEMORY
  | _ => halt Abort
  end.

(** amqp_connection.c:44-86 and 92-98: a new connection (the allocations
    succeeded; heartbeat 0: both deadlines are infinite) with a connected socket *)
Definition new_connection (fd : Z) : conn :=
  mkC new_inst fd (repeat x00 (Z.to_nat 65536)) [] [] amqp_time_infinite amqp_time_infinite 0 0 new_timeouts RNone [] None.

End Net.
