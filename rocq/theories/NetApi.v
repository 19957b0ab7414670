(** Model of the calls built on the connection layer: RPC, publishing, consuming
    (amqp_socket.c, amqp_api.c, amqp_consumer.c, the wrappers of amqp_framing.c). *)
From Coq Require Import String ZArith List Bool.
From Verif Require Import Base Codec TableModel TableOps FramingStmt FramingGen FramingModel Frame Time Sasl Net.
Import ListNotations.
Local Open Scope string_scope.
Local Open Scope list_scope.
Local Open Scope Z_scope.

(** include/rabbitmq-c/framing.h: class * 65536 + method *)
Definition CONNECTION_START := 0x000A000A.
Definition CONNECTION_START_OK := 0x000A000B.
Definition CONNECTION_TUNE := 0x000A001E.
Definition CONNECTION_TUNE_OK := 0x000A001F.
Definition CONNECTION_OPEN := 0x000A0028.
Definition CONNECTION_OPEN_OK := 0x000A0029.
Definition CONNECTION_CLOSE := 0x000A0032.
Definition CONNECTION_CLOSE_OK := 0x000A0033.
Definition CHANNEL_CLOSE := 0x00140028.
Definition CHANNEL_CLOSE_OK := 0x00140029.
Definition BASIC_PUBLISH := 0x003C0028.
Definition BASIC_DELIVER := 0x003C003C.
Definition BASIC_GET := 0x003C0046.
Definition BASIC_GET_OK := 0x003C0047.
Definition BASIC_GET_EMPTY := 0x003C0048.
Definition BASIC_ACK := 0x003C0050.
Definition BASIC_REJECT := 0x003C005A.
Definition BASIC_NACK := 0x003C0078.
Definition AMQP_BASIC_CLASS := 60.

(** a C string literal *)
Definition lit (s : string) : bytes := list_byte_of_string s.

(** Members of a decoded struct.  None: not of the struct's type. *)
Definition get_int (f : string) (m : mstruct) : option Z :=
  match lookup f m with Some (VInt z) => Some z | _ => None end.
Definition get_bool (f : string) (m : mstruct) : option Z :=
  match lookup f m with Some (VBool z) => Some z | _ => None end.
Definition get_bytes (f : string) (m : mstruct) : option bytes :=
  match lookup f m with Some (VBytes b) => Some b | _ => None end.
Definition get_table (f : string) (m : mstruct) : option table :=
  match lookup f m with Some (VTable t) => Some t | _ => None end.
(** frame.payload.method of a frame whose type is AMQP_FRAME_METHOD *)
Definition method_of (f : frame) : option (Z * mstruct) :=
  match f_pay f with PMethod id m => Some (id, m) | _ => None end.
(** reading a member that is not there *)
Definition need {A} (o : option A) : M A := match o with Some a => ret a | None => halt UB end.

(** amqp_socket.c:1000-1009; the list ends before the 0 *)
Definition amqp_id_in_reply_list (expected : Z) (l : list Z) : bool := existsb (Z.eqb expected) l.

Section Api.
Context (N : nat) (E : nat -> aenv).

(** amqp_socket.c:988-998 *)
Definition amqp_send_method_inner (channel id : Z) (decoded : mstruct) (more : bool) (deadline : Z) : M Z :=
  amqp_send_frame_inner N E (mkFrame AMQP_FRAME_METHOD channel (PMethod id decoded) 0) more deadline.
(** amqp_socket.c:982-986 *)
Definition amqp_send_method (channel id : Z) (decoded : mstruct) : M Z :=
  amqp_send_method_inner channel id decoded false amqp_time_infinite.

(** ** Waiting for methods *)
(** amqp_socket.c:934-960; the method is meaningful if the status is
    AMQP_STATUS_OK *)
Definition amqp_simple_wait_method_list (expected_channel : Z) (expected_methods : list Z) (deadline : Z) : M (Z * (Z * mstruct)) :=
  '(res, tvp) <- time_tv_until deadline;;
  match tvp with
  | Some tvp =>
    if negb (res =? AMQP_STATUS_OK) then ret (res, (0, []))
    else
      '(res, f) <- amqp_simple_wait_frame_noblock N E tvp;;
      if negb (res =? AMQP_STATUS_OK) then ret (res, (0, []))
      else if negb (AMQP_FRAME_METHOD =? f_type f) || negb (expected_channel =? f_chan f)
      then ret (AMQP_STATUS_WRONG_METHOD, (0, []))
      else
        '(id, m) <- need (method_of f);;
        if negb (amqp_id_in_reply_list id expected_methods) then ret (AMQP_STATUS_WRONG_METHOD, (0, []))
        else ret (AMQP_STATUS_OK, (id, m))
  | None => ret (res, (0, []))
  end.
(** amqp_socket.c:962-980 *)
Definition simple_wait_method_inner (expected_channel expected_method deadline : Z) : M (Z * (Z * mstruct)) :=
  amqp_simple_wait_method_list expected_channel [expected_method] deadline.
Definition amqp_simple_wait_method (expected_channel expected_method : Z) : M (Z * (Z * mstruct)) :=
  simple_wait_method_inner expected_channel expected_method amqp_time_infinite.

(** ** RPC *)
(** amqp_socket.c:1045-1051, negated: the frame is for us *)
Definition concerns_rpc (channel : Z) (expected_reply_ids : list Z) (f : frame) : bool :=
  (f_type f =? AMQP_FRAME_METHOD) &&
  match method_of f with
  | Some (id, _) =>
    ((f_chan f =? channel) && (amqp_id_in_reply_list id expected_reply_ids || (id =? CHANNEL_CLOSE)))
    || ((f_chan f =? 0) && (id =? CONNECTION_CLOSE))
  | None => false
  end.
(** amqp_socket.c:1028-1089 *)
Fixpoint rpc_wait (fuel : nat) (channel : Z) (expected_reply_ids : list Z) (deadline : Z) : M rpc_reply_t :=
  match fuel with
  | O => halt Fuel
  | S fuel =>
    '(status, f) <- wait_frame_inner N E deadline;;
    if negb (status =? AMQP_STATUS_OK) then
      (if status =? AMQP_STATUS_TIMEOUT then amqp_socket_close else ret 0);;
      ret (RLibrary status)
    else if negb (concerns_rpc channel expected_reply_ids f) then
      l <- create_link f;;
      match l with
      | None => ret (RLibrary AMQP_STATUS_NO_MEMORY)
      | Some e => append_entry e;; rpc_wait fuel channel expected_reply_ids deadline
      end
    else
      '(id, m) <- need (method_of f);;
      ret (if amqp_id_in_reply_list id expected_reply_ids then RNormal id m else RServer id m)
  end.
(** amqp_socket.c:1011-1091 *)
Definition simple_rpc_inner (channel request_id : Z) (expected_reply_ids : list Z) (request : mstruct) (deadline : Z) : M rpc_reply_t :=
  status <- amqp_send_method channel request_id request;;
  if status <? 0 then ret (RLibrary status)
  else rpc_wait N channel expected_reply_ids deadline.
(** amqp_socket.c:1093-1108 *)
Definition amqp_simple_rpc (channel request_id : Z) (expected_reply_ids : list Z) (request : mstruct) : M rpc_reply_t :=
  c <- get;;
  '(res, deadline) <- time_from_now (amqp_get_rpc_timeout (c_to c));;
  match deadline with
  | Some deadline =>
    if negb (res =? AMQP_STATUS_OK) then ret (RLibrary res)
    else simple_rpc_inner channel request_id expected_reply_ids request deadline
  | None => ret (RLibrary res)
  end.
(** amqp_socket.c:1110-1136; None is a NULL pointer *)
Definition amqp_simple_rpc_decoded (channel request_id reply_id : Z) (request : mstruct) : M (option mstruct) :=
  r <- amqp_simple_rpc channel request_id [reply_id] request;;
  upd (fun c => set_recent c r);;
  ret (match r with RNormal _ m => Some m | _ => None end).
(** amqp_framing.c:2457-2919: the synchronous calls.  rpc_table (FramingGen.v) is
    what they do, extracted from the text.  None in [build_request]: an argument of
    the call is missing (excluded by the C types). *)
Definition amqp_call (w : rpc_wrapper) (channel : Z) (args : list (string * mval)) : M (option mstruct) :=
  match build_request (rpc_fields w) (match find (fun p => fst p =? rpc_request w) struct_table with Some p => snd p | None => [] end) args with
  | Some request => amqp_simple_rpc_decoded channel (rpc_request w) (rpc_reply w) request
  | None => halt UB
  end.

(** sprintf("%d") of a number in 0 .. 65535 *)
Fixpoint digits (fuel : nat) (z : Z) : bytes :=
  match fuel with
  | O => []
  | S fuel => (if z <? 10 then [] else digits fuel (z / 10)) ++ [byte_of_Z (48 + z mod 10)]
  end.
(** amqp_api.c:261-265, 281-285 (for connection.close the request is an
    amqp_channel_close_t, which has the same members) *)
Definition close_request (code : Z) : mstruct :=
  [("reply_code", VInt code); ("reply_text", VBytes (digits 5 code)); ("class_id", VInt 0); ("method_id", VInt 0)].
(** amqp_api.c:251-269 *)
Definition amqp_channel_close (channel code : Z) : M rpc_reply_t :=
  if (code <? 0) || (65535 <? code) then ret (RLibrary AMQP_STATUS_INVALID_PARAMETER)
  else amqp_simple_rpc channel CHANNEL_CLOSE [CHANNEL_CLOSE_OK] (close_request code).
(** amqp_api.c:271-288 *)
Definition amqp_connection_close (code : Z) : M rpc_reply_t :=
  if (code <? 0) || (65535 <? code) then ret (RLibrary AMQP_STATUS_INVALID_PARAMETER)
  else amqp_simple_rpc 0 CONNECTION_CLOSE [CONNECTION_CLOSE_OK] (close_request code).
(** amqp_api.c:290-296 *)
Definition amqp_basic_ack (channel delivery_tag multiple : Z) : M Z :=
  amqp_send_method channel BASIC_ACK [("delivery_tag", VInt delivery_tag); ("multiple", VBool multiple)].
(** amqp_api.c:298-311 *)
Definition amqp_basic_get (channel : Z) (queue : bytes) (no_ack : Z) : M rpc_reply_t :=
  r <- amqp_simple_rpc channel BASIC_GET [BASIC_GET_OK; BASIC_GET_EMPTY]
         [("ticket", VInt 0); ("queue", VBytes queue); ("no_ack", VBool no_ack)];;
  upd (fun c => set_recent c r);; ret r.
(** amqp_api.c:313-319 *)
Definition amqp_basic_reject (channel delivery_tag requeue : Z) : M Z :=
  amqp_send_method channel BASIC_REJECT [("delivery_tag", VInt delivery_tag); ("requeue", VBool requeue)].
(** amqp_api.c:321-329 *)
Definition amqp_basic_nack (channel delivery_tag multiple requeue : Z) : M Z :=
  amqp_send_method channel BASIC_NACK
    [("delivery_tag", VInt delivery_tag); ("multiple", VBool multiple); ("requeue", VBool requeue)].

(** ** Publishing *)
(** amqp_api.c:222-246 *)
Fixpoint publish_body (fuel : nat) (channel : Z) (body : bytes) (usable body_offset : Z) : M Z :=
  match fuel with
  | O => halt Fuel
  | S fuel =>
    if negb (body_offset <? zlen body) then ret AMQP_STATUS_OK
    else
      let remaining := sub_size (zlen body) body_offset in
      if remaining =? 0 then ret AMQP_STATUS_OK
      else
        let more := usable <=? remaining in
        let len := if more then usable else remaining in
        fragment <- need (slice body body_offset len);;
        res <- amqp_send_frame_inner N E (mkFrame AMQP_FRAME_BODY channel (PBody fragment) 0) more amqp_time_infinite;;
        if res <? 0 then ret res
        else publish_body fuel channel body usable (add_size body_offset len)
  end.
(** amqp_api.c:160-249 *)
Definition amqp_basic_publish (channel : Z) (exchange routing_key : bytes) (mandatory immediate : Z)
    (properties : option props) (body : bytes) : M Z :=
  c <- get;;
  let usable := u64 (frame_max c - (HEADER_SIZE + FOOTER_SIZE)) in
  let m := [("ticket", VInt 0); ("exchange", VBytes exchange); ("routing_key", VBytes routing_key);
            ("mandatory", VBool mandatory); ("immediate", VBool immediate)] in
  res <- time_has_past (c_next_recv c);;
  if res =? AMQP_STATUS_TIMER_FAILURE then ret res
  else
    res <- (if res =? AMQP_STATUS_TIMEOUT then amqp_try_recv N E else ret AMQP_STATUS_OK);;
    if res =? AMQP_STATUS_TIMEOUT then ret AMQP_STATUS_HEARTBEAT_TIMEOUT
    else if negb (res =? AMQP_STATUS_OK) then ret res
    else
      res <- amqp_send_method_inner channel BASIC_PUBLISH m true amqp_time_infinite;;
      if res <? 0 then ret res
      else
        let properties := match properties with Some p => p | None => mkProps 0 [] end in
        res <- amqp_send_frame_inner N E (mkFrame AMQP_FRAME_HEADER channel (PHeader AMQP_BASIC_CLASS (zlen body) properties []) 0)
                 (0 <? zlen body) amqp_time_infinite;;
        if res <? 0 then ret res
        else publish_body N channel body usable 0.

(** ** Consuming *)
(** amqp_consumer.c:28-85: one member, if its flag is set; [inl]: a status.  Which
    members there are, their flags and order: dec_props_basic (FramingGen.v), the
    same list as in the C text.  None: the struct has no such member (it is not an
    amqp_basic_properties_t) - undefined behaviour. *)
Definition clone_value (oom : nat -> bool) (v : mval) (n : nat) : cres mval :=
  match v with
  | VBytes b =>
    if zlen b =? 0 then (inr (VBytes []), n)
    else if oom n then (inl AMQP_STATUS_NO_MEMORY, S n) else (inr (VBytes b), S n)
  | VTable t =>
    match amqp_table_clone oom t n with (inl e, n) => (inl e, n) | (inr t, n) => (inr (VTable t), n) end
  | v => (inr v, n)
  end.
Definition stmt_field (st : stmt) : string :=
  match st with SInt _ f | SShort f | SLong f | STable f => f | SBits _ => "" end.
Fixpoint clone_members (oom : nat -> bool) (l : list (Z * stmt)) (flags : Z) (m : mstruct) (n : nat) : option (Z + mstruct) :=
  match l with
  | [] => Some (inr [])
  | (k, st) :: l =>
    if Z.land flags (Z.shiftl 1 k) =? 0 then clone_members oom l flags m n
    else
      match lookup (stmt_field st) m with
      | None => None
      | Some v =>
        match clone_value oom v n with
        | (inl e, _) => Some (inl e)
        | (inr v, n) =>
          match clone_members oom l flags m n with
          | Some (inr r) => Some (inr ((stmt_field st, v) :: r))
          | r => r
          end
        end
      end
  end.
(** amqp_consumer.c:11-89 *)
Definition amqp_basic_properties_clone (oom : nat -> bool) (original : props) : option (Z + props) :=
  match clone_members oom dec_props_basic (pflags original) (pfields original) 0 with
  | None => None
  | Some (inl e) => Some (inl e)
  | Some (inr m) => Some (inr (mkProps (pflags original) m))
  end.

(** include/rabbitmq-c/amqp.h amqp_message_t *)
Record message := mkMsg { m_props : props; m_body : bytes }.

(** what a method frame other than the expected one becomes (amqp_consumer.c:193-207, 247-256) *)
Definition is_close (f : frame) : option (Z * mstruct) :=
  if f_type f =? AMQP_FRAME_METHOD then
    match method_of f with
    | Some (id, m) => if (id =? CHANNEL_CLOSE) || (id =? CONNECTION_CLOSE) then Some (id, m) else None
    | None => None
    end
  else None.

(** amqp_consumer.c:239-271; [body] is the block message->body *)
Fixpoint read_body (fuel : nat) (channel : Z) (body : bytes) (body_read : Z) : M (rpc_reply_t * bytes) :=
  match fuel with
  | O => halt Fuel
  | S fuel =>
    if negb (body_read <? zlen body) then ret (RNormal 0 [], body)
    else
      '(res, f) <- amqp_simple_wait_frame_on_channel N E channel;;
      if negb (res =? AMQP_STATUS_OK) then ret (RLibrary res, [])
      else if negb (f_type f =? AMQP_FRAME_BODY) then
        match is_close f with
        | Some (id, m) => ret (RServer id m, [])
        | None => ret (RLibrary AMQP_STATUS_BAD_AMQP_DATA, [])
        end
      else
        match f_pay f with
        | PBody fragment =>
          if zlen body <? add_size body_read (zlen fragment) then ret (RLibrary AMQP_STATUS_BAD_AMQP_DATA, [])
          else
            body <- need (write body body_read fragment);;
            read_body fuel channel body (add_size body_read (zlen fragment))
        | _ => halt UB
        end
  end.

(** malloc refuses more than PTRDIFF_MAX bytes *)
Definition sys_malloc (n : Z) : M bool :=
  ok <- sys_alloc;; ret (ok && (n <? M63)).

(** amqp_consumer.c:170-282; the message is meaningful if the reply is normal.
    The contents of the new block do not matter (zeros). *)
Definition amqp_read_message (channel : Z) : M (rpc_reply_t * option message) :=
  '(res, f) <- amqp_simple_wait_frame_on_channel N E channel;;
  if negb (res =? AMQP_STATUS_OK) then ret (RLibrary res, None)
  else if negb (f_type f =? AMQP_FRAME_HEADER) then
    match is_close f with
    | Some (id, m) => ret (RServer id m, None)
    | None => amqp_put_back_frame f;; ret (RLibrary AMQP_STATUS_UNEXPECTED_STATE, None)
    end
  else
    match f_pay f with
    | PHeader class_id body_size p _ =>
      oom <- sys_clone;;
      r <- need (amqp_basic_properties_clone oom p);;
      match r with
      | inl e => ret (RLibrary e, None)
      | inr p =>
        ok <- (if body_size =? 0 then ret true else sys_malloc body_size);;
        if negb ok then ret (RLibrary AMQP_STATUS_NO_MEMORY, None)
        else
          '(r, body) <- read_body N channel (repeat x00 (Z.to_nat body_size)) 0;;
          ret (r, match r with RNormal _ _ => Some (mkMsg p body) | _ => None end)
      end
    | _ => halt UB
    end.

(** include/rabbitmq-c/amqp.h amqp_envelope_t *)
Record envelope := mkEnv {
  en_channel : Z; en_consumer_tag : bytes; en_delivery_tag : Z; en_redelivered : Z;
  en_exchange : bytes; en_routing_key : bytes; en_message : message }.

(** amqp_consumer.c:110-168.  The three copies (lines 140-144) are one allocation
    event. *)
Definition amqp_consume_message (timeout : option timeval) : M (rpc_reply_t * option envelope) :=
  '(res, f) <- amqp_simple_wait_frame_noblock N E timeout;;
  if negb (res =? AMQP_STATUS_OK) then ret (RLibrary res, None)
  else
    match (if f_type f =? AMQP_FRAME_METHOD then method_of f else None) with
    | Some (id, m) =>
      if id =? BASIC_DELIVER then
        consumer_tag <- need (get_bytes "consumer_tag" m);;
        delivery_tag <- need (get_int "delivery_tag" m);;
        redelivered <- need (get_bool "redelivered" m);;
        exchange <- need (get_bytes "exchange" m);;
        routing_key <- need (get_bytes "routing_key" m);;
        ok <- sys_alloc;;
        if negb ok then ret (RLibrary AMQP_STATUS_NO_MEMORY, None)
        else
          '(r, msg) <- amqp_read_message (f_chan f);;
          ret (r, match msg with
                  | Some msg => Some (mkEnv (f_chan f) consumer_tag delivery_tag redelivered exchange routing_key msg)
                  | None => None
                  end)
      else amqp_put_back_frame f;; ret (RLibrary AMQP_STATUS_UNEXPECTED_STATE, None)
    | None => amqp_put_back_frame f;; ret (RLibrary AMQP_STATUS_UNEXPECTED_STATE, None)
    end.

(** amqp_api.c:368-421: (reply, (channel, method id, members)) *)
Definition amqp_publisher_confirm_wait (timeout : option timeval) : M (rpc_reply_t * option (Z * Z * mstruct)) :=
  '(res, f) <- amqp_simple_wait_frame_noblock N E timeout;;
  if negb (res =? AMQP_STATUS_OK) then ret (RLibrary res, None)
  else
    match (if f_type f =? AMQP_FRAME_METHOD then method_of f else None) with
    | Some (id, m) =>
      if (id =? BASIC_ACK) || (id =? BASIC_NACK) || (id =? BASIC_REJECT)
      then ret (RNormal 0 [], Some (f_chan f, id, m))
      else amqp_put_back_frame f;; ret (RLibrary AMQP_STATUS_UNEXPECTED_STATE, None)
    | None => amqp_put_back_frame f;; ret (RLibrary AMQP_STATUS_UNEXPECTED_STATE, None)
    end.

(** ** Login *)
(** the variable arguments of amqp_login *)
Inductive credentials := Plain (username password : bytes) | External (identity : bytes).
Definition cred_method (cr : credentials) : sasl_method :=
  match cr with Plain _ _ => AMQP_SASL_METHOD_PLAIN | External _ => AMQP_SASL_METHOD_EXTERNAL end.
(** amqp_socket.c:571-616 *)
Definition sasl_response (nomem : bool) (cr : credentials) : rres :=
  match cr with
  | Plain u p => sasl_response_plain nomem (fun _ => x00) u p
  | External i => sasl_response_external nomem (fun _ => x00) i
  end.

(** amqp_socket.c:1300-1324; AMQ_PLATFORM is CMAKE_SYSTEM_NAME, the version is
    include/rabbitmq-c/amqp.h:120-185, the copyright amqp_private.h:11-14 *)
Definition utf8_entry (k v : string) : bytes * fv := (lit k, FUtf8 (lit v)).
Definition default_properties (platform : string) : table :=
  [ utf8_entry "product" "rabbitmq-c";
    utf8_entry "version" "0.16.0-pre";
    utf8_entry "platform" platform;
    utf8_entry "copyright" "Copyright (c) 2007-2014 VMWare Inc, Tony Garnock-Jones, and Alan Antonuk.";
    utf8_entry "information" "See https://github.com/alanxz/rabbitmq-c";
    (lit "capabilities", FTable [ (lit "authentication_failure_close", FBool 1); (lit "exchange_exchange_bindings", FBool 1) ]) ].

(** amqp_socket.c:1370-1383 *)
Definition tune_channel_max (server client : Z) : Z :=
  if negb (server =? 0) && ((server <? client) || (client =? 0)) then server
  else if (server =? 0) && (client =? 0) then 65535 else client.
Definition tune_limit (server client : Z) : Z :=
  if negb (server =? 0) && (server <? client) then server else client.

(** amqp_socket.c:1429-1433 *)
Definition login_error (res : Z) : M rpc_reply_t := amqp_socket_close;; ret (RLibrary res).

(** amqp_socket.c:1406-1427 *)
Definition login_open (vhost : bytes) (deadline : Z) : M rpc_reply_t :=
  r <- simple_rpc_inner 0 CONNECTION_OPEN [CONNECTION_OPEN_OK]
         [("virtual_host", VBytes vhost); ("capabilities", VBytes []); ("insist", VBool 1)] deadline;;
  match r with
  | RNormal _ _ => amqp_maybe_release_buffers;; ret (RNormal 0 [])
  | r => ret r
  end.

(** amqp_socket.c:1344-1406; the server's proposals are copied to variables of type
    uint16_t and uint32_t *)
Definition login_tune (vhost : bytes) (channel_max fm heartbeat deadline : Z) : M rpc_reply_t :=
  amqp_release_buffers;;
  '(res, (id, m)) <- amqp_simple_wait_method_list 0 [CONNECTION_TUNE; CONNECTION_CLOSE] deadline;;
  if negb (res =? AMQP_STATUS_OK) then login_error res
  else if id =? CONNECTION_CLOSE then ret (RServer id m)
  else
    server_channel_max <- need (get_int "channel_max" m);;
    server_frame_max <- need (get_int "frame_max" m);;
    server_heartbeat <- need (get_int "heartbeat" m);;
    let channel_max := tune_channel_max (u16 server_channel_max) channel_max in
    let fm := tune_limit (u32 server_frame_max) fm in
    let heartbeat := tune_limit (u16 server_heartbeat) heartbeat in
    res <- amqp_tune_connection channel_max fm heartbeat;;
    if res <? 0 then login_error res
    else
      res <- amqp_send_method_inner 0 CONNECTION_TUNE_OK
               [("channel_max", VInt channel_max); ("frame_max", VInt fm); ("heartbeat", VInt heartbeat)] false deadline;;
      if res <? 0 then login_error res
      else
        amqp_release_buffers;;
        login_open vhost deadline.

(** amqp_socket.c:1203-1434 amqp_login_inner *)
Definition amqp_login_inner (platform : string) (vhost : bytes) (channel_max fm heartbeat : Z)
    (client_properties : option table) (timeout : option timeval) (cr : credentials) : M rpc_reply_t :=
  if (channel_max <? 0) || (65535 <? channel_max) then ret (RLibrary AMQP_STATUS_INVALID_PARAMETER)
  else if fm <? 0 then ret (RLibrary AMQP_STATUS_INVALID_PARAMETER)
  else if (heartbeat <? 0) || (65535 <? heartbeat) then ret (RLibrary AMQP_STATUS_INVALID_PARAMETER)
  else
    '(res, deadline) <- time_from_now timeout;;
    match deadline with
    | None => login_error res
    | Some deadline =>
      if negb (res =? AMQP_STATUS_OK) then login_error res
      else
        res <- send_header_inner N deadline;;
        if negb (res =? AMQP_STATUS_OK) then login_error res
        else
          '(res, (_, m)) <- simple_wait_method_inner 0 CONNECTION_START deadline;;
          if negb (res =? AMQP_STATUS_OK) then login_error res
          else
            version_major <- need (get_int "version_major" m);;
            version_minor <- need (get_int "version_minor" m);;
            if negb (version_major =? 0) || negb (version_minor =? 9) then login_error AMQP_STATUS_INCOMPATIBLE_AMQP_VERSION
            else
              server_properties <- need (get_table "server_properties" m);;
              oom <- sys_clone;;
              match fst (amqp_table_clone oom server_properties 0) with
              | inl e => login_error e
              | inr t =>
                upd (fun c => set_sprops c t);;
                mechanisms <- need (get_bytes "mechanisms" m);;
                match sasl_mechanism_in_list mechanisms (cred_method cr) with
                | SUB => halt UB
                | SFuel => halt Fuel
                | SRes false => login_error AMQP_STATUS_BROKER_UNSUPPORTED_SASL_METHOD
                | SRes true =>
                  ok <- sys_alloc;;
                  match sasl_response (negb ok) cr with
                  | RUB => halt UB
                  | RNull => login_error AMQP_STATUS_NO_MEMORY
                  | RBytes response =>
                    oom <- sys_clone;;
                    merged <- need (amqp_merge_capabilities oom (default_properties platform) client_properties 0);;
                    match fst merged with
                    | inl e => login_error e
                    | inr props =>
                      upd (fun c => set_cprops c (props, gens c 0));;
                      res <- amqp_send_method_inner 0 CONNECTION_START_OK
                               [("client_properties", VTable props); ("mechanism", VBytes (sasl_method_name (cred_method cr)));
                                ("response", VBytes response); ("locale", VBytes (lit "en_US"))] false deadline;;
                      if res <? 0 then login_error res
                      else login_tune vhost channel_max fm heartbeat deadline
                    end
                  end
                end
              end
    end.
(** amqp_socket.c:1436-1452: no client properties means the empty table *)
Definition amqp_login (platform : string) (vhost : bytes) (channel_max fm heartbeat : Z) (cr : credentials) : M rpc_reply_t :=
  c <- get;;
  amqp_login_inner platform vhost channel_max fm heartbeat (Some []) (amqp_get_handshake_timeout (c_to c)) cr.
(** amqp_socket.c:1454-1470 *)
Definition amqp_login_with_properties (platform : string) (vhost : bytes) (channel_max fm heartbeat : Z)
    (client_properties : option table) (cr : credentials) : M rpc_reply_t :=
  c <- get;;
  amqp_login_inner platform vhost channel_max fm heartbeat client_properties (amqp_get_handshake_timeout (c_to c)) cr.

(** ** Histories of calls *)
Inductive api :=
| SendHeader
| SendFrame (f : frame)
| SendMethod (channel id : Z) (m : mstruct)
| WaitFrame (timeout : option timeval)              (* amqp_simple_wait_frame, _noblock *)
| WaitMethod (channel id : Z)
| Rpc (channel id : Z) (replies : list Z) (m : mstruct)
| Call (w : rpc_wrapper) (channel : Z) (args : list (string * mval))
| ChannelClose (channel code : Z)
| ConnectionClose (code : Z)
| Publish (channel : Z) (exchange routing_key : bytes) (mandatory immediate : Z) (p : option props) (body : bytes)
| Ack (channel tag multiple : Z)
| Nack (channel tag multiple requeue : Z)
| Reject (channel tag requeue : Z)
| BasicGet (channel : Z) (queue : bytes) (no_ack : Z)
| ReadMessage (channel : Z)
| ConsumeMessage (timeout : option timeval)
| ConfirmWait (timeout : option timeval)
| ReleaseBuffers
| MaybeReleaseBuffers
| MaybeReleaseBuffersOnChannel (channel : Z)
| Tune (channel_max frame_max heartbeat : Z)
| SetHandshakeTimeout (t : option timeval)
| SetRpcTimeout (t : option timeval)
| Login (platform : string) (vhost : bytes) (channel_max frame_max heartbeat : Z) (p : option table) (cr : credentials).

Inductive outcome_t :=
| OutStatus (st : Z)
| OutFrame (st : Z) (f : frame)
| OutMethod (st : Z) (id : Z) (m : mstruct)
| OutReply (r : rpc_reply_t)
| OutDecoded (m : option mstruct)
| OutMessage (r : rpc_reply_t) (m : option message)
| OutEnvelope (r : rpc_reply_t) (e : option envelope)
| OutConfirm (r : rpc_reply_t) (k : option (Z * Z * mstruct))
| OutNothing.

Definition exec (a : api) : M outcome_t :=
  match a with
  | SendHeader => r <- amqp_send_header N;; ret (OutStatus r)
  | SendFrame f => r <- amqp_send_frame N E f;; ret (OutStatus r)
  | SendMethod ch id m => r <- amqp_send_method ch id m;; ret (OutStatus r)
  | WaitFrame t => '(r, f) <- amqp_simple_wait_frame_noblock N E t;; ret (OutFrame r f)
  | WaitMethod ch id => '(r, (i, m)) <- amqp_simple_wait_method ch id;; ret (OutMethod r i m)
  | Rpc ch id replies m => r <- amqp_simple_rpc ch id replies m;; ret (OutReply r)
  | Call w ch args => r <- amqp_call w ch args;; ret (OutDecoded r)
  | ChannelClose ch code => r <- amqp_channel_close ch code;; ret (OutReply r)
  | ConnectionClose code => r <- amqp_connection_close code;; ret (OutReply r)
  | Publish ch x k ma im p b => r <- amqp_basic_publish ch x k ma im p b;; ret (OutStatus r)
  | Ack ch t mu => r <- amqp_basic_ack ch t mu;; ret (OutStatus r)
  | Nack ch t mu rq => r <- amqp_basic_nack ch t mu rq;; ret (OutStatus r)
  | Reject ch t rq => r <- amqp_basic_reject ch t rq;; ret (OutStatus r)
  | BasicGet ch q na => r <- amqp_basic_get ch q na;; ret (OutReply r)
  | ReadMessage ch => '(r, m) <- amqp_read_message ch;; ret (OutMessage r m)
  | ConsumeMessage t => '(r, e) <- amqp_consume_message t;; ret (OutEnvelope r e)
  | ConfirmWait t => '(r, k) <- amqp_publisher_confirm_wait t;; ret (OutConfirm r k)
  | ReleaseBuffers => amqp_release_buffers;; ret OutNothing
  | MaybeReleaseBuffers => amqp_maybe_release_buffers;; ret OutNothing
  | MaybeReleaseBuffersOnChannel ch => amqp_maybe_release_buffers_on_channel ch;; ret OutNothing
  | Tune cm fm hb => r <- amqp_tune_connection cm fm hb;; ret (OutStatus r)
  | SetHandshakeTimeout t =>
    c <- get;; let r := amqp_set_handshake_timeout (c_to c) t in upd (fun c => set_to c (snd r));; ret (OutStatus (fst r))
  | SetRpcTimeout t =>
    c <- get;; let r := amqp_set_rpc_timeout (c_to c) t in upd (fun c => set_to c (snd r));; ret (OutStatus (fst r))
  | Login pf vh cm fm hb p cr => r <- amqp_login_with_properties pf vh cm fm hb p cr;; ret (OutReply r)
  end.

(** a program that makes these calls one after the other *)
Fixpoint exec_all (l : list api) : M (list outcome_t) :=
  match l with
  | [] => ret []
  | a :: l => o <- exec a;; os <- exec_all l;; ret (o :: os)
  end.
End Api.
