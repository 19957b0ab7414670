(** Specification for C70: a system and a network without failures. *)
From Coq Require Import String ZArith List Bool.
From Verif Require Import Base Codec TableModel TableSpec TableOps FramingStmt FramingModel MethodSpec Frame FrameSpec Time Net NetApi.
From Verif Require Prop_TableOps.
Notation cloneable_table := Prop_TableOps.cloneable_table.
Import ListNotations.
Local Open Scope Z_scope.

(** An answer of the system that is no failure: any part of the data is accepted or
    delivered, calls may be interrupted or not be possible yet, poll may be interrupted;
    memory is never refused; the peer does not close the connection. *)
Definition no_failure (e : event) : Prop :=
  match e with
  | EvClock now => 0 < now < M63
  | EvSend (SOk _) | EvSend SIntr | EvSend SAgain | EvSend SWantRead => True
  | EvRecv (ROk bs) => bs <> [] /\ zlen bs <= SOCK_BUFFER_SIZE
  | EvRecv RIntr | EvRecv RAgain | EvRecv RWantWrite => True
  | EvPoll PReady | EvPoll PIntr => True
  | EvClose ok => ok = true
  | EvAlloc ok => ok = true
  | EvClone oom => forall n, oom n = false
  | _ => False
  end.
(** the clock does not go back; [t]: a time before the first reading *)
Fixpoint clock_monotone (t : Z) (ev : list event) : Prop :=
  match ev with
  | [] => True
  | EvClock now :: ev => t <= now /\ clock_monotone now ev
  | _ :: ev => clock_monotone t ev
  end.
Definition calm (t : Z) (ev : list event) : Prop := Forall no_failure ev /\ clock_monotone t ev.

(** everything the network will deliver *)
Definition inflow (ev : list event) : bytes :=
  flat_map (fun e => match e with EvRecv (ROk bs) => bs | _ => [] end) ev.

(** A timeout of at most 2,000,000 seconds (23 days), or none.  (Beyond 24.8 days the
    number of milliseconds does not fit into an int: C25.) *)
Definition modest_timeout (t : option timeval) : Prop :=
  match t with
  | None => True
  | Some tv => 0 <= tv_sec tv /\ 0 <= tv_usec tv /\ tv_sec tv * 1000000 + tv_usec tv <= 2000000000000
  end.
(** a deadline that is at most that far away, or never *)
Definition modest_deadline (t d : Z) : Prop := d = amqp_time_infinite \/ 0 <= d <= t + 2000000000000000.

(** A connection in use, at time [t]: it has a socket; heartbeats are off or at intervals
    of at most 65535 seconds and due within the limits above; the timeouts set for RPCs and
    logins are modest. *)
Definition in_use (t : Z) (c : conn) : Prop :=
  c_fd c <> -1 /\ modest_deadline t (c_next_send c) /\ modest_deadline t (c_next_recv c) /\
  0 <= c_hb c <= 65535 /\ modest_timeout (amqp_get_rpc_timeout (c_to c)) /\ modest_timeout (amqp_get_handshake_timeout (c_to c)) /\
  zlen (c_outbuf c) < M31.

(** A content header announces less than 2^63 bytes, and the tables in it can be copied
    (no empty key: C22). *)
Definition modest (f : frame) : Prop :=
  match f_pay f with
  | PHeader _ body_size p _ => body_size < M63 /\ forall name t, In (name, VTable t) (pfields p) -> cloneable_table t = true
  | _ => True
  end.
Definition modest_frame (ca : Z * aframe) : Prop := modest (received_frame 0 (fst ca) (snd ca)).

(** the error says that something does not fit into a frame or is not of the protocol:
    the caller's arguments are to blame *)
Definition blames_caller (st : Z) : Prop :=
  st = AMQP_STATUS_BAD_AMQP_DATA \/ st = AMQP_STATUS_TABLE_TOO_BIG \/ st = AMQP_STATUS_INVALID_PARAMETER \/
  st = AMQP_STATUS_UNKNOWN_METHOD \/ st = AMQP_STATUS_UNKNOWN_CLASS.
(** the error says that the server sent something else than what the call is for *)
Definition blames_server (st : Z) : Prop :=
  st = AMQP_STATUS_UNEXPECTED_STATE \/ st = AMQP_STATUS_BAD_AMQP_DATA.
Definition no_error (P : Z -> Prop) (r : rpc_reply_t) : Prop := match r with RLibrary st => P st | _ => True end.

(** The frame has a representation in the protocol, and that takes at most [n] bytes. *)
Definition can_send (n : Z) (f : frame) : Prop :=
  exists ch a, f = c_frame ch a /\ aframe_ok a /\ aframe_representable a = true /\ zlen (ser_frame ch a) <= n.
Definition method_frame (ch id : Z) (m : mstruct) : frame := mkFrame 1 ch (PMethod id m) 0.
(** the two frames of a message that do not carry its body *)
Definition publish_frame (ch : Z) (exchange routing_key : bytes) (mandatory immediate : Z) : frame :=
  method_frame ch 3932200
    [("ticket", VInt 0); ("exchange", VBytes exchange); ("routing_key", VBytes routing_key);
     ("mandatory", VBool mandatory); ("immediate", VBool immediate)]%string.
Definition header_frame (ch : Z) (p : option props) (body : bytes) : frame :=
  mkFrame 2 ch (PHeader 60 (zlen body) (match p with Some p => p | None => mkProps 0 [] end) []) 0.

(** success, unless one of the frames to send is not can_send *)
Definition spoilt (n : Z) (fs : list frame) (st : Z) : Prop := blames_caller st /\ ~ Forall (can_send n) fs.
Definition fine (n : Z) (fs : list frame) (st : Z) : Prop := st = AMQP_STATUS_OK \/ spoilt n fs st.

(** What a call may report when nothing has failed; [n]: the largest frame. *)
Definition no_false_alarm (n : Z) (a : api) (o : outcome_t) : Prop :=
  match a, o with
  | SendHeader, OutStatus st => st = AMQP_STATUS_OK
  | SendFrame f, OutStatus st => fine n [f] st
  | SendMethod ch id m, OutStatus st => fine n [method_frame ch id m] st
  | Publish ch x k ma im p b, OutStatus st => fine n [publish_frame ch x k ma im; header_frame ch p b] st
  | Ack ch t mu, OutStatus st => fine n [method_frame ch BASIC_ACK [("delivery_tag", VInt t); ("multiple", VBool mu)]%string] st
  | Nack ch t mu rq, OutStatus st =>
    fine n [method_frame ch BASIC_NACK [("delivery_tag", VInt t); ("multiple", VBool mu); ("requeue", VBool rq)]%string] st
  | Reject ch t rq, OutStatus st => fine n [method_frame ch BASIC_REJECT [("delivery_tag", VInt t); ("requeue", VBool rq)]%string] st
  | WaitFrame _, OutFrame st f => st = AMQP_STATUS_OK
  | WaitMethod _ _, OutMethod st _ _ => st = AMQP_STATUS_OK \/ st = AMQP_STATUS_WRONG_METHOD
  | Rpc ch id _ m, OutReply r => no_error (spoilt n [method_frame ch id m]) r
  | BasicGet ch q na, OutReply r =>
    no_error (spoilt n [method_frame ch BASIC_GET [("ticket", VInt 0); ("queue", VBytes q); ("no_ack", VBool na)]%string]) r
  | ChannelClose _ code, OutReply r | ConnectionClose code, OutReply r =>
    no_error (fun st => blames_caller st /\ ~ 0 <= code <= 65535) r
  | ReadMessage _, OutMessage r m => no_error blames_server r
  | ConsumeMessage _, OutEnvelope r e => no_error blames_server r
  | ConfirmWait _, OutConfirm r k => no_error (fun st => st = AMQP_STATUS_UNEXPECTED_STATE) r
  | SetHandshakeTimeout _, OutStatus st | SetRpcTimeout _, OutStatus st => st = AMQP_STATUS_OK
  | _, _ => True
  end.
(** the timeouts a call is given *)
Definition modest_call (a : api) : Prop :=
  match a with
  | WaitFrame t | ConsumeMessage t | ConfirmWait t | SetHandshakeTimeout t | SetRpcTimeout t => modest_timeout t
  | _ => True
  end.
