(** C73: the statuses each call can report. *)
From Coq Require Import String ZArith List Bool.
From Verif Require Import Base Codec TableModel TableOps FramingStmt FramingModel Frame Time Sasl Net NetApi CalmSpec SpeakSpec.
Import ListNotations.
Local Open Scope Z_scope.

(** include/rabbitmq-c/amqp.h: every value of enum amqp_status_enum_ *)
Definition declared_statuses : list Z :=
  [AMQP_STATUS_OK; AMQP_STATUS_NO_MEMORY; AMQP_STATUS_BAD_AMQP_DATA; AMQP_STATUS_UNKNOWN_CLASS; AMQP_STATUS_UNKNOWN_METHOD;
   AMQP_STATUS_HOSTNAME_RESOLUTION_FAILED; AMQP_STATUS_INCOMPATIBLE_AMQP_VERSION; AMQP_STATUS_CONNECTION_CLOSED; AMQP_STATUS_BAD_URL;
   AMQP_STATUS_SOCKET_ERROR; AMQP_STATUS_INVALID_PARAMETER; AMQP_STATUS_TABLE_TOO_BIG; AMQP_STATUS_WRONG_METHOD; AMQP_STATUS_TIMEOUT;
   AMQP_STATUS_TIMER_FAILURE; AMQP_STATUS_HEARTBEAT_TIMEOUT; AMQP_STATUS_UNEXPECTED_STATE; AMQP_STATUS_SOCKET_CLOSED; AMQP_STATUS_SOCKET_INUSE;
   AMQP_STATUS_BROKER_UNSUPPORTED_SASL_METHOD; AMQP_STATUS_UNSUPPORTED; AMQP_STATUS_TCP_ERROR; AMQP_STATUS_TCP_SOCKETLIB_INIT_ERROR;
   AMQP_STATUS_SSL_ERROR; AMQP_STATUS_SSL_HOSTNAME_VERIFY_FAILED; AMQP_STATUS_SSL_PEER_VERIFY_FAILED; AMQP_STATUS_SSL_CONNECTION_FAILED;
   AMQP_STATUS_SSL_SET_ENGINE_FAILED; AMQP_STATUS_SSL_UNIMPLEMENTED].

(** ** The lists *)
(** the network or the clock failed *)
Definition link_failures : list Z :=
  [AMQP_STATUS_CONNECTION_CLOSED; AMQP_STATUS_SOCKET_CLOSED; AMQP_STATUS_SOCKET_ERROR; AMQP_STATUS_SSL_ERROR; AMQP_STATUS_TIMER_FAILURE].
(** what was received cannot be decoded or stored *)
Definition input_failures : list Z :=
  [AMQP_STATUS_NO_MEMORY; AMQP_STATUS_BAD_AMQP_DATA; AMQP_STATUS_UNKNOWN_CLASS; AMQP_STATUS_UNKNOWN_METHOD].
(** the frame to send cannot be encoded *)
Definition output_failures : list Z :=
  [AMQP_STATUS_BAD_AMQP_DATA; AMQP_STATUS_TABLE_TOO_BIG; AMQP_STATUS_INVALID_PARAMETER; AMQP_STATUS_UNKNOWN_METHOD; AMQP_STATUS_UNKNOWN_CLASS].
(** waiting without a time limit *)
Definition wait_failures : list Z := link_failures ++ input_failures ++ [AMQP_STATUS_HEARTBEAT_TIMEOUT].
(** sending a frame (which may receive frames while the peer does not read) *)
Definition send_failures : list Z := output_failures ++ wait_failures.
(** the time limit of a call, if there is one *)
Definition limit (t : option timeval) : list Z := match t with None => [] | Some _ => [AMQP_STATUS_TIMEOUT] end.
Definition negative (t : option timeval) : bool := match t with None => false | Some tv => (tv_sec tv <? 0) || (tv_usec tv <? 0) end.
(** a time limit that is negative is refused *)
Definition unless_negative (t : option timeval) (l : list Z) : list Z := if negative t then [AMQP_STATUS_INVALID_PARAMETER] else limit t ++ l.
Definition code_refused (code : Z) (l : list Z) : list Z := if (0 <=? code) && (code <=? 65535) then l else [AMQP_STATUS_INVALID_PARAMETER].

(** what the call can report other than success; [to]: the timeouts set for RPCs and
    logins *)
Definition failures (to : timeouts) (a : api) : list Z :=
  let rpc := limit (amqp_get_rpc_timeout to) ++ send_failures in
  match a with
  | SendHeader => link_failures
  | SendFrame _ | SendMethod _ _ _ | Ack _ _ _ | Nack _ _ _ _ | Reject _ _ _ | Publish _ _ _ _ _ _ _ => send_failures
  | WaitFrame t => unless_negative t wait_failures
  | WaitMethod _ _ => AMQP_STATUS_WRONG_METHOD :: wait_failures
  | Rpc _ _ _ _ | Call _ _ _ | BasicGet _ _ _ => rpc
  | ChannelClose _ code | ConnectionClose code => code_refused code rpc
  | ReadMessage _ => AMQP_STATUS_UNEXPECTED_STATE :: AMQP_STATUS_INVALID_PARAMETER :: wait_failures
  | ConsumeMessage t => unless_negative t (AMQP_STATUS_UNEXPECTED_STATE :: AMQP_STATUS_INVALID_PARAMETER :: wait_failures)
  | ConfirmWait t => unless_negative t (AMQP_STATUS_UNEXPECTED_STATE :: wait_failures)
  | Tune _ _ _ => [AMQP_STATUS_NO_MEMORY; AMQP_STATUS_TIMER_FAILURE]
  | SetHandshakeTimeout t | SetRpcTimeout t => if negative t then [AMQP_STATUS_INVALID_PARAMETER] else []
  | Login _ _ channel_max frame_max heartbeat _ _ =>
      if (channel_max <? 0) || (65535 <? channel_max) || (frame_max <? 0) || (heartbeat <? 0) || (65535 <? heartbeat) then [AMQP_STATUS_INVALID_PARAMETER]
      else
        (* the number of bytes of the protocol header that were sent when the time was up:
           not a status *)
        match amqp_get_handshake_timeout to with None => [] | Some _ => [1; 2; 3; 4; 5; 6; 7] end ++
        limit (amqp_get_handshake_timeout to) ++
        [AMQP_STATUS_WRONG_METHOD; AMQP_STATUS_INCOMPATIBLE_AMQP_VERSION; AMQP_STATUS_BROKER_UNSUPPORTED_SASL_METHOD] ++ send_failures
  | ReleaseBuffers | MaybeReleaseBuffers | MaybeReleaseBuffersOnChannel _ => []
  end.

(** [told]: what the call returned and what amqp_get_rpc_reply says after it *)
Definition reply_in (fs : list Z) (r : rpc_reply_t) : Prop :=
  match r with
  | RNone => False
  | RNormal _ _ | RServer _ _ => True
  | RLibrary st => In st fs
  end.
Definition reports (fs : list Z) (o : outcome_t) (recent : rpc_reply_t) : Prop :=
  match o with
  | OutStatus st | OutFrame st _ | OutMethod st _ _ => st = AMQP_STATUS_OK \/ In st fs
  | OutReply r | OutMessage r _ | OutEnvelope r _ | OutConfirm r _ => reply_in fs r
  | OutDecoded _ => reply_in fs recent
  | OutNothing => True
  end.

(** ** When they are complete *)
(** a timeout given to a call is negative, none or not excessive *)
Definition given_timeout (t : option timeval) : Prop := negative t = true \/ modest_timeout t.
Definition given_args (a : api) : Prop :=
  match a with
  | WaitFrame t | ConsumeMessage t | ConfirmWait t | SetHandshakeTimeout t | SetRpcTimeout t => given_timeout t
  | Tune _ frame_max heartbeat => 0 <= frame_max < M31 /\ heartbeat <= 65535
  | Login _ _ _ frame_max _ _ _ => frame_max < M31
  | _ => True
  end.
(** A connection at time [T]: both heartbeat deadlines and the timeouts for RPCs and logins
    are none or within 23 days; less than 2 GB are buffered. *)
Definition settled_at (T : Z) (c : conn) : Prop :=
  on_time T c /\ modest_deadline T (c_next_send c) /\ modest_timeout (amqp_get_rpc_timeout (c_to c)) /\
  modest_timeout (amqp_get_handshake_timeout (c_to c)) /\ zlen (c_outbuf c) < M31.
