(** C72: what the peer must be able to read from the bytes a session has put on the wire. *)
From Coq Require Import String ZArith List Bool.
From Verif Require Import Base Codec TableModel TableSpec FramingStmt FramingGen FramingModel MethodSpec Frame FrameSpec Time Net NetApi NetSpec CallSpec Prop_Calls Prop_Publish CalmSpec.
Import ListNotations.
Local Open Scope string_scope.
Local Open Scope list_scope.
Local Open Scope Z_scope.

(** [w] is the items [F] one after the other, each of them whole, with heartbeat frames
    before, between and after them. *)
Inductive sent : list bytes -> bytes -> Prop :=
| sent_nil : sent [] []
| sent_beat : forall F w, sent F w -> sent F (heartbeat_wire ++ w)
| sent_item : forall b F w, sent F w -> sent (b :: F) (b ++ w).
(** a beginning of that *)
Definition part (F : list bytes) (w : bytes) : Prop := exists w', sent F w' /\ prefix w w'.

(** a single frame, if it can be sent at all: its strings and tables fit their length
    fields and it fits into the send buffer *)
Definition fits (room chan : Z) (x : aframe) : bool := aframe_representable x && (zlen (ser_frame chan x) <=? room).
Definition single (room chan : Z) (x : aframe) : list bytes := if fits room chan x then [ser_frame chan x] else [].

Definition close_method (cls i code : Z) (text : bytes) : aframe :=
  AMethod cls i [("reply_code", Short); ("reply_text", ShortStr); ("class_id", Short); ("method_id", Short)]
    [("reply_code", VInt code); ("reply_text", VBytes text); ("class_id", VInt 0); ("method_id", VInt 0)].

(** What a call asks to be put on the wire, on a connection with this maximum frame size
    and this much room for a frame to send. *)
Definition asks (frame_max room : Z) (a : api) (F : list bytes) : Prop :=
  match a with
  | SendHeader => F = [[x41; x4d; x51; x50; x00; x00; x09; x01]]
  | SendFrame f => exists ch x, f = c_frame ch x /\ aframe_ok x /\ F = single room ch x
  | SendMethod ch id m | Rpc ch id _ m =>
      exists c i fs, In (c, i, fs) catalogue /\ id = method_id c i /\ F = single room ch (AMethod c i fs m)
  | Call w ch args =>
      exists c i reply fs m, In (rpc_name w, (c, i), reply) documented /\ In (c, i, fs) catalogue /\ documented_args fs args m /\
        F = single room ch (AMethod c i fs m)
  | ChannelClose ch code =>
      if (0 <=? code) && (code <=? 65535) then exists text, decimal_of text code /\ F = single room ch (close_method 20 40 code text) else F = []
  | ConnectionClose code =>
      if (0 <=? code) && (code <=? 65535) then exists text, decimal_of text code /\ F = single room 0 (close_method 10 50 code text) else F = []
  | Publish ch ex rk ma im p body =>
      exists h, content_header p body h /\
        F = ser_frame ch (publish_method ex rk ma im) :: ser_frame ch h :: map (fun b => ser_frame ch (ABody b)) (pieces frame_max body)
  | Ack ch t mu => F = single room ch (AMethod 60 80 [("delivery_tag", Longlong); ("multiple", Bit)] [("delivery_tag", VInt t); ("multiple", VBool mu)])
  | Nack ch t mu rq =>
      F = single room ch (AMethod 60 120 [("delivery_tag", Longlong); ("multiple", Bit); ("requeue", Bit)]
                            [("delivery_tag", VInt t); ("multiple", VBool mu); ("requeue", VBool rq)])
  | Reject ch t rq =>
      F = single room ch (AMethod 60 90 [("delivery_tag", Longlong); ("requeue", Bit)] [("delivery_tag", VInt t); ("requeue", VBool rq)])
  | BasicGet ch q na =>
      F = single room ch (AMethod 60 70 [("ticket", Short); ("queue", ShortStr); ("no_ack", Bit)]
                            [("ticket", VInt 0); ("queue", VBytes q); ("no_ack", VBool na)])
  | _ => F = []
  end.

(** What the caller is told does not speak of a broken connection: success; an answer of
    the server; a wait that ends with a status in [ends]; or nothing was to be sent in the
    first place (a frame that cannot be sent; a parameter that is refused).  [told] is the
    result of the call and what amqp_get_rpc_reply says after it. *)
Definition fine_reply (r : rpc_reply_t) : Prop := match r with RNormal _ _ | RServer _ _ => True | _ => False end.
Definition fine_wait (ends : Z -> Prop) (r : rpc_reply_t) : Prop :=
  match r with RNormal _ _ | RServer _ _ => True | RLibrary st => ends st | RNone => False end.
Definition in_step (ends : Z -> Prop) (F : list bytes) (a : api) (told : outcome_t * rpc_reply_t) : Prop :=
  match a, fst told with
  | SetHandshakeTimeout _, _ | SetRpcTimeout _, _ => True
  | _, OutStatus st => st = AMQP_STATUS_OK \/ F = []
  | _, OutFrame st _ | _, OutMethod st _ _ => ends st
  | _, OutReply r => fine_reply r \/ F = []
  | _, OutDecoded _ => fine_reply (snd told) \/ F = []
  | _, OutMessage r _ | _, OutEnvelope r _ | _, OutConfirm r _ => fine_wait ends r
  | _, OutNothing => True
  end.
(** the time is up *)
Definition plain_end (st : Z) : Prop := st = AMQP_STATUS_OK \/ st = AMQP_STATUS_TIMEOUT.
(** or a frame of another kind came *)
Definition any_end (st : Z) : Prop := plain_end st \/ st = AMQP_STATUS_UNEXPECTED_STATE \/ st = AMQP_STATUS_WRONG_METHOD.
(** A program that makes these calls one after the other and after each asks
    amqp_get_rpc_reply (amqp_socket.c:1138-1140) for the reply. *)
Fixpoint exec_told (N : nat) (E : nat -> aenv) (l : list api) : M (list (outcome_t * rpc_reply_t)) :=
  match l with
  | [] => ret []
  | a :: l => bind (exec N E a) (fun o => bind get (fun c => bind (exec_told N E l) (fun os => ret ((o, c_recent c) :: os))))
  end.
(** The clock readings: each 0 (the clock could not be read) or not before the one
    preceding it; [T]: a time before the first reading.  (In nanoseconds; 2^63 of them are
    292 years.) *)
Fixpoint steady (T : Z) (l : list obs) : Prop :=
  match l with
  | [] => True
  | OClock now :: l => (now = 0 \/ T <= now < M63) /\ steady (if now =? 0 then T else now) l
  | _ :: l => steady T l
  end.
(** A connection at time [T]: heartbeats at intervals of at most 65535 seconds, the next one
    due within 23 days (or none); at most 2 GB received and not yet decoded. *)
Definition on_time (T : Z) (c : conn) : Prop :=
  0 <= T < M63 /\ 0 <= c_hb c <= 65535 /\ modest_deadline T (c_next_recv c) /\ zlen (c_sbuf c) < M31.
(** all calls of a history were in step *)
Fixpoint all_in_step (ends : Z -> Prop) (Fs : list (list bytes)) (calls : list api) (told : list (outcome_t * rpc_reply_t)) : Prop :=
  match Fs, calls, told with
  | [], [], [] => True
  | F :: Fs, a :: calls, o :: told => in_step ends F a o /\ all_in_step ends Fs calls told
  | _, _, _ => False
  end.
