(** Specification for C68, written by hand from the AMQP 0-9-1 documents (and RabbitMQ's
    extensions): the names of the methods of [catalogue], and the reply codes. *)
From Coq Require Import String ZArith List Bool.
From Verif Require Import MethodSpec.
Import ListNotations.
Local Open Scope string_scope.
Local Open Scope Z_scope.

(** class id, class name, and its methods *)
Definition classes : list (Z * string * list (Z * string)) := [
  (10, "CONNECTION", [(10, "START"); (11, "START_OK"); (20, "SECURE"); (21, "SECURE_OK"); (30, "TUNE"); (31, "TUNE_OK"); (40, "OPEN"); (41, "OPEN_OK");
     (50, "CLOSE"); (51, "CLOSE_OK"); (60, "BLOCKED"); (61, "UNBLOCKED"); (70, "UPDATE_SECRET"); (71, "UPDATE_SECRET_OK")]);
  (20, "CHANNEL", [(10, "OPEN"); (11, "OPEN_OK"); (20, "FLOW"); (21, "FLOW_OK"); (40, "CLOSE"); (41, "CLOSE_OK")]);
  (30, "ACCESS", [(10, "REQUEST"); (11, "REQUEST_OK")]);
  (40, "EXCHANGE", [(10, "DECLARE"); (11, "DECLARE_OK"); (20, "DELETE"); (21, "DELETE_OK"); (30, "BIND"); (31, "BIND_OK"); (40, "UNBIND"); (51, "UNBIND_OK")]);
  (50, "QUEUE", [(10, "DECLARE"); (11, "DECLARE_OK"); (20, "BIND"); (21, "BIND_OK"); (30, "PURGE"); (31, "PURGE_OK"); (40, "DELETE"); (41, "DELETE_OK"); (50, "UNBIND"); (51, "UNBIND_OK")]);
  (60, "BASIC", [(10, "QOS"); (11, "QOS_OK"); (20, "CONSUME"); (21, "CONSUME_OK"); (30, "CANCEL"); (31, "CANCEL_OK"); (40, "PUBLISH"); (50, "RETURN"); (60, "DELIVER");
     (70, "GET"); (71, "GET_OK"); (72, "GET_EMPTY"); (80, "ACK"); (90, "REJECT"); (100, "RECOVER_ASYNC"); (110, "RECOVER"); (111, "RECOVER_OK"); (120, "NACK")]);
  (90, "TX", [(10, "SELECT"); (11, "SELECT_OK"); (20, "COMMIT"); (21, "COMMIT_OK"); (30, "ROLLBACK"); (31, "ROLLBACK_OK")]);
  (85, "CONFIRM", [(10, "SELECT"); (11, "SELECT_OK")])
].
(** class [c], method [m] is called this *)
Definition called (c m : Z) (s : string) : Prop :=
  exists cn ms mn, In (c, cn, ms) classes /\ In (m, mn) ms /\ s = "AMQP_" ++ cn ++ "_" ++ mn ++ "_METHOD".
(** the methods that are followed by a content header and body: publish, return, deliver, get-ok *)
Definition content_methods : list (Z * Z) := [(60, 40); (60, 50); (60, 60); (60, 71)].

(** the reply codes: code, name, does it close the connection (and not just the channel)? *)
Definition reply_codes : list (Z * string * bool) := [
  (200, "REPLY_SUCCESS", false);
  (311, "CONTENT_TOO_LARGE", false); (312, "NO_ROUTE", false); (313, "NO_CONSUMERS", false);
  (403, "ACCESS_REFUSED", false); (404, "NOT_FOUND", false); (405, "RESOURCE_LOCKED", false); (406, "PRECONDITION_FAILED", false);
  (320, "CONNECTION_FORCED", true); (402, "INVALID_PATH", true);
  (501, "FRAME_ERROR", true); (502, "SYNTAX_ERROR", true); (503, "COMMAND_INVALID", true); (504, "CHANNEL_ERROR", true); (505, "UNEXPECTED_FRAME", true);
  (506, "RESOURCE_ERROR", true); (530, "NOT_ALLOWED", true); (540, "NOT_IMPLEMENTED", true); (541, "INTERNAL_ERROR", true)
].
(** the other constants *)
Definition frame_constants : list (Z * string) :=
  [(1, "FRAME_METHOD"); (2, "FRAME_HEADER"); (3, "FRAME_BODY"); (8, "FRAME_HEARTBEAT"); (4096, "FRAME_MIN_SIZE"); (206, "FRAME_END")].
