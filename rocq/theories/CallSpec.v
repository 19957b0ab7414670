(** What the documentation of the synchronous calls says (include/rabbitmq-c/framing.h
    and the protocol catalogue), independent of amqp_framing.c. *)
From Coq Require Import String ZArith List Bool.
From Verif Require Import Base Codec TableModel TableSpec FramingStmt FramingModel MethodSpec Net NetSpec.
Import ListNotations.
Local Open Scope string_scope.
Local Open Scope Z_scope.

(** name of the call, method sent, method of the reply: (class, method) *)
Definition documented : list (string * (Z * Z) * (Z * Z)) := [
  ("amqp_connection_update_secret", (10, 70), (10, 71));
  ("amqp_channel_open", (20, 10), (20, 11));
  ("amqp_channel_flow", (20, 20), (20, 21));
  ("amqp_exchange_declare", (40, 10), (40, 11));
  ("amqp_exchange_delete", (40, 20), (40, 21));
  ("amqp_exchange_bind", (40, 30), (40, 31));
  ("amqp_exchange_unbind", (40, 40), (40, 51));
  ("amqp_queue_declare", (50, 10), (50, 11));
  ("amqp_queue_bind", (50, 20), (50, 21));
  ("amqp_queue_purge", (50, 30), (50, 31));
  ("amqp_queue_delete", (50, 40), (50, 41));
  ("amqp_queue_unbind", (50, 50), (50, 51));
  ("amqp_basic_qos", (60, 10), (60, 11));
  ("amqp_basic_consume", (60, 20), (60, 21));
  ("amqp_basic_cancel", (60, 30), (60, 31));
  ("amqp_basic_recover", (60, 110), (60, 111));
  ("amqp_tx_select", (90, 10), (90, 11));
  ("amqp_tx_commit", (90, 20), (90, 21));
  ("amqp_tx_rollback", (90, 30), (90, 31));
  ("amqp_confirm_select", (85, 10), (85, 11))
].

(** The value of each argument of the method: reserved ones are zero or empty,
    nowait is off, every other argument is the parameter of the same name. *)
Definition documented_value (args : list (string * mval)) (field : string) : option mval :=
  if string_dec field "ticket" then Some (VInt 0)
  else if string_dec field "nowait" then Some (VBool 0)
  else if string_dec field "out_of_band" then Some (VBytes [])
  else lookup field args.
Definition documented_args (fs : list (string * dom)) (args : list (string * mval)) (m : mstruct) : Prop :=
  Forall2 (fun fd nv => fst nv = fst fd /\ documented_value args (fst fd) = Some (snd nv)) fs m.

(** a value of the C type of a parameter *)
Definition ctype_val (t : ctype) (v : mval) : Prop :=
  match t, v with
  | CInt W8, VInt z => 0 <= z < M8
  | CInt W16, VInt z => 0 <= z < M16
  | CInt W32, VInt z => 0 <= z < M32
  | CInt W64, VInt z => 0 <= z < M64
  | CBool, VBool z => - M31 <= z < M31
  | CBytes, VBytes b => zlen b < M63
  | CTable, VTable t => c_table t
  | _, _ => False
  end.
(** the caller gives a value for every parameter *)
Definition given (params : list (string * ctype)) (args : list (string * mval)) : Prop :=
  Forall (fun p => exists v, lookup (fst p) args = Some v /\ ctype_val (snd p) v) params.

(** the bytes handed to the socket so far: a part of the request, or all of it,
    followed by heartbeats *)
Definition sent_only (out request : bytes) : Prop :=
  prefix out request \/ exists hb, beats hb /\ out = (request ++ hb)%list.
