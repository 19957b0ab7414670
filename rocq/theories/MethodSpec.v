(** Specification of the AMQP 0-9-1 methods (with the RabbitMQ extensions) and of
    the basic content properties, written by hand from the protocol
    documentation and independent of amqp_framing.c. *)
From Coq Require Import String ZArith List Bool.
From Verif Require Import Base Codec TableModel TableSpec FramingStmt.
Import ListNotations.
Local Open Scope string_scope.
Local Open Scope Z_scope.

Inductive dom := Octet | Short | Long | Longlong | ShortStr | LongStr | Bit | Tbl.

(** one method: class id, method id, arguments in protocol order *)
Definition catalogue : list (Z * Z * list (string * dom)) := [
  (* connection *)
  (10, 10, [("version_major", Octet); ("version_minor", Octet); ("server_properties", Tbl); ("mechanisms", LongStr); ("locales", LongStr)]);
  (10, 11, [("client_properties", Tbl); ("mechanism", ShortStr); ("response", LongStr); ("locale", ShortStr)]);
  (10, 20, [("challenge", LongStr)]);
  (10, 21, [("response", LongStr)]);
  (10, 30, [("channel_max", Short); ("frame_max", Long); ("heartbeat", Short)]);
  (10, 31, [("channel_max", Short); ("frame_max", Long); ("heartbeat", Short)]);
  (10, 40, [("virtual_host", ShortStr); ("capabilities", ShortStr); ("insist", Bit)]);
  (10, 41, [("known_hosts", ShortStr)]);
  (10, 50, [("reply_code", Short); ("reply_text", ShortStr); ("class_id", Short); ("method_id", Short)]);
  (10, 51, []);
  (10, 60, [("reason", ShortStr)]);
  (10, 61, []);
  (10, 70, [("new_secret", LongStr); ("reason", ShortStr)]);
  (10, 71, []);
  (* channel *)
  (20, 10, [("out_of_band", ShortStr)]);
  (20, 11, [("channel_id", LongStr)]);
  (20, 20, [("active", Bit)]);
  (20, 21, [("active", Bit)]);
  (20, 40, [("reply_code", Short); ("reply_text", ShortStr); ("class_id", Short); ("method_id", Short)]);
  (20, 41, []);
  (* access *)
  (30, 10, [("realm", ShortStr); ("exclusive", Bit); ("passive", Bit); ("active", Bit); ("write", Bit); ("read", Bit)]);
  (30, 11, [("ticket", Short)]);
  (* exchange *)
  (40, 10, [("ticket", Short); ("exchange", ShortStr); ("type", ShortStr); ("passive", Bit); ("durable", Bit); ("auto_delete", Bit); ("internal", Bit); ("nowait", Bit); ("arguments", Tbl)]);
  (40, 11, []);
  (40, 20, [("ticket", Short); ("exchange", ShortStr); ("if_unused", Bit); ("nowait", Bit)]);
  (40, 21, []);
  (40, 30, [("ticket", Short); ("destination", ShortStr); ("source", ShortStr); ("routing_key", ShortStr); ("nowait", Bit); ("arguments", Tbl)]);
  (40, 31, []);
  (40, 40, [("ticket", Short); ("destination", ShortStr); ("source", ShortStr); ("routing_key", ShortStr); ("nowait", Bit); ("arguments", Tbl)]);
  (40, 51, []);
  (* queue *)
  (50, 10, [("ticket", Short); ("queue", ShortStr); ("passive", Bit); ("durable", Bit); ("exclusive", Bit); ("auto_delete", Bit); ("nowait", Bit); ("arguments", Tbl)]);
  (50, 11, [("queue", ShortStr); ("message_count", Long); ("consumer_count", Long)]);
  (50, 20, [("ticket", Short); ("queue", ShortStr); ("exchange", ShortStr); ("routing_key", ShortStr); ("nowait", Bit); ("arguments", Tbl)]);
  (50, 21, []);
  (50, 30, [("ticket", Short); ("queue", ShortStr); ("nowait", Bit)]);
  (50, 31, [("message_count", Long)]);
  (50, 40, [("ticket", Short); ("queue", ShortStr); ("if_unused", Bit); ("if_empty", Bit); ("nowait", Bit)]);
  (50, 41, [("message_count", Long)]);
  (50, 50, [("ticket", Short); ("queue", ShortStr); ("exchange", ShortStr); ("routing_key", ShortStr); ("arguments", Tbl)]);
  (50, 51, []);
  (* basic *)
  (60, 10, [("prefetch_size", Long); ("prefetch_count", Short); ("global", Bit)]);
  (60, 11, []);
  (60, 20, [("ticket", Short); ("queue", ShortStr); ("consumer_tag", ShortStr); ("no_local", Bit); ("no_ack", Bit); ("exclusive", Bit); ("nowait", Bit); ("arguments", Tbl)]);
  (60, 21, [("consumer_tag", ShortStr)]);
  (60, 30, [("consumer_tag", ShortStr); ("nowait", Bit)]);
  (60, 31, [("consumer_tag", ShortStr)]);
  (60, 40, [("ticket", Short); ("exchange", ShortStr); ("routing_key", ShortStr); ("mandatory", Bit); ("immediate", Bit)]);
  (60, 50, [("reply_code", Short); ("reply_text", ShortStr); ("exchange", ShortStr); ("routing_key", ShortStr)]);
  (60, 60, [("consumer_tag", ShortStr); ("delivery_tag", Longlong); ("redelivered", Bit); ("exchange", ShortStr); ("routing_key", ShortStr)]);
  (60, 70, [("ticket", Short); ("queue", ShortStr); ("no_ack", Bit)]);
  (60, 71, [("delivery_tag", Longlong); ("redelivered", Bit); ("exchange", ShortStr); ("routing_key", ShortStr); ("message_count", Long)]);
  (60, 72, [("cluster_id", ShortStr)]);
  (60, 80, [("delivery_tag", Longlong); ("multiple", Bit)]);
  (60, 90, [("delivery_tag", Longlong); ("requeue", Bit)]);
  (60, 100, [("requeue", Bit)]);
  (60, 110, [("requeue", Bit)]);
  (60, 111, []);
  (60, 120, [("delivery_tag", Longlong); ("multiple", Bit); ("requeue", Bit)]);
  (* tx *)
  (90, 10, []); (90, 11, []); (90, 20, []); (90, 21, []); (90, 30, []); (90, 31, []);
  (* confirm *)
  (85, 10, [("nowait", Bit)]);
  (85, 11, [])
].

(** A method number packs class and method id. *)
Definition method_id (c m : Z) : Z := c * 65536 + m.

(** C values that can be given for an argument of a domain. *)
Definition dom_val (d : dom) (v : mval) : Prop :=
  match d, v with
  | Octet, VInt z => 0 <= z < M8
  | Short, VInt z => 0 <= z < M16
  | Long, VInt z => 0 <= z < M32
  | Longlong, VInt z => 0 <= z < M64
  | ShortStr, VBytes b | LongStr, VBytes b => zlen b < M63
  | Bit, VBool z => - M31 <= z < M31
  | Tbl, VTable t => c_table t
  | _, _ => False
  end.

(** A struct with exactly the arguments of the method, each of its C type. *)
Definition well_typed (fs : list (string * dom)) (m : mstruct) : Prop :=
  Forall2 (fun fd nv => fst nv = fst fd /\ dom_val (snd fd) (snd nv)) fs m.

(** Arguments that AMQP can represent: short strings up to 255 octets, long
    strings up to 2^32-1, tables with known value kinds. *)
Definition representable (d : dom) (v : mval) : bool :=
  match d, v with
  | ShortStr, VBytes b => zlen b <=? 255
  | LongStr, VBytes b => zlen b <=? 0xffffffff
  | Tbl, VTable t => known_table t
  | _, _ => true
  end.

(** Wire format of one argument that is not a bit. *)
Definition ser_arg (d : dom) (v : mval) : bytes :=
  match d, v with
  | Octet, VInt z => be 1 z
  | Short, VInt z => be 2 z
  | Long, VInt z => be 4 z
  | Longlong, VInt z => be 8 z
  | ShortStr, VBytes b => shortstr b
  | LongStr, VBytes b => longstr b
  | Tbl, VTable t => ser_table t
  | _, _ => []
  end.

(** The octet of a run of bits: the first bit is the least significant. *)
Fixpoint octet_of_bits (l : list bool) : Z :=
  match l with [] => 0 | b :: r => (if b then 1 else 0) + 2 * octet_of_bits r end.
Definition flush_bits (l : list bool) : bytes :=
  match l with [] => [] | _ => be 1 (octet_of_bits l) end.

(** Arguments follow each other without padding; a run of consecutive bit
    arguments (never more than eight in the catalogue) shares one octet. *)
Fixpoint ser_args (bits : list bool) (l : list (dom * mval)) : bytes :=
  match l with
  | [] => flush_bits bits
  | (Bit, VBool z) :: r => ser_args (bits ++ [negb (z =? 0)]) r
  | (d, v) :: r => (flush_bits bits ++ ser_arg d v ++ ser_args [] r)%list
  end.

(** Wire format of the arguments of a method. *)
Definition ser_method (fs : list (string * dom)) (m : mstruct) : bytes :=
  ser_args [] (combine (map snd fs) (map snd m)).
Definition representable_args (fs : list (string * dom)) (m : mstruct) : bool :=
  forallb (fun p => representable (fst p) (snd p)) (combine (map snd fs) (map snd m)).

(** What the receiver sees: truth values are 0 or 1. *)
Definition norm_val (v : mval) : mval :=
  match v with
  | VBool z => VBool (if z =? 0 then 0 else 1)
  | VTable t => VTable (norm_table t)
  | v => v
  end.
Definition norm_struct (m : mstruct) : mstruct := map (fun e => (fst e, norm_val (snd e))) m.

(** Limits of the receiver on tables inside a struct. *)
Definition table_ok (v : mval) : Prop :=
  match v with VTable t => short_keys_table t /\ table_levels t <= 100 | _ => True end.
Definition tables_ok (m : mstruct) : Prop := Forall (fun e => table_ok (snd e)) m.

(** ** Basic content properties: flag bit, name, domain, in wire order *)
Definition basic_catalogue : list (Z * string * dom) := [
  (15, "content_type", ShortStr); (14, "content_encoding", ShortStr); (13, "headers", Tbl);
  (12, "delivery_mode", Octet); (11, "priority", Octet); (10, "correlation_id", ShortStr);
  (9, "reply_to", ShortStr); (8, "expiration", ShortStr); (7, "message_id", ShortStr);
  (6, "timestamp", Longlong); (5, "type", ShortStr); (4, "user_id", ShortStr);
  (3, "app_id", ShortStr); (2, "cluster_id", ShortStr) ].

(** The properties present according to the flags, with their values (None: a
    flagged property without value). *)
Fixpoint present (flags : Z) (l : list (Z * string * dom)) (m : mstruct) : option (list (string * dom * mval)) :=
  match l with
  | [] => Some []
  | (k, n, d) :: r =>
    if Z.testbit flags k then
      match lookup n m, present flags r m with
      | Some v, Some t => Some ((n, d, v) :: t)
      | _, _ => None
      end
    else present flags r m
  end.

(** Wire format of content properties: flag words (16 bits each, bit 0 = another
    word follows), then the values of the flagged properties. *)
Definition ser_flags (flags : Z) : bytes :=
  if flags <? 65536 then be 2 (Z.clearbit flags 0)
  else (be 2 (Z.setbit (flags mod 65536) 0) ++ be 2 (Z.clearbit (flags / 65536) 0))%list.
Definition ser_props (flags : Z) (pl : list (string * dom * mval)) : bytes :=
  (ser_flags flags ++ concat (map (fun p => ser_arg (snd (fst p)) (snd p)) pl))%list.

(** Flags as seen by the receiver: bits 0 and 16 are continuation bits on the
    wire. *)
Definition wire_flags (flags : Z) : Z :=
  if flags <? 65536 then Z.clearbit flags 0 else Z.clearbit (Z.setbit flags 0) 16.

(** The struct the receiver gets: the flagged properties. *)
Definition received_props (pl : list (string * dom * mval)) : mstruct :=
  map (fun p => (fst (fst p), norm_val (snd p))) pl.
Definition props_representable (pl : list (string * dom * mval)) : bool :=
  forallb (fun p => representable (snd (fst p)) (snd p)) pl.
Definition props_typed (pl : list (string * dom * mval)) : Prop :=
  Forall (fun p => dom_val (snd (fst p)) (snd p)) pl.
Definition props_tables_ok (pl : list (string * dom * mval)) : Prop :=
  Forall (fun p => table_ok (snd p)) pl.
