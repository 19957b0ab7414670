(** Model of tools/consume.c, tools/get.c and tools/unix/process.c: the programs
    amqp-consume and amqp-get.

    The connection is seen through what its calls deliver: the frames that
    amqp_simple_wait_frame returns (as in Tools.v), the statuses of amqp_basic_ack, the
    replies of the synchronous calls.  The commands are seen through what write() to
    their standard input does and through their exit status.  posix_spawn and its
    helpers, pipe() and close() succeed or end the program ([c_spawned]); strdup and
    malloc succeed. *)
From Coq Require Import String ZArith List Bool.
From Verif Require Import Base Codec TableModel FramingStmt FramingGen FramingModel Frame Net NetApi Tools.
Import ListNotations.
Local Open Scope list_scope.
Local Open Scope Z_scope.

(** ** do_consume *)
(** one run of the command: pipeline() works?; the write()s to its input; what waitpid
    says (None: it fails; [Some s]: exited with status s, or ended by a signal: -1) *)
Record command := mkCommand { c_spawned : bool; c_writes : list wr; c_exit : option Z }.
(** what the program does, in order; [Ran input ok]: finish_pipeline returned [ok];
    [Broken input]: the program ended (or hangs) in the middle of it *)
Inductive act := Ran (input : bytes) (ok : bool) | Broken (input : bytes) | Acked (tag : Z).

(** tools/consume.c:142-148: the delivery tag of a basic.deliver, else None *)
Definition delivery (f : frame) : option (option Z) :=
  if negb (f_type f =? AMQP_FRAME_METHOD) then None
  else
    match f_pay f with
    | PMethod id m => if negb (id =? AMQP_BASIC_DELIVER_METHOD) then None
                      else Some (match lookup "delivery_tag"%string m with Some (VInt t) => Some t | _ => None end)
    | _ => Some None
    end.
(** tools/unix/process.c:45-55 *)
Definition finish_pipeline (p : command) : outcome bool :=
  match c_exit p with None => Dies | Some s => Returns (s =? 0) end.

(** tools/consume.c:134-157: the loop; every turn takes a frame, [fuel] is more than
    their number (see C63).  [count] and [i] are int. *)
Fixpoint consume_loop (fuel : nat) (no_ack : bool) (count i : Z) (frames : list (Z * frame)) (cmds : list command) (acks : list Z)
    : outcome unit * list act :=
  match fuel with
  | O => (Undefined, [])
  | S fuel =>
    let next frames cmds acks := if i =? INT_MAX then (Undefined, []) else consume_loop fuel no_ack count (i + 1) frames cmds acks in
    if negb ((count <? 0) || (i <? count)) then (Returns tt, [])
    else
      match frames with
      | [] => (Waits, [])
      | (res, f) :: frames =>
        if res <? 0 then (Dies, [])
        else
          match delivery f with
          | None => next frames cmds acks
          | Some None => (Undefined, [])
          | Some (Some tag) =>
            match cmds with
            | [] => (Waits, [])
            | p :: cmds =>
              if negb (c_spawned p) then (Dies, [])
              else
                match copy_body frames (c_writes p) with
                | (Returns frames, out) =>
                  match finish_pipeline p with
                  | Returns ok =>
                    if ok && negb no_ack then
                      match acks with
                      | [] => (Waits, [Ran out ok])
                      | a :: acks =>
                        if a <? 0 then (Dies, [Ran out ok])
                        else let (r, t) := next frames cmds acks in (r, Ran out ok :: Acked tag :: t)
                      end
                    else let (r, t) := next frames cmds acks in (r, Ran out ok :: t)
                  | Dies => (Dies, [Broken out])
                  | Waits => (Waits, [Broken out])
                  | Undefined => (Undefined, [Broken out])
                  end
                | (Dies, out) => (Dies, [Broken out])
                | (Waits, out) => (Waits, [Broken out])
                | (Undefined, out) => (Undefined, [Broken out])
                end
            end
          end
      end
  end.
Definition do_consume (no_ack : bool) (count : Z) (frames : list (Z * frame)) (cmds : list command) (acks : list Z) : outcome unit * list act :=
  consume_loop (S (length frames)) no_ack count 0 frames cmds acks.
(** tools/consume.c:110-127: the arguments of amqp_basic_qos that are set (prefetch
    counts, in order) *)
Definition AMQP_CONSUME_MAX_PREFETCH_COUNT : Z := 65535.
Definition qos_calls (count prefetch_count : Z) : list Z :=
  (if (0 <? count) && (count <=? AMQP_CONSUME_MAX_PREFETCH_COUNT) then [count] else []) ++
  (if (0 <? prefetch_count) && (prefetch_count <=? AMQP_CONSUME_MAX_PREFETCH_COUNT) then
     if negb ((0 <? count) && (count <=? AMQP_CONSUME_MAX_PREFETCH_COUNT) && (count <=? prefetch_count)) then [prefetch_count] else []
   else []).

(** ** setup_queue *)
Definition comma : byte := x2c.
(** strtok_r(s, ",", &rest), again and again, on a string without NUL: [current] is the
    token being read (None: separators are being skipped) *)
Fixpoint tokens (s : bytes) (current : option bytes) : list bytes :=
  match s with
  | [] => match current with Some t => [t] | None => [] end
  | c :: s =>
    if Byte.eqb c comma then match current with Some t => t :: tokens s None | None => tokens s None end
    else tokens s (Some (match current with Some t => t ++ [c] | None => [c] end))
  end.
(** tools/consume.c:164-187: the options *)
Record consume_options := mkConsume {
  co_queue : option bytes; co_exchange : option bytes; co_routing_key : option bytes; co_declare : bool; co_exclusive : bool }.
(** the synchronous calls on channel 1; queue.declare is not passive, not durable,
    auto-delete, without arguments *)
Inductive qcall := Declare (queue : bytes) (exclusive : bool) | Bind (queue exchange key : bytes).
(** what such a call returns: NULL (the reply is then not normal, see C38), or a structure
    with this queue name *)
Definition qreply := option bytes.
(** tools/consume.c:84-95; the count is never changed, so 1023 is no limit *)
Fixpoint bind_all (queue exchange : bytes) (keys : list bytes) (replies : list qreply) : outcome unit * list qcall :=
  match keys with
  | [] => (Returns tt, [])
  | k :: keys =>
    match replies with
    | [] => (Waits, [Bind queue exchange k])
    | None :: _ => (Dies, [Bind queue exchange k])
    | Some _ :: replies => let (r, t) := bind_all queue exchange keys replies in (r, Bind queue exchange k :: t)
    end
  end.
Definition cstring (o : option bytes) : bytes := match o with Some s => s | None => [] end.
Definition is_some {A} (o : option A) : bool := match o with Some _ => true | None => false end.
(** tools/consume.c:38-99; the outcome is the queue to consume from *)
Definition setup_queue (o : consume_options) (replies : list qreply) : outcome bytes * list qcall :=
  if negb (is_some (co_exchange o)) && is_some (co_routing_key o) then (Dies, [])
  else if negb (is_some (co_queue o)) || is_some (co_exchange o) || co_declare o || co_exclusive o then
    let d := Declare (cstring (co_queue o)) (co_exclusive o) in
    match replies with
    | [] => (Waits, [d])
    | None :: _ => (Dies, [d])
    | Some name :: replies =>
      let queue := match co_queue o with None => name | Some q => q end in
      match co_exchange o with
      | None => (Returns queue, [d])
      | Some e =>
        match co_routing_key o with
        | None => (Undefined, [d])                       (* strdup(NULL) *)
        | Some k =>
          match bind_all queue e (tokens k None) replies with
          | (Returns _, t) => (Returns queue, d :: t)
          | (Dies, t) => (Dies, d :: t)
          | (Waits, t) => (Waits, d :: t)
          | (Undefined, t) => (Undefined, d :: t)
          end
        end
      end
    end
  else (Returns (cstring (co_queue o)), []).

(** ** stringify_bytes *)
Definition digit (z : Z) : byte := byte_of_Z (48 + z).
(** tools/consume.c:24-32, one byte *)
Definition escape (b : byte) : bytes :=
  let d := Z_of_byte b in
  if (32 <=? d) && negb (d =? 127) then [b]
  else [x5c; digit (Z.shiftr d 6); digit (Z.land (Z.shiftr d 3) 7); digit (Z.land d 7)].
(** tools/consume.c:16-36; the string in the allocated block (without its NUL), or
    None if it and the NUL do not fit into the block *)
Definition stringify_bytes (s : bytes) : option bytes :=
  let out := concat (map escape s) in
  if zlen out + 1 <=? zlen s * 4 + 1 then Some out else None.

(** ** amqp-get *)
(** tools/get.c:8-40; [reply]: None if the reply of basic.get is not normal, else the
    method id; the exit status and what is written to standard output *)
Definition get_main (queue : option bytes) (reply : option Z) (frames : list (Z * frame)) (sched : list wr) : outcome Z * bytes :=
  match queue with
  | None => (Returns 1, [])
  | Some _ =>
    match reply with
    | None => (Dies, [])
    | Some id =>
      if id =? AMQP_BASIC_GET_EMPTY_METHOD then (Returns 2, [])
      else
        match copy_body frames sched with
        | (Returns _, out) => (Returns 0, out)
        | (Dies, out) => (Dies, out)
        | (Waits, out) => (Waits, out)
        | (Undefined, out) => (Undefined, out)
        end
    end
  end.
