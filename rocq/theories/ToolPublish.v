(** Model of tools/publish.c: the program amqp-publish, from the parsed options to the
    calls of amqp_basic_publish.

    Command line arguments are C strings: byte lists without NUL here.  The connection is
    the one make_connection returned (C60 says where it goes to); close_connection is left
    out.  calloc and the malloc of the line buffer succeed; standard input fails only in
    read_all (fgets in the line mode sees the bytes of the input). *)
From Coq Require Import String ZArith List Bool.
From Verif Require Import Base Codec TableModel FramingStmt FramingGen FramingModel Frame Net NetApi Tools.
Import ListNotations.
Local Open Scope list_scope.
Local Open Scope Z_scope.

(** tools/publish.c:21-35: the variables popt fills in; [headers]: the arguments of the
    -H options in order ([[]]: the option was not given) *)
Record publish_options := mkPublish {
  exchange : option bytes; routing_key : option bytes; content_type : option bytes; content_encoding : option bytes;
  reply_to : option bytes; body : option bytes; persistent : bool; line_buffered : bool; headers : list bytes }.

Definition colon : byte := x3a.
Definition blank : byte := x20.
(** strchr(s, c) for a string without NUL: the parts before and after *)
Fixpoint split_at (c : byte) (s : bytes) : option (bytes * bytes) :=
  match s with
  | [] => None
  | x :: s => if Byte.eqb x c then Some ([], s) else match split_at c s with Some (a, b) => Some (x :: a, b) | None => None end
  end.
(** tools/publish.c:96 *)
Fixpoint skip_blanks (s : bytes) : bytes :=
  match s with x :: r => if Byte.eqb x blank then skip_blanks r else s | [] => [] end.
(** tools/publish.c:92-107: the entries with a colon, one after the other *)
Fixpoint header_entries (l : list bytes) : list (bytes * fv) :=
  match l with
  | [] => []
  | h :: l =>
    match split_at colon h with
    | Some (key, value) => (key, FUtf8 (skip_blanks value)) :: header_entries l
    | None => header_entries l
    end
  end.
(** tools/publish.c:81-107: as many entries as there are -H options; those that were not
    filled in are as calloc left them (no key, kind 0) *)
Definition header_table (l : list bytes) : table :=
  let entries := header_entries l in entries ++ repeat ([], FOther 0) (length l - length entries).

(** AMQP_BASIC_*_FLAG, include/rabbitmq-c/framing.h:898-924 *)
Definition flag (k : Z) (present : bool) : Z := if present then Z.shiftl 1 k else 0.
Definition given {A} (o : option A) : bool := match o with Some _ => true | None => false end.
Definition cstring_bytes (o : option bytes) : bytes := match o with Some s => s | None => [] end.
(** tools/publish.c:64-111; memset leaves the other members zero *)
Definition publish_props (o : publish_options) : props :=
  let flags := Z.lor (Z.lor (Z.lor (Z.lor (flag 12 true) (flag 15 (given (content_type o)))) (flag 14 (given (content_encoding o))))
                 (flag 9 (given (reply_to o)))) (flag 13 (match headers o with [] => false | _ => true end)) in
  mkProps flags
    [ ("content_type", VBytes (cstring_bytes (content_type o))); ("content_encoding", VBytes (cstring_bytes (content_encoding o)));
      ("headers", VTable (header_table (headers o))); ("delivery_mode", VInt (if persistent o then 2 else 1)); ("priority", VInt 0);
      ("correlation_id", VBytes []); ("reply_to", VBytes (cstring_bytes (reply_to o))); ("expiration", VBytes []); ("message_id", VBytes []);
      ("timestamp", VInt 0); ("type", VBytes []); ("user_id", VBytes []); ("app_id", VBytes []); ("cluster_id", VBytes []) ]%string.

Section Tool.
Context (N : nat) (E : nat -> aenv).
(** tools/publish.c:12-18; tools/common.c:58-72 die_amqp_error: a negative status ends
    the program.  [Dies]: with a message and exit status 1. *)
Definition do_publish (o : publish_options) (message : bytes) : M (outcome unit) :=
  bind (amqp_basic_publish N E 1 (cstring_bytes (exchange o)) (cstring_bytes (routing_key o)) 0 0 (Some (publish_props o)) message)
    (fun res => ret (if res <? 0 then Dies else Returns tt)).
Definition MAX_LINE_LENGTH : Z := 1024 * 32.
(** tools/publish.c:120-123; [fuel]: more than the length of the input *)
Fixpoint publish_lines (fuel : nat) (o : publish_options) (input : bytes) : M (outcome unit) :=
  match fuel with
  | O => halt Fuel
  | S fuel =>
    match fgets MAX_LINE_LENGTH input with
    | None => ret (Returns tt)
    | Some (line, input) =>
      bind (do_publish o (upto_nul line)) (fun r => match r with Returns _ => publish_lines fuel o input | r => ret r end)
    end
  end.
(** tools/publish.c:59-131, main; [sched], [mem]: what read() and realloc() do *)
Definition publish_main (o : publish_options) (sched : list rd) (input : bytes) (mem : list bool) : M (outcome unit) :=
  match exchange o, routing_key o with
  | None, None => ret Dies
  | _, _ =>
    match body o with
    | Some b => if line_buffered o then ret (Returns tt) else do_publish o b
    | None =>
      if line_buffered o then publish_lines (S (length input)) o input
      else
        match read_all sched input mem with
        | Returns (buf, len) =>
          match buf with
          | Some b => match slice b 0 len with Some data => do_publish o data | None => halt UB end
          | None => if len =? 0 then do_publish o [] else halt UB
          end
        | Dies => ret Dies
        | Waits => ret Waits
        | Undefined => halt UB
        end
    end
  end.
End Tool.
