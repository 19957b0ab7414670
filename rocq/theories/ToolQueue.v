(** Model of tools/declare_queue.c and tools/delete_queue.c (amqp-declare-queue,
    amqp-delete-queue) and of close_connection in tools/common.c.

    The command line has been parsed (strings without NUL).  The connection is the one
    make_connection returned (C60 says where it goes to, C46 what the login sends). *)
From Coq Require Import String ZArith List Bool.
From Verif Require Import Base Codec TableModel FramingStmt FramingGen FramingModel Frame Sasl Net NetApi Tools ToolError.
Import ListNotations.
Local Open Scope list_scope.
Local Open Scope Z_scope.

Section Tool.
Context (N : nat) (E : nat -> aenv).
(** the program's result, what it has written to standard output and to standard error;
    [Dies]: exit(1) *)
Definition result : Type := outcome Z * bytes * bytes.

(** the synchronous calls of the library, by name (amqp_framing.c) *)
Definition wrapper (name : string) : option rpc_wrapper := find (fun w => String.eqb (rpc_name w) name) rpc_table.
Definition rpc (name : string) (channel : Z) (args : list (string * mval)) : M (option mstruct) :=
  match wrapper name with Some w => amqp_call N E w channel args | None => halt UB end.

(** die_rpc (ToolError.v): the program goes on, or it dies with a report *)
Definition unless_fatal (r : rpc_reply_t) (context : string) (out : bytes) (go : M result) : M result :=
  match die_rpc r (lit context) with
  | None => go
  | Some (Some report) => ret (Dies, out, report)
  | Some None => halt UB
  end.
(** tools/common.c:374-382; AMQP_REPLY_SUCCESS is 200; amqp_destroy_connection (C67)
    reports AMQP_STATUS_OK (amqp_connection.c:157-180) *)
Definition close_connection (out : bytes) : M result :=
  bind (amqp_channel_close N E 1 200) (fun r => unless_fatal r "closing channel" out (
  bind (amqp_connection_close N E 200) (fun r => unless_fatal r "closing connection" out (
  ret (Returns 0, out, []))))).
(** after the call that the program is about: a NULL reply ends it (die_rpc, which
    returns if the reply is a normal one: then the null pointer is dereferenced),
    else [print] tells what it writes ([None]: the reply has no such member) *)
Definition show (context : string) (print : mstruct -> option bytes) (reply : option mstruct) : M result :=
  match reply with
  | None => bind get (fun c => unless_fatal (c_recent c) context [] (halt UB))
  | Some m => match print m with Some out => close_connection out | None => halt UB end
  end.
(** tools/declare_queue.c:39: printf("%.*s\n", len, bytes) stops at a NUL *)
Definition print_queue (m : mstruct) : option bytes :=
  match lookup "queue" m with Some (VBytes name) => Some (upto_nul name ++ [newline]) | _ => None end.
(** tools/declare_queue.c:11-43.  [queue]: None: no -q option *)
Definition declare_main (queue : option bytes) (durable : bool) : M result :=
  match queue with
  | None => ret (Returns 1, [], lit "queue name not specified" ++ [newline])
  | Some q =>
    bind (rpc "amqp_queue_declare" 1
      [("queue", VBytes q); ("passive", VBool 0); ("durable", VBool (if durable then 1 else 0)); ("exclusive", VBool 0);
       ("auto_delete", VBool 0); ("arguments", VTable [])]%string) (show "queue.declare" print_queue)
  end.
(** tools/delete_queue.c:41: printf("%u\n", message_count) *)
Definition print_count (m : mstruct) : option bytes :=
  match lookup "message_count" m with Some (VInt n) => Some (digits 10 n ++ [newline]) | _ => None end.
(** tools/delete_queue.c:11-45 *)
Definition delete_main (queue : option bytes) (if_unused if_empty : bool) : M result :=
  match queue with
  | None | Some [] => ret (Returns 1, [], lit "queue name not specified" ++ [newline])
  | Some q =>
    bind (rpc "amqp_queue_delete" 1
      [("queue", VBytes q); ("if_unused", VBool (if if_unused then 1 else 0)); ("if_empty", VBool (if if_empty then 1 else 0))]%string) (show "queue.delete" print_count)
  end.
End Tool.
