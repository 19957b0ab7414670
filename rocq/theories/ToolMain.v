(** Model of make_connection (tools/common.c:332-371) and of amqp-declare-queue and
    amqp-delete-queue as whole programs: from the options to the exit status. *)
From Coq Require Import String ZArith List Bool.
From Verif Require Import Base Codec TableModel FramingStmt FramingGen FramingModel Frame Time Sasl Net NetApi Os Tools ToolOpts ToolError ToolQueue.
From Verif Require Sockets.
Import ListNotations.
Local Open Scope string_scope.
Local Open Scope list_scope.
Local Open Scope Z_scope.

(** A program that ends with a result after these calls of the operating system and this
    conversation; or it has come that far and is still running (or its behaviour is
    undefined) *)
Inductive program (A : Type) :=
| Ends (r : A) (calls : list entry) (l : list obs)
| Runs (calls : list entry) (l : list obs).
Arguments Ends {A}. Arguments Runs {A}.

Section Main.
(** [cm], [ox]: the C library's strtol (Url.v); [platform]: AMQ_PLATFORM *)
Context (N : nat) (E : nat -> aenv) (cm : Z) (ox : bool) (platform : string).

(** tools/common.c:340-363, between init_connection_info and the login: the descriptor of
    the socket, or the message with which the program exits (status 1).  die_amqp_error
    returns for a status that is not negative.
    Left out: amqp_new_connection returns NULL without memory and is not checked;
    amqp_ssl_socket_set_cacert and _set_key (TlsConfig.v), whose results are ignored. *)
Definition dial (t : target) : Io (Z + bytes) :=
  obind (if t_ssl t then Sockets.amqp_ssl_socket_new None else Sockets.amqp_tcp_socket_new None) (fun p =>
  match p with
  | (true, Some s) =>
    obind (Sockets.amqp_socket_open N s (t_host t) (t_port t)) (fun q =>
    let connected := oret (inl (Sockets.amqp_get_sockfd (snd q))) in
    if fst q =? 0 then connected
    else match die_amqp_error (fst q) (lit "opening socket to " ++ t_host t ++ lit ":" ++ digits 10 (t_port t)) with
    | None => connected
    | Some (Some report) => oret (inr report)
    | Some None => ohalt OUB
    end)
  | _ => oret (inr (lit (if t_ssl t then "creating SSL/TLS socket" else "creating TCP socket (out of memory)") ++ [newline]))
  end).
(** [dies report]: the result of a program that exits with status 1 and this on standard
    error (and has done nothing else) *)
Section Any.
Context {A : Type} (dies : bytes -> A).
(** die_rpc (ToolError.v) *)
Definition or_dies (r : rpc_reply_t) (context : string) (go : M A) : M A :=
  match die_rpc r (lit context) with
  | None => go
  | Some (Some report) => ret (dies report)
  | Some None => halt UB
  end.
(** tools/common.c:364-370, then the rest of the program; all the tools ask for no limit on
    channels and for frames of up to 131072 bytes *)
Definition talk (t : target) (heartbeat : Z) (main : M A) : M A :=
  bind (amqp_login N E platform (t_vhost t) 0 131072 heartbeat (Plain (t_user t) (t_password t))) (fun r =>
  or_dies r "logging in to AMQP server" (
  bind (rpc N E "amqp_channel_open" 1 []) (fun ok =>
  match ok with
  | None => bind get (fun c => or_dies (c_recent c) "opening channel" main)
  | Some _ => main
  end))).
(** tools/common.c:332-371; the messages of init_connection_info are left out: [None] *)
Definition with_connection (o : options) (main : M A) (ans : list answer) (ev : list event) : option (program A) :=
  match init_connection_info cm ox o with
  | Dies => None
  | Waits | Undefined => Some (Runs [] [])
  | Returns t => Some (
    match dial t ans with
    | OHalt _ d => Runs d []
    | ODone (inr report) _ d => Ends (dies report) d []
    | ODone (inl fd) _ d =>
      match talk t (o_heartbeat o) main (new_connection fd) ev with
      | Done r _ _ l => Ends r d l
      | Halt _ _ l => Runs d l
      end
    end)
  end.
End Any.
(** exit(1) with a report *)
Definition exits (report : bytes) : result := (Dies, [], report).
(** tools/declare_queue.c:11-43: the queue name is looked at first *)
Definition declare_program (queue : option bytes) (durable : bool) (o : options) (ans : list answer) (ev : list event) : option (program result) :=
  match queue with
  | None => Some (Ends (Returns 1, [], lit "queue name not specified" ++ [newline]) [] [])
  | Some q => with_connection exits o (declare_main N E (Some q) durable) ans ev
  end.
(** tools/delete_queue.c:11-45 *)
Definition delete_program (queue : option bytes) (if_unused if_empty : bool) (o : options) (ans : list answer) (ev : list event) : option (program result) :=
  match queue with
  | None | Some [] => Some (Ends (Returns 1, [], lit "queue name not specified" ++ [newline]) [] [])
  | Some q => with_connection exits o (delete_main N E (Some q) if_unused if_empty) ans ev
  end.
End Main.
