(** Model of amqp-consume (tools/consume.c) as a whole program, on a connection: from the
    options to the exit status, the runs of the command and the acknowledgements.
    ToolConsume.v has the parts that do not need a connection. *)
From Coq Require Import String ZArith List Bool.
From Verif Require Import Base Codec TableModel FramingStmt FramingGen FramingModel Frame Net NetApi Os Tools ToolOpts ToolError ToolConsume ToolQueue ToolMain ToolGet.
Import ListNotations.
Local Open Scope string_scope.
Local Open Scope list_scope.
Local Open Scope Z_scope.

(** a run of the command (ToolConsume.v), strerror of the error of a failed write() to it,
    and what is written to standard error if pipeline() or finish_pipeline() fails
    (tools/unix/process.c: die_errno) *)
Record job := mkJob { j_command : command; j_why : bytes; j_report : bytes }.
(** the program's result, and what it did with the messages *)
Definition listened : Type := ToolQueue.result * list act.
(** a part of the program goes on, or the program exits with status 1 and this on standard error *)
Inductive stage (A : Type) := Go (a : A) | Die (err : bytes).
Arguments Go {A}. Arguments Die {A}.

Section Listen.
Context (N : nat) (E : nat -> aenv) (cm : Z) (ox : bool) (platform : string).

(** tools/consume.c:59-61, 88-92, 111-114, 122-124, 128-131: a synchronous call on channel
    1; if it returns NULL, die_rpc, which returns if the reply is a normal one *)
Definition call_or_die (name : string) (args : list (string * mval)) (context : string) (note : bytes) : M (stage (option mstruct)) :=
  bind (rpc N E name 1 args) (fun ok =>
  match ok with
  | Some m => ret (Go (Some m))
  | None => bind get (fun c =>
    match die_rpc (c_recent c) (lit context) with
    | None => ret (Go None)
    | Some (Some report) => ret (Die (note ++ report))
    | Some None => halt UB
    end)
  end).
(** tools/consume.c:81-94: the loop; [keys]: the tokens of the routing key *)
Fixpoint bind_each (queue exchange : bytes) (keys : list bytes) (note : bytes) : M (stage unit) :=
  match keys with
  | [] => ret (Go tt)
  | k :: keys =>
    bind (call_or_die "amqp_queue_bind" [("queue", VBytes queue); ("exchange", VBytes exchange); ("routing_key", VBytes k); ("arguments", VTable [])] "queue.bind" note)
      (fun s => match s with Go _ => bind_each queue exchange keys note | Die err => ret (Die err) end)
  end.
(** tools/consume.c:67-70: the name of the queue, and what is written to standard error *)
Definition provided (m : option mstruct) : M (bytes * bytes) :=
  match m with
  | None => halt UB
  | Some m =>
    match lookup "queue" m with
    | Some (VBytes name) => match stringify_bytes name with Some s => ret (name, lit "Server provided queue name: " ++ s ++ [newline]) | None => halt UB end
    | _ => halt UB
    end
  end.
(** tools/consume.c:38-99: the name of the queue, and what was written to standard error *)
Definition prepare (o : consume_options) : M (stage (bytes * bytes)) :=
  let queue := cstring (co_queue o) in
  if negb (is_some (co_exchange o)) && is_some (co_routing_key o) then
    ret (Die (lit "--routing-key option requires an exchange name to be provided with --exchange" ++ [newline]))
  else if negb (is_some (co_queue o)) || is_some (co_exchange o) || co_declare o || co_exclusive o then
    bind (call_or_die "amqp_queue_declare"
      [("queue", VBytes queue); ("passive", VBool 0); ("durable", VBool 0); ("exclusive", VBool (if co_exclusive o then 1 else 0)); ("auto_delete", VBool 1); ("arguments", VTable [])] "queue.declare" [])
      (fun s => match s with
      | Die err => ret (Die err)
      | Go m =>
        bind (match co_queue o with None => provided m | Some q => ret (q, []) end) (fun p =>
        match co_exchange o with
        | None => ret (Go p)
        | Some e =>
          match co_routing_key o with
          | None => halt UB                       (* strdup(NULL) *)
          | Some k => bind (bind_each (fst p) e (tokens k None) (snd p)) (fun s => match s with Go _ => ret (Go p) | Die err => ret (Die err) end)
          end
        end)
      end)
  else ret (Go (queue, [])).
(** tools/consume.c:109-126; [counts]: see qos_calls (ToolConsume.v) *)
Fixpoint qos_each (counts : list Z) (note : bytes) : M (stage unit) :=
  match counts with
  | [] => ret (Go tt)
  | n :: counts =>
    bind (call_or_die "amqp_basic_qos" [("prefetch_size", VInt 0); ("prefetch_count", VInt n); ("global", VBool 0)] "basic.qos" note)
      (fun s => match s with Go _ => qos_each counts note | Die err => ret (Die err) end)
  end.
(** tools/consume.c:103-131 *)
Definition subscribe (queue : bytes) (no_ack : bool) (count prefetch_count : Z) (note : bytes) : M (stage unit) :=
  bind (qos_each (qos_calls count prefetch_count) note) (fun s =>
  match s with
  | Die err => ret (Die err)
  | Go _ =>
    bind (call_or_die "amqp_basic_consume"
      [("queue", VBytes queue); ("consumer_tag", VBytes []); ("no_local", VBool 0); ("no_ack", VBool (if no_ack then 1 else 0)); ("exclusive", VBool 0); ("arguments", VTable [])] "basic.consume" note)
      (fun s => match s with Go _ => ret (Go tt) | Die err => ret (Die err) end)
  end).
(** die_amqp_error (ToolError.v) after the acts [t] *)
Definition unless_status (st : Z) (context : string) (t : list act) (go : M (list act * stage unit)) : M (list act * stage unit) :=
  match die_amqp_error st (lit context) with
  | None => go
  | Some (Some report) => ret (t, Die report)
  | Some None => halt UB
  end.
Definition act_first (t : list act) (m : M (list act * stage unit)) : M (list act * stage unit) := bind m (fun p => ret (t ++ fst p, snd p)).
(** tools/consume.c:145-156: a delivery *)
Definition handle (no_ack : bool) (tag : Z) (j : job) : M (list act * stage unit) :=
  if negb (c_spawned (j_command j)) then ret ([], Die (j_report j))
  else
    bind (copy_message N E (j_why j) (c_writes (j_command j))) (fun d =>
    match d with
    | Stops out report => ret ([Broken out], Die report)
    | Copied _ out =>
      match finish_pipeline (j_command j) with
      | Returns ok =>
        let release t := bind amqp_maybe_release_buffers (fun _ => ret (t, Go tt)) in
        if ok && negb no_ack then
          bind (amqp_basic_ack N E 1 tag 0) (fun st => unless_status st "basic.ack" [Ran out ok] (release [Ran out ok; Acked tag]))
        else release [Ran out ok]
      | _ => ret ([Broken out], Die (j_report j))
      end
    end).
(** tools/consume.c:133-157: the loop; [count] and [i] are int; [fuel]: a number of frames *)
Fixpoint serve (fuel : nat) (no_ack : bool) (count i : Z) (jobs : list job) : M (list act * stage unit) :=
  match fuel with
  | O => halt Fuel
  | S fuel =>
    let next jobs := if i =? INT_MAX then halt UB else serve fuel no_ack count (i + 1) jobs in
    if negb ((count <? 0) || (i <? count)) then ret ([], Go tt)
    else
      bind (amqp_simple_wait_frame N E) (fun p =>
      unless_status (fst p) "waiting for header frame" [] (
      match delivery (snd p) with
      | None => next jobs
      | Some None => halt UB
      | Some (Some tag) =>
        match jobs with
        | [] => halt Blocked
        | j :: jobs => bind (handle no_ack tag j) (fun q => match snd q with Go _ => act_first (fst q) (next jobs) | Die err => ret q end)
        end
      end))
  end.
(** tools/consume.c:209-214, after make_connection *)
Definition listen_session (o : consume_options) (no_ack : bool) (count prefetch_count : Z) (jobs : list job) : M listened :=
  bind (prepare o) (fun s =>
  match s with
  | Die err => ret ((Dies, [], err), [])
  | Go (queue, note) =>
    bind (subscribe queue no_ack count prefetch_count note) (fun s =>
    match s with
    | Die err => ret ((Dies, [], err), [])
    | Go _ =>
      bind (serve N no_ack count 0 jobs) (fun p =>
      match snd p with
      | Die err => ret ((Dies, [], note ++ err), fst p)
      | Go _ => bind (close_connection N E []) (fun r => ret ((fst (fst r), snd (fst r), note ++ snd r), fst p))
      end)
    end)
  end).
(** exit(1) with a report *)
Definition exits_listening (report : bytes) : listened := ((Dies, [], report), []).
(** tools/consume.c:160-219, main; [command]: a command is given *)
Definition listen_program (command : bool) (co : consume_options) (no_ack : bool) (count prefetch_count : Z) (jobs : list job)
    (o : options) (ans : list answer) (ev : list event) : option (program listened) :=
  if negb command then Some (Ends ((Returns 1, [], lit "consuming command not specified" ++ [newline]), []) [] [])
  else with_connection N E cm ox platform exits_listening o (listen_session co no_ack count prefetch_count jobs) ans ev.
End Listen.
