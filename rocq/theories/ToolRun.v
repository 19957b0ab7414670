(** Model of amqp-publish (tools/publish.c) as a whole program: from the options to the
    exit status and what is written to standard error. *)
From Coq Require Import String ZArith List Bool.
From Verif Require Import Base Codec TableModel FramingStmt FramingGen FramingModel Frame Net NetApi Os Tools ToolOpts ToolError ToolQueue ToolPublish ToolMain.
Import ListNotations.
Local Open Scope string_scope.
Local Open Scope list_scope.
Local Open Scope Z_scope.

Section Run.
Context (N : nat) (E : nat -> aenv) (cm : Z) (ox : bool) (platform : string).

(** die_amqp_error (ToolError.v): the program goes on, or it dies with a report *)
Definition unless_error (st : Z) (context : string) (out : bytes) (go : M result) : M result :=
  match die_amqp_error st (lit context) with
  | None => go
  | Some (Some report) => ret (Dies, out, report)
  | Some None => halt UB
  end.
(** tools/publish.c:12-18 *)
Definition publish_then (o : publish_options) (message : bytes) (go : M result) : M result :=
  bind (amqp_basic_publish N E 1 (cstring_bytes (exchange o)) (cstring_bytes (routing_key o)) 0 0 (Some (publish_props o)) message)
    (fun res => unless_error res "basic.publish" [] go).
(** tools/publish.c:120-123; [fuel]: more than the length of the input *)
Fixpoint publish_lines_then (fuel : nat) (o : publish_options) (input : bytes) (go : M result) : M result :=
  match fuel with
  | O => halt Fuel
  | S fuel =>
    match fgets MAX_LINE_LENGTH input with
    | None => go
    | Some (line, input) => publish_then o (upto_nul line) (publish_lines_then fuel o input go)
    end
  end.
(** tools/publish.c:115-144, after make_connection.  [sched], [mem]: what read() and
    realloc() do; [why]: strerror of the error of a failed read() *)
Definition publish_session (o : publish_options) (sched : list rd) (input : bytes) (mem : list bool) (why : bytes) : M result :=
  let close := close_connection N E [] in
  match body o with
  | Some b => if line_buffered o then close else publish_then o b close
  | None =>
    if line_buffered o then publish_lines_then (S (length input)) o input close
    else
      match read_all sched input mem with
      | Returns (Some b, len) => match slice b 0 len with Some data => publish_then o data close | None => halt UB end
      | Returns (None, len) => if len =? 0 then publish_then o [] close else halt UB
      | Dies => ret (Dies, [], lit "reading: " ++ why ++ [newline])
      | Waits => halt Blocked
      | Undefined => halt UB
      end
  end.
(** tools/publish.c:102-106: the warnings; *pos is the whole argument *)
Definition ignored_header (h : bytes) : bytes :=
  match split_at colon h with
  | Some _ => []
  | None => lit "Ignored header definition missing ':' delimiter in """ ++ h ++ lit """" ++ [newline]
  end.
Definition warned (w : bytes) (p : program result) : program result :=
  match p with Ends (r, out, err) d l => Ends (r, out, w ++ err) d l | Runs d l => Runs d l end.
(** tools/publish.c:59-145, main *)
Definition publish_program (po : publish_options) (sched : list rd) (input : bytes) (mem : list bool) (why : bytes)
    (o : options) (ans : list answer) (ev : list event) : option (program result) :=
  match exchange po, routing_key po with
  | None, None => Some (Ends (Returns 1, [], lit "neither exchange nor routing key specified" ++ [newline]) [] [])
  | _, _ =>
    match with_connection N E cm ox platform exits o (publish_session po sched input mem why) ans ev with
    | Some p => Some (warned (concat (map ignored_header (headers po))) p)
    | None => None
    end
  end.
End Run.
