(** Model of amqp-get (tools/get.c) as a whole program, and of copy_body
    (tools/common.c:427-448) on a connection: from the options to the exit status and what
    is written to standard output and standard error. *)
From Coq Require Import String ZArith List Bool.
From Verif Require Import Base Codec TableModel FramingStmt FramingGen FramingModel Frame Net NetApi Os Tools ToolOpts ToolError ToolQueue ToolMain.
Import ListNotations.
Local Open Scope string_scope.
Local Open Scope list_scope.
Local Open Scope Z_scope.

Section Get.
Context (N : nat) (E : nat -> aenv) (cm : Z) (ox : bool) (platform : string).

(** copy_body has returned (the write()s that are left, what it has written), or the
    program exits with status 1 (what it has written, the report) *)
Inductive copied := Copied (sched : list wr) (out : bytes) | Stops (out report : bytes).
(** "0x%X" of a uint8_t *)
Definition hex_byte (z : Z) : bytes := lit "0x" ++ (if z <? 16 then [] else [hex_digit (z / 16 mod 16)]) ++ [hex_digit (z mod 16)].
(** tools/common.c:26-33 die(), with the formats of tools/common.c:434 and 442 *)
Definition unexpected (what : string) (f : frame) : bytes := lit "expected " ++ lit what ++ lit ", got frame type " ++ hex_byte (f_type f) ++ [newline].
(** tools/common.c:431-432 and 439-440: the next frame, or the end of the program *)
Definition next_frame (context : string) (out : bytes) (go : frame -> M copied) : M copied :=
  bind (amqp_simple_wait_frame N E) (fun p =>
  match die_amqp_error (fst p) (lit context) with
  | None => go (snd p)
  | Some (Some report) => ret (Stops out report)
  | Some None => halt UB
  end).
(** tools/common.c:438-447; [out]: written so far; [why]: strerror of the error of a
    failed write(); [fuel]: a number of frames *)
Fixpoint copy_rest (fuel : nat) (why : bytes) (sched : list wr) (out : bytes) (body_remaining : Z) : M copied :=
  match fuel with
  | O => halt Fuel
  | S fuel =>
    if body_remaining =? 0 then ret (Copied sched out)
    else
      next_frame "waiting for body frame" out (fun f =>
      if negb (f_type f =? AMQP_FRAME_BODY) then ret (Stops out (unexpected "body" f))
      else
        match f_pay f with
        | PBody fragment =>
          match write_all sched fragment with
          | (WDone sched, more) => copy_rest fuel why sched (out ++ more) (sub_size body_remaining (zlen fragment))
          | (WDied, more) => ret (Stops (out ++ more) (lit "write: " ++ why ++ [newline]))
          | (WWaits, _) => halt Blocked
          | (WUndefined, _) => halt UB
          end
        | _ => halt UB
        end)
  end.
(** tools/common.c:427-448 *)
Definition copy_message (why : bytes) (sched : list wr) : M copied :=
  next_frame "waiting for header frame" [] (fun f =>
  if negb (f_type f =? AMQP_FRAME_HEADER) then ret (Stops [] (unexpected "header" f))
  else
    match f_pay f with
    | PHeader _ body_size _ _ => copy_rest N why sched [] (u64 body_size)
    | _ => halt UB
    end).
(** the exit status of main instead of that of close_connection *)
Definition status (z : Z) (m : M result) : M result :=
  bind m (fun r => ret (match r with (Returns _, out, err) => (Returns z, out, err) | r => r end)).
(** tools/get.c:8-18 and 38-41 *)
Definition get_session (queue : bytes) (sched : list wr) (why : bytes) : M result :=
  bind (amqp_basic_get N E 1 queue 1) (fun r => unless_fatal r "basic.get" [] (
  match r with
  | RNormal id _ =>
    if id =? BASIC_GET_EMPTY then status 2 (close_connection N E [])
    else
      bind (copy_message why sched) (fun d =>
      match d with
      | Copied _ out => status 0 (close_connection N E out)
      | Stops out report => ret (Dies, out, report)
      end)
  | _ => halt UB
  end)).
(** tools/get.c:20-41, main *)
Definition get_program (queue : option bytes) (sched : list wr) (why : bytes) (o : options) (ans : list answer) (ev : list event) : option (program result) :=
  match queue with
  | None => Some (Ends (Returns 1, [], lit "queue not specified" ++ [newline]) [] [])
  | Some q => with_connection N E cm ox platform exits o (get_session q sched why) ans ev
  end.
End Get.
