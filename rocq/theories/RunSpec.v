(** What a command line tool does as a whole program (C83, C84, C85): connecting, logging
    in, opening a channel, then what the tool is for. *)
From Coq Require Import String ZArith List Bool.
From Verif Require Import Base Codec TableModel TableSpec FramingStmt FramingModel MethodSpec Frame FrameSpec Time Sasl Net NetApi NetSpec CallSpec
  Os ConnectSpec SpeakSpec Tools ToolOpts ReportSpec ToolQueue ToolMain ParleySpec ProgramSpec.
From Verif Require LoginSpec Prop_ToolQueue.
Import ListNotations.
Local Open Scope string_scope.
Local Open Scope list_scope.
Local Open Scope Z_scope.

(** The login of a tool ([logged_in]); [fm] is the agreed frame size: the smaller one of
    the server's proposal [sfm] and 128 KB *)
Definition logged_in_at (platform : string) (t : target) (heartbeat fm : Z) (l : list obs) : Prop :=
  exists header props server_props scm sfm shb l1 l2 l3,
    l = l1 ++ l2 ++ l3 /\ (header = LoginSpec.amqp_header \/ header = []) /\
    LoginSpec.greeted platform (Some []) (credentials_of t) props server_props header l1 /\
    LoginSpec.tuned scm sfm shb 0 131072 heartbeat l2 /\ LoginSpec.opened (t_vhost t) l3 /\
    fm = LoginSpec.agreed_frame_max sfm 131072.
(** the channel has been opened *)
Definition opened_channel_1 (l : list obs) : Prop := sent [channel_open] (out_bytes l) /\ exists m, Prop_ToolQueue.answered (method_id 20 11) m l.
(** The result of a program of type [A]: its exit status ([Dies]: exit(1) by die()), and
    what it is if the program does nothing but exit(1) with a report. *)
Section Session.
Context {A : Type} (exit : A -> outcome Z) (dies : bytes -> A).
(** The tool's own work: [ends fm seen F r l]: with frames of up to [fm] bytes, it is to
    put the items [F] on the wire, its result is [r], and [l] is what happened after the
    channel was opened; [seen]: the frames that had been received before;
    [runs fm seen F l]: as long as it runs.
    Exit by a return from main: it has connected to the host, logged in, opened a channel
    and all of [F] was sent.  Exit by die(): not connected, or the login failed, or the
    channel could not be opened, or the tool's own work has failed; in all cases what is on
    the wire is a beginning of the above. *)
Definition session (platform : string) (t : target) (heartbeat : Z)
    (ends : Z -> list frame -> list bytes -> A -> list obs -> Prop) (runs : Z -> list frame -> list bytes -> list obs -> Prop) (p : program A) : Prop :=
  let begun := never_ahead platform (t_vhost t) 0 131072 heartbeat (Some []) (credentials_of t) in
  let opening l P := exists fm l1 l2, l = l1 ++ l2 /\ logged_in_at platform t heartbeat fm l1 /\ part [channel_open] (out_bytes l2) /\ P l2 in
  let working l P := exists fm l1 l2 l3, l = l1 ++ l2 ++ l3 /\ logged_in_at platform t heartbeat fm l1 /\ opened_channel_1 l2 /\
                       exists F, P fm (frames (l1 ++ l2)) F l3 in
  match p with
  | Ends r d l =>
    match exit r with
    | Returns _ => (exists fd, connected t fd d) /\ working l (fun fm seen F l3 => sent F (out_bytes l3) /\ ends fm seen F r l3)
    | Dies =>
      (l = [] /\ exists err, r = dies err /\ unreachable t err) \/
      ((exists fd, connected t fd d) /\
       ((begun l /\ exists text, r = dies (line "logging in to AMQP server" text) /\ login_trouble (frames l) text) \/
        opening l (fun l2 => exists text, r = dies (line "opening channel" text) /\ explained 1 (frames l2) text) \/
        working l (fun fm seen F l3 => part F (out_bytes l3) /\ ends fm seen F r l3)))
    | _ => False
    end
  | Runs d l =>
      l = [] \/
      ((exists fd, connected t fd d) /\
       (begun l \/ opening l (fun _ => True) \/ working l (fun fm seen F l3 => part F (out_bytes l3) /\ runs fm seen F l3)))
  end.
End Session.
(** of the tools that only write to standard output and standard error *)
Definition exit_of (r : ToolQueue.result) : outcome Z := fst (fst r).
(** a step of the tool has failed: one line on standard error with the step and the reason *)
Definition blamed (steps : list (string * Z)) (err : bytes) (l : list obs) : Prop :=
  exists step ch text, In (step, ch) (steps ++ [("closing channel", 1); ("closing connection", 0)]) /\ err = line step text /\ explained ch (frames l) text.
