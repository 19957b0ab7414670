(** What amqp-declare-queue and amqp-delete-queue do, as whole programs (C82): from the
    parameters of the connection ([target]) to the exit status. *)
From Coq Require Import String ZArith List Bool.
From Verif Require Import Base Codec TableModel TableSpec FramingStmt FramingModel MethodSpec Frame FrameSpec Time Sasl Net NetApi NetSpec CallSpec Prop_Calls
  Os ConnectSpec SpeakSpec Tools ToolOpts ReportSpec ToolQueue ToolMain ParleySpec.
From Verif Require LoginSpec Prop_ToolQueue.
Import ListNotations.
Local Open Scope string_scope.
Local Open Scope list_scope.
Local Open Scope Z_scope.

(** the user's credentials *)
Definition credentials_of (t : target) : credentials := Plain (t_user t) (t_password t).
(** The calls [d] of the operating system and of OpenSSL have connected [fd] to the host
    and the port; with TLS, to a peer whose certificate was verified for that host. *)
Definition connected (t : target) (fd : Z) (d : list entry) : Prop :=
  0 <= fd /\
  if t_ssl t then
    exists deadline l1 l2 l3 h l4, d = l1 ++ l2 ++ l3 ++ (Handshake, h) :: l4 /\
      opens (t_host t) (t_port t) deadline l2 fd /\ In (SniName (t_host t)) (map fst l3) /\
      Os.result h = 1 /\ verified true true (t_host t) l4
  else exists l1 l2, d = l1 ++ l2 /\ opens (t_host t) (t_port t) amqp_time_infinite l2 fd.
(** the message when there is no connection *)
Definition unreachable (t : target) (err : bytes) : Prop :=
  err = lit "creating TCP socket (out of memory)" ++ [newline] \/ err = lit "creating SSL/TLS socket" ++ [newline] \/
  exists port st, decimal_of port (t_port t) /\ st < 0 /\
    err = lit "opening socket to " ++ t_host t ++ lit ":" ++ port ++ lit ": " ++ status_text st ++ [newline].
(** The login of a tool: [l] is the whole conversation of a login, as the user in the
    virtual host, with any number of channels and frames of up to 128 KB *)
Definition logged_in (platform : string) (t : target) (heartbeat : Z) (l : list obs) : Prop :=
  exists header props server_props scm sfm shb l1 l2 l3,
    l = l1 ++ l2 ++ l3 /\ (header = LoginSpec.amqp_header \/ header = []) /\
    LoginSpec.greeted platform (Some []) (credentials_of t) props server_props header l1 /\
    LoginSpec.tuned scm sfm shb 0 131072 heartbeat l2 /\ LoginSpec.opened (t_vhost t) l3.
(** why a login has failed: a status of the library, or the close that the server sent *)
Definition login_trouble (fs : list frame) (text : bytes) : Prop := (exists st, text = status_text st) \/ explained 0 fs text.
(** the frame that opens channel 1 *)
Definition channel_open : bytes := ser_frame 1 (AMethod 20 10 [("out_of_band", ShortStr)] [("out_of_band", VBytes [])]).
(** which step after the login has failed and why *)
Definition fails (context : string) (err : bytes) (l : list obs) : Prop :=
  exists step ch text, In (step, ch) [("opening channel", 1); (context, 1); ("closing channel", 1); ("closing connection", 0)] /\
    err = line step text /\ explained ch (frames l) text.

(** What the program does.  Exit status 0: it has connected to the host (and verified it,
    with TLS), logged in, opened a channel, sent the request, received and printed the
    answer, and closed the channel and the connection; nothing is on standard error.
    Exit status 1: it could not connect, or the login failed, or a later step; what is on
    the wire is a beginning of the above, only an answer of the server has been printed,
    and standard error has one line that says which step failed and why.
    As long as it runs: what is on the wire is a beginning of the above. *)
Definition whole (platform : string) (t : target) (heartbeat : Z) (request : bytes) (reply : Z) (context : string) (prints : mstruct -> bytes -> Prop) (p : program ToolQueue.result) : Prop :=
  let begun := never_ahead platform (t_vhost t) 0 131072 heartbeat (Some []) (credentials_of t) in
  let later l P := exists l1 l2 F, l = l1 ++ l2 /\ logged_in platform t heartbeat l1 /\ Prop_ToolQueue.closes F /\ P (channel_open :: request :: F) l2 in
  let printed out l := exists m, Prop_ToolQueue.answered reply m l /\ prints m out in
  match p with
  | Ends (Returns z, out, err) d l =>
      z = 0 /\ err = [] /\ (exists fd, connected t fd d) /\
      later l (fun F l2 => sent F (out_bytes l2) /\ (exists m, Prop_ToolQueue.answered (method_id 20 11) m l2) /\ printed out l2)
  | Ends (Dies, out, err) d l =>
      (l = [] /\ out = [] /\ unreachable t err) \/
      ((exists fd, connected t fd d) /\
       ((out = [] /\ begun l /\ exists text, err = line "logging in to AMQP server" text /\ login_trouble (frames l) text) \/
        later l (fun F l2 => part F (out_bytes l2) /\ fails context err l2 /\ (out = [] \/ printed out l2))))
  | Ends _ _ _ => False
  | Runs d l => l = [] \/ ((exists fd, connected t fd d) /\ (begun l \/ later l (fun F l2 => part F (out_bytes l2))))
  end.
