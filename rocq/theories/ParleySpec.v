(** What may be on the wire at any moment of a login (C81): the client never gets ahead of
    the server.  [l] is everything that has happened since the login was called. *)
From Coq Require Import String ZArith List Bool.
From Verif Require Import Base Codec TableModel TableSpec FramingStmt FramingModel MethodSpec Frame FrameSpec Sasl Net NetApi NetSpec LoginSpec SpeakSpec.
From Verif Require Prop_Sasl.
Import ListNotations.
Local Open Scope Z_scope.
Local Open Scope list_scope.

(** the server has greeted, with version 0-9 and an offer of the mechanism of the
    credentials; until then the client has sent [header] only *)
Definition greeting (cr : credentials) (header : bytes) (l : list obs) : Prop :=
  exists l1 l2 hbs f server_props mechanisms locales,
    l = l1 ++ l2 /\ out_bytes l1 = header /\ frames l1 = [] /\
    no_output l2 /\ frames l2 = hbs ++ [f] /\ no_hb hbs = [] /\
    server_method f CONNECTION_START [("version_major", VInt 0); ("version_minor", VInt 9);
      ("server_properties", VTable server_props); ("mechanisms", VBytes mechanisms); ("locales", VBytes locales)]%string /\
    Prop_Sasl.is_word (mechanism cr) mechanisms.
(** the server has proposed limits; nothing was sent meanwhile *)
Definition proposal (scm sfm shb : Z) (l : list obs) : Prop :=
  exists hbs f, no_output l /\ frames l = hbs ++ [f] /\ no_hb hbs = [] /\
    server_method f CONNECTION_TUNE [("channel_max", VInt scm); ("frame_max", VInt sfm); ("heartbeat", VInt shb)]%string /\
    0 <= scm < 65536 /\ 0 <= sfm < 2^32 /\ 0 <= shb < 65536.
(** The header at most; after the greeting also (a beginning of) start-ok, with the
    credentials; after the proposal also (a beginning of) tune-ok, with what was agreed on;
    then also (a beginning of) open, and heartbeats. *)
Definition never_ahead (platform : string) (vhost : bytes) (cm fm hb : Z) (p : option table) (cr : credentials) (l : list obs) : Prop :=
  prefix (out_bytes l) amqp_header \/
  exists header, (header = amqp_header \/ header = []) /\
   ((exists props l1 l2, l = l1 ++ l2 /\ greeting cr header l1 /\ properties_sent platform p props /\
       prefix (out_bytes l2) (start_ok props (mechanism cr) (sasl_answer cr))) \/
    (exists props sprops scm sfm shb l1 l2 l3, l = l1 ++ l2 ++ l3 /\ greeted platform p cr props sprops header l1 /\ proposal scm sfm shb l2 /\
       prefix (out_bytes l3) (tune_ok (agreed_channel_max scm cm) (agreed_frame_max sfm fm) (agreed_heartbeat shb hb))) \/
    (exists props sprops scm sfm shb l1 l2 l3, l = l1 ++ l2 ++ l3 /\ greeted platform p cr props sprops header l1 /\ tuned scm sfm shb cm fm hb l2 /\
       part [open vhost] (out_bytes l3))).
