(** What an AMQP 0-9-1 client and server say to each other before a connection can
    be used (AMQP 0-9-1 specification, section 2.2.4), and how the limits are
    agreed on.  Nothing here refers to how the library does it. *)
From Coq Require Import String ZArith List Bool.
From Verif Require Import Base Codec TableModel TableSpec FramingStmt FramingModel MethodSpec Frame FrameSpec Sasl Net NetApi NetSpec.
From Verif Require Prop_TableOps Prop_Sasl.
Import ListNotations.
Local Open Scope Z_scope.
Local Open Scope list_scope.

(** a method frame on channel 0 *)
Definition server_method (f : frame) (id : Z) (m : mstruct) : Prop :=
  f_type f = 1 /\ f_chan f = 0 /\ f_pay f = PMethod id m.

(** ** What the client says *)
Definition amqp_header : bytes := [x41; x4d; x51; x50; x00; x00; x09; x01].
Definition start_ok (props : table) (mechanism response : bytes) : bytes :=
  ser_frame 0 (AMethod 10 11 [("client_properties", Tbl); ("mechanism", ShortStr); ("response", LongStr); ("locale", ShortStr)]%string
    [("client_properties", VTable props); ("mechanism", VBytes mechanism); ("response", VBytes response); ("locale", VBytes (lit "en_US"))]%string).
Definition tune_ok (channel_max frame_max heartbeat : Z) : bytes :=
  ser_frame 0 (AMethod 10 31 [("channel_max", Short); ("frame_max", Long); ("heartbeat", Short)]%string
    [("channel_max", VInt channel_max); ("frame_max", VInt frame_max); ("heartbeat", VInt heartbeat)]%string).
Definition open (vhost : bytes) : bytes :=
  ser_frame 0 (AMethod 10 40 [("virtual_host", ShortStr); ("capabilities", ShortStr); ("insist", Bit)]%string
    [("virtual_host", VBytes vhost); ("capabilities", VBytes []); ("insist", VBool 1)]%string).

(** the SASL answer for the credentials *)
Definition sasl_answer (cr : credentials) : bytes :=
  match cr with Plain u p => [x00] ++ u ++ [x00] ++ p | External i => i end.
Definition mechanism (cr : credentials) : bytes :=
  match cr with Plain _ _ => lit "PLAIN" | External _ => lit "EXTERNAL" end.
(** what the library says about itself *)
Definition library_properties (platform : string) : table :=
  [(lit "product", FUtf8 (lit "rabbitmq-c")); (lit "version", FUtf8 (lit "0.16.0-pre")); (lit "platform", FUtf8 (lit platform));
   (lit "copyright", FUtf8 (lit "Copyright (c) 2007-2014 VMWare Inc, Tony Garnock-Jones, and Alan Antonuk."));
   (lit "information", FUtf8 (lit "See https://github.com/alanxz/rabbitmq-c"));
   (lit "capabilities", FTable [(lit "authentication_failure_close", FBool 1); (lit "exchange_exchange_bindings", FBool 1)])].
(** the properties: the library's own, overridden and extended by the caller's *)
Definition properties_sent (platform : string) (given : option table) (t : table) : Prop :=
  match given with
  | Some add => Prop_TableOps.is_merge (library_properties platform) add t
  | None => t = library_properties platform
  end.

(** ** The agreement on limits: 0 is "no proposal" *)
Definition smaller (server client : Z) : Z :=
  if server =? 0 then client else if client =? 0 then server else Z.min server client.
Definition agreed_channel_max (server client : Z) : Z :=
  if smaller server client =? 0 then 65535 else smaller server client.
Definition agreed_frame_max (server client : Z) : Z := smaller server client.
(** a client that asks for no heartbeats gets none *)
Definition agreed_heartbeat (server client : Z) : Z :=
  if client =? 0 then 0 else smaller server client.

(** ** The conversation *)
(** the server's greeting has been received and answered *)
Definition greeted (platform : string) (p : option table) (cr : credentials) (props server_props : table) (header : bytes) (l : list obs) : Prop :=
  exists l1 l2 l3 hbs f major_minor mechanisms locales,
    l = l1 ++ l2 ++ l3 /\
    out_bytes l1 = header /\ frames l1 = [] /\
    no_output l2 /\ frames l2 = hbs ++ [f] /\ no_hb hbs = [] /\
    server_method f CONNECTION_START (major_minor ++ [("server_properties", VTable server_props); ("mechanisms", VBytes mechanisms); ("locales", VBytes locales)]%string) /\
    major_minor = [("version_major", VInt 0); ("version_minor", VInt 9)]%string /\
    Prop_Sasl.is_word (mechanism cr) mechanisms /\
    properties_sent platform p props /\
    out_bytes l3 = start_ok props (mechanism cr) (sasl_answer cr) /\ frames l3 = [].
(** its proposals have been received and answered *)
Definition tuned (scm sfm shb cm fm hb : Z) (l : list obs) : Prop :=
  exists l1 l2 hbs f,
    l = l1 ++ l2 /\
    no_output l1 /\ frames l1 = hbs ++ [f] /\ no_hb hbs = [] /\
    server_method f CONNECTION_TUNE [("channel_max", VInt scm); ("frame_max", VInt sfm); ("heartbeat", VInt shb)]%string /\
    0 <= scm < 65536 /\ 0 <= sfm < 2^32 /\ 0 <= shb < 65536 /\
    out_bytes l2 = tune_ok (agreed_channel_max scm cm) (agreed_frame_max sfm fm) (agreed_heartbeat shb hb).
(** the virtual host has been opened; heartbeats may have been sent meanwhile *)
Definition opened (vhost : bytes) (l : list obs) : Prop :=
  exists l1 l2 pre f m,
    l = l1 ++ l2 /\
    out_bytes l1 = open vhost /\ whole_beats (out_bytes l2) /\
    frames l2 = pre ++ [f] /\ server_method f CONNECTION_OPEN_OK m.
(** the socket has been closed, or closing it has failed *)
Definition closed (c : conn) (l : list obs) : Prop := c_fd c = -1 \/ In (OClose false) l.
