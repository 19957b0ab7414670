(** Specification for C71: a session with a well-behaved server. *)
From Coq Require Import String ZArith List Bool.
From Verif Require Import Base Codec TableModel TableSpec TableOps FramingStmt FramingModel MethodSpec Frame FrameSpec Time Net NetApi CalmSpec LoginSpec NetWell.
From Verif Require Prop_TableOps Prop_Sasl.
Import ListNotations.
Local Open Scope Z_scope.
Local Open Scope list_scope.

(** ** What the server says *)
Definition start (server_props : table) (mechanisms locales : bytes) : aframe :=
  AMethod 10 10 [("version_major", Octet); ("version_minor", Octet); ("server_properties", Tbl); ("mechanisms", LongStr); ("locales", LongStr)]%string
    [("version_major", VInt 0); ("version_minor", VInt 9); ("server_properties", VTable server_props); ("mechanisms", VBytes mechanisms); ("locales", VBytes locales)]%string.
Definition tune (channel_max frame_max heartbeat : Z) : aframe :=
  AMethod 10 30 [("channel_max", Short); ("frame_max", Long); ("heartbeat", Short)]%string
    [("channel_max", VInt channel_max); ("frame_max", VInt frame_max); ("heartbeat", VInt heartbeat)]%string.
Definition open_ok (known_hosts : bytes) : aframe :=
  AMethod 10 41 [("known_hosts", ShortStr)]%string [("known_hosts", VBytes known_hosts)]%string.
Definition heartbeats (fs : list (Z * aframe)) : Prop := Forall (fun ca => snd ca = AHeartbeat) fs.

Record server := mkServer {
  s_props : table; s_mechanisms : bytes; s_locales : bytes;
  s_channel_max : Z; s_frame_max : Z; s_heartbeat : Z; s_known_hosts : bytes }.
(** the greeting and the proposals, with heartbeats between *)
Definition greeting (s : server) (hbs : list (Z * aframe)) : list (Z * aframe) :=
  (0, start (s_props s) (s_mechanisms s) (s_locales s)) :: hbs ++ [(0, tune (s_channel_max s) (s_frame_max s) (s_heartbeat s))].
(** the acceptance, and everything after it *)
Definition session (s : server) (hbs rest : list (Z * aframe)) : list (Z * aframe) :=
  hbs ++ (0, open_ok (s_known_hosts s)) :: rest.

(** ** What the client says *)
Record login := mkLogin {
  l_platform : string; l_vhost : bytes; l_channel_max : Z; l_frame_max : Z; l_heartbeat : Z; l_props : option table; l_cred : credentials }.
Definition Log_in (a : login) : api := Login (l_platform a) (l_vhost a) (l_channel_max a) (l_frame_max a) (l_heartbeat a) (l_props a) (l_cred a).
Definition agreed (s : server) (a : login) : Z := agreed_frame_max (s_frame_max s) (l_frame_max a).

(** The arguments are in the documented ranges; the properties have no key twice and no
    empty one (and are not the one case the library refuses, C23); an EXTERNAL identity
    is not empty (C31). *)
Definition proper (a : login) : Prop :=
  0 <= l_channel_max a <= 65535 /\ 24 <= l_frame_max a /\ 0 <= l_heartbeat a <= 65535 /\
  sasl_answer (l_cred a) <> [] /\
  match l_props a with
  | None => True
  | Some add => Prop_TableOps.distinct (FTable add) /\ cloneable_table add = true /\ Prop_TableOps.mergeable (FTable add) (library_properties (l_platform a))
  end.
(** what the client has to send fits: the answer to the greeting into 65536 bytes, the
    request to open the virtual host into a frame of the agreed size *)
Definition fits_in (a : login) (fm : Z) : Prop :=
  (forall props, properties_sent (l_platform a) (l_props a) props ->
    can_send 65536 (method_frame 0 CONNECTION_START_OK
      [("client_properties", VTable props); ("mechanism", VBytes (mechanism (l_cred a))); ("response", VBytes (sasl_answer (l_cred a))); ("locale", VBytes (lit "en_US"))]%string)) /\
  can_send fm (method_frame 0 CONNECTION_OPEN [("virtual_host", VBytes (l_vhost a)); ("capabilities", VBytes []); ("insist", VBool 1)]%string).
(** the server offers the mechanism, its properties have no empty key, and the agreed
    limit leaves room for the smallest frames *)
Definition welcomes (s : server) (a : login) : Prop :=
  Prop_Sasl.is_word (mechanism (l_cred a)) (s_mechanisms s) /\ cloneable_table (s_props s) = true /\ 24 <= agreed s a < 2 ^ 30.
(** a connection on which nothing has been done but to set its timeouts *)
Definition just_opened (c : conn) : Prop :=
  exists fd timeouts, c = set_to (new_connection fd) timeouts /\ fd <> -1 /\
    modest_timeout (amqp_get_rpc_timeout timeouts) /\ modest_timeout (amqp_get_handshake_timeout timeouts).
