(** Logging in: C20, C41, C45, C46. *)
From Coq Require Import String ZArith List Bool Lia.
From Verif Require Import Base BaseFacts Codec TableModel TableSpec TableDec TableOps FramingStmt FramingGen FramingModel MethodSpec
  Frame FrameSpec FrameStream FrameProofs FrameFacts FrameNew Time Sasl Net NetApi NetGet NetSpec NetFacts NetSend NetRecv NetWalk NetAcct NetOrder NetWait NetOff NetTyped NetRx NetWell NetRoom NetKeep LoginSpec NetLogin.
From Verif Require Prop_Safe.
Import ListNotations.
Local Open Scope Z_scope.

(** A connection on which nothing has been negotiated and nothing is waiting
    ([fresh], NetLogin.v): heartbeats are off, no frame is queued, the input side
    is in any legal state, the send buffer has less than 2^31 bytes. *)
Example fresh_new fd : fresh (new_connection fd).
Proof.
  split; [repeat split|]. split; [reflexivity|]. split; [repeat split; cbn; lia|].
  change (c_outbuf (new_connection fd)) with (repeat x00 (Z.to_nat 65536)). unfold zlen. rewrite repeat_length. lia.
Qed.
Lemma login_run N E pf vh cm fm hb p cr c ev : fresh c -> Prop_Safe.arguments_ok (Login pf vh cm fm hb p cr) ->
  match exec N E (Login pf vh cm fm hb p cr) c ev with
  | Done o c' _ l => exists r, o = OutReply r /\ login_post pf vh cm fm hb p cr c r c' l
  | Halt _ _ _ => True
  end.
Proof.
  intros Hf (A1 & A2 & A3 & A4 & A5).
  assert (wp (exec N E (Login pf vh cm fm hb p cr)) c ev (fun o c' _ l => exists r, o = OutReply r /\ login_post pf vh cm fm hb p cr c r c' l) (fun _ _ _ => True)) as H.
  { cbn [exec]. unfold amqp_login_with_properties. apply wp_bind. wstep.
    eapply wp_conseq; [apply login_inner_ok; assumption| |auto]; cbv beta. intros r c' ev' l H. apply wp_ret. rewrite app_nil_r. eauto. }
  unfold wp in H. destruct (exec _ _ _ _ _); exact H.
Qed.

(** C45.  After a successful login the limits are what client and server have
    agreed on: the smaller of the two proposals, 0 being none (LoginSpec.v); they
    are the values sent in tune-ok and the ones the library reports and uses. *)
Theorem C45_limits_agreed :
  forall N E platform vhost channel_max frame_max heartbeat properties credentials c ev id m c' ev' l,
    fresh c -> Prop_Safe.arguments_ok (Login platform vhost channel_max frame_max heartbeat properties credentials) ->
    exec N E (Login platform vhost channel_max frame_max heartbeat properties credentials) c ev = Done (OutReply (RNormal id m)) c' ev' l ->
    exists server_channel_max server_frame_max server_heartbeat before during after,
      l = before ++ during ++ after /\
      tuned server_channel_max server_frame_max server_heartbeat channel_max frame_max heartbeat during /\
      amqp_get_channel_max c' = agreed_channel_max server_channel_max channel_max /\
      amqp_get_frame_max c' = agreed_frame_max server_frame_max frame_max /\
      amqp_get_heartbeat c' = agreed_heartbeat server_heartbeat heartbeat /\
      zlen (c_outbuf c') = amqp_get_frame_max c'.
Proof.
  intros N E pf vh cm fm hb p cr c ev id m c' ev' l Hf Ha Hrun. pose proof (login_run N E pf vh cm fm hb p cr c ev Hf Ha) as H. rewrite Hrun in H.
  destruct H as (r & Hr & H). injection Hr as <-. destruct H as (_ & _ & hdr & props & sprops & scm & sfm & shb & l1 & l2 & l3 & -> & H1 & H2 & H3 & H4 & H5 & H6 & H7 & H8 & _).
  exists scm, sfm, shb, l1, l2, l3. auto 10.
Qed.
(** The rules for single values, as the documentation has them. *)
Theorem C45_rules :
  forall s c, 0 < s -> 0 < c ->
    agreed_channel_max s c = Z.min s c /\ agreed_channel_max 0 c = c /\ agreed_channel_max s 0 = s /\ agreed_channel_max 0 0 = 65535 /\
    agreed_frame_max s c = Z.min s c /\ agreed_frame_max 0 c = c /\
    agreed_heartbeat s c = Z.min s c /\ agreed_heartbeat 0 c = c /\ agreed_heartbeat s 0 = 0 /\ agreed_heartbeat 0 0 = 0.
Proof.
  intros s c Hs Hc. unfold agreed_channel_max, agreed_frame_max, agreed_heartbeat, smaller. change (0 =? 0) with true. cbv iota.
  assert (s =? 0 = false) as -> by (apply Z.eqb_neq; lia). assert (c =? 0 = false) as E1 by (apply Z.eqb_neq; lia). rewrite E1. cbv iota.
  assert (s =? 0 = false) as E2 by (apply Z.eqb_neq; lia). assert (Z.min s c =? 0 = false) as E3 by (apply Z.eqb_neq; lia).
  rewrite ?E1, ?E2, ?E3. change (0 =? 0) with true. cbv iota. repeat split; lia.
Qed.

(** C46.  What login returns, for every server and every schedule, if it returns:
    - success: exactly the conversation of LoginSpec.v has taken place, in this
      order.  The header may be missing (see below).
    - a server exception: the last thing received is the close method.
    - a library error: the socket is closed, except for illegal parameters
      (nothing has been done) and for errors while the virtual host is being
      opened (see below). *)
Theorem C46_login_partial :
  forall N E platform vhost channel_max frame_max heartbeat properties credentials c ev,
    fresh c -> Prop_Safe.arguments_ok (Login platform vhost channel_max frame_max heartbeat properties credentials) ->
    match exec N E (Login platform vhost channel_max frame_max heartbeat properties credentials) c ev with
    | Halt _ _ _ => True
    | Done o c' _ l => exists r, o = OutReply r /\
      match r with
      | RNormal id m => id = 0 /\ m = [] /\ exists header props server_props scm sfm shb l1 l2 l3,
          l = l1 ++ l2 ++ l3 /\ (header = amqp_header \/ header = []) /\
          greeted platform properties credentials props server_props header l1 /\
          tuned scm sfm shb channel_max frame_max heartbeat l2 /\
          opened vhost l3 /\ amqp_get_server_properties c' = server_props
      | RServer id m => (id = CONNECTION_CLOSE \/ id = CHANNEL_CLOSE) /\ exists pre f, frames l = pre ++ [f] /\ server_method f id m
      | RLibrary st =>
          (st = AMQP_STATUS_INVALID_PARAMETER /\ c' = c /\ l = [] /\ ~ (0 <= channel_max <= 65535 /\ 0 <= frame_max /\ 0 <= heartbeat <= 65535)) \/
          closed c' l \/
          (st < 0 /\ st <> AMQP_STATUS_TIMEOUT /\ exists header props server_props scm sfm shb l1 l2 l3,
             l = l1 ++ l2 ++ l3 /\ (header = amqp_header \/ header = []) /\
             greeted platform properties credentials props server_props header l1 /\ tuned scm sfm shb channel_max frame_max heartbeat l2)
      | RNone => False
      end
    end.
Proof.
  intros N E pf vh cm fm hb p cr c ev Hf Ha. pose proof (login_run N E pf vh cm fm hb p cr c ev Hf Ha) as H.
  destruct (exec N E _ c ev) as [o c' ev' l|]; [|exact I]. destruct H as (r & -> & H). exists r. split; [reflexivity|].
  destruct r as [|id m|st|id m]; cbn [login_post] in H.
  - exact H.
  - destruct H as (-> & -> & hdr & props & sprops & scm & sfm & shb & l1 & l2 & l3 & -> & H1 & H2 & H3 & H4 & _ & _ & _ & _ & _ & H5 & _).
    split; [reflexivity|]. split; [reflexivity|]. exists hdr, props, sprops, scm, sfm, shb, l1, l2, l3. auto 10.
  - destruct H as [H|[H|(hdr & props & sprops & scm & sfm & shb & l1 & l2 & l3 & -> & H1 & H2 & H3 & H4 & H5)]]; [left; exact H|right; left; exact H|].
    right; right. split; [exact H4|]. split; [exact H5|]. exists hdr, props, sprops, scm, sfm, shb, l1, l2, l3. auto.
  - exact H.
Qed.

(** C20.  amqp_get_client_properties after a successful login: the table that was
    sent in start-ok ... *)
Theorem C20_table_sent_partial :
  forall N E platform vhost channel_max frame_max heartbeat properties credentials c ev id m c' ev' l,
    fresh c -> Prop_Safe.arguments_ok (Login platform vhost channel_max frame_max heartbeat properties credentials) ->
    exec N E (Login platform vhost channel_max frame_max heartbeat properties credentials) c ev = Done (OutReply (RNormal id m)) c' ev' l ->
    exists t g header server_props l1 l2, amqp_get_client_properties c' = Some (t, g) /\
      l = l1 ++ l2 /\ greeted platform properties credentials t server_props header l1.
Proof.
  intros N E pf vh cm fm hb p cr c ev id m c' ev' l Hf Ha Hrun. pose proof (login_run N E pf vh cm fm hb p cr c ev Hf Ha) as H. rewrite Hrun in H.
  destruct H as (r & Hr & H). injection Hr as <-. destruct H as (_ & _ & hdr & props & sprops & scm & sfm & shb & l1 & l2 & l3 & -> & H1 & H2 & H3 & H4 & H5 & H6 & H7 & H8 & H9 & H10 & g & H11 & H12).
  exists props, g, hdr, sprops, l1, (l2 ++ l3). auto.
Qed.
(** ... but the memory it is in has already been recycled, after every successful
    login: C20 is false. *)
Theorem C20_refuted :
  forall N E platform vhost channel_max frame_max heartbeat properties credentials c ev id m c' ev' l,
    fresh c -> Prop_Safe.arguments_ok (Login platform vhost channel_max frame_max heartbeat properties credentials) ->
    exec N E (Login platform vhost channel_max frame_max heartbeat properties credentials) c ev = Done (OutReply (RNormal id m)) c' ev' l ->
    exists t g, amqp_get_client_properties c' = Some (t, g) /\ ~ still_valid c' g.
Proof.
  intros N E pf vh cm fm hb p cr c ev id m c' ev' l Hf Ha Hrun. pose proof (login_run N E pf vh cm fm hb p cr c ev Hf Ha) as H. rewrite Hrun in H.
  destruct H as (r & Hr & H). injection Hr as <-. destruct H as (_ & _ & hdr & props & sprops & scm & sfm & shb & l1 & l2 & l3 & -> & H1 & H2 & H3 & H4 & H5 & H6 & H7 & H8 & H9 & H10 & g & H11 & H12).
  exists props, g. split; [exact H11|]. unfold still_valid. lia.
Qed.

(** C41.  A connection that has logged in has a send buffer of frame_max bytes, and
    at least 20 of them: whatever the server proposed, publishing never leaves the
    buffer.  (The only undefined behaviour that remains is in decoding what the
    server sends meanwhile; see C56.) *)
Theorem C41_negotiated :
  forall N E platform vhost channel_max fm heartbeat properties credentials c ev id m c' ev' l,
    fresh c -> Prop_Safe.arguments_ok (Login platform vhost channel_max fm heartbeat properties credentials) ->
    exec N E (Login platform vhost channel_max fm heartbeat properties credentials) c ev = Done (OutReply (RNormal id m)) c' ev' l ->
    20 <= amqp_get_frame_max c' < M30 /\ zlen (c_outbuf c') = amqp_get_frame_max c'.
Proof.
  intros N E pf vh cm fm hb p cr c ev id m c' ev' l Hf Ha Hrun. pose proof (login_run N E pf vh cm fm hb p cr c ev Hf Ha) as H. rewrite Hrun in H.
  destruct H as (r & Hr & H). injection Hr as <-. destruct H as (_ & _ & hdr & props & sprops & scm & sfm & shb & l1 & l2 & l3 & -> & H1 & H2 & H3 & H4 & H5 & H6 & H7 & H8 & H9 & H10 & g & H11 & H12).
  split; [exact H9|exact H8].
Qed.

(** Whatever is done after a successful login, apart from another login or
    amqp_tune_connection: nothing is written outside the send buffer.  The only
    undefined behaviour that is left is in decoding what the server sends (C13,
    C56). *)
Theorem C41_buffer_respected :
  forall N E platform vhost channel_max fm heartbeat properties credentials c ev id m c1 ev1 l1 calls c2 l2,
    fresh c -> Prop_Safe.arguments_ok (Login platform vhost channel_max fm heartbeat properties credentials) ->
    exec N E (Login platform vhost channel_max fm heartbeat properties credentials) c ev = Done (OutReply (RNormal id m)) c1 ev1 l1 ->
    Forall Prop_Safe.arguments_ok calls -> Forall keeps_limits calls ->
    exec_all N E calls c1 ev1 = Halt UB c2 l2 ->
    Forall Prop_Safe.basic_content (frames (l1 ++ l2)) ->
    amqp_handle_input E (c_in c2) (c_sbuf c2) = HUB.
Proof.
  intros N E pf vh cm fm hb p cr c ev id m c1 ev1 l1 calls c2 l2 Hf Ha Hrun Hc Hk Hrun2 HB.
  destruct (C41_negotiated N E pf vh cm fm hb p cr c ev id m c1 ev1 l1 Hf Ha Hrun) as [G1 G2]. unfold amqp_get_frame_max in G1, G2.
  assert (exec_all N E (Login pf vh cm fm hb p cr :: calls) c ev = Halt UB c2 (l1 ++ l2)) as R.
  { cbn [exec_all]. unfold bind at 1. rewrite Hrun. unfold bind at 1. rewrite Hrun2. reflexivity. }
  destruct Hf as (Hoff & Hq & Hi & Hb).
  pose proof (Prop_Safe.typed_all N E _ c ev (Forall_cons _ Ha Hc) Hi Hq Hb) as T. rewrite R in T. specialize (T HB eq_refl).
  assert (qalive c) as Q0 by (unfold qalive; rewrite Hq; reflexivity).
  pose proof (al_exec_all N E (Login pf vh cm fm hb p cr :: calls) c ev Q0) as Al. unfold wp in Al. rewrite R in Al.
  pose proof (room_exec_all N E calls c1 Hk ev1) as Ro. unfold wp in Ro. rewrite Hrun2 in Ro. destruct Ro as [Ro1 Ro2].
  destruct T as [T|[T|T]]; [exact T|contradiction|lia].
Qed.

(** ** Concrete logins *)
(** recycled memory is zero, allocations succeed *)
Definition zero_env : nat -> aenv := fun _ => mkA false false (fun _ => x00) no_oom.
Definition the_start : bytes := ser_frame 0 (AMethod 10 10 [("version_major", Octet); ("version_minor", Octet); ("server_properties", Tbl); ("mechanisms", LongStr); ("locales", LongStr)]%string
  [("version_major", VInt 0); ("version_minor", VInt 9); ("server_properties", VTable []); ("mechanisms", VBytes (lit "AMQPLAIN PLAIN")); ("locales", VBytes (lit "en_US"))]%string).
Definition the_tune (cm fm hb : Z) : bytes := ser_frame 0 (AMethod 10 30 [("channel_max", Short); ("frame_max", Long); ("heartbeat", Short)]%string
  [("channel_max", VInt cm); ("frame_max", VInt fm); ("heartbeat", VInt hb)]%string).
Definition the_open_ok : bytes := ser_frame 0 (AMethod 10 41 [("known_hosts", ShortStr)]%string [("known_hosts", VBytes [])]%string).
Definition whole_login (tune : bytes) (rest : list event) : list event :=
  [EvClock 1; EvSend (SOk 8); EvClock 1; EvClock 2; EvRecv (ROk the_start); EvClone (fun _ => false); EvAlloc true; EvClone (fun _ => false);
   EvSend (SOk 9999); EvClock 3; EvClock 4; EvRecv (ROk tune)] ++ rest.
Definition a_login (fm hb : Z) : api := Login "Linux" (lit "/") 0 fm hb None (Plain (lit "guest") (lit "guest")).
Example a_login_ok fm hb : fm < M30 -> Prop_Safe.arguments_ok (a_login fm hb).
Proof. intros H. split; [reflexivity|]. split; [reflexivity|]. split; [exact H|]. split; [exact I|]. split; reflexivity. Qed.

(** A successful login, the server wants smaller frames, the client no heartbeats. *)
Example C45_case :
  match exec 100 zero_env (a_login 131072 0) (new_connection 5)
          (whole_login (the_tune 2047 4096 60) [EvAlloc true; EvSend (SOk 999); EvSend (SOk 999); EvRecv (ROk the_open_ok)]) with
  | Done (OutReply (RNormal id m)) c' ev' l =>
      amqp_get_channel_max c' = 2047 /\ amqp_get_frame_max c' = 4096 /\ amqp_get_heartbeat c' = 0 /\ c_fd c' = 5 /\
      out_bytes l = amqp_header ++ start_ok (library_properties "Linux") (lit "PLAIN") ([x00] ++ lit "guest" ++ [x00] ++ lit "guest") ++ tune_ok 2047 4096 0 ++ open (lit "/")
  | _ => False
  end.
Proof. vm_compute. repeat split. Qed.
(** With heartbeats. *)
Example C45_case_heartbeat :
  match exec 100 zero_env (a_login 131072 60) (new_connection 5)
          (whole_login (the_tune 0 0 10) [EvClock 5; EvClock 6; EvAlloc true; EvSend (SOk 999); EvClock 7; EvSend (SOk 999); EvClock 8; EvClock 9; EvRecv (ROk the_open_ok); EvClock 10; EvClock 11; EvClock 12]) with
  | Done (OutReply (RNormal id m)) c' ev' l =>
      amqp_get_channel_max c' = 65535 /\ amqp_get_frame_max c' = 131072 /\ amqp_get_heartbeat c' = 10 /\ c_fd c' = 5
  | _ => False
  end.
Proof. vm_compute. repeat split. Qed.
(** A server that only knows other versions of the protocol. *)
Example C46_case_version :
  match exec 100 zero_env (a_login 131072 0) (new_connection 5)
          [EvClock 1; EvSend (SOk 8); EvClock 1; EvClock 2; EvRecv (ROk (ser_frame 0 (AMethod 10 10 [("version_major", Octet); ("version_minor", Octet); ("server_properties", Tbl); ("mechanisms", LongStr); ("locales", LongStr)]%string
             [("version_major", VInt 1); ("version_minor", VInt 0); ("server_properties", VTable []); ("mechanisms", VBytes (lit "PLAIN")); ("locales", VBytes (lit "en_US"))]%string))); EvClose true] with
  | Done (OutReply (RLibrary st)) c' ev' l => st = AMQP_STATUS_INCOMPATIBLE_AMQP_VERSION /\ c_fd c' = -1
  | _ => False
  end.
Proof. vm_compute. repeat split. Qed.

(** C46 is false as stated.  An error while the virtual host is being opened leaves
    the socket open. *)
Theorem C46_socket_left_open_refuted :
  exists ev c' ev' l st,
    exec 100 zero_env (a_login 131072 0) (new_connection 5) ev = Done (OutReply (RLibrary st)) c' ev' l /\
    st = AMQP_STATUS_SOCKET_ERROR /\ c_fd c' = 5 /\ ~ closed c' l.
Proof.
  exists (whole_login (the_tune 2047 4096 60) [EvAlloc true; EvSend (SOk 999); EvSend SErr]).
  assert (match exec 100 zero_env (a_login 131072 0) (new_connection 5) (whole_login (the_tune 2047 4096 60) [EvAlloc true; EvSend (SOk 999); EvSend SErr]) with
    | Done (OutReply (RLibrary st)) c' ev' l => st = AMQP_STATUS_SOCKET_ERROR /\ c_fd c' = 5 /\ existsb (fun o => match o with OClose _ => true | _ => false end) l = false
    | _ => False end) as H by (vm_compute; repeat split).
  destruct (exec 100 zero_env _ _ _) as [[] c' ev' l|]; try contradiction. destruct r as [| |st|]; try contradiction. destruct H as (H1 & H2 & H3).
  exists c', ev', l, st. split; [reflexivity|]. split; [exact H1|]. split; [exact H2|]. intros [H|H]; [rewrite H2 in H; discriminate|].
  assert (existsb (fun o => match o with OClose _ => true | _ => false end) l = true) as K by (apply existsb_exists; eexists; split; [exact H|reflexivity]).
  rewrite K in H3. discriminate.
Qed.
(** A login that succeeds although the protocol header has not been sent: the
    timeout of a would-block write is taken for success. *)
Theorem C46_header_not_sent_refuted :
  exists ev c' ev' l id m,
    exec 100 zero_env (a_login 131072 0) (new_connection 5) ev = Done (OutReply (RNormal id m)) c' ev' l /\
    out_bytes l = start_ok (library_properties "Linux") (lit "PLAIN") ([x00] ++ lit "guest" ++ [x00] ++ lit "guest") ++ tune_ok 2047 4096 0 ++ open (lit "/").
Proof.
  set (ev := [EvClock 1; EvSend SAgain; EvClock 1; EvPoll PTimeout; EvClock 1; EvClock 2; EvRecv (ROk the_start); EvClone (fun _ => false); EvAlloc true; EvClone (fun _ => false);
   EvSend (SOk 9999); EvClock 3; EvClock 4; EvRecv (ROk (the_tune 2047 4096 60)); EvAlloc true; EvSend (SOk 999); EvSend (SOk 999); EvRecv (ROk the_open_ok)]). exists ev.
  assert (match exec 100 zero_env (a_login 131072 0) (new_connection 5) ev with
    | Done (OutReply (RNormal id m)) c' ev' l => out_bytes l = start_ok (library_properties "Linux") (lit "PLAIN") ([x00] ++ lit "guest" ++ [x00] ++ lit "guest") ++ tune_ok 2047 4096 0 ++ open (lit "/")
    | _ => False end) as H by (vm_compute; reflexivity).
  destruct (exec 100 zero_env _ _ _) as [[] c' ev' l|]; try contradiction. destruct r as [|id m| |]; try contradiction.
  exists c', ev', l, id, m. split; [reflexivity|exact H].
Qed.
(** A server that proposes frames of 8 bytes makes the client write outside its
    buffer before the login is complete (tune-ok has 20 bytes). *)
Theorem C41_before_login_refuted :
  exists ev c' l, exec 100 zero_env (a_login 131072 0) (new_connection 5) ev = Halt UB c' l /\
    zlen (c_outbuf c') = 8 /\ amqp_handle_input zero_env (c_in c') (c_sbuf c') <> HUB.
Proof.
  set (ev := whole_login (the_tune 2047 8 60) [EvAlloc true]). exists ev.
  assert (match exec 100 zero_env (a_login 131072 0) (new_connection 5) ev with
    | Halt UB c' l => zlen (c_outbuf c') = 8 /\ c_sbuf c' = []
    | _ => False end) as H by (vm_compute; split; reflexivity).
  destruct (exec 100 zero_env _ _ _) as [|[] c' l]; try contradiction. destruct H as [H1 H2]. exists c', l. split; [reflexivity|]. split; [exact H1|].
  rewrite H2. discriminate.
Qed.
(** amqp_tune_connection records the new length of the send buffer even if it did not get
    the memory for it.  A queue.declare with an argument of 70000 bytes then fits the
    recorded length, but not the 65536 bytes the block still has. *)
Theorem C41_failed_tune_refuted :
  let declare := [("ticket", VInt 0); ("queue", VBytes []); ("passive", VBool 0); ("durable", VBool 0); ("exclusive", VBool 0); ("auto_delete", VBool 0); ("nowait", VBool 0);
    ("arguments", VTable [(lit "x", FUtf8 (repeat x41 (Z.to_nat 70000)))])]%string in
  exists c' l, exec_all 100 zero_env [a_login 131072 0; SendMethod 1 0x0032000A declare] (new_connection 5) (whole_login (the_tune 2047 131072 60) [EvAlloc false; EvClose true]) = Halt UB c' l /\
    amqp_handle_input zero_env (c_in c') (c_sbuf c') <> HUB /\ zlen (c_outbuf (new_connection 5)) = 65536 /\
    exists buf encoded, amqp_frame_to_bytes (mkFrame AMQP_FRAME_METHOD 1 (PMethod 0x0032000A declare) 0) (repeat x00 (Z.to_nat 131072)) = FRet AMQP_STATUS_OK buf encoded /\
      70000 < zlen encoded.
Proof.
  intros declare.
  assert (match exec_all 100 zero_env [a_login 131072 0; SendMethod 1 0x0032000A declare] (new_connection 5) (whole_login (the_tune 2047 131072 60) [EvAlloc false; EvClose true]) with
    | Halt UB c' _ => c_sbuf c' = [] | _ => False end) as H by (vm_compute; reflexivity).
  destruct (exec_all 100 zero_env _ _ _) as [|[] c' l]; try contradiction. exists c', l. split; [reflexivity|]. split; [rewrite H; discriminate|]. split; [vm_compute; reflexivity|].
  assert (match amqp_frame_to_bytes (mkFrame AMQP_FRAME_METHOD 1 (PMethod 0x0032000A declare) 0) (repeat x00 (Z.to_nat 131072)) with
    | FRet st _ encoded => (st =? AMQP_STATUS_OK) && (70000 <? zlen encoded) = true | FUB => False end) as K by (vm_compute; reflexivity).
  destruct (amqp_frame_to_bytes _ _) as [st buf encoded|]; [|contradiction]. apply andb_true_iff in K. destruct K as [K1 K2].
  apply Z.eqb_eq in K1. apply Z.ltb_lt in K2. exists buf, encoded. split; [rewrite K1; reflexivity|exact K2].
Qed.
(** After a successful login: publish a message of 10000 bytes in frames of 4096. *)
Example C41_case :
  match exec_all 100 zero_env [a_login 131072 0; Publish 1 [] (lit "q") 0 0 None (repeat x41 10000)] (new_connection 5)
          (whole_login (the_tune 2047 4096 60) ([EvAlloc true; EvSend (SOk 999); EvSend (SOk 999); EvRecv (ROk the_open_ok)] ++ repeat (EvSend (SOk 4096)) 9)) with
  | Done [OutReply (RNormal _ _); OutStatus st] c' ev' l => st = AMQP_STATUS_OK
  | _ => False
  end.
Proof. vm_compute. reflexivity. Qed.

Print Assumptions C45_limits_agreed.
Print Assumptions C45_rules.
Print Assumptions C46_login_partial.
Print Assumptions C46_socket_left_open_refuted.
Print Assumptions C46_header_not_sent_refuted.
Print Assumptions C20_table_sent_partial.
Print Assumptions C20_refuted.
Print Assumptions C41_negotiated.
Print Assumptions C41_buffer_respected.
Print Assumptions C41_before_login_refuted.
Print Assumptions C41_failed_tune_refuted.
