(** C38, C39: remote procedure calls. *)
From Coq Require Import String ZArith List Bool Lia.
From Verif Require Import Base BaseFacts Codec TableModel TableSpec FramingStmt FramingGen FramingModel MethodSpec
  Frame FrameSpec FrameProofs Prop_Frame Time Net NetApi NetSpec NetFacts NetSend NetRecv NetWalk NetAcct NetOrder NetWait NetOff NetCalls EncStatus NetRpc NetOffAll.
Import ListNotations.
Local Open Scope string_scope.
Local Open Scope list_scope.
Local Open Scope Z_scope.

(** The frame that an RPC reply reports. *)
Definition reports (r : rpc_reply_t) (f : frame) : Prop :=
  f_type f = 1 /\
  match r with
  | RNormal id m | RServer id m => f_pay f = PMethod id m
  | _ => False
  end.
(** channel.close is method 20.40, connection.close is 10.50 *)
Definition chan_close := method_id 20 40.
Definition conn_close := method_id 10 50.

(** C38.  Whatever the server and the operating system do, an RPC that returns
    - is normal only with a method of an expected id, received on the channel of
      the request (a caller that expects connection.close gets that from channel 0),
    - is a server exception only with a channel.close on that channel or a
      connection.close on channel 0,
    - is otherwise a library exception with a negative status;
    - the frame reported is the last one received, and all other frames received
      (except heartbeats) are appended to the queue in the order of arrival.  The
      last point assumes that no allocation failed. *)
Theorem C38_rpc :
  forall (N : nat) (E : nat -> aenv) (ch id : Z) (expected : list Z) (request : mstruct) (c c' : conn) (ev ev' : list event) (r : rpc_reply_t) (l : list obs),
    zlen (c_outbuf c) < M31 ->
    amqp_simple_rpc N E ch id expected request c ev = Done r c' ev' l ->
    match r with
    | RNone => False
    | RLibrary st => st < 0
    | RNormal rid rm =>
        In rid expected /\
        exists before f, frames l = before ++ [f] /\ reports r f /\ (f_chan f = ch \/ (f_chan f = 0 /\ rid = conn_close))
    | RServer rid rm =>
        exists before f, frames l = before ++ [f] /\ reports r f /\ ((f_chan f = ch /\ rid = chan_close) \/ (f_chan f = 0 /\ rid = conn_close))
    end /\
    (no_oom_obs l ->
     exists others reply,
       no_hb (frames l) = others ++ reply /\
       no_hb (queued c') = no_hb (queued c) ++ others /\
       match r with RLibrary _ => reply = [] | _ => exists f, reply = [f] /\ reports r f end).
Proof.
  intros N E ch id ids m c c' ev ev' r l Hb Hrun.
  pose proof (simple_rpc_ok N E ch id ids m c ev Hb) as H. unfold wp in H. rewrite Hrun in H. split.
  - destruct r as [|rid rm|st|rid rm].
    + destruct H as [st ? Hr|st ? ? ? Hr|st c1 l0 l1 l2 o _ _ _ _ G Hm]; try discriminate. destruct o as [f|]; [|destruct Hm as (? & _ & Hm & _); discriminate].
      destruct (ga_hit _ _ _ _ _ G f eq_refl) as [Hp _]. unfold concerns_rpc, method_of, reply_of in *.
      destruct (f_pay f); try (rewrite andb_false_r in Hp; discriminate). destruct (existsb _ _); discriminate.
    + destruct (rpc_normal _ _ _ _ _ _ _ _ _ _ H eq_refl) as (H1 & pre & f & H2 & H3 & H4 & H5). split; [exact H1|]. exists pre, f. unfold reports. auto.
    + destruct H as [st' ? Hr|st' ? ? ? Hr|st' c1 l0 l1 l2 o _ _ _ _ G Hm]; try (injection Hr as ->; assumption).
      destruct o as [f|]; [|destruct Hm as (? & ? & Hm & _); injection Hm as ->; assumption].
      unfold reply_of in Hm. destruct (f_pay f); try discriminate. destruct (existsb _ _); discriminate.
    + destruct (rpc_server _ _ _ _ _ _ _ _ _ _ H eq_refl) as (pre & f & H2 & H3 & H4 & H5). exists pre, f. unfold reports. auto.
  - intros Hoom. destruct (rpc_keeps _ _ _ _ _ _ _ _ H Hoom) as (o & Hn & Ho & others & H1 & H2).
    exists others, (opt o). split; [exact H1|]. split; [exact H2|].
    destruct o as [f|]; destruct r as [|rid rm|st|rid rm]; try (destruct (Hn eq_refl)); cbn in Ho; try discriminate; try (destruct Ho; discriminate); try reflexivity;
      destruct Ho as (_ & Ho & _); exists f; (split; [reflexivity|]).
    + pose proof (rpc_normal _ _ _ _ _ _ _ _ _ _ H eq_refl) as (_ & pre & g & G1 & _ & G3 & G4).
      assert (f = g) as ->.
      { unfold reply_of in Ho. destruct (f_pay f) eqn:Hp; try discriminate.
        assert (f_type g <> 8) as H8 by (rewrite G3; discriminate).
        rewrite G1, no_hb_app, (no_hb_one g H8) in H1. cbn [opt] in H1. apply app_inj_tail in H1. symmetry; apply H1. }
      split; assumption.
    + pose proof (rpc_server _ _ _ _ _ _ _ _ _ _ H eq_refl) as (pre & g & G1 & G3 & G4 & _).
      assert (f = g) as ->.
      { assert (f_type g <> 8) as H8 by (rewrite G3; discriminate).
        rewrite G1, no_hb_app, (no_hb_one g H8) in H1. cbn [opt] in H1. apply app_inj_tail in H1. symmetry; apply H1. }
      split; assumption.
Qed.

(** In particular: a call that does not expect connection.close (all of the
    library's) gets a normal reply only from its own channel. *)
Theorem C38_right_channel :
  forall (N : nat) (E : nat -> aenv) (ch id : Z) (expected : list Z) (request : mstruct) (c c' : conn) (ev ev' : list event) (rid : Z) (rm : mstruct) (l : list obs),
    zlen (c_outbuf c) < M31 -> ~ In conn_close expected ->
    amqp_simple_rpc N E ch id expected request c ev = Done (RNormal rid rm) c' ev' l ->
    In rid expected /\ exists before f, frames l = before ++ [f] /\ f_type f = 1 /\ f_chan f = ch /\ f_pay f = PMethod rid rm.
Proof.
  intros N E ch id ids m c c' ev ev' rid rm l Hb Hn Hrun. destruct (C38_rpc _ _ _ _ _ _ _ _ _ _ _ _ Hb Hrun) as [(H1 & pre & f & H2 & [H3 H3'] & H4) _].
  split; [exact H1|]. exists pre, f. split; [exact H2|]. split; [exact H3|]. split; [|exact H3'].
  destruct H4 as [H4|[_ ->]]; [exact H4|contradiction].
Qed.

(** With heartbeats switched off nothing that was received is lost, the queue is
    extended by exactly the frames that were received before the reply, and
    heartbeats stay off. *)
Theorem C38_none_lost :
  forall (N : nat) (E : nat -> aenv) (ch id : Z) (expected : list Z) (request : mstruct) (c c' : conn) (ev ev' : list event) (r : rpc_reply_t) (l : list obs),
    zlen (c_outbuf c) < M31 -> off c ->
    amqp_simple_rpc N E ch id expected request c ev = Done r c' ev' l ->
    no_lost l /\ off c' /\
    (forall id m, r = RNormal id m \/ r = RServer id m -> no_oom_obs l ->
     exists others f, queued c' = queued c ++ others /\ no_hb (frames l) = others ++ [f] /\ reports r f).
Proof.
  intros N E ch id ids m c c' ev ev' r l Hb Hoff Hrun.
  pose proof (of_rpc N E ch id ids m c ev Hoff) as Ho. unfold wp in Ho. rewrite Hrun in Ho. destruct Ho as (Ho1 & Ho2 & _).
  split; [exact Ho2|]. split; [exact Ho1|]. intros i mm Hr Hoom.
  pose proof (simple_rpc_ok N E ch id ids m c ev Hb) as H. unfold wp in H. rewrite Hrun in H.
  destruct H as [st ? -> |st ? ? ? -> |st c1 l0 l1 l2 o Hst Hq -> Hs G Hm]; try (destruct Hr; discriminate).
  destruct o as [f|]; [|destruct Hm as (? & _ & -> & _); destruct Hr; discriminate].
  apply no_oom_obs_app in Hoom. destruct Hoom as [_ Hoom]. apply no_oom_obs_app in Hoom. destruct Hoom as [Ho1' Ho2'].
  apply no_lost_app in Ho2. destruct Ho2 as [_ Ho2]. apply no_lost_app in Ho2. destruct Ho2 as [L1 L2].
  destruct (ga_order _ _ _ _ _ G f eq_refl Ho2' L2) as (others & H1 & H2 & _).
  apply sent_f_facts in Hs. destruct Hs as (_ & _ & _ & _ & Hs & _). destruct (Hs (proj2 (proj2 Hoff))) as ((_ & _ & Q & _) & (_ & Fz & _) & _).
  destruct (quiet_facts _ Hq) as ((_ & Hq0 & _) & _).
  exists others, f. split; [rewrite H1; unfold queued; rewrite Q; reflexivity|]. split; [rewrite !frames_app, Hq0, Fz; exact H2|].
  destruct (ga_hit _ _ _ _ _ G f eq_refl) as [Hp _]. subst r. unfold concerns_rpc, method_of, reply_of, reports in *. apply andb_true_iff in Hp. destruct Hp as [Hp Hp'].
  apply Z.eqb_eq in Hp. destruct (f_pay f); try discriminate. split; [exact Hp|]. destruct (existsb _ _); reflexivity.
Qed.

(** A run: the server sends a heartbeat, a body frame on channel 1 and the
    expected queue.bind-ok on channel 2; the RPC returns the latter, the former is
    queued. *)
Definition bind_ok_2 : bytes := ser_frame 2 (AMethod 50 21 [] []).
Example C38_case :
  let c := set_in (new_connection 5) idle0 in
  zlen (c_outbuf c) = 65536 /\ off c /\
  match amqp_simple_rpc 100 plain_env 2 (method_id 50 30) [method_id 50 21] [("ticket", VInt 0); ("queue", VBytes [x71]); ("nowait", VBool 0)] c
    [EvSend (SOk 100); EvRecv RAgain; EvPoll PReady; EvRecv (ROk (heartbeat_wire ++ ser_frame 1 (ABody [x68])));
     EvAlloc true; EvRecv (ROk bind_ok_2)] with
  | Done r c' rest l =>
      r = RNormal (method_id 50 21) [] /\ rest = [] /\ queued c' = [mkFrame 3 1 (PBody [x68]) 0] /\
      in_bytes l = heartbeat_wire ++ ser_frame 1 (ABody [x68]) ++ bind_ok_2
  | Halt _ _ _ => False
  end.
Proof. split; [vm_compute; reflexivity|]. split; [repeat split|]. vm_compute. repeat split. Qed.

(** With heartbeats, received frames can be lost, even the reply.  The send
    deadline passes while the RPC waits; the heartbeat is sent in two pieces and in
    between the reply is read from the socket; the next read overwrites it. *)
Theorem C38_reply_lost_refuted :
  exists (c : conn) (ev : list event),
    c_hb c = 1 /\ c_queue c = [] /\ c_sbuf c = [] /\
    match amqp_simple_rpc 100 plain_env 2 (method_id 50 30) [method_id 50 21] [("ticket", VInt 0); ("queue", VBytes [x71]); ("nowait", VBool 0)] c ev with
    | Done r c' rest l =>
        (* the server answered with queue.bind-ok and then a heartbeat and closed the connection *)
        in_bytes l = bind_ok_2 ++ heartbeat_wire /\
        (* the reply is neither returned nor queued *)
        r = RLibrary AMQP_STATUS_CONNECTION_CLOSED /\ c_queue c' = [] /\ c_sbuf c' = [] /\
        In (OLost bind_ok_2) l
    | Halt _ _ _ => False
    end.
Proof.
  exists (set_next_recv (set_next_send (set_limits (set_in (new_connection 5) idle0) 0 65536 1) 1000000000) 2000000000).
  exists [EvSend (SOk 100); EvClock 1000000001;                      (* the request; next heartbeat due at 2000000001 *)
          EvClock 2000000002;                                        (* it is due *)
          EvSend (SOk 3); EvSend SAgain; EvClock 2000000003;         (* three bytes; the receive deadline has passed, too *)
          EvPoll PTimeout; EvClock 2000000004; EvRecv (ROk bind_ok_2); EvClock 2000000005;
          EvSend (SOk 5); EvClock 2000000006;
          EvRecv (ROk heartbeat_wire); EvClock 2000000007;
          EvClock 2000000008; EvRecv (ROk [])].
  split; [reflexivity|]. split; [reflexivity|]. split; [reflexivity|].
  vm_compute. repeat split. repeat (try (left; reflexivity); right).
Qed.

(** C39.  An RPC that times out has closed the socket (or close() itself failed,
    and then the descriptor is kept). *)
Theorem C39_timeout_closes :
  forall (N : nat) (E : nat -> aenv) (ch id : Z) (expected : list Z) (request : mstruct) (c c' : conn) (ev ev' : list event) (l : list obs),
    zlen (c_outbuf c) < M31 ->
    amqp_simple_rpc N E ch id expected request c ev = Done (RLibrary AMQP_STATUS_TIMEOUT) c' ev' l ->
    c_fd c' = -1 \/ In (OClose false) l.
Proof.
  intros N E ch id ids m c c' ev ev' l Hb Hrun.
  pose proof (simple_rpc_ok N E ch id ids m c ev Hb) as H. unfold wp in H. rewrite Hrun in H. eapply rpc_timeout; eauto.
Qed.

(** The calls built on amqp_simple_rpc: each reports the time-out through
    amqp_get_rpc_reply or its own result. *)
Theorem C39_calls :
  forall (N : nat) (E : nat -> aenv) (w : rpc_wrapper) (ch : Z) (args : list (string * mval)) (c c' : conn) (ev ev' : list event) (r : option mstruct) (l : list obs),
    zlen (c_outbuf c) < M31 ->
    amqp_call N E w ch args c ev = Done r c' ev' l ->
    c_recent c' = RLibrary AMQP_STATUS_TIMEOUT -> r = None /\ (c_fd c' = -1 \/ In (OClose false) l).
Proof.
  intros N E w ch args c c' ev ev' r l Hb Hrun Hr. unfold amqp_call in Hrun.
  destruct (build_request _ _ _) as [req|]; [|discriminate]. unfold amqp_simple_rpc_decoded, bind in Hrun.
  destruct (amqp_simple_rpc N E ch (rpc_request w) [rpc_reply w] req c ev) as [r1 c1 ev1 l1|] eqn:H1; [|discriminate].
  unfold upd, ret in Hrun. cbn [app] in Hrun. rewrite app_nil_r in Hrun. injection Hrun as <- <- <- <-. cbn in Hr. subst r1. split; [reflexivity|].
  exact (C39_timeout_closes N E ch _ _ req c c1 ev ev1 l1 Hb H1).
Qed.

(** On a closed socket every later RPC fails, without sending or reading
    anything: the late reply cannot be taken for its own. *)
Lemma closed_try_send N fuel len buf d more c ev : c_fd c = -1 ->
  try_send_loop N (S fuel) len buf d more c ev = Done AMQP_STATUS_SOCKET_CLOSED c ev [].
Proof.
  intros H. cbn [try_send_loop]. unfold amqp_socket_send, do_poll, bind, get. rewrite H. change (-1 =? -1) with true. cbv beta iota delta [ret].
  change (0 <? AMQP_STATUS_SOCKET_CLOSED) with false. cbv beta iota. rewrite H. reflexivity.
Qed.
Lemma closed_send N E f more d c ev : c_fd c = -1 -> zlen (c_outbuf c) < M31 ->
  wp (amqp_send_frame_inner N E f more d) c ev (fun r c' _ l => r < 0 /\ c_fd c' = -1 /\ c_queue c' = c_queue c /\ l = []) (fun _ _ l => l = []).
Proof.
  intros H Hb. unfold amqp_send_frame_inner. wstep. destruct (amqp_frame_to_bytes f (c_outbuf c)) as [st buf enc|] eqn:Hf; [|apply wp_halt; reflexivity].
  wstep. destruct (Z.eqb_spec st AMQP_STATUS_OK) as [->|Hst]; cbn [negb].
  - destruct N as [|n]; [apply wp_halt; reflexivity|]. cbn [send_frame_loop]. wstep. cbv zeta. apply wp_bind. unfold amqp_try_send.
    unfold wp at 1. rewrite closed_try_send by exact H.
    change (AMQP_STATUS_SOCKET_CLOSED <? 0) with true. cbv iota. apply wp_ret. split; [reflexivity|]. auto.
  - apply wp_ret. apply frame_to_bytes_status in Hf; [|exact Hb]. destruct Hf as [Hf|Hf]; [contradiction|]. apply enc_err_neg in Hf. split; [tauto|]. auto.
Qed.
Theorem C39_no_later_reply :
  forall (N : nat) (E : nat -> aenv) (ch id : Z) (expected : list Z) (request : mstruct) (c : conn) (ev : list event),
    zlen (c_outbuf c) < M31 -> c_fd c = -1 ->
    match amqp_simple_rpc N E ch id expected request c ev with
    | Done r c' _ l => (exists st, st < 0 /\ r = RLibrary st) /\ c_fd c' = -1 /\ c_queue c' = c_queue c /\ in_bytes l = [] /\ out_bytes l = [] /\ frames l = []
    | Halt _ _ l => in_bytes l = [] /\ out_bytes l = []
    end.
Proof.
  intros N E ch id ids m c ev Hb Hfd.
  assert (wp (amqp_simple_rpc N E ch id ids m) c ev
    (fun r c' _ l => (exists st, st < 0 /\ r = RLibrary st) /\ c_fd c' = -1 /\ c_queue c' = c_queue c /\ in_bytes l = [] /\ out_bytes l = [] /\ frames l = [])
    (fun _ _ l => in_bytes l = [] /\ out_bytes l = [])) as H.
  { unfold amqp_simple_rpc. wstep. apply wp_bind. eapply wp_conseq; [apply from_now_ok| |]; cbv beta.
    2:{ intros s c' l (-> & Hq & _). destruct (quiet_facts _ Hq) as ((I1 & _) & I2 & _). auto. }
    intros [r d] c1 ev1 l1 (-> & Hq & (D1 & D0 & D2 & D3) & _). cbn [fst snd] in *. destruct (quiet_facts _ Hq) as ((I1 & I3 & _) & I2 & _).
    destruct d as [d|].
    2:{ apply wp_ret. rewrite app_nil_r. split; [exists r; split; [specialize (D2 eq_refl); unfold AMQP_STATUS_OK in D2; lia|reflexivity]|auto]. }
    destruct (Z.eqb_spec r AMQP_STATUS_OK) as [->|Hr]; cbn [negb].
    2:{ apply wp_ret. rewrite app_nil_r. split; [exists r; split; [unfold AMQP_STATUS_OK in Hr; lia|reflexivity]|auto]. }
    unfold simple_rpc_inner, amqp_send_method, amqp_send_method_inner. apply wp_bind. eapply wp_conseq; [apply closed_send; assumption| |]; cbv beta.
    2:{ intros s c' l ->. rewrite app_nil_r. auto. }
    intros r2 c2 ev2 l2 (H1 & H2 & H3 & ->). destruct (Z.ltb_spec r2 0); [|lia]. apply wp_ret. rewrite !app_nil_r. split; [eauto|]. auto. }
  unfold wp in H. destruct (amqp_simple_rpc N E ch id ids m c ev); exact H.
Qed.

Example C39_case :
  let c := set_to (set_in (new_connection 5) idle0) (snd (amqp_set_rpc_timeout new_timeouts (Some (mkTv 1 0)))) in
  match amqp_simple_rpc 100 plain_env 2 (method_id 50 30) [method_id 50 21] [("ticket", VInt 0); ("queue", VBytes [x71]); ("nowait", VBool 0)] c
    [EvClock 1000000000; EvSend (SOk 100); EvRecv RAgain; EvClock 1000000001; EvPoll PTimeout; EvClose true] with
  | Done r c' rest l => r = RLibrary AMQP_STATUS_TIMEOUT /\ rest = [] /\ c_fd c' = -1
  | Halt _ _ _ => False
  end.
Proof. vm_compute. repeat split. Qed.

Print Assumptions C38_rpc.
Print Assumptions C38_right_channel.
Print Assumptions C38_none_lost.
Print Assumptions C38_reply_lost_refuted.
Print Assumptions C39_timeout_closes.
Print Assumptions C39_calls.
Print Assumptions C39_no_later_reply.
