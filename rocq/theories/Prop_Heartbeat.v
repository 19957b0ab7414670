(** C44: a dead peer is noticed in time, and a live client makes itself heard. *)
From Coq Require Import String ZArith List Bool Lia.
From Verif Require Import Base BaseFacts Codec TableModel TableSpec TableDec TableOps FramingStmt FramingGen FramingModel MethodSpec
  Frame FrameSpec Time Sasl Net NetApi NetSpec NetFacts NetWait HeartbeatSpec NetWatch NetAttend NetVerdict Prop_Receive Prop_Frame.
Import ListNotations.
Local Open Scope Z_scope.

(** Everything a run asked of the operating system, finished or not. *)
Definition log_of {A} (r : Net.run A) : list obs := match r with Done _ _ _ l => l | Halt _ _ l => l end.
(** Heartbeats are on: an interval that fits the 16 bits of the protocol; [now] is a
    time at which no deadline was further away than the interval asks for. *)
Definition heartbeats_on (c : conn) (now : Z) : Prop :=
  0 < c_hb c <= 65535 /\ 0 <= now < 2 ^ 63 /\
  c_next_recv c <= now + 2 * c_hb c * second /\ c_next_send c <= now + c_hb c * second.

(** In any session (login and connection set-up apart) no poll is asked to wait past
    the time by which something must have been heard from the peer. *)
Theorem C44_never_late N E calls c now ev : heartbeats_on c now -> Forall unhurried calls ->
  never_late (c_hb c) (c_next_recv c) now (log_of (exec_all N E calls c ev)).
Proof.
  intros (H1 & H2 & H3 & _) Hu. pose proof (tr_exec_all N E (c_hb c) ltac:(lia) calls c Hu (Watching (c_next_recv c) now false false) ev) as H.
  assert (fine (c_hb c) (Watching (c_next_recv c) now false false) c) as F by (split; [reflexivity|repeat split; lia]). specialize (H F). unfold wp, NetWatch.run in H. unfold never_late.
  destruct (exec_all N E calls c ev); cbn [log_of]; [eapply fine_late; exact H|exact H].
Qed.
(** A call that waits for a frame polls for input only after it has sent the heartbeat
    that is due (or has tried to), waits neither past the time it must hear something
    nor past the time it must say something, and goes on no further after two polls in
    a row that began after the peer was overdue. *)
Theorem C44_attentive N E timeout c now ev : heartbeats_on c now ->
  attentive (c_hb c) (c_next_recv c) (c_next_send c) now (log_of (amqp_simple_wait_frame_noblock N E timeout c ev)).
Proof.
  intros (H1 & H2 & H3 & H4). unfold attentive. pose proof (noblock_careful N E (c_hb c) ltac:(lia) timeout c (Attending (mkDuty (c_next_recv c) (c_next_send c) now false false 0 false false false)) ev) as H.
  assert (st (c_hb c) 0 false false (Attending (mkDuty (c_next_recv c) (c_next_send c) now false false 0 false false false)) c) as F.
  { split; [reflexivity|]. unfold duty_ok. cbn [heard sent hear say HeartbeatSpec.now tried late]. repeat split; try lia; discriminate. }
  specialize (H F). unfold careful, wp, arun in H. destruct (amqp_simple_wait_frame_noblock N E timeout c ev); cbn [log_of]; [apply H|exact H].
Qed.
Theorem C44_attentive_on_channel N E channel c now ev : heartbeats_on c now ->
  attentive (c_hb c) (c_next_recv c) (c_next_send c) now (log_of (amqp_simple_wait_frame_on_channel N E channel c ev)).
Proof.
  intros (H1 & H2 & H3 & H4). unfold attentive. pose proof (on_channel_careful N E (c_hb c) ltac:(lia) channel c (Attending (mkDuty (c_next_recv c) (c_next_send c) now false false 0 false false false)) ev) as H.
  assert (st (c_hb c) 0 false false (Attending (mkDuty (c_next_recv c) (c_next_send c) now false false 0 false false false)) c) as F.
  { split; [reflexivity|]. unfold duty_ok. cbn [heard sent hear say HeartbeatSpec.now tried late]. repeat split; try lia; discriminate. }
  specialize (H F). unfold careful, wp, arun in H. destruct (amqp_simple_wait_frame_on_channel N E channel c ev); cbn [log_of]; [apply H|exact H].
Qed.
(** If AMQP_STATUS_HEARTBEAT_TIMEOUT is returned, then a poll has timed out (for input;
    with TLS receiving may need one for output),
    the library asked for the socket to be closed right after it, and it is closed
    unless close failed.  Missing: the case in which a heartbeat could not be sent for
    lack of room, or because TLS had to read first ([no_room]); and the clock must not go backwards ([Excused]).
    [no_bad]: nothing received was refused as malformed. *)
Definition no_room (l : list obs) : Prop :=
  (exists before ms after, l = before ++ [OPoll true ms PTimeout] ++ after) \/ (exists more, In (OSend more []) l).
Definition closed_after_silence (c' : conn) (l : list obs) : Prop :=
  exists before write ms ok, l = before ++ [OPoll write ms PTimeout; OClose ok] /\ (ok = true -> c_fd c' = -1).
Definition excused (c : conn) (now : Z) (l : list obs) : Prop :=
  fold_left (watch_step (c_hb c)) l (Watching (c_next_recv c) now false false) = Excused.
Theorem C44_timeout_closes_partial N E timeout c now ev : heartbeats_on c now ->
  match amqp_simple_wait_frame_noblock N E timeout c ev with
  | Done (status, _) c' _ l => status = AMQP_STATUS_HEARTBEAT_TIMEOUT -> no_bad l -> excused c now l \/ no_room l \/ closed_after_silence c' l
  | Halt _ _ _ => True
  end.
Proof.
  intros (H1 & H2 & H3 & H4). set (w := Watching (c_next_recv c) now false false).
  assert (fine (c_hb c) w c) as F by (split; [reflexivity|repeat split; lia]).
  assert (wp (amqp_simple_wait_frame_noblock N E timeout) c ev (fun p c' _ l => verdict (c_hb c) w (fst p) c' l) (fun _ _ _ => True)) as W.
  { unfold amqp_simple_wait_frame_noblock. apply wp_bind.
    assert (forall k, fst (amqp_time_from_now k timeout) <> AMQP_STATUS_HEARTBEAT_TIMEOUT) as V.
    { intros k. unfold amqp_time_from_now. destruct timeout as [tv|]; [|discriminate]. repeat match goal with |- context [if ?b then _ else _] => destruct b end; discriminate. }
    assert (wp (time_from_now timeout) c ev (fun p _ _ _ => fst p <> AMQP_STATUS_HEARTBEAT_TIMEOUT) (fun _ _ _ => True)) as V1.
    { unfold time_from_now. destruct timeout as [tv|]; [|apply wp_ret, V]. destruct (_ || _); [apply wp_ret, V|]. apply wp_bind. unfold wp at 1, sys_clock. destruct ev as [|[] ev]; try exact I. apply wp_ret, V. }
    eapply wp_conseq; [eapply wp_split; [apply (tr_from_now (c_hb c) timeout c w ev F)|exact V1]| |auto]; cbv beta. intros [r d] c1 ev1 l1 (F1 & Hr). cbn [fst] in Hr.
    destruct d as [d|]; [|apply wp_ret; cbn [fst]; intros _ X; contradiction]. destruct (negb _); [apply wp_ret; cbn [fst]; intros _ X; contradiction|].
    wstep. destruct (c_queue c1); [|destruct (negb _); [apply wp_halt; exact I|wstep; apply wp_ret; intros _ X; discriminate]].
    eapply wp_conseq; [apply (wait_says N E (c_hb c) ltac:(lia) d N false c1 _ ev1 F1)| |auto]; cbv beta. intros p c2 ev2 l2 K X Y. rewrite no_bad_app in X.
    destruct (K (proj2 X) Y) as [K1|[K1|K1]]; [left; rewrite run_app; exact K1|right; left; apply stuck_r, K1|right; right; apply closed_r, K1]. }
  unfold wp in W. destruct (amqp_simple_wait_frame_noblock N E timeout c ev) as [[r f] c' ev' l|]; [|exact I]. intros -> Hb. apply (W Hb eq_refl).
Qed.

(** The full claim is false: if the heartbeat itself cannot be sent, the call returns
    AMQP_STATUS_HEARTBEAT_TIMEOUT and leaves the socket open (amqp_socket.c:770-776). *)
Theorem C44_timeout_closes_refuted :
  exists (c : conn) (now : Z) (ev : list event), heartbeats_on c now /\
    match amqp_simple_wait_frame_noblock 100 plain_env None c ev with
    | Done (status, _) c' _ l => status = AMQP_STATUS_HEARTBEAT_TIMEOUT /\ c_fd c' = 5 /\ no_bad l /\ ~ excused c now l /\ Forall (fun o => match o with OClose _ => False | _ => True end) l
    | Halt _ _ _ => False
    end.
Proof.
  exists beating, 0, [EvClock 1000000001; EvSend SAgain; EvClock 1500000000; EvPoll PTimeout; EvClock 2000000003; EvRecv RAgain; EvClock 2000000004; EvPoll PTimeout].
  split; [unfold heartbeats_on; cbn; unfold second; lia|]. vm_compute. repeat split; try discriminate; repeat constructor.
Qed.

(** *** Cases *)
(** the peer is silent: one heartbeat is sent, then the socket is closed *)
Definition silent_peer : list event :=
  [EvClock 900000000; EvRecv RAgain; EvClock 900000000; EvPoll PTimeout;
   EvClock 1000000001; EvSend (SOk 8); EvClock 1000000002; EvRecv RAgain; EvClock 1000000003; EvPoll PTimeout;
   EvClose true].
Example C44_case :
  heartbeats_on beating 0 /\ Forall unhurried [WaitFrame None] /\
  match amqp_simple_wait_frame_noblock 100 plain_env None beating silent_peer with
  | Done (status, _) c' rest l =>
      status = AMQP_STATUS_HEARTBEAT_TIMEOUT /\ rest = [] /\ c_fd c' = -1 /\ out_bytes l = heartbeat_wire /\ no_bad l /\ ~ excused beating 0 l /\
      closed_after_silence c' l /\
      l = [OClock 900000000; OClock 900000000; OPoll false 100 PTimeout; OClock 1000000001; OSend false heartbeat_wire; OClock 1000000002; OClock 1000000003; OPoll false 999 PTimeout; OClose true]
  | Halt _ _ _ => False
  end.
Proof.
  split; [unfold heartbeats_on; cbn; unfold second; lia|]. split; [repeat constructor|]. vm_compute. repeat split; try discriminate; try (repeat constructor).
  exists [OClock 900000000; OClock 900000000; OPoll false 100 PTimeout; OClock 1000000001; OSend false heartbeat_wire; OClock 1000000002; OClock 1000000003], false, 999, true. split; reflexivity.
Qed.
(** TLS: the heartbeat can only be sent after something was read, and reading waits for
    room to write *)
Definition tls_peer : list event :=
  [EvClock 1000000001; EvSend SWantRead; EvClock 1000000001; EvPoll PIntr; EvClock 1000000002; EvPoll PReady; EvSend (SOk 8); EvClock 1000000003;
   EvRecv RWantWrite; EvClock 1000000004; EvPoll PReady; EvRecv RTls].
Example C44_case_tls :
  heartbeats_on beating 0 /\
  match amqp_simple_wait_frame_noblock 100 plain_env None beating tls_peer with
  | Done (status, _) c' rest l =>
      status = AMQP_STATUS_SSL_ERROR /\ rest = [] /\ out_bytes l = heartbeat_wire /\
      l = [OClock 1000000001; OSend false []; OClock 1000000001; OPoll false 999 PIntr; OClock 1000000002; OPoll false 999 PReady; OSend false heartbeat_wire; OClock 1000000003;
           OClock 1000000004; OPoll true 999 PReady]
  | Halt _ _ _ => False
  end.
Proof. split; [unfold heartbeats_on; cbn; unfold second; lia|]. vm_compute. repeat split. Qed.
(** logs the two automata refuse: a poll too long, a poll without the heartbeat that
    is due, waiting on after the peer was overdue twice *)
Example C44_late_log : ~ never_late 1 2000000000 0 [OClock 1000000000; OPoll false 1001 PReady].
Proof. intros H. apply H. reflexivity. Qed.
Example C44_unsent_log : ~ attentive 1 2000000000 1000000000 0 [OClock 1000000001; OPoll false 0 PReady].
Proof. intros H. apply H. reflexivity. Qed.
Example C44_overdue_log : ~ attentive 1 2000000000 3000000000 0 [OClock 2000000001; OPoll false 0 PTimeout; OClock 2000000002; OPoll false 0 PTimeout; OClock 2000000003].
Proof. intros H. apply H. reflexivity. Qed.
Print Assumptions C44_never_late.
Print Assumptions C44_attentive.
Print Assumptions C44_attentive_on_channel.
Print Assumptions C44_timeout_closes_partial.
Print Assumptions C44_timeout_closes_refuted.
