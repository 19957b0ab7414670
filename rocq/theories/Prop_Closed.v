(** C66: a descriptor the library has closed is never touched again.

    Whatever calls the user makes on a connection whose socket has been closed (the
    library closes it itself when an RPC times out, when the server misses its
    heartbeats and when login fails): no send, recv, poll or close is made on the old
    descriptor - which the process may have reused for another file meanwhile - no call
    waits on it, the connection stays closed, and no call that sends reports success.
    Specification: ClosedSpec.v. *)
From Coq Require Import String ZArith List Bool Lia.
From Verif Require Import Base BaseFacts Codec TableModel TableSpec TableOps FramingStmt FramingGen FramingModel MethodSpec
  Frame FrameSpec Time Sasl Net NetApi NetSpec NetFacts ClosedSpec NetDeaf NetFd NetRoom Prop_Frame Prop_Publish Prop_Rpc.
Import ListNotations.
Local Open Scope Z_scope.

(** Within a session of any calls, and within each call: after a close that succeeded
    there is no send, recv, poll or close.  (Failing sends and receives leave no trace
    in the log: C66_no_calls covers those, between calls.) *)
Theorem C66_never_after_close :
  forall (N : nat) (E : nat -> aenv) (calls : list api) (c : conn) (ev : list event),
    match exec_all N E calls c ev with
    | Done _ c' _ l | Halt _ c' l => fd_use (negb (c_fd c =? -1)) l = Some (negb (c_fd c' =? -1)) /\ (c_fd c' = c_fd c \/ c_fd c' = -1)
    end.
Proof. intros N E calls c ev. pose proof (fdk_exec_all N E calls c ev) as H. unfold wp in H. destruct (exec_all N E calls c ev); exact H. Qed.

(** A closed connection: if the operating system had an answer to a call on the
    descriptor ready - a send, recv, poll or close, successful or not - after the
    answers [ev], it is still there when the calls are over, and what they did and
    returned is what they do and return with the answers [ev] alone.  So no such call
    was made. *)
Theorem C66_no_calls :
  forall (N : nat) (E : nat -> aenv) (calls : list api) (c : conn) (ev tail : list event) (e : event),
    c_fd c = -1 -> about_socket e = true ->
    match exec_all N E calls c ev with
    | Done r c' ev' l => exec_all N E calls c (ev ++ e :: tail) = Done r c' (ev' ++ e :: tail) l /\ c_fd c' = -1
    | Halt s c' l => exec_all N E calls c (ev ++ e :: tail) = Halt s c' l /\ c_fd c' = -1
    end.
Proof.
  intros N E calls c ev tail e Hc He. destruct (deaf_exec_all N E calls c Hc ev e tail He) as [H1 H2]. rewrite H1.
  destruct (exec_all N E calls c ev); split; try reflexivity; exact H2.
Qed.

(** the calls that only send *)
Definition sending (a : api) : bool :=
  match a with SendHeader | SendFrame _ | SendMethod _ _ _ | Publish _ _ _ _ _ _ _ | Ack _ _ _ | Nack _ _ _ _ | Reject _ _ _ => true | _ => false end.

Lemma closed_header N d c ev : c_fd c = -1 -> wp (send_header_inner N d) c ev (fun r _ _ _ => r <> AMQP_STATUS_OK) (fun _ _ _ => True).
Proof.
  intros H. unfold send_header_inner, amqp_try_send. destruct N as [|n]; [exact I|]. apply wp_bind. unfold wp at 1. rewrite closed_try_send by exact H.
  change (AMQP_STATUS_SOCKET_CLOSED =? zlen protocol_header) with false. cbv iota. apply wp_ret. discriminate.
Qed.
Lemma closed_publish N E ch x k ma im p b c ev : c_fd c = -1 -> zlen (c_outbuf c) < M31 ->
  wp (amqp_basic_publish N E ch x k ma im p b) c ev (fun r _ _ _ => r <> AMQP_STATUS_OK) (fun _ _ _ => True).
Proof.
  intros H Hb. unfold amqp_basic_publish. wstep. cbv zeta. apply wp_bind. eapply wp_conseq; [apply silent_time_past| |auto]; cbv beta.
  intros r c0 ev0 l0 [-> _]. destruct (Z.eqb_spec r AMQP_STATUS_TIMER_FAILURE) as [->|]; [apply wp_ret; discriminate|].
  assert (wp (if r =? AMQP_STATUS_TIMEOUT then amqp_try_recv N E else ret AMQP_STATUS_OK) c ev0 (fun _ c' _ _ => c_fd c' = -1 /\ zlen (c_outbuf c') < M31) (fun _ _ _ => True)) as K.
  { destruct (_ =? _); [|apply wp_ret; auto]. pose proof (room_try_recv N E c ev0) as R. pose proof (fdk_try_recv N E c ev0) as F. unfold wp in *.
    destruct (amqp_try_recv N E c ev0) as [a c' e' l'|]; [|exact I]. destruct R as [R _], F as [_ F]. split; [destruct F; congruence|]. rewrite R. exact Hb. }
  apply wp_bind. eapply wp_conseq; [exact K| |auto]; cbv beta. intros s c1 ev1 l1 [H1 B1].
  destruct (Z.eqb_spec s AMQP_STATUS_TIMEOUT); [apply wp_ret; discriminate|]. destruct (Z.eqb_spec s AMQP_STATUS_OK) as [->|]; cbn [negb]; [|apply wp_ret; assumption].
  apply wp_bind. eapply wp_conseq; [apply (closed_send N E _ _ _ c1 ev1 H1 B1)| |auto]; cbv beta. intros t c2 ev2 l2 [Ht _].
  destruct (Z.ltb_spec t 0); [|lia]. apply wp_ret. unfold AMQP_STATUS_OK. lia.
Qed.
(** Nothing is reported as sent on a closed connection. *)
Theorem C66_send_fails :
  forall (N : nat) (E : nat -> aenv) (a : api) (c : conn) (ev : list event),
    c_fd c = -1 -> zlen (c_outbuf c) < 2 ^ 31 -> sending a = true ->
    match exec N E a c ev with
    | Done (OutStatus st) _ _ _ => st <> AMQP_STATUS_OK
    | Done _ _ _ _ => False
    | Halt _ _ _ => True
    end.
Proof.
  intros N E a c ev Hc Hb Ha.
  assert (forall f m d ev0, wp (amqp_send_frame_inner N E f m d) c ev0 (fun r _ _ _ => r <> AMQP_STATUS_OK) (fun _ _ _ => True)) as S.
  { intros f m d ev0. eapply wp_conseq; [apply closed_send; assumption| |auto]; cbv beta. intros r c' e' l' [H _]. unfold AMQP_STATUS_OK. lia. }
  assert (wp (exec N E a) c ev (fun o _ _ _ => match o with OutStatus st => st <> AMQP_STATUS_OK | _ => False end) (fun _ _ _ => True)) as K.
  { destruct a; try discriminate Ha; cbn [exec].
    all: apply wp_bind; (eapply wp_conseq; [|intros r c' e' l' H; apply wp_ret; exact H|auto]).
    - apply closed_header, Hc.
    - apply S.
    - apply S.
    - apply closed_publish; [exact Hc|exact Hb].
    - apply S.
    - apply S.
    - apply S. }
  unfold wp in K. destruct (exec N E a c ev) as [o c' e' l'|]; [|exact I]. destruct o; try contradiction; exact K.
Qed.

(** ** Non-vacuity *)
(** A consumer that waits for a frame with heartbeats of one second on, and a server
    that is silent: the library closes the socket itself; the publish, ack and RPC that
    follow touch nothing - the answers the operating system had ready are all left. *)
Definition beating_conn : conn := set_next_recv (set_next_send (set_limits small_conn 0 40 1) 5000000000) 2000000000.
Definition some_events : list event := [EvSend (SOk 8); EvRecv (ROk [x01]); EvPoll PReady; EvClose true].
Example C66_after_a_timeout :
  match exec_all 100 plain_env [WaitFrame None; Ack 1 7 0; SendHeader; Publish 1 [x65] [x6b] 0 0 None [x61; x62]] beating_conn
          ([EvClock 1000000000; EvRecv RAgain; EvClock 1000000000; EvPoll PTimeout; EvClose true; EvClock 3000000000; EvClock 3000000000] ++ some_events) with
  | Done r c' ev l =>
      map (fun o => match o with OutStatus st | OutFrame st _ => st | _ => 0 end) r =
        [AMQP_STATUS_HEARTBEAT_TIMEOUT; AMQP_STATUS_SOCKET_CLOSED; AMQP_STATUS_SOCKET_CLOSED; AMQP_STATUS_CONNECTION_CLOSED] /\
      c_fd c' = -1 /\ ev = some_events /\ In (OClose true) l
  | Halt _ _ _ => False
  end.
Proof. vm_compute. repeat split; auto 10. Qed.
(** [fd_use] does refuse logs *)
Example C66_fd_use_refuses : fd_use true [OClose true; OPoll true 5 PReady] = None /\ fd_use false [OClose false] = None /\
  fd_use true [OClose false; ORecv [x01]; OClose true; OClock 3] = Some false.
Proof. repeat split; reflexivity. Qed.

Print Assumptions C66_never_after_close.
Print Assumptions C66_no_calls.
Print Assumptions C66_send_fails.
