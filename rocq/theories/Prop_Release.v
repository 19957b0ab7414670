(** C19: releasing buffers never invalidates a queued frame. *)
From Coq Require Import String ZArith List Bool Lia.
From Verif Require Import Base BaseFacts Codec TableModel TableSpec FramingStmt FramingGen FramingModel MethodSpec
  Frame FrameSpec FrameProofs Prop_Frame Time Sasl Net NetApi NetSpec NetFacts NetSend NetRecv NetWalk NetAcct.
Import ListNotations.
Local Open Scope Z_scope.

(** The memory of a frame (its decoded method, properties or body) is in the
    pool of its channel, at the generation [f_gen]; recycling the pool starts a new
    generation and so makes the frame invalid. *)
Definition frame_valid (c : conn) (f : frame) : Prop :=
  match f_pay f with
  | PMethod _ _ | PHeader _ _ _ _ | PBody _ => f_gen f = gens c (f_chan f)
  | PNone | PProto _ _ _ _ => True
  end.
(** A queued frame: the copy in the link, too, is in that pool. *)
Definition entry_valid (c : conn) (e : frame * nat) : Prop :=
  snd e = gens c (f_chan (fst e)) /\ frame_valid c (fst e).

Lemma valid_alive c e : entry_valid c e <-> entry_alive (gens c) e = true.
Proof. rewrite entry_alive_iff. unfold entry_valid, frame_valid, falive. destruct (f_pay (fst e)); tauto. Qed.
Lemma valid_qalive c : Forall (entry_valid c) (c_queue c) <-> qalive c.
Proof.
  unfold qalive. rewrite forallb_forall, Forall_forall. split; intros H e He; apply valid_alive, H, He.
Qed.

(** In every history of calls on a new connection, whatever the server and the
    operating system do, at the end and wherever it stops in between: all queued
    frames are valid. *)
Theorem C19_queued_frames_stay_valid :
  forall (N : nat) (E : nat -> aenv) (fd : Z) (calls : list api) (ev : list event),
    match exec_all N E calls (new_connection fd) ev with
    | Done _ c _ _ | Halt _ c _ => Forall (entry_valid c) (c_queue c)
    end.
Proof.
  intros N E fd calls ev.
  assert (qalive (new_connection fd)) as H0 by reflexivity.
  pose proof (al_exec_all N E calls (new_connection fd) ev H0) as H. unfold wp in H.
  destruct (exec_all N E calls (new_connection fd) ev); apply valid_qalive; apply H.
Qed.

(** The same for the next call from any such state: a frame it returns is valid
    when the call returns. *)
Theorem C19_returned_frame_is_valid :
  forall (N : nat) (E : nat -> aenv) (timeout : option timeval) (c c' : conn) (ev ev' : list event) (f : frame) (l : list obs),
    Forall (entry_valid c) (c_queue c) ->
    amqp_simple_wait_frame_noblock N E timeout c ev = Done (AMQP_STATUS_OK, f) c' ev' l ->
    frame_valid c' f /\ Forall (entry_valid c') (c_queue c').
Proof.
  intros N E t c c' ev ev' f l Hq H. apply valid_qalive in Hq.
  pose proof (al_noblock N E t c ev Hq) as G. unfold wp in G. rewrite H in G. destruct G as [G1 G2].
  split; [|apply valid_qalive, G1]. specialize (G2 eq_refl). unfold falive in G2. unfold frame_valid. cbn in G2. destruct (f_pay f); auto.
Qed.

(** The explicit releases: a pool gets a new generation only if no queued frame
    belongs to its channel (and then, if the connection is between frames, it
    does: memory is really given back); the queue itself is untouched. *)
Definition no_frame_of (ch : Z) (c : conn) : Prop := Forall (fun e => f_chan (fst e) <> ch) (c_queue c).
Lemma none_on ch c : existsb (on_channel ch) (c_queue c) = false <-> no_frame_of ch c.
Proof.
  unfold no_frame_of. rewrite Forall_forall. split.
  - intros H e He Hc. apply not_true_iff_false in H. apply H. apply existsb_exists. exists e. split; [exact He|]. apply Z.eqb_eq. auto.
  - intros H. apply not_true_iff_false. intros G. apply existsb_exists in G. destruct G as (e & He & G). apply Z.eqb_eq in G. apply (H e He). auto.
Qed.
Theorem C19_release_buffers :
  forall (c c' : conn) (ev ev' : list event) (l : list obs),
    Forall (entry_valid c) (c_queue c) ->
    (amqp_release_buffers c ev = Done tt c' ev' l \/ amqp_maybe_release_buffers c ev = Done tt c' ev' l) ->
    c_queue c' = c_queue c /\
    forall ch, gens c' ch = gens c ch \/ (no_frame_of ch c /\ gens c' ch = S (gens c ch)).
Proof.
  intros c c' ev ev' l Hq H. apply valid_qalive in Hq. unfold qalive in Hq.
  assert (amqp_release_buffers c ev = Done tt c' ev' l -> c_queue c' = c_queue c /\
    forall ch, gens c' ch = gens c ch \/ (no_frame_of ch c /\ gens c' ch = S (gens c ch))) as A.
  { unfold amqp_release_buffers, bind, get. destruct (i_state (c_in c)); try discriminate. rewrite Hq. cbn [negb]. unfold upd.
    intros G. injection G as <- <- <-. split; [reflexivity|]. intros ch. cbn [gens c_in set_gens set_in i_gens].
    destruct (existsb (on_channel ch) (c_queue c)) eqn:He; [auto|]. right. split; [apply none_on, He|reflexivity]. }
  destruct H as [H|H]; [apply A, H|]. unfold amqp_maybe_release_buffers, bind, get in H.
  destruct (amqp_release_buffers_ok c) eqn:Hok.
  - destruct (amqp_release_buffers c ev) as [[] c1 ev1 l1|] eqn:Hr; [|discriminate]. injection H as <- <- <-. apply A. cbn in *. congruence.
  - injection H as <- <- <-. auto.
Qed.
Theorem C19_release_on_channel :
  forall (channel : Z) (c c' : conn) (ev ev' : list event) (l : list obs),
    amqp_maybe_release_buffers_on_channel channel c ev = Done tt c' ev' l ->
    c_queue c' = c_queue c /\
    forall ch, gens c' ch = gens c ch \/ (ch = channel /\ no_frame_of channel c /\ gens c' ch = S (gens c ch)).
Proof.
  intros channel c c' ev ev' l. unfold amqp_maybe_release_buffers_on_channel, bind, get.
  destruct (i_state (c_in c)); try (intros H; injection H as <- <- <-; auto).
  destruct (negb _); [discriminate|]. destruct (existsb (on_channel channel) (c_queue c)) eqn:He; [intros H; injection H as <- <- <-; auto|].
  unfold upd. intros H; injection H as <- <- <-. split; [reflexivity|]. intros ch. cbn [gens c_in set_gens set_in i_gens].
  destruct (Z.eqb_spec ch channel) as [->|]; [|auto]. right. split; [reflexivity|]. split; [apply none_on, He|reflexivity].
Qed.
(** Nothing is given back in vain: between frames and with no frame of the
    channel queued the pool is recycled. *)
Theorem C19_release_does_release :
  forall (channel : Z) (c : conn) (ev : list event),
    Forall (entry_valid c) (c_queue c) -> i_state (c_in c) = IDLE -> no_frame_of channel c ->
    (exists c' l, amqp_maybe_release_buffers_on_channel channel c ev = Done tt c' ev l /\ gens c' channel = S (gens c channel)) /\
    (exists c' l, amqp_release_buffers c ev = Done tt c' ev l /\ gens c' channel = S (gens c channel)).
Proof.
  intros ch c ev Hq Hi Hn. apply valid_qalive in Hq. unfold qalive in Hq. apply none_on in Hn.
  unfold amqp_maybe_release_buffers_on_channel, amqp_release_buffers, bind, get, upd. rewrite Hi, Hq, Hn. cbn [negb].
  split; do 2 eexists; (split; [reflexivity|]); cbn [gens c_in set_gens set_in i_gens].
  - rewrite Z.eqb_refl. reflexivity.
  - rewrite Hn. reflexivity.
Qed.

(** A history with a queued frame: while waiting for a frame of channel 2, one of
    channel 1 arrives and is queued; releasing all buffers keeps channel 1 and
    recycles channel 2. *)
Definition body_1 : frame := mkFrame 3 1 (PBody [x68; x69]) 0.
Definition some_conn : conn := set_queue (set_in (new_connection 5) idle0) [(body_1, 0%nat)].
Example C19_case :
  Forall (entry_valid some_conn) (c_queue some_conn) /\ i_state (c_in some_conn) = IDLE /\ no_frame_of 2 some_conn /\
  match amqp_release_buffers some_conn [] with
  | Done _ c' _ _ => gens c' 1 = 0%nat /\ gens c' 2 = 1%nat /\ Forall (entry_valid c') (c_queue c')
  | Halt _ _ _ => False
  end.
Proof.
  split; [repeat constructor|]. split; [reflexivity|]. split; [constructor; [discriminate|constructor]|].
  split; [reflexivity|]. split; [reflexivity|]. repeat constructor.
Qed.

Print Assumptions C19_queued_frames_stay_valid.
Print Assumptions C19_returned_frame_is_valid.
Print Assumptions C19_release_buffers.
Print Assumptions C19_release_on_channel.
Print Assumptions C19_release_does_release.
