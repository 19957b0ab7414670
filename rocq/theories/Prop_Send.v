(** C33, C34: what reaches the socket. *)
From Coq Require Import String ZArith List Bool Lia.
From Verif Require Import Base BaseFacts Codec TableModel TableSpec FramingStmt FramingGen FramingModel MethodSpec
  Frame FrameSpec FrameProofs Prop_Frame Time Net NetApi NetSpec NetFacts NetSend NetRecv NetWalk NetAcct NetOrder EncStatus.
Import ListNotations.
Local Open Scope string_scope.
Local Open Scope list_scope.
Local Open Scope Z_scope.

(** C33.  Whatever the socket, poll, the clock and the server do, and wherever the
    run stops: the bytes handed to the socket are a prefix of the frame's wire
    format; all of it if the call reports success; nothing if the frame is not
    representable or does not fit into the send buffer, and then the call fails. *)
Theorem C33_frame_reaches_the_wire :
  forall (N : nat) (E : nat -> aenv) (chan : Z) (a : aframe) (more : bool) (deadline : Z) (c : conn) (ev : list event),
    aframe_ok a -> 20 <= zlen (c_outbuf c) < M31 -> (forall b, a = ABody b -> zlen b + 8 <= zlen (c_outbuf c)) ->
    deadline <= UINT64_MAX ->
    match amqp_send_frame_inner N E (c_frame chan a) more deadline c ev with
    | Done r c' _ l =>
        prefix (out_bytes l) (ser_frame chan a) /\
        (r = AMQP_STATUS_OK -> out_bytes l = ser_frame chan a) /\
        r <= 0 /\
        (r = AMQP_STATUS_TIMEOUT -> deadline <> UINT64_MAX) /\
        (aframe_representable a = false \/ zlen (ser_frame chan a) > zlen (c_outbuf c) -> r < 0 /\ out_bytes l = [] /\ c_queue c' = c_queue c)
    | Halt _ _ l => prefix (out_bytes l) (ser_frame chan a)
    end.
Proof.
  intros N E chan a more d c ev Ha Hb Hbody Hd.
  destruct (C10_frame_bytes chan a (c_outbuf c) Ha Hb Hbody) as (st & buf' & enc & Hf & _ & Hcase).
  pose proof (send_frame_ok N E (c_frame chan a) more d c ev Hd) as H. unfold wp in H.
  destruct (amqp_send_frame_inner N E (c_frame chan a) more d c ev) as [r c' ev' l|s c' l].
  - destruct H as (st' & buf & enc' & c1 & Hf' & -> & _ & Hc). rewrite Hf in Hf'. injection Hf' as <- <- <-.
    destruct Hcase as [(-> & -> & Hr & Hfit & _)|(Hneg & Hwhy)]; destruct Hc as [(Hst & -> & -> & ->)|(Hst & Hs)].
    + contradiction.
    + split; [apply Hs|]. split; [apply Hs|]. split; [apply Hs|]. split; [apply Hs|]. intros [G|G]; [congruence|lia].
    + split; [apply prefix_nil|]. split; [intros ->; discriminate Hneg|]. split; [lia|].
      split; [|intros _; auto]. intros ->. exfalso.
      pose proof Hf as Hf2. apply frame_to_bytes_status in Hf2; [|lia]. destruct Hf2 as [G|G]; [discriminate|].
      apply enc_err_neg in G. destruct G as (_ & G & _). apply G. reflexivity.
    + subst st. discriminate Hneg.
  - destruct H as [(Hub & _)|(buf & enc' & Hf' & Hp)]; [congruence|].
    rewrite Hf in Hf'. injection Hf' as -> <- <-. destruct Hcase as [(_ & -> & _)|(G & _)]; [exact Hp|discriminate G].
Qed.

(** amqp_send_frame is the case of no deadline: it never reports a timeout. *)
Theorem C33_send_frame :
  forall (N : nat) (E : nat -> aenv) (chan : Z) (a : aframe) (c : conn) (ev : list event),
    aframe_ok a -> 20 <= zlen (c_outbuf c) < M31 -> (forall b, a = ABody b -> zlen b + 8 <= zlen (c_outbuf c)) ->
    match amqp_send_frame N E (c_frame chan a) c ev with
    | Done r _ _ l =>
        prefix (out_bytes l) (ser_frame chan a) /\ (r = AMQP_STATUS_OK -> out_bytes l = ser_frame chan a) /\
        r <= 0 /\ r <> AMQP_STATUS_TIMEOUT
    | Halt _ _ l => prefix (out_bytes l) (ser_frame chan a)
    end.
Proof.
  intros N E chan a c ev Ha Hb Hbody.
  pose proof (C33_frame_reaches_the_wire N E chan a false amqp_time_infinite c ev Ha Hb Hbody (Z.le_refl _)) as H.
  unfold amqp_send_frame. destruct (amqp_send_frame_inner N E (c_frame chan a) false amqp_time_infinite c ev); [|exact H].
  destruct H as (H1 & H2 & H3 & H4 & _). split; [exact H1|]. split; [exact H2|]. split; [exact H3|].
  intros Ht. apply (H4 Ht). reflexivity.
Qed.

(** A run in which the socket takes the frame in pieces, with an interrupted
    system call, a full buffer and an interrupted poll in between. *)
Example C33_case :
  let f := AMethod 60 80 [("delivery_tag", Longlong); ("multiple", Bit)] [("delivery_tag", VInt 7); ("multiple", VBool 1)] in
  aframe_ok f /\ zlen (ser_frame 3 f) = 21 /\
  match amqp_send_frame 100 plain_env (c_frame 3 f) (new_connection 5)
    [EvSend (SOk 4); EvSend SIntr; EvSend (SOk 6); EvSend SAgain; EvPoll PIntr; EvPoll PReady; EvSend (SOk 100)] with
  | Done r _ rest l => r = AMQP_STATUS_OK /\ rest = [] /\ out_bytes l = ser_frame 3 f
  | Halt _ _ _ => False
  end.
Proof.
  split. { split; [vm_compute; tauto|]. unfold well_typed. repeat (constructor; [cbn; split; [reflexivity|lia]|]). constructor. }
  split; [reflexivity|]. vm_compute. repeat split.
Qed.

(** C34 for amqp_send_header: success means that the eight bytes AMQP 0 0 9 1
    were all handed to the socket; everything else is a negative status. *)
Theorem C34_send_header :
  forall (N : nat) (c : conn) (ev : list event),
    match amqp_send_header N c ev with
    | Done r c' _ l => c' = c /\ prefix (out_bytes l) [x41; x4d; x51; x50; x00; x00; x09; x01] /\
        ((r = AMQP_STATUS_OK /\ out_bytes l = [x41; x4d; x51; x50; x00; x00; x09; x01]) \/ r < 0)
    | Halt _ _ l => prefix (out_bytes l) [x41; x4d; x51; x50; x00; x00; x09; x01]
    end.
Proof.
  intros N c ev. unfold amqp_send_header, send_header_inner.
  match goal with |- match ?m c ev with _ => _ end =>
    assert (wp m c ev (fun r c' _ l => c' = c /\ prefix (out_bytes l) protocol_header /\
       ((r = AMQP_STATUS_OK /\ out_bytes l = protocol_header) \/ r < 0)) (fun _ _ l => prefix (out_bytes l) protocol_header)) as H end.
  2:{ unfold wp in H. match goal with |- match ?x with _ => _ end => destruct x end; exact H. }
  apply wp_bind. eapply wp_conseq; [apply try_send_ok| |]; cbv beta; [|tauto].
  intros r c1 ev1 l (-> & _ & Hp & _ & Hr).
  destruct (Z.eqb_spec r (zlen protocol_header)) as [->|Hne]; apply wp_ret; rewrite app_nil_r; (split; [reflexivity|split; [exact Hp|]]).
  - left. split; [reflexivity|]. destruct (Hr ltac:(cbv; discriminate)) as [Hz _]. destruct Hp as [rest Hp].
    assert (rest = []) as ->; [|rewrite app_nil_r in Hp; auto].
    apply zlen_0_nil. pose proof (f_equal zlen Hp) as G. rewrite zlen_app in G. lia.
  - right. destruct (Z.ltb_spec r 0); [exact H|]. destruct (Hr H) as [_ G]. contradiction (G Hne). reflexivity.
Qed.

(** The first step of login has a deadline.  What holds there: a negative status,
    or the number of bytes that were sent (8 being reported as success). *)
Theorem C34_login_header_partial :
  forall (N : nat) (deadline : Z) (c : conn) (ev : list event),
    match send_header_inner N deadline c ev with
    | Done r c' _ l => c' = c /\ prefix (out_bytes l) [x41; x4d; x51; x50; x00; x00; x09; x01] /\
        (r < 0 \/ (r = AMQP_STATUS_OK /\ zlen (out_bytes l) = 8) \/ (0 <= r < 8 /\ r = zlen (out_bytes l)))
    | Halt _ _ l => prefix (out_bytes l) [x41; x4d; x51; x50; x00; x00; x09; x01]
    end.
Proof.
  intros N d c ev. unfold send_header_inner.
  match goal with |- match ?m c ev with _ => _ end =>
    assert (wp m c ev (fun r c' _ l => c' = c /\ prefix (out_bytes l) protocol_header /\
       (r < 0 \/ (r = AMQP_STATUS_OK /\ zlen (out_bytes l) = 8) \/ (0 <= r < 8 /\ r = zlen (out_bytes l)))) (fun _ _ l => prefix (out_bytes l) protocol_header)) as H end.
  2:{ unfold wp in H. match goal with |- match ?x with _ => _ end => destruct x end; exact H. }
  apply wp_bind. eapply wp_conseq; [apply try_send_ok| |]; cbv beta; [|tauto].
  intros r c1 ev1 l (-> & _ & Hp & _ & Hr). change (zlen protocol_header) with 8 in *.
  destruct (Z.eqb_spec r 8) as [->|Hne]; apply wp_ret; rewrite app_nil_r; (split; [reflexivity|split; [exact Hp|]]).
  - right; left. split; [reflexivity|]. destruct (Hr ltac:(lia)) as [Hz _]. lia.
  - destruct (Z.ltb_spec r 0); [auto|]. right; right. destruct (Hr H) as [G _]. split; [|lia].
    destruct Hp as [rest Hp]. pose proof (f_equal zlen Hp) as G2. rewrite zlen_app in G2. change (zlen protocol_header) with 8 in G2. pose proof (zlen_nonneg rest). lia.
Qed.

(** C34 is false for login: with a full socket buffer and an expired handshake
    timeout nothing at all is sent and success is reported; after three bytes the
    "status" is the positive number 3. *)
Theorem C34_login_header_refuted :
  match send_header_inner 10 2000000000 (new_connection 5) [EvSend SAgain; EvClock 1000000000; EvPoll PTimeout] with
  | Done r _ _ l => r = AMQP_STATUS_OK /\ out_bytes l = []
  | Halt _ _ _ => False
  end /\
  match send_header_inner 10 2000000000 (new_connection 5) [EvSend (SOk 3); EvSend SAgain; EvClock 1000000000; EvPoll PTimeout] with
  | Done r _ _ l => r = 3 /\ out_bytes l = [x41; x4d; x51]
  | Halt _ _ _ => False
  end.
Proof. split; vm_compute; repeat split. Qed.

Print Assumptions C33_frame_reaches_the_wire.
Print Assumptions C33_send_frame.
Print Assumptions C34_send_header.
Print Assumptions C34_login_header_partial.
Print Assumptions C34_login_header_refuted.
