(** C74: what a status says about the effect of the call. *)
From Coq Require Import String ZArith List Bool Lia.
From Verif Require Import Base BaseFacts Codec TableModel TableSpec TableOps FramingStmt FramingGen FramingModel MethodSpec
  Frame FrameSpec Time Sasl Net NetApi NetSpec NetFacts NetSend NetWalk NetRoom NetShort CallSpec CalmSpec SpeakSpec NetNear NetWire CodesSpec NetCodes NetCodesAll NetRefused
  Prop_Frame Prop_Send Prop_Safe Prop_Calls Prop_Publish Prop_Wire Prop_Codes.
Import ListNotations.
Local Open Scope string_scope.
Local Open Scope list_scope.
Local Open Scope Z_scope.

(** ** Vocabulary *)
(** calls that only send *)
Definition one_way (a : api) : Prop :=
  match a with SendFrame _ | SendMethod _ _ _ | Ack _ _ _ | Nack _ _ _ _ | Reject _ _ _ | Publish _ _ _ _ _ _ _ => True | _ => False end.
(** calls that send one frame (and may wait for the answer) *)
Definition one_frame (a : api) : Prop :=
  match a with
  | SendFrame _ | SendMethod _ _ _ | Ack _ _ _ | Nack _ _ _ _ | Reject _ _ _ | Rpc _ _ _ _ | Call _ _ _ | BasicGet _ _ _ | ChannelClose _ _ | ConnectionClose _ => True
  | _ => False
  end.
(** the status the program sees, by what the call returns or by amqp_get_rpc_reply *)
Definition status_is (st : Z) (o : outcome_t) (recent : rpc_reply_t) : Prop :=
  match o with
  | OutStatus r => r = st
  | OutReply r => r = RLibrary st
  | OutDecoded _ => recent = RLibrary st
  | _ => False
  end.

(** ** Proofs *)
Section Effect.
Context (N : nat) (E : nat -> aenv).
Lemma cuts_single ch x more c : aframe_ok x -> 20 <= zlen (c_outbuf c) < M31 -> (forall b, x = ABody b -> zlen b + 8 <= zlen (c_outbuf c)) -> c_hb c <= 65535 -> forall ev,
  wp (amqp_send_frame_inner N E (c_frame ch x) more amqp_time_infinite) c ev
    (fun st _ _ l => sane l -> st <> AMQP_STATUS_OK -> st <> AMQP_STATUS_TIMER_FAILURE ->
       prefix (out_bytes l) (concat (single (zlen (c_outbuf c)) ch x)) /\ (single (zlen (c_outbuf c)) ch x = [] \/ out_bytes l <> concat (single (zlen (c_outbuf c)) ch x))) (fun _ _ _ => True).
Proof.
  intros Hx Hb Hbody Hh ev. pose proof (sends_frame N E ch x more c Hx Hb Hbody ev) as H.
  pose proof (C33_frame_reaches_the_wire N E ch x more amqp_time_infinite c ev Hx Hb Hbody (Z.le_refl _)) as H2.
  unfold wp in *. destruct (amqp_send_frame_inner _ _ _ _ _ _ _) as [st c' ev' l|]; [|exact I]. intros Hs N1 N2.
  destruct H as ((_ & H & _) & _ & Hsh). specialize (Hsh Hh Hs N1 N2). destruct H2 as (_ & _ & _ & _ & H2).
  unfold single, fits. destruct (aframe_representable x) eqn:Er; cbn [andb].
  - destruct (Z.leb_spec (zlen (ser_frame ch x)) (zlen (c_outbuf c))).
    + cbn [concat]. rewrite app_nil_r. split; [exact H|]. right. intros K. rewrite K in Hsh. lia.
    + destruct H2 as (_ & -> & _); [right; lia|]. split; [apply prefix_refl|left; reflexivity].
  - destruct H2 as (_ & -> & _); [left; reflexivity|]. split; [apply prefix_refl|left; reflexivity].
Qed.
End Effect.

(** ** Theorems *)
(** A call that only sends and reports a failure other than AMQP_STATUS_TIMER_FAILURE has not
    sent what it was asked to send: a beginning of it at most, and nothing at all if it
    cannot be sent.  (The server has not received the message; the program may send it again
    on another connection.) *)
Theorem C74_failed_send_partial :
  forall (N : nat) (E : nat -> aenv) (a : api) (c c' : conn) (ev ev' : list event) (st : Z) (l : list obs),
    one_way a -> arguments_ok a -> roomy c -> zlen (c_outbuf c) < M31 -> c_hb c <= 65535 ->
    exec N E a c ev = Done (OutStatus st) c' ev' l -> sane l ->
    st <> AMQP_STATUS_OK -> st <> AMQP_STATUS_TIMER_FAILURE ->
    exists F, asks (frame_max c) (zlen (c_outbuf c)) a F /\ prefix (out_bytes l) (concat F) /\ (F = [] \/ out_bytes l <> concat F).
Proof.
  intros N E a c c' ev ev' st l Hw Ha Hr Hb Hh Hrun Hs N1 N2. assert (20 <= zlen (c_outbuf c) < M31) as Hbb by (destruct Hr; lia).
  assert (forall m, bind m (fun r => ret (OutStatus r)) c ev = Done (OutStatus st) c' ev' l -> m c ev = Done st c' ev' l) as Hm.
  { intros m K. unfold bind, ret in K. destruct (m c ev) as [r c1 ev1 l1|]; [|discriminate]. injection K as -> -> -> <-. rewrite app_nil_r. reflexivity. }
  assert (forall ch x, aframe_ok x -> (forall b, x <> ABody b) -> amqp_send_frame_inner N E (c_frame ch x) false amqp_time_infinite c ev = Done st c' ev' l ->
    let F := single (zlen (c_outbuf c)) ch x in prefix (out_bytes l) (concat F) /\ (F = [] \/ out_bytes l <> concat F)) as Hone.
  { intros ch x Hx Hnb K. pose proof (cuts_single N E ch x false c Hx Hbb ltac:(intros b Kb; destruct (Hnb b Kb)) Hh ev) as H. unfold wp in H. rewrite K in H. apply H; assumption. }
  assert (AK : forall i fs m ch, In (60, i, fs) catalogue -> well_typed fs m -> amqp_send_method N E ch (method_id 60 i) m c ev = Done st c' ev' l ->
    let F := single (zlen (c_outbuf c)) ch (AMethod 60 i fs m) in prefix (out_bytes l) (concat F) /\ (F = [] \/ out_bytes l <> concat F)).
  { intros i fs m ch H1 H2 K. apply (Hone ch (AMethod 60 i fs m) (conj H1 H2) ltac:(discriminate) K). }
  destruct a; cbn [one_way arguments_ok asks exec] in *; try contradiction; apply Hm in Hrun.
  - destruct Ha as (ch & x & -> & Hx & Hnb). eexists. split; [exists ch, x; split; [reflexivity|split; [exact Hx|reflexivity]]|]. apply (Hone ch x Hx Hnb Hrun).
  - destruct Ha as (c0 & i & fs & Hin & -> & Hwt). eexists. split; [exists c0, i, fs; split; [exact Hin|split; reflexivity]|].
    apply (Hone channel (AMethod c0 i fs m) (conj Hin Hwt) ltac:(discriminate) Hrun).
  - destruct Ha as (A1 & A2 & A3 & A4 & A5 & A6). destruct (content_exists _ body A5) as [h Hc]. eexists. split; [exists h; split; [exact Hc|reflexivity]|].
    match goal with |- prefix _ (concat ?F) /\ _ => assert (HF : concat F = message_wire channel (publish_method exchange routing_key mandatory immediate) h (frame_max c) body) end.
    { unfold message_wire. rewrite ser_concat. cbn [map fst snd]. rewrite map_map. reflexivity. }
    rewrite HF. pose proof (publish_cuts N E channel _ _ _ _ _ body h c A1 A2 A3 A4 A5 A6 Hr Hb Hc ev) as H. unfold wp in H. rewrite Hrun in H.
    destruct H as ((_ & H & _) & _ & Hsh). specialize (Hsh Hh Hs N1 N2). split; [exact H|]. right. intros K. rewrite K in Hsh. lia.
  - eexists. split; [reflexivity|]. eapply (AK 80); [apply cat_in; reflexivity|unfold well_typed; repeat (constructor; [split; [reflexivity|cbn [snd dom_val]; lia]|]); constructor|exact Hrun].
  - eexists. split; [reflexivity|]. eapply (AK 120); [apply cat_in; reflexivity|unfold well_typed; repeat (constructor; [split; [reflexivity|cbn [snd dom_val]; lia]|]); constructor|exact Hrun].
  - eexists. split; [reflexivity|]. eapply (AK 90); [apply cat_in; reflexivity|unfold well_typed; repeat (constructor; [split; [reflexivity|cbn [snd dom_val]; lia]|]); constructor|exact Hrun].
Qed.
(** Without heartbeats sending does not report AMQP_STATUS_TIMER_FAILURE, so the statement
    above holds for every failure. *)
Theorem C74_no_timer_partial :
  forall (N : nat) (E : nat -> aenv) (a : api) (c c' : conn) (ev ev' : list event) (st : Z) (l : list obs),
    one_way a -> off c -> zlen (c_outbuf c) < M31 ->
    exec N E a c ev = Done (OutStatus st) c' ev' l -> st <> AMQP_STATUS_TIMER_FAILURE.
Proof.
  intros N E a c c' ev ev' st l Hw Ho Hb Hrun.
  assert (forall m, bind m (fun r => ret (OutStatus r)) c ev = Done (OutStatus st) c' ev' l -> ntm m c -> st <> AMQP_STATUS_TIMER_FAILURE) as Hm.
  { intros m K H. unfold bind, ret in K. specialize (H ev Ho Hb). unfold wp in H. destruct (m c ev) as [r c1 ev1 l1|]; [|discriminate]. injection K as -> _ _ _. apply H. }
  destruct a; cbn [one_way exec] in *; try contradiction; (eapply Hm; [exact Hrun|]); first [apply ntm_publish|apply ntm_send].
Qed.
(** AMQP_STATUS_TABLE_TOO_BIG and AMQP_STATUS_INVALID_PARAMETER from a call that sends one
    frame mean that nothing was sent. *)
Theorem C74_refused :
  forall (N : nat) (E : nat -> aenv) (a : api) (c c' : conn) (ev ev' : list event) (o : outcome_t) (l : list obs) (st T : Z),
    one_frame a -> settled_at T c ->
    exec N E a c ev = Done o c' ev' l -> steady T l ->
    st = AMQP_STATUS_TABLE_TOO_BIG \/ st = AMQP_STATUS_INVALID_PARAMETER -> status_is st o (c_recent c') ->
    out_bytes l = [].
Proof.
  intros N E a c c' ev ev' o l st T Hw Hn Hrun Hs Hst Ho.
  assert (forall (m : M Z), kno T refusal m c -> bind m (fun r => ret (OutStatus r)) c ev = Done o c' ev' l -> out_bytes l = []) as H1.
  { intros m H K. specialize (H ev). unfold bind, ret in K. unfold wp in H. destruct (m c ev) as [r c1 ev1 l1|]; [|discriminate]. injection K as <- <- <- <-. rewrite app_nil_r in *.
    cbn [status_is] in Ho. subst r. apply H; [exact Hs|exact Hst]. }
  assert (forall (m : M rpc_reply_t), kno T refusal_reply m c -> bind m (fun r => ret (OutReply r)) c ev = Done o c' ev' l -> out_bytes l = []) as H2.
  { intros m H K. specialize (H ev). unfold bind, ret in K. unfold wp in H. destruct (m c ev) as [r c1 ev1 l1|]; [|discriminate]. injection K as <- <- <- <-. rewrite app_nil_r in *.
    cbn [status_is] in Ho. subst r. apply H; [exact Hs|exact Hst]. }
  assert (forall f, kno T refusal (amqp_send_frame_inner N E f false amqp_time_infinite) c) as Hf by (intros f; apply kno_send_frame; [exact Hn|eapply keepd_infinite, Hn]).
  destruct a; cbn [one_frame exec] in *; try contradiction.
  - eapply H1; [|exact Hrun]. apply Hf.
  - eapply H1; [|exact Hrun]. apply Hf.
  - eapply H2; [|exact Hrun]. apply kno_rpc, Hn.
  - unfold amqp_call, amqp_simple_rpc_decoded in Hrun. destruct (build_request _ _ _) as [rq|]; [|discriminate].
    pose proof (kno_rpc N E T channel (rpc_request w) [rpc_reply w] rq c Hn ev) as H. unfold wp in H. unfold bind, upd, ret in Hrun.
    destruct (amqp_simple_rpc N E channel (rpc_request w) [rpc_reply w] rq c ev) as [r c1 ev1 l1|]; [|discriminate].
    injection Hrun as <- <- <- <-. cbn [app] in *. rewrite !app_nil_r in *. cbn [status_is c_recent set_recent] in Ho. subst r. apply H; [exact Hs|exact Hst].
  - eapply H2; [|exact Hrun]. unfold amqp_channel_close. destruct (_ || _); [apply kno_ret|apply kno_rpc, Hn].
  - eapply H2; [|exact Hrun]. unfold amqp_connection_close. destruct (_ || _); [apply kno_ret|apply kno_rpc, Hn].
  - eapply H1; [|exact Hrun]. apply Hf.
  - eapply H1; [|exact Hrun]. apply Hf.
  - eapply H1; [|exact Hrun]. apply Hf.
  - unfold amqp_basic_get in Hrun.
    match goal with K : bind (bind (amqp_simple_rpc _ _ ?ch ?i ?is ?rq) _) _ _ _ = _ |- _ =>
      pose proof (kno_rpc N E T ch i is rq c Hn ev) as H; unfold wp in H; unfold bind, upd, ret in K; destruct (amqp_simple_rpc N E ch i is rq c ev) as [r c1 ev1 l1|]; [|discriminate] end.
    injection Hrun as <- <- <- <-. cbn [app] in *. rewrite !app_nil_r in *. cbn [status_is] in Ho. subst r. apply H; [exact Hs|exact Hst].
Qed.

(** ** What the notes in amqp.h do not promise truly *)
(** amqp.h:1809-1810: "AMQP_STATUS_TIMER_FAILURE: the message was not sent".  Here the whole
    message was sent. *)
Theorem C74_message_was_sent_refuted :
  exists ev l c', exec 20 plain_env (Publish 1 [x65] [x6b] 1 0 (Some a_props) body_70) (idle_in [] true 5 40) ev = Done (OutStatus AMQP_STATUS_TIMER_FAILURE) c' [] l
    /\ out_bytes l = message_wire 1 (publish_method [x65] [x6b] 1 0) a_content 40 body_70.
Proof.
  exists [EvClock 2000000000; EvSend (SOk 99); EvClock 2000000000; EvSend (SOk 99); EvClock 2000000000; EvSend (SOk 99); EvClock 2000000000; EvSend (SOk 99); EvClock 2000000000; EvSend (SOk 99); EvClock 0].
  eexists. eexists. split; [vm_compute; reflexivity|vm_compute; reflexivity].
Qed.
(** amqp.h:1249-1250, 1537-1538: "AMQP_STATUS_TIMER_FAILURE: the frame was sent".  Here nothing was. *)
Theorem C74_frame_was_not_sent_refuted :
  exists ev l c', exec 20 plain_env (SendFrame ack_frame) (idle_in [] true 5 40) ev = Done (OutStatus AMQP_STATUS_TIMER_FAILURE) c' [] l /\ out_bytes l = [].
Proof. exists [EvSend SAgain; EvClock 0]. eexists. eexists. split; [vm_compute; reflexivity|reflexivity]. Qed.
(** amqp.h:1242-1244, 1530-1532: "AMQP_STATUS_BAD_AMQP_DATA: the frame was not sent".  Here three of its
    bytes were: what the program sends next continues a frame it gave up. *)
Theorem C74_partly_sent_refuted :
  exists c ev l c', exec 20 plain_env (SendFrame ack_frame) c ev = Done (OutStatus AMQP_STATUS_BAD_AMQP_DATA) c' [] l /\ zlen (out_bytes l) = 3 /\ c_fd c' = c_fd c.
Proof.
  exists (idle_in (wire_of x01 [x00; x3c; x00; x50; x00] x00) true 5 40), [EvSend (SOk 3); EvSend SAgain; EvClock 2000000000; EvPoll PTimeout].
  eexists. eexists. split; [vm_compute; reflexivity|]. split; vm_compute; reflexivity.
Qed.
(** amqp.h:1815-1816: "AMQP_STATUS_TABLE_TOO_BIG: the message was not sent".  Its first frame
    was, and the channel is left in the middle of a message. *)
Definition big_props : props := mkProps 8192 [("headers", VTable [([x6b], FUtf8 (repeat x61 60))])]%string.
Theorem C74_half_message_refuted :
  arguments_ok (Publish 1 [x65] [x6b] 1 0 (Some big_props) body_70) /\
  exists ev l c', exec 20 plain_env (Publish 1 [x65] [x6b] 1 0 (Some big_props) body_70) (idle_in [] false 5 40) ev = Done (OutStatus AMQP_STATUS_TABLE_TOO_BIG) c' [] l
    /\ out_bytes l = ser_frame 1 (publish_method [x65] [x6b] 1 0) /\ c_fd c' = 5.
Proof.
  split.
  - split; [reflexivity|]. split; [reflexivity|]. split; [lia|]. split; [lia|]. split; [|reflexivity].
    exists [(("headers", Tbl), VTable [([x6b], FUtf8 (repeat x61 60))])]%string. split; [cbn; lia|]. split; [reflexivity|]. repeat constructor; cbn; lia.
  - exists [EvSend (SOk 99)]. eexists. eexists. split; [vm_compute; reflexivity|]. split; vm_compute; reflexivity.
Qed.
(** amqp.h:1382-1386, 1488-1492, 1501-1505: of SOCKET_ERROR, HEARTBEAT_TIMEOUT and WRONG_METHOD:
    "the connection has been closed".  Here the socket is still open. *)
Theorem C74_left_open_refuted :
  (exists c ev l c' f, exec 20 plain_env (WaitFrame None) c ev = Done (OutFrame AMQP_STATUS_SOCKET_ERROR f) c' [] l /\ c_fd c' = 5) /\
  (exists c ev l c' f, exec 20 plain_env (WaitFrame None) c ev = Done (OutFrame AMQP_STATUS_HEARTBEAT_TIMEOUT f) c' [] l /\ c_fd c' = 5) /\
  (exists c ev l c' i m, exec 20 plain_env (WaitMethod 1 BASIC_NACK) c ev = Done (OutMethod AMQP_STATUS_WRONG_METHOD i m) c' [] l /\ c_fd c' = 5).
Proof.
  split; [|split].
  - exists (idle_in [] false 5 40), [EvRecv RErr]. do 3 eexists. split; [vm_compute; reflexivity|]. vm_compute. reflexivity.
  - exists (idle_in [] true 5 40), [EvClock 4000000000; EvRecv RAgain; EvClock 4000000000; EvPoll PTimeout; EvClock 6000000000; EvSend (SOk 3); EvSend SAgain; EvClock 7000000000; EvPoll PTimeout; EvClock 30000000000; EvRecv RAgain; EvClock 30000000000; EvPoll PTimeout].
    do 3 eexists. split; [vm_compute; reflexivity|]. vm_compute. reflexivity.
  - exists (idle_in ack_wire false 5 40), []. do 4 eexists. split; [vm_compute; reflexivity|]. vm_compute. reflexivity.
Qed.

(** ** The hypotheses can be met *)
(** a failure after four bytes: C74_failed_send_partial applies *)
Example C74_failed_send_case :
  one_way (SendFrame ack_frame) /\ arguments_ok (SendFrame ack_frame) /\ roomy (idle_in [] true 5 40) /\
  exists c' l, exec 20 plain_env (SendFrame ack_frame) (idle_in [] true 5 40) [EvSend (SOk 4); EvSend SErr] = Done (OutStatus AMQP_STATUS_SOCKET_ERROR) c' [] l
    /\ sane l /\ zlen (out_bytes l) = 4.
Proof.
  split; [exact I|]. split.
  { exists 1, ack_7. split; [reflexivity|]. split; [split; [apply cat_in; reflexivity|unfold well_typed; repeat (constructor; [split; [reflexivity|cbn [snd dom_val]; lia]|]); constructor]|discriminate]. }
  split; [unfold roomy; change (frame_max (idle_in [] true 5 40)) with 40; change (zlen (c_outbuf (idle_in [] true 5 40))) with 40; lia|].
  eexists. eexists. split; [vm_compute; reflexivity|]. split; [repeat constructor|reflexivity].
Qed.
Example C74_refused_case :
  settled_at 1000000000 (idle_in [] true 5 40) /\
  match exec 20 plain_env (SendFrame (start_ok [([x6b], FUtf8 (repeat x61 60))])) (idle_in [] true 5 40) [] with
  | Done (OutStatus r) _ _ l => r = AMQP_STATUS_TABLE_TOO_BIG /\ steady 1000000000 l
  | _ => False
  end.
Proof. shown. Qed.

Print Assumptions C74_failed_send_partial.
Print Assumptions C74_no_timer_partial.
Print Assumptions C74_refused.
Print Assumptions C74_message_was_sent_refuted.
Print Assumptions C74_frame_was_not_sent_refuted.
Print Assumptions C74_partly_sent_refuted.
Print Assumptions C74_half_message_refuted.
Print Assumptions C74_left_open_refuted.
