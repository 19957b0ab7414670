(** C35: frames are received in order, none lost, none twice. *)
From Coq Require Import String ZArith List Bool Lia.
From Verif Require Import Base BaseFacts Codec TableModel TableSpec TableOps FramingStmt FramingGen FramingModel MethodSpec
  Frame FrameSpec FrameFacts Time Sasl Net NetApi NetSpec NetFacts NetSend NetRecv NetWalk NetAcct NetOrder NetWait NetOff NetCalls EncStatus NetRpc NetOffAll NetChan NetRx NetWell
  Prop_Frame Prop_Send Prop_Release Prop_Rpc.
Import ListNotations.
Local Open Scope Z_scope.
Notation M30 := (2 ^ 30).

(** ** Vocabulary *)
(** the frames a sequence of amqp_simple_wait_frame calls returned *)
Definition returned (os : list outcome_t) : list frame :=
  flat_map (fun o => match o with OutFrame st f => if st =? AMQP_STATUS_OK then [f] else [] | _ => [] end) os.
Definition carries_data (ca : Z * aframe) : bool := negb (type_of (snd ca) =? 8).
(** the last call found nothing more to read: it timed out or the connection is closed *)
Definition found_nothing (os : list outcome_t) : Prop :=
  exists before st f, os = before ++ [OutFrame st f] /\ (st = AMQP_STATUS_TIMEOUT \/ st = AMQP_STATUS_CONNECTION_CLOSED).
(** [part] is a proper part of the first of the frames *)
Definition incomplete_part (part : bytes) (fs : list (Z * aframe)) : Prop :=
  match fs with [] => part = [] | ca :: _ => exists r, ser_frame (fst ca) (snd ca) = part ++ r /\ r <> [] end.

(** ** Proof *)
Lemma received_type f ca : received f ca -> is_heartbeat f = negb (carries_data ca).
Proof. intros [gen ->]. unfold is_heartbeat, carries_data. cbn. rewrite negb_involutive. reflexivity. Qed.
Lemma received_no_hb fs cas : Forall2 received fs cas -> Forall2 received (no_hb fs) (filter carries_data cas).
Proof.
  induction 1 as [|f ca fs cas H _ IH]; [constructor|]. unfold no_hb in *. cbn [filter]. rewrite (received_type _ _ H), negb_involutive.
  destruct (carries_data ca); [constructor; assumption|exact IH].
Qed.

Section Receive.
Context (N : nat) (E : nat -> aenv).

Lemma from_now_closed t c ev : wp (time_from_now t) c ev (fun p _ _ _ => fst p <> AMQP_STATUS_CONNECTION_CLOSED) (fun _ _ _ => True).
Proof.
  unfold time_from_now. destruct t as [tv|]; [|apply wp_ret; discriminate].
  destruct (_ || _) eqn:Hb.
  - apply wp_ret. unfold amqp_time_from_now. rewrite Hb. discriminate.
  - apply wp_bind. eapply wp_conseq; [apply (clock_res c ev (fun _ => True)); auto| |auto]. cbv beta. intros now c1 ev1 l1 _. apply wp_ret.
    unfold amqp_time_from_now. rewrite Hb. destruct (now =? 0); [discriminate|]. cbv zeta.
    match goal with |- context [if ?b then _ else _] => destruct b end; discriminate.
Qed.

(** a wait that fails has nothing left to look at *)
Lemma wait_dry fuel : forall d c ev, off c -> d <= amqp_time_infinite ->
  wp (wait_frame_loop N E fuel false d) c ev
    (fun p c' _ l => fst p <> AMQP_STATUS_OK -> no_bad l -> c_sbuf c' = []) (fun _ _ _ => True).
Proof.
  induction fuel as [|fuel IH]; intros d c ev Hoff Hd; cbn [wait_frame_loop]; [apply wp_halt; exact I|].
  wstep. cbn [negb andb]. destruct (amqp_data_in_buffer c) eqn:Hb.
  - apply wp_bind. eapply wp_conseq; [apply consume_ok| |auto]; cbv beta.
    intros [r f] c1 ev1 l1 (-> & G & Fm & Q & Fa & Oom & Lo & Ou & Ib & K1 & K2 & K3 & K4 & K5 & K6 & Hr & Hcase). cbn [fst snd] in *.
    assert (off c1) as Hoff1 by (unfold off in *; destruct Hoff as (?&?&?); repeat split; congruence).
    destruct Hcase as [(Hneg & Hf & Hl & _)|(-> & _ & _ & Hf)].
    + destruct (Z.eqb_spec r AMQP_STATUS_OK); [unfold AMQP_STATUS_OK in *; lia|]. cbn [negb]. apply wp_ret. rewrite app_nil_r. cbn [fst snd].
      intros _ HB. rewrite Hl in HB. inversion HB; contradiction.
    + change (AMQP_STATUS_OK =? AMQP_STATUS_OK) with true. cbn [negb]. cbv iota.
      destruct (Z.eqb_spec AMQP_FRAME_HEARTBEAT (f_type f)) as [Ht|Ht].
      * apply wp_bind. eapply wp_conseq; [apply release_on_ok| |auto]; cbv beta.
        intros _ c2 ev2 l2 (-> & Hc2 & ->).
        assert (off c2) as Hoff2 by (destruct Hc2 as [->|[g ->]]; [auto|exact Hoff1]).
        eapply wp_conseq; [apply IH; assumption| |auto]; cbv beta; cbn [app].
        intros p c3 ev3 l3 W H1 HB. apply no_bad_app in HB. apply W; tauto.
      * destruct (Z.eqb_spec (f_type f) 0) as [H0|H0]; cbn [negb].
        -- eapply wp_conseq; [apply IH; assumption| |auto]; cbv beta. intros p c3 ev3 l3 W H1 HB. apply no_bad_app in HB. apply W; tauto.
        -- apply wp_ret. cbn [fst snd]. intros H; contradiction.
  - assert (c_sbuf c = []) as Hsb by (unfold amqp_data_in_buffer in Hb; destruct (c_sbuf c); [reflexivity|discriminate]).
    pose proof Hoff as (O1 & O2 & O3). rewrite O2. unfold time_has_past. change (UINT64_MAX =? amqp_time_infinite) with true. cbv iota.
    wstep. change (amqp_time_has_past 0 amqp_time_infinite) with AMQP_STATUS_OK.
    change (AMQP_STATUS_OK =? AMQP_STATUS_TIMER_FAILURE) with false. change (AMQP_STATUS_OK =? AMQP_STATUS_TIMEOUT) with false. cbv iota.
    wstep. change (AMQP_STATUS_OK =? AMQP_STATUS_OK) with true. cbn [negb]. cbv iota.
    wstep. cbv zeta. rewrite O2, O3.
    assert (amqp_time_first d (amqp_time_first amqp_time_infinite amqp_time_infinite) = d) as ->.
    { change (amqp_time_first amqp_time_infinite amqp_time_infinite) with amqp_time_infinite. unfold amqp_time_first. destruct (Z.ltb_spec d amqp_time_infinite); lia. }
    apply wp_bind.
    eapply wp_conseq; [apply (wp_split _ _ _ _ _ _ _ (recv_off N E d c ev Hoff) (recv_with_timeout_ok N N d c ev))| |auto]; cbv beta.
    intros r c1 ev1 l1 ((H1 & H2 & H3 & H4 & H5 & H6 & H7 & H8) & Hrr & Hcase).
    destruct (Z.eqb_spec r AMQP_STATUS_TIMEOUT) as [->|Hnt].
    + destruct (H8 eq_refl) as [Hinf ->]. wstep. rewrite O3. unfold amqp_time_equal.
      destruct (Z.eqb_spec d amqp_time_infinite); [contradiction|]. rewrite Z.eqb_refl. apply wp_ret. cbn [fst snd]. auto.
    + destruct (Z.eqb_spec r AMQP_STATUS_OK) as [->|Hn]; cbn [negb].
      * eapply wp_conseq; [apply IH; assumption| |auto]; cbv beta. intros p c3 ev3 l3 W K1 HB. apply no_bad_app in HB. apply W; tauto.
      * apply wp_ret. cbn [fst snd]. intros _ _. destruct Hcase as [(-> & _)|(_ & _ & K)]; [exact Hsb|]. destruct (K O1) as [K' _]. contradiction.
Qed.

Definition waits_off (c : conn) (os : list outcome_t) (c' : conn) (l : list obs) : Prop :=
  off c' /\ c_queue c' = [] /\ no_lost l /\ no_output l /\ returned os = no_hb (frames l) /\
  (found_nothing os -> no_bad l -> c_sbuf c' = []).
Lemma wait_frame_off t c ev : off c -> c_queue c = [] ->
  wp (exec N E (WaitFrame t)) c ev (fun o c' _ l => waits_off c [o] c' l) (fun _ _ _ => True).
Proof.
  intros Hoff Hq. cbn [exec]. unfold amqp_simple_wait_frame_noblock. wstep. apply wp_bind.
  eapply wp_conseq; [apply (wp_split _ _ _ _ _ _ _ (from_now_ok t c ev) (from_now_closed t c ev))| |auto]; cbv beta.
  intros [r d] c1 ev1 l1 ((-> & Hqu & (D1 & D0 & D2 & D3) & _) & Dc). cbn [fst snd] in *.
  destruct (quiet_facts _ Hqu) as ((I1 & I2 & I3 & I4) & Io & Im).
  assert (r <> AMQP_STATUS_OK -> waits_off c [OutFrame r no_frame] c l1) as Herr.
  { intros Hr. split; [exact Hoff|]. split; [exact Hq|]. split; [exact I4|]. split; [apply quiet_output, Hqu|].
    unfold returned. cbn. destruct (Z.eqb_spec r AMQP_STATUS_OK); [contradiction|]. rewrite I2. split; [reflexivity|].
    intros (b & st & f & Hb & Hst). exfalso. destruct b as [|? [|]]; try discriminate. injection Hb as -> _. destruct Hst; contradiction. }
  destruct d as [d|]; [|wstep; apply wp_ret; rewrite !app_nil_r; apply Herr; auto].
  destruct (Z.eqb_spec r AMQP_STATUS_OK) as [->|Hr]; cbn [negb]; [|wstep; apply wp_ret; rewrite !app_nil_r; apply Herr; auto].
  wstep. rewrite Hq.
  assert (d <= amqp_time_infinite) as Hd by (apply D3; reflexivity).
  eapply wp_conseq; [apply (wp_split _ _ _ _ _ _ _ (wait_off N E d c ev1 Hoff Hd) (wp_split _ _ _ _ _ _ _ (wait_dry N d c ev1 Hoff Hd) (wait_inner_ok N E d c ev1)))| |auto]; cbv beta.
  intros [r f] c2 ev2 l2 ((W1 & W2 & W3 & W4 & W5 & hbs & W6 & W7) & Hdry & Hw). cbn [fst snd] in *. apply wp_ret. rewrite app_nil_r.
  split; [exact W1|]. split; [congruence|]. split; [apply no_lost_app; auto|]. split; [apply no_output_app; split; [apply quiet_output, Hqu|exact W4]|].
  split.
  - rewrite frames_app, I2, W7. cbn [app]. rewrite no_hb_app, W6. cbn [app]. unfold returned. cbn [flat_map]. rewrite app_nil_r. unfold okf in *.
    destruct (Z.eqb_spec r AMQP_STATUS_OK) as [->|Hr]; [|reflexivity]. cbn [opt].
    destruct (wt_type _ _ _ _ _ _ Hw eq_refl) as [_ Ht]. unfold no_hb, is_heartbeat. cbn [filter]. destruct (Z.eqb_spec (f_type f) 8); [contradiction|reflexivity].
  - intros (b & st & f0 & Hb & Hst) HB. destruct b as [|? [|]]; try discriminate. injection Hb as -> ->. apply Hdry; [|apply no_bad_app in HB; tauto].
    destruct Hst as [->| ->]; discriminate.
Qed.
Lemma returned_app a b : returned (a ++ b) = returned a ++ returned b.
Proof. apply flat_map_app. Qed.
Lemma wait_frames_off ts : forall c ev, off c -> c_queue c = [] ->
  wp (exec_all N E (map WaitFrame ts)) c ev
    (fun os c' _ l => waits_off c os c' l /\ (os = [] -> c' = c)) (fun _ _ _ => True).
Proof.
  induction ts as [|t ts IH]; intros c ev Hoff Hq; cbn [map exec_all].
  - apply wp_ret. split; [|auto]. split; [exact Hoff|]. split; [exact Hq|]. split; [constructor|]. split; [constructor|]. split; [reflexivity|].
    intros ([|] & st & f & Hb & _); discriminate.
  - apply wp_bind. eapply wp_conseq; [apply wait_frame_off; assumption| |auto]; cbv beta.
    intros o c1 ev1 l1 (A1 & A2 & A3 & A4 & A5 & A6). apply wp_bind. eapply wp_conseq; [apply IH; assumption| |auto]; cbv beta.
    intros os c2 ev2 l2 ((B1 & B2 & B3 & B4 & B5 & B6) & B7). apply wp_ret. rewrite app_nil_r. split; [|discriminate].
    split; [exact B1|]. split; [exact B2|]. split; [apply no_lost_app; auto|]. split; [apply no_output_app; auto|].
    split; [change (o :: os) with ([o] ++ os); rewrite returned_app, frames_app, no_hb_app; congruence|].
    intros (b & st & f & Hb & Hst) HB. apply no_bad_app in HB. destruct b as [|o' b]; cbn [app] in Hb; injection Hb as -> ->.
    + rewrite (B7 eq_refl). apply A6; [|tauto]. exists [], st, f. auto.
    + apply B6; [|tauto]. exists b, st, f. auto.
Qed.

(** with heartbeats *)
Lemma wait_frames_took ts : forall c ev, qalive c ->
  wp (exec_all N E (map WaitFrame ts)) c ev
    (fun os c' _ l => qalive c' /\ (no_oom_obs l -> no_lost l -> no_hb (returned os ++ queued c') = no_hb (queued c ++ frames l))) (fun _ _ _ => True).
Proof.
  induction ts as [|t ts IH]; intros c ev Hq; cbn [map exec_all].
  - apply wp_ret. split; [exact Hq|]. intros _ _. cbn. rewrite app_nil_r. reflexivity.
  - apply wp_bind. cbn [exec]. apply wp_bind. pose proof (al_noblock N E t c ev Hq) as H2.
    eapply wp_conseq; [apply (wp_split _ _ _ _ _ _ _ (noblock_ok N E t c ev Hq) H2)| |auto]; cbv beta.
    intros [r f] c1 ev1 l1 (Hn & Hq1 & _). cbn [fst snd] in *. apply wp_ret. apply wp_bind. eapply wp_conseq; [apply IH; assumption| |auto]; cbv beta.
    intros os c2 ev2 l2 (B1 & B2). apply wp_ret. rewrite !app_nil_r. split; [exact B1|].
    intros Ho Hl. apply no_oom_obs_app in Ho. destruct Ho as [Ho1 Ho2]. apply no_lost_app in Hl. destruct Hl as [Hl1 Hl2].
    pose proof (nx_took _ _ _ _ _ Hn Ho1 Hl1) as K. specialize (B2 Ho2 Hl2).
    change (returned (OutFrame r f :: os)) with ((if r =? AMQP_STATUS_OK then [f] else []) ++ returned os).
    replace (if r =? AMQP_STATUS_OK then [f] else []) with (opt (okf r f)) by (unfold okf; destruct (r =? _); reflexivity).
    rewrite <- app_assoc, no_hb_app, B2, frames_app, app_assoc, (no_hb_app (queued c ++ frames l1)), <- K, !no_hb_app, app_assoc. reflexivity.
Qed.
End Receive.

(** ** C35 *)
(** Heartbeats off.  The server sends the frames [fs]; in any schedule, what the
    calls return are the frames of a part [fs1] of the stream (the heartbeats left
    out), in order, and the bytes received are those of [fs1] and the beginning of
    the next frame(s); if the last call found nothing to read, not even one whole
    frame is left. *)
Theorem C35_frames_in_order :
  forall (N : nat) (E : nat -> aenv) (timeouts : list (option timeval)) (fs : list (Z * aframe))
         (c c' : conn) (ev ev' : list event) (os : list outcome_t) (l : list obs),
    off c -> c_queue c = [] -> idle (c_in c) -> c_sbuf c = [] -> 0 <= frame_max c < M30 -> never_fails E ->
    Forall (good_frame (frame_max c)) fs ->
    exec_all N E (map WaitFrame timeouts) c ev = Done os c' ev' l ->
    prefix (in_bytes l) (ser fs) ->
    exists fs1 fs2 part, fs = fs1 ++ fs2 /\ in_bytes l = ser fs1 ++ part /\
      Forall2 received (returned os) (filter carries_data fs1) /\
      (found_nothing os -> incomplete_part part fs2).
Proof.
  intros N E ts fs c c' ev ev' os l Hoff Hq Hi Hs Hf HE HG Hrun HP.
  pose proof (wait_frames_off N E ts c ev Hoff Hq) as H. unfold wp in H. rewrite Hrun in H. destruct H as ((H1 & H2 & H3 & H4 & H5 & H6) & _).
  assert (Forall keeps_limits (map WaitFrame ts)) as HK by (clear; induction ts; constructor; [exact I|assumption]).
  pose proof (well_exec_all N E _ c HK ev) as W. unfold wp in W. rewrite Hrun in W.
  destruct (W (frame_max c) [] fs HE (idle_pos E _ Hi Hf)) as (a & fs1 & fs2 & -> & R & S & B & F & EQ); auto.
  { rewrite Hs. exact SBUF_nil. }
  { rewrite Hs. exact HP. }
  rewrite Hs in EQ. cbn [app] in EQ. exists fs1, fs2, (a ++ c_sbuf c'). split; [reflexivity|]. split; [exact EQ|].
  split; [rewrite H5; apply received_no_hb, F|]. intros Hn. rewrite (H6 Hn B), app_nil_r in *.
  apply Forall_app in HG. destruct HG as [_ HG]. apply (pos_part E _ _ a fs2 HE R HG).
  rewrite EQ, ser_app in HP. apply prefix_cut in HP. exact HP.
Qed.
(** Heartbeats on: the same, if no received bytes are thrown away ([no_lost]) and
    frames read while a heartbeat was being sent could be queued; frames that were
    pending come first. *)
Theorem C35_with_heartbeats_partial :
  forall (N : nat) (E : nat -> aenv) (timeouts : list (option timeval)) (fs : list (Z * aframe))
         (c c' : conn) (ev ev' : list event) (os : list outcome_t) (l : list obs),
    Forall (entry_valid c) (c_queue c) -> idle (c_in c) -> c_sbuf c = [] -> 0 <= frame_max c < M30 -> never_fails E ->
    Forall (good_frame (frame_max c)) fs ->
    exec_all N E (map WaitFrame timeouts) c ev = Done os c' ev' l ->
    prefix (in_bytes l) (ser fs) -> no_lost l -> no_oom_obs l ->
    exists fs1 fs2 part new, fs = fs1 ++ fs2 /\ in_bytes l = ser fs1 ++ part /\
      no_hb (returned os) ++ no_hb (queued c') = no_hb (queued c) ++ new /\
      Forall2 received new (filter carries_data fs1).
Proof.
  intros N E ts fs c c' ev ev' os l Hv Hi Hs Hf HE HG Hrun HP Hl Ho. apply valid_qalive in Hv.
  pose proof (wait_frames_took N E ts c ev Hv) as H. unfold wp in H. rewrite Hrun in H. destruct H as (_ & H). specialize (H Ho Hl).
  assert (Forall keeps_limits (map WaitFrame ts)) as HK by (clear; induction ts; constructor; [exact I|assumption]).
  pose proof (well_exec_all N E _ c HK ev) as W. unfold wp in W. rewrite Hrun in W.
  destruct (W (frame_max c) [] fs HE (idle_pos E _ Hi Hf)) as (a & fs1 & fs2 & -> & R & S & B & F & EQ); auto.
  { rewrite Hs. exact SBUF_nil. }
  { rewrite Hs. exact HP. }
  rewrite Hs in EQ. cbn [app] in EQ. exists fs1, fs2, (a ++ c_sbuf c'), (no_hb (frames l)). split; [reflexivity|]. split; [exact EQ|].
  rewrite <- !no_hb_app. split; [exact H|apply received_no_hb, F].
Qed.

(** A run: basic.ack on channel 3, a heartbeat, a body frame on channel 4, in three
    pieces; then nothing. *)
Definition sample_stream : list (Z * aframe) := [(3, sample_ack); (0, AHeartbeat); (4, ABody [x68; x69])].
Example C35_case :
  let c := set_in (new_connection 5) idle0 in
  off c /\ idle (c_in c) /\ 0 <= frame_max c < M30 /\ Forall (good_frame (frame_max c)) sample_stream /\
  match exec_all 100 plain_env (map WaitFrame [None; None; Some (mkTv 1 0)]) c
    [EvRecv (ROk (firstn 5 (ser sample_stream))); EvRecv RIntr; EvRecv RAgain; EvPoll PReady;
     EvRecv (ROk (firstn 20 (skipn 5 (ser sample_stream)))); EvRecv (ROk (skipn 25 (ser sample_stream)));
     EvClock 1000000000; EvRecv RAgain; EvClock 1000000001; EvPoll PTimeout] with
  | Done os c' rest l =>
      returned os = [received_frame 0 3 sample_ack; received_frame 0 4 (ABody [x68; x69])] /\
      in_bytes l = ser sample_stream /\ found_nothing os
  | Halt _ _ _ => False
  end.
Proof.
  split; [repeat split|]. split; [repeat split|]. split; [cbn; lia|]. destruct C10_case as (G1 & G2 & G3 & _). split.
  { change (frame_max _) with 4096.
    constructor; [split; [cbn; lia|]; split; [exact G1|]; split; [exact G2|]; split; [exact G3|vm_compute; discriminate]|].
    constructor; [split; [cbn; lia|]; split; [exact I|]; split; [reflexivity|]; split; [exact I|vm_compute; discriminate]|].
    constructor; [split; [cbn; lia|]; split; [exact I|]; split; [reflexivity|]; split; [exact I|vm_compute; discriminate]|]. constructor. }
  vm_compute. split; [reflexivity|]. split; [reflexivity|]. unfold found_nothing.
  match goal with |- exists before st f, [?a; ?b; OutFrame ?s ?g] = _ /\ _ => exists [a; b], s, g end. split; [reflexivity|left; reflexivity].
Qed.

(** With heartbeats the property is false, twice over.  A heartbeat frame read
    while the library waits to send its own heartbeat is queued like any other frame
    and later returned to the caller: *)
Definition beating : conn :=
  set_next_recv (set_next_send (set_limits (set_in (new_connection 5) idle0) 0 65536 1) 1000000000) 2000000000.
Theorem C35_heartbeat_returned_refuted :
  exists (ev : list event),
    match exec_all 100 plain_env [WaitFrame None; WaitFrame None] beating ev with
    | Done os c' rest l =>
        in_bytes l = ser [(0, AHeartbeat); (0, AHeartbeat); (4, ABody [x68; x69])] /\
        returned os = [received_frame 0 4 (ABody [x68; x69]); received_frame 0 0 AHeartbeat]
    | Halt _ _ _ => False
    end.
Proof.
  exists [EvClock 1000000001; EvSend (SOk 3); EvSend SAgain; EvClock 2000000003; EvPoll PTimeout;
          EvClock 2000000004; EvRecv (ROk heartbeat_wire); EvClock 2000000005;
          EvSend SAgain; EvClock 4000000006; EvPoll PTimeout;
          EvAlloc true; EvClock 4000000007; EvRecv (ROk heartbeat_wire); EvClock 4000000008;
          EvSend (SOk 5); EvClock 4000000009;
          EvRecv (ROk (ser_frame 4 (ABody [x68; x69]))); EvClock 4000000010].
  vm_compute. repeat split.
Qed.
(** and a frame read in that situation is overwritten by the next read: *)
Theorem C35_frame_lost_refuted :
  exists (ev : list event),
    match exec_all 100 plain_env [WaitFrame None; WaitFrame None] beating ev with
    | Done os c' rest l =>
        in_bytes l = ser [(3, sample_ack); (4, ABody [x68; x69])] /\
        returned os = [received_frame 0 4 (ABody [x68; x69])] /\ c_queue c' = [] /\ c_sbuf c' = [] /\
        exists f, last os OutNothing = OutFrame AMQP_STATUS_CONNECTION_CLOSED f
    | Halt _ _ _ => False
    end.
Proof.
  exists [EvClock 1000000001; EvSend (SOk 3); EvSend SAgain; EvClock 2000000003; EvPoll PTimeout;
          EvClock 2000000004; EvRecv (ROk (ser_frame 3 sample_ack)); EvClock 2000000005;
          EvSend (SOk 5); EvClock 2000000006;
          EvRecv (ROk (ser_frame 4 (ABody [x68; x69]))); EvClock 2000000007;
          EvClock 2000000008; EvRecv (ROk [])].
  vm_compute. repeat split. eexists. reflexivity.
Qed.

Print Assumptions C35_frames_in_order.
Print Assumptions C35_with_heartbeats_partial.
Print Assumptions C35_heartbeat_returned_refuted.
Print Assumptions C35_frame_lost_refuted.
