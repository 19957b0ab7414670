(** Waiting while heartbeats are switched off: nothing is sent, nothing is lost,
    the queue is left alone. *)
From Coq Require Import String ZArith List Bool Lia.
From Verif Require Import Base BaseFacts Codec TableModel TableSpec TableOps FramingStmt FramingGen FramingModel MethodSpec
  Frame FrameSpec Time Sasl Net NetApi NetSpec NetFacts NetSend NetRecv NetWalk NetAcct NetOrder NetWait.
Import ListNotations.
Local Open Scope Z_scope.


Definition quiet_wait (o : list frame) (c c' : conn) (l : list obs) : Prop :=
  off c' /\ c_queue c' = c_queue c /\ no_lost l /\ no_output l /\ no_oom_obs l /\ exists hbs, no_hb hbs = [] /\ frames l = hbs ++ o.
Definition quiet_stop (c c' : conn) (l : list obs) : Prop :=
  c_queue c' = c_queue c /\ no_lost l /\ no_output l /\ no_oom_obs l /\ no_hb (frames l) = [].
Lemma quiet_wait_refl c : off c -> quiet_wait [] c c [].
Proof. intros H. split; [exact H|]. repeat split; try constructor. exists []. auto. Qed.
Lemma quiet_wait_trans o c c1 c2 l1 l2 : quiet_wait [] c c1 l1 -> quiet_wait o c1 c2 l2 -> quiet_wait o c c2 (l1 ++ l2).
Proof.
  intros (A1 & A2 & A3 & A4 & A5 & h1 & A6 & A7) (B1 & B2 & B3 & B4 & B5 & h2 & B6 & B7). split; [exact B1|]. split; [congruence|].
  split; [apply no_lost_app; auto|]. split; [apply no_output_app; auto|]. split; [apply no_oom_obs_app; auto|].
  exists (h1 ++ h2). rewrite no_hb_app, A6, B6. split; [reflexivity|]. rewrite frames_app, A7, B7, app_nil_r, app_assoc. reflexivity.
Qed.
Lemma quiet_stop_trans c c1 c2 l1 l2 : quiet_wait [] c c1 l1 -> quiet_stop c1 c2 l2 -> quiet_stop c c2 (l1 ++ l2).
Proof.
  intros (A1 & A2 & A3 & A4 & A5 & h1 & A6 & A7) (B2 & B3 & B4 & B5 & B6). split; [congruence|].
  split; [apply no_lost_app; auto|]. split; [apply no_output_app; auto|]. split; [apply no_oom_obs_app; auto|].
  rewrite frames_app, A7, app_nil_r, no_hb_app, A6, B6. reflexivity.
Qed.
Lemma quiet_wait_stop c c' l : quiet_wait [] c c' l -> quiet_stop c c' l.
Proof.
  intros (A1 & A2 & A3 & A4 & A5 & h & A6 & A7). split; [exact A2|]. repeat (split; [assumption|]). rewrite A7, app_nil_r. exact A6.
Qed.
Lemma quiet_idle c c' l : off c' -> c_queue c' = c_queue c -> dry l -> quiet_wait [] c c' l.
Proof.
  intros H1 H2 H3. apply dry_facts in H3. split; [exact H1|]. split; [exact H2|]. split; [tauto|]. split; [tauto|]. split; [tauto|].
  exists []. split; [reflexivity|]. apply H3.
Qed.

Section Off.
Context (N : nat) (E : nat -> aenv).

Lemma recv_off t c ev : off c ->
  wp (recv_with_timeout N N t) c ev
    (fun r c' _ l => off c' /\ c_queue c' = c_queue c /\ no_output l /\ no_oom_obs l /\ frames l = [] /\ (c_sbuf c = [] -> no_lost l) /\
       r <= 0 /\ (r = AMQP_STATUS_TIMEOUT -> t <> amqp_time_infinite /\ c' = c))
    (fun s c' l => c_queue c' = c_queue c /\ no_output l /\ no_oom_obs l /\ frames l = [] /\ (c_sbuf c = [] -> no_lost l)).
Proof.
  intros (O1 & O2 & O3). eapply wp_conseq; [apply recv_with_timeout_ok| |]; cbv beta.
  - intros r c' ev' l [Hr [(-> & Hd & Hn & Ht)|(Hrec & Hnt & Hz)]].
    + apply dry_facts in Hd. split; [repeat split; assumption|]. split; [reflexivity|]. do 4 (split; [tauto|]). split; [exact Hr|]. intros H; auto.
    + pose proof (recvd_keepf _ _ _ Hrec) as Kf. pose proof (no_output_of_recvd N E _ _ _ Hrec) as Ho. apply recvd_facts in Hrec.
      destruct Hrec as (F1 & F2 & F3 & F4 & F5 & F6 & F7 & F8 & F9 & F10 & F11 & F12 & F13 & F14).
      destruct Kf as (_ & _ & Kh & _). split; [|]. { split; [congruence|]. split; [congruence|]. apply Hz, O1. }
      split; [exact F2|]. split; [exact Ho|]. split; [assumption|]. split; [exact F7|]. split; [apply F10|]. split; [exact Hr|]. contradiction.
  - intros s c' l [[(-> & Hd)|Hrec] _].
    + apply dry_facts in Hd. split; [reflexivity|]. tauto.
    + pose proof (no_output_of_recvd N E _ _ _ Hrec) as Ho. apply recvd_facts in Hrec.
      destruct Hrec as (F1 & F2 & F3 & F4 & F5 & F6 & F7 & F8 & F9 & F10 & F11 & F12 & F13 & F14).
      split; [exact F2|]. split; [exact Ho|]. split; [assumption|]. split; [exact F7|]. apply F10.
Qed.

Lemma off_queue c g : off c -> off (set_gens c g).
Proof. auto. Qed.

Lemma wait_loop_off fuel : forall d c ev, off c -> d <= amqp_time_infinite ->
  wp (wait_frame_loop N E fuel false d) c ev
    (fun p c' _ l => quiet_wait (opt (okf (fst p) (snd p))) c c' l)
    (fun s c' l => quiet_stop c c' l).
Proof.
  induction fuel as [|fuel IH]; intros d c ev Hoff Hd; cbn [wait_frame_loop].
  { apply wp_halt. apply quiet_wait_stop, quiet_wait_refl, Hoff. }
  wstep. cbn [negb andb]. destruct (amqp_data_in_buffer c) eqn:Hb.
  - apply wp_bind. eapply wp_conseq; [apply consume_ok| |]; cbv beta.
    2:{ intros s c' l (-> & -> & _). apply quiet_wait_stop, quiet_wait_refl, Hoff. }
    intros [r f] c1 ev1 l1 (-> & G & Fm & Q & Fa & Oom & Lo & Ou & Ib & K1 & K2 & K3 & K4 & K5 & K6 & Hr & Hcase). cbn [fst snd] in *.
    assert (off c1) as Hoff1 by (unfold off in *; destruct Hoff as (?&?&?); repeat split; congruence).
    destruct Hcase as [(Hneg & Hf & _)|(-> & _ & _ & Hf)].
    + destruct (Z.eqb_spec r AMQP_STATUS_OK); [unfold AMQP_STATUS_OK in *; lia|]. cbn [negb]. apply wp_ret. rewrite app_nil_r. cbn [fst snd].
      rewrite okf_not by assumption.
      split; [exact Hoff1|]. repeat (split; [assumption|]). exists []. rewrite Hf. auto.
    + change (AMQP_STATUS_OK =? AMQP_STATUS_OK) with true. cbn [negb]. cbv iota.
      destruct (Z.eqb_spec AMQP_FRAME_HEARTBEAT (f_type f)) as [Ht|Ht].
      * assert (quiet_wait [] c c1 l1) as W1.
        { split; [exact Hoff1|]. repeat (split; [assumption|]). exists [f]. split; [unfold no_hb; cbn; unfold is_heartbeat; rewrite <- Ht; reflexivity|].
          rewrite Hf, <- Ht. reflexivity. }
        apply wp_bind. eapply wp_conseq; [apply release_on_ok| |]; cbv beta.
        2:{ intros s c' l (-> & -> & _). rewrite app_nil_r. apply quiet_wait_stop, W1. }
        intros _ c2 ev2 l2 (-> & Hc2 & ->).
        assert (off c2 /\ quiet_wait [] c c2 l1) as [Hoff2 W2].
        { destruct Hc2 as [->|[g ->]]; [auto|]. split; [exact Hoff1|]. exact W1. }
        eapply wp_conseq; [apply IH; assumption| |]; cbv beta; cbn [app].
        -- intros p c3 ev3 l3 W. eapply quiet_wait_trans; eauto.
        -- intros s c3 l3 W. eapply quiet_stop_trans; eauto.
      * destruct (Z.eqb_spec (f_type f) 0) as [H0|H0]; cbn [negb].
        -- assert (quiet_wait [] c c1 l1) as W1.
           { split; [exact Hoff1|]. repeat (split; [assumption|]). exists []. auto. }
           eapply wp_conseq; [apply IH; assumption| |]; cbv beta.
           ++ intros p c3 ev3 l3 W. eapply quiet_wait_trans; eauto.
           ++ intros s c3 l3 W. eapply quiet_stop_trans; eauto.
        -- apply wp_ret. rewrite app_nil_r. cbn [fst snd].
           split; [exact Hoff1|]. repeat (split; [assumption|]). exists []. split; [reflexivity|exact Hf].
  - assert (c_sbuf c = []) as Hsb by (unfold amqp_data_in_buffer in Hb; destruct (c_sbuf c); [reflexivity|discriminate]).
    pose proof Hoff as (O1 & O2 & O3). rewrite O2. unfold time_has_past. change (UINT64_MAX =? amqp_time_infinite) with true. cbv iota.
    wstep. change (amqp_time_has_past 0 amqp_time_infinite) with AMQP_STATUS_OK.
    change (AMQP_STATUS_OK =? AMQP_STATUS_TIMER_FAILURE) with false. change (AMQP_STATUS_OK =? AMQP_STATUS_TIMEOUT) with false. cbv iota.
    wstep. change (AMQP_STATUS_OK =? AMQP_STATUS_OK) with true. cbn [negb]. cbv iota.
    wstep. cbv zeta. rewrite O2, O3.
    assert (amqp_time_first d (amqp_time_first amqp_time_infinite amqp_time_infinite) = d) as ->.
    { change (amqp_time_first amqp_time_infinite amqp_time_infinite) with amqp_time_infinite. unfold amqp_time_first. destruct (Z.ltb_spec d amqp_time_infinite); lia. }
    apply wp_bind. eapply wp_conseq; [apply recv_off; exact Hoff| |]; cbv beta.
    2:{ intros s c' l (H1 & H2 & H3 & H4 & H5). split; [exact H1|]. rewrite H4. auto. }
    intros r c1 ev1 l1 (H1 & H2 & H3 & H4 & H5 & H6 & H7 & H8).
    assert (quiet_wait [] c c1 l1) as W1.
    { split; [exact H1|]. split; [exact H2|]. split; [auto|]. repeat (split; [assumption|]). exists []. auto. }
    destruct (Z.eqb_spec r AMQP_STATUS_TIMEOUT) as [->|Hnt].
    + destruct (H8 eq_refl) as [Hinf ->]. wstep. rewrite O3. unfold amqp_time_equal.
      destruct (Z.eqb_spec d amqp_time_infinite); [contradiction|]. rewrite Z.eqb_refl. apply wp_ret. rewrite app_nil_r. cbn [fst snd].
      exact W1.
    + destruct (Z.eqb_spec r AMQP_STATUS_OK) as [->|Hn]; cbn [negb].
      * eapply wp_conseq; [apply IH; assumption| |]; cbv beta.
        -- intros p c3 ev3 l3 W. eapply quiet_wait_trans; eauto.
        -- intros s c3 l3 W. eapply quiet_stop_trans; eauto.
      * apply wp_ret. rewrite app_nil_r. cbn [fst snd]. rewrite okf_not by assumption. exact W1.
Qed.
Lemma wait_off d c ev : off c -> d <= amqp_time_infinite ->
  wp (wait_frame_inner N E d) c ev
    (fun p c' _ l => quiet_wait (opt (okf (fst p) (snd p))) c c' l)
    (fun s c' l => quiet_stop c c' l).
Proof. apply wait_loop_off. Qed.
End Off.
