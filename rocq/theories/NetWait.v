(** Waiting for a frame: what is delivered, what is queued, what is sent. *)
From Coq Require Import String ZArith List Bool Lia.
From Verif Require Import Base BaseFacts Codec TableModel TableSpec TableOps FramingStmt FramingGen FramingModel MethodSpec
  Frame FrameSpec Time Sasl Net NetApi NetSpec NetFacts NetSend NetRecv NetWalk NetAcct NetOrder.
Import ListNotations.
Local Open Scope Z_scope.

(** *** Heartbeats on the wire *)
Lemma heartbeat_bytes buf st buf' enc : amqp_frame_to_bytes heartbeat_frame buf = FRet st buf' enc -> st = AMQP_STATUS_OK /\ enc = heartbeat_wire.
Proof.
  unfold amqp_frame_to_bytes, heartbeat_frame. cbn [f_type f_chan f_pay].
  change (AMQP_FRAME_HEARTBEAT =? AMQP_FRAME_BODY) with false. change (AMQP_FRAME_HEARTBEAT =? AMQP_FRAME_METHOD) with false.
  change (AMQP_FRAME_HEARTBEAT =? AMQP_FRAME_HEADER) with false. change (AMQP_FRAME_HEARTBEAT =? AMQP_FRAME_HEARTBEAT) with true. cbv iota.
  unfold frame_finish. change (add_size HEADER_SIZE 0) with 7. change (add_size 0 (HEADER_SIZE + FOOTER_SIZE)) with 8.
  unfold e_at.
  change (amqp_e LittleEndian W8 (AMQP_FRAME_HEARTBEAT mod wmod W8)) with [x08].
  change (amqp_e LittleEndian W16 (0 mod wmod W16)) with [x00; x00].
  change (amqp_e LittleEndian W32 (u32 0 mod wmod W32)) with [x00; x00; x00; x00].
  change (amqp_e LittleEndian W8 (AMQP_FRAME_END mod wmod W8)) with [xce].
  destruct (write buf 0 [x08]) as [m1|] eqn:H1; [|discriminate].
  destruct (write m1 1 [x00; x00]) as [m2|] eqn:H2; [|discriminate].
  destruct (write m2 3 [x00; x00; x00; x00]) as [m3|] eqn:H3; [|discriminate].
  destruct (write m3 7 [xce]) as [m4|] eqn:H4; [|discriminate]. cbv zeta.
  destruct (slice m4 0 8) as [enc'|] eqn:H5; [|discriminate]. intros H; inversion H; subst. split; [reflexivity|].
  apply slice_inv in H5. apply write_inv in H1, H2, H3, H4.
  destruct H1 as (_ & L1 & ->). destruct H2 as (_ & L2 & ->). destruct H3 as (_ & L3 & ->). destruct H4 as (_ & L4 & ->).
  destruct H5 as (_ & _ & _ & _ & ->). rewrite !zlen_patch in L4 by (try assumption; lia).
  destruct buf as [|b0 [|b1 [|b2 [|b3 [|b4 [|b5 [|b6 [|b7 rest]]]]]]]]; try (cbv in L4; contradiction (L4 eq_refl)).
  reflexivity.
Qed.

Lemma whole_nil : whole_beats [].
Proof. exists 0%nat. reflexivity. Qed.
Lemma whole_app a b : whole_beats a -> whole_beats b -> whole_beats (a ++ b).
Proof. intros [n ->] [m ->]. exists (n + m)%nat. rewrite repeat_app, concat_app. reflexivity. Qed.
Lemma beats_app a b : whole_beats a -> beats b -> beats (a ++ b).
Proof. intros [n ->] (m & p & -> & Hp). exists (n + m)%nat, p. rewrite repeat_app, concat_app, app_assoc. auto. Qed.
Lemma whole_beats_beats a : whole_beats a -> beats a.
Proof. intros [n ->]. exists n, []. rewrite app_nil_r. split; [reflexivity|apply prefix_nil]. Qed.
Lemma beats_prefix p : prefix p heartbeat_wire -> beats p.
Proof. exists 0%nat, p. auto. Qed.
Lemma whole_one : whole_beats heartbeat_wire.
Proof. exists 1%nat. cbn. reflexivity. Qed.

Definition okf (r : Z) (f : frame) : option frame := if r =? AMQP_STATUS_OK then Some f else None.
Lemma okf_not r f : r <> AMQP_STATUS_OK -> okf r f = None.
Proof. intros H. unfold okf. destruct (Z.eqb_spec r AMQP_STATUS_OK); [contradiction|reflexivity]. Qed.
(** every frame decoded (other than heartbeats) is delivered or in the queue *)
Definition took (c c' : conn) (l : list obs) (o : option frame) : Prop :=
  no_oom_obs l -> no_hb (queued c ++ frames l) = no_hb (queued c' ++ opt o).
Lemma took_step c c1 c2 l1 l2 o : (no_oom_obs l1 -> no_hb (queued c ++ frames l1) = no_hb (queued c1)) -> took c1 c2 l2 o -> took c c2 (l1 ++ l2) o.
Proof.
  intros H1 H2 Ho. apply no_oom_obs_app in Ho. destruct Ho as [Ho1 Ho2]. rewrite <- (H2 Ho2), frames_app, app_assoc, no_hb_app, (H1 Ho1), <- no_hb_app. reflexivity.
Qed.
Lemma took_none c c' l : (no_oom_obs l -> no_hb (queued c ++ frames l) = no_hb (queued c')) -> took c c' l None.
Proof. intros H Ho. cbn. rewrite app_nil_r. auto. Qed.
Lemma qacc_took c c' l : qacc c c' l -> no_oom_obs l -> no_hb (queued c ++ frames l) = no_hb (queued c').
Proof. intros H Ho. rewrite (H Ho). reflexivity. Qed.

(** what waiting leaves alone *)
Definition keepw (c c' : conn) : Prop :=
  frame_max c' = frame_max c /\ c_hb c' = c_hb c /\ c_chmax c' = c_chmax c /\ zlen (c_outbuf c') = zlen (c_outbuf c) /\ (c_fd c' = c_fd c \/ c_fd c' = -1).
Lemma keepw_refl c : keepw c c.
Proof. unfold keepw. auto 10. Qed.
Lemma keepw_trans a b c : keepw a b -> keepw b c -> keepw a c.
Proof. unfold keepw. intros (A1&A2&A3&A4&A5) (B1&B2&B3&B4&B5). repeat split; try congruence. destruct A5 as [A|A], B5 as [B|B]; rewrite ?B, ?A; auto. Qed.

Record waited (skip : bool) (r : Z) (f : frame) (c c' : conn) (l : list obs) : Prop := mkWaited {
  wt_res : r <= 0;
  wt_took : took c c' l (okf r f);
  wt_order : r = AMQP_STATUS_OK -> no_lost l -> skip = false \/ c_sbuf c = [] ->
    c_queue c' = c_queue c /\ exists hbs, no_hb hbs = [] /\ frames l = hbs ++ [f];
  wt_lost : r = AMQP_STATUS_OK -> skip = true -> c_sbuf c <> [] -> ~ no_lost l;
  wt_last : r = AMQP_STATUS_OK -> exists pre, frames l = pre ++ [f];
  wt_type : r = AMQP_STATUS_OK -> f_type f <> 0 /\ f_type f <> 8;
  wt_beats : beats (out_bytes l);
  wt_whole : r = AMQP_STATUS_OK -> whole_beats (out_bytes l);
  wt_keep : keepw c c' }.

Section Wait.
Context (N : nat) (E : nat -> aenv).

Lemma waited_err skip r f c c' l : r < 0 -> (no_oom_obs l -> no_hb (queued c ++ frames l) = no_hb (queued c')) -> beats (out_bytes l) -> keepw c c' -> waited skip r f c c' l.
Proof.
  intros H1 H2 H3 H4. assert (r <> AMQP_STATUS_OK) by (unfold AMQP_STATUS_OK; lia).
  split; try contradiction; auto; [lia|]. rewrite okf_not by assumption. apply took_none, H2.
Qed.

(** a part without losses in front *)
Lemma waited_step skip skip' r f c c1 c2 l1 l2 :
  (no_oom_obs l1 -> no_hb (queued c ++ frames l1) = no_hb (queued c1)) -> whole_beats (out_bytes l1) -> keepw c c1 ->
  ((skip = false \/ c_sbuf c = []) -> no_lost l1 ->
     (c_queue c1 = c_queue c /\ no_hb (frames l1) = [] /\ (skip' = false \/ c_sbuf c1 = [])) \/ (skip' = true /\ c_sbuf c1 <> [])) ->
  (skip = true -> c_sbuf c <> [] -> ~ no_lost l1 \/ (skip' = true /\ c_sbuf c1 <> [])) ->
  waited skip' r f c1 c2 l2 -> waited skip r f c c2 (l1 ++ l2).
Proof.
  intros H1 H2 H3 H4 H5 W. destruct W as [F1 F2 F3 F4 F9 F5 F6 F7 F8]. split; auto.
  - eapply took_step; eauto.
  - intros Hr Hl Hs. apply no_lost_app in Hl. destruct Hl as [Hl1 Hl2]. destruct (H4 Hs Hl1) as [(G1 & G2 & G3)|[G1 G2]].
    + destruct (F3 Hr Hl2 G3) as (K1 & hbs & K2 & K3). split; [congruence|]. exists (frames l1 ++ hbs). rewrite no_hb_app, G2, K2.
      split; [reflexivity|]. rewrite frames_app, K3, app_assoc. reflexivity.
    + exfalso. apply (F4 Hr G1 G2 Hl2).
  - intros Hr Hs Hne Hl. apply no_lost_app in Hl. destruct Hl as [Hl1 Hl2]. destruct (H5 Hs Hne) as [G|[G1 G2]]; [auto|apply (F4 Hr G1 G2 Hl2)].
  - intros Hr. destruct (F9 Hr) as [pre Hpre]. exists (frames l1 ++ pre). rewrite frames_app, Hpre, app_assoc. reflexivity.
  - rewrite out_bytes_app. apply beats_app; auto.
  - intros Hr. rewrite out_bytes_app. apply whole_app; auto.
  - eapply keepw_trans; eauto.
Qed.

Lemma release_on_ok ch c ev :
  wp (amqp_maybe_release_buffers_on_channel ch) c ev
    (fun _ c' ev' l => ev' = ev /\ (c' = c \/ exists g, c' = set_gens c g) /\ l = [])
    (fun s c' l => c' = c /\ l = [] /\ s = UB).
Proof.
  unfold amqp_maybe_release_buffers_on_channel. wstep. destruct (i_state _); try (apply wp_ret; auto).
  destruct (negb _); [apply wp_halt; auto|]. destruct (existsb _ _); [apply wp_ret; auto|]. apply wp_upd. eauto.
Qed.
Lemma socket_close_ok c ev :
  wp amqp_socket_close c ev
    (fun r c' _ l => no_output l /\ idle_log l /\ no_oom_obs l /\ r <= 0 /\
       ((c' = c /\ (c_fd c = -1 \/ In (OClose false) l)) \/ (c' = set_fd c (-1) /\ c_fd c <> -1)))
    (fun s c' l => c' = c /\ l = [] /\ s = Blocked).
Proof.
  unfold amqp_socket_close. wstep. destruct (Z.eqb_spec (c_fd c) (-1)).
  - apply wp_ret. split; [constructor|]. split; [apply idle_log_nil|]. split; [constructor|]. split; [cbv; discriminate|]. left; auto.
  - apply wp_bind. unfold wp at 1, sys_close. destruct ev as [|[] ev]; auto.
    destruct ok; cbn [negb].
    + wstep. apply wp_ret. split; [repeat constructor|]. split; [apply idle_one; discriminate|]. split; [repeat constructor|].
      split; [cbv; discriminate|]. right; auto.
    + apply wp_ret. split; [repeat constructor|]. split; [apply idle_one; discriminate|]. split; [repeat constructor|].
      split; [cbv; discriminate|]. left. split; [reflexivity|]. right. left. reflexivity.
Qed.

Lemma wait_loop_ok fuel : forall skip d c ev,
  wp (wait_frame_loop N E fuel skip d) c ev
    (fun p c' _ l => waited skip (fst p) (snd p) c c' l)
    (fun s c' l => beats (out_bytes l)).
Proof.
  assert (forall l, no_output l -> whole_beats (out_bytes l)) as Hno by (intros l H; rewrite (no_output_out _ H); apply whole_nil).
  induction fuel as [|fuel IH]; intros skip d c ev; cbn [wait_frame_loop].
  { apply wp_halt. apply whole_beats_beats, whole_nil. }
  wstep. destruct (negb skip && amqp_data_in_buffer c) eqn:Hb.
  - apply andb_true_iff in Hb. destruct Hb as [Hskip _]. apply negb_true_iff in Hskip. subst skip.
    apply wp_bind. eapply wp_conseq; [apply consume_ok| |]; cbv beta.
    2:{ intros s c' l (-> & -> & _). apply whole_beats_beats, whole_nil. }
    intros [r f] c1 ev1 l1 (-> & G & Fm & Q & Fa & Oom & Lo & Ou & Ib & K1 & K2 & K3 & K4 & K5 & K6 & Hr & Hcase). cbn [fst snd] in *.
    assert (keepw c c1) as K by (unfold keepw; rewrite K4; auto 10).
    pose proof (Hno _ Ou) as Hw.
    assert (queued c1 = queued c) as Qd by (unfold queued; rewrite Q; reflexivity).
    destruct Hcase as [(Hneg & Hf & _)|(-> & _ & _ & Hf)].
    + destruct (Z.eqb_spec r AMQP_STATUS_OK); [unfold AMQP_STATUS_OK in *; lia|]. cbn [negb]. apply wp_ret. rewrite app_nil_r. cbn [fst snd].
      apply waited_err; [exact Hneg|intros _; rewrite Hf, Qd, app_nil_r; reflexivity|apply whole_beats_beats, Hw|exact K].
    + cbn [negb]. change (AMQP_STATUS_OK =? AMQP_STATUS_OK) with true. cbn [negb]. cbv iota.
      destruct (Z.eqb_spec AMQP_FRAME_HEARTBEAT (f_type f)) as [Ht|Ht].
      * assert (frames l1 = [f]) as Hf1 by (rewrite Hf, <- Ht; reflexivity).
        assert (no_hb [f] = []) as Hnh by (unfold no_hb; cbn; unfold is_heartbeat; rewrite <- Ht; reflexivity).
        apply wp_bind. eapply wp_conseq; [apply release_on_ok| |]; cbv beta.
        2:{ intros s c' l (-> & -> & _). rewrite app_nil_r. apply whole_beats_beats, Hw. }
        intros _ c2 ev2 l2 (-> & Hc2 & ->).
        assert (c_queue c2 = c_queue c /\ keepw c1 c2) as [Q2 K'] by (destruct Hc2 as [->|[g ->]]; (split; [exact Q|unfold keepw; auto 10])).
        eapply wp_conseq; [apply IH| |]; cbv beta.
        -- intros p c3 ev3 l3 W. cbn [app]. eapply (waited_step _ false); [| | | | |exact W].
           ++ intros _. unfold queued. rewrite Q2, Hf1, no_hb_app, Hnh, app_nil_r. reflexivity.
           ++ exact Hw.
           ++ eapply keepw_trans; eauto.
           ++ intros _ _. left. rewrite Hf1. auto.
           ++ discriminate.
        -- intros s c3 l3 H. cbn [app]. rewrite out_bytes_app. apply beats_app; auto.
      * destruct (Z.eqb_spec (f_type f) 0) as [H0|H0]; cbn [negb].
        -- eapply wp_conseq; [apply IH| |]; cbv beta.
           ++ intros p c3 ev3 l3 W. eapply (waited_step _ false); [| | | | |exact W].
              ** intros _. rewrite Hf, Qd, app_nil_r. reflexivity.
              ** exact Hw.
              ** exact K.
              ** intros _ _. left. rewrite Hf. auto.
              ** discriminate.
           ++ intros s c3 l3 H. rewrite out_bytes_app. apply beats_app; auto.
        -- apply wp_ret. rewrite app_nil_r. cbn [fst snd]. split; auto.
           ++ intros _. unfold okf. cbn. rewrite Hf, Qd. reflexivity.
           ++ intros _ _ _. split; [exact Q|]. exists []. split; [reflexivity|exact Hf].
           ++ discriminate.
           ++ intros _. exists []. exact Hf.
           ++ apply whole_beats_beats, Hw.
  - assert (skip = true \/ c_sbuf c = []) as Hskip.
    { destruct skip; [auto|]. right. cbn in Hb. unfold amqp_data_in_buffer in Hb. destruct (c_sbuf c); [reflexivity|discriminate]. }
    clear Hb. apply wp_bind.
    eapply (silent_wp (time_has_past (c_next_send c))); [apply silent_time_past| |].
    2:{ intros s l Hq _ _. apply whole_beats_beats, Hno, quiet_output, Hq. }
    intros r ev1 l1 Hq1. pose proof (idle_quiet _ Hq1) as (J1 & J2 & J3 & J4). pose proof (no_output_out _ (quiet_output _ Hq1)) as Jo.
    pose proof (no_oom_quiet _ Hq1) as Joom.
    destruct (Z.eqb_spec r AMQP_STATUS_TIMER_FAILURE) as [->|_].
    { apply wp_ret. rewrite app_nil_r. cbn [fst snd].
      apply waited_err; [reflexivity|intros _; rewrite J2, app_nil_r; reflexivity|rewrite Jo; apply whole_beats_beats, whole_nil|apply keepw_refl]. }
    apply wp_bind.
    (* the heartbeat *)
    apply (wp_conseq _ _ _ (fun r2 c2 _ l2 => r2 <= 0 /\ qacc c c2 l2 /\ beats (out_bytes l2) /\ (r2 = AMQP_STATUS_OK -> whole_beats (out_bytes l2)) /\ keepw c c2 /\
        ((same c c2 /\ idle_log l2) \/ (r2 = AMQP_STATUS_OK -> c_sbuf c2 <> []))) _ (fun s c2 l2 => beats (out_bytes l2))).
    { destruct (_ =? _).
      - unfold amqp_send_frame. eapply wp_conseq; [apply send_frame_ok; cbv; discriminate| |]; cbv beta.
        + intros r2 c2 ev2 l2 Hs. pose proof (sent_f_facts _ _ _ _ _ _ Hs) as (S1 & S2 & S3 & S4 & _).
          destruct Hs as (st & buf & enc & c1 & Hf & -> & _ & Hs). apply heartbeat_bytes in Hf. destruct Hf as [-> ->].
          destruct Hs as [(Hst & _)|(_ & Hs)]; [contradiction|]. destruct Hs as [F1 F2 F3 F4 F5 F6 F7 F8 F9 F10].
          split; [exact F1|]. split; [exact S1|]. split; [apply beats_prefix, F3|].
          split; [intros G; rewrite (F4 G); apply whole_one|].
          split; [destruct S3 as (? & ? & ? & ?); unfold keepw; auto 10|]. destruct S2 as [(?&?&?)|?]; auto.
        + intros s c2 l2 [(_ & _ & _ & ->)|(buf & enc & Hf & Hp)]; [apply whole_beats_beats, whole_nil|].
          apply heartbeat_bytes in Hf. destruct Hf as [_ ->]. apply beats_prefix, Hp.
      - apply wp_ret. split; [cbv; discriminate|]. split; [apply (comp_refl _ comp_qacc)|]. split; [apply whole_beats_beats, whole_nil|].
        split; [intros _; apply whole_nil|]. split; [apply keepw_refl|]. left. split; [apply same_refl|apply idle_log_nil]. }
    2:{ cbv beta. intros s c2 l2 H. rewrite out_bytes_app, Jo. exact H. }
    cbv beta. intros r2 c2 ev2 l2 (B1 & B2 & B3 & B4 & B5 & B6).
    assert (no_oom_obs (l1 ++ l2) -> no_hb (queued c ++ frames (l1 ++ l2)) = no_hb (queued c2)) as Bt.
    { intros Ho. apply no_oom_obs_app in Ho. rewrite frames_app, J2. cbn. apply (qacc_took _ _ _ B2). tauto. }
    assert (out_bytes (l1 ++ l2) = out_bytes l2) as Bo by (rewrite out_bytes_app, Jo; reflexivity).
    destruct (Z.eqb_spec r2 AMQP_STATUS_OK) as [->|Hr2]; cbn [negb].
    2:{ apply wp_ret. rewrite app_nil_r. cbn [fst snd]. apply waited_err; [unfold AMQP_STATUS_OK in *; lia|exact Bt|rewrite Bo; exact B3|exact B5]. }
    specialize (B4 eq_refl). wstep. cbv zeta.
    assert (forall skip', (skip' = false -> c_sbuf c2 = []) -> (skip = false \/ c_sbuf c = []) -> no_lost (l1 ++ l2) ->
       (c_queue c2 = c_queue c /\ no_hb (frames (l1 ++ l2)) = [] /\ (skip' = false \/ c_sbuf c2 = [])) \/ (skip' = true /\ c_sbuf c2 <> [])) as Border.
    { intros skip' Hs' Hs _. assert (c_sbuf c = []) as Hsb by (destruct Hs, Hskip; congruence).
      destruct B6 as [[Hsame (I1 & I2 & _)]|Hne].
      - left. destruct Hsame as (_ & S1 & S2 & _). split; [exact S2|]. rewrite frames_app, J2, I2. split; [reflexivity|]. right. congruence.
      - right. specialize (Hne eq_refl). split; [|exact Hne]. destruct skip'; [reflexivity|]. contradiction (Hne (Hs' eq_refl)). }
    assert (skip = true -> c_sbuf c <> [] -> c_sbuf c2 <> []) as Blost.
    { intros _ Hne. destruct B6 as [[(_ & S1 & _) _]|H]; [congruence|auto]. }
    apply wp_bind. eapply wp_conseq; [apply recv_with_timeout_ok| |]; cbv beta.
    2:{ intros s c3 l3 [[(-> & H)|H] _]; rewrite app_assoc, out_bytes_app, Bo; (replace (out_bytes l3) with (@nil Byte.byte); [rewrite app_nil_r; exact B3|symmetry]).
        - apply dry_facts in H. tauto.
        - apply recvd_facts in H. tauto. }
    intros r3 c3 ev3 l3 [Hr3 [(-> & Hdry & Hnok & _)|(Hrec & Hnt & _)]].
    + apply dry_facts in Hdry. destruct Hdry as (D1 & D2 & D3 & D4 & D5 & D6 & D7).
      assert (no_oom_obs ((l1 ++ l2) ++ l3) -> no_hb (queued c ++ frames ((l1 ++ l2) ++ l3)) = no_hb (queued c2)) as Bt3.
      { intros Ho. apply no_oom_obs_app in Ho. rewrite frames_app, D3, app_nil_r. apply Bt. tauto. }
      assert (out_bytes ((l1 ++ l2) ++ l3) = out_bytes l2) as Bo3 by (rewrite out_bytes_app, D2, app_nil_r; exact Bo).
      destruct (Z.eqb_spec r3 AMQP_STATUS_TIMEOUT) as [->|_].
      * wstep. match goal with |- wp (if ?b then _ else _) _ _ _ _ => destruct b eqn:He1 end.
        { apply wp_bind. eapply wp_conseq; [apply socket_close_ok| |]; cbv beta.
          - intros r4 c4 ev4 l4 (C1 & (C2 & C3 & _) & C4 & C5 & C6). apply wp_ret. rewrite app_nil_r. cbn [fst snd].
            rewrite !app_assoc. apply waited_err; [reflexivity| | |].
            + intros Ho. apply no_oom_obs_app in Ho. rewrite frames_app, C3, app_nil_r.
              replace (queued c4) with (queued c2); [apply Bt3; tauto|]. destruct C6 as [[-> _]|[-> _]]; reflexivity.
            + rewrite out_bytes_app, Bo3, (no_output_out _ C1), app_nil_r. exact B3.
            + eapply keepw_trans; [exact B5|]. destruct C6 as [[-> _]|[-> _]]; unfold keepw; auto 10.
          - intros s c4 l4 (-> & -> & _). rewrite app_nil_r, app_assoc, Bo3. exact B3. }
        match goal with |- wp (if ?b then _ else _) _ _ _ _ => destruct b eqn:He2 end.
        { apply wp_ret. cbn [fst snd]. rewrite app_nil_r, !app_assoc. apply waited_err; [reflexivity|exact Bt3|rewrite Bo3; exact B3|exact B5]. }
        match goal with |- wp (if ?b then _ else _) _ _ _ _ => destruct b eqn:He3 end.
        2:{ apply wp_halt. rewrite app_nil_r, app_assoc, Bo3. exact B3. }
        eapply wp_conseq; [apply IH| |]; cbv beta.
        -- intros p c4 ev4 l4 W. rewrite app_assoc, app_assoc. eapply (waited_step _ true); [exact Bt3|rewrite Bo3; exact B4|exact B5| | |exact W].
           ++ intros Hs Hl. apply no_lost_app in Hl. destruct Hl as [Hl _]. rewrite frames_app, D3, app_nil_r. apply Border; [discriminate|exact Hs|exact Hl].
           ++ intros Hs Hne. right. auto.
        -- intros s c4 l4 H. rewrite app_assoc, app_assoc, out_bytes_app, Bo3. apply beats_app; auto.
      * destruct (Z.eqb_spec r3 AMQP_STATUS_OK); [contradiction|]. cbn [negb]. apply wp_ret. cbn [fst snd]. rewrite app_nil_r, !app_assoc.
        apply waited_err; [unfold AMQP_STATUS_OK in *; lia|exact Bt3|rewrite Bo3; exact B3|exact B5].
    + pose proof (recvd_keepf _ _ _ Hrec) as Kf. apply recvd_facts in Hrec. destruct Hrec as (F1 & F2 & F3 & F4 & F5 & F6 & F7 & F8 & F9 & F10 & F11 & F12 & F13 & F14).
      assert (queued c3 = queued c2) as Qd by (unfold queued; rewrite F2; reflexivity).
      assert (no_oom_obs ((l1 ++ l2) ++ l3) -> no_hb (queued c ++ frames ((l1 ++ l2) ++ l3)) = no_hb (queued c3)) as Bt3.
      { intros Ho. apply no_oom_obs_app in Ho. rewrite frames_app, F7, app_nil_r, Qd. apply Bt. tauto. }
      assert (out_bytes ((l1 ++ l2) ++ l3) = out_bytes l2) as Bo3 by (rewrite out_bytes_app, F6, app_nil_r; exact Bo).
      assert (keepw c c3) as K3 by (eapply keepw_trans; [exact B5|]; destruct Kf as (?&?&?&?); unfold keepw; rewrite F12; auto 10).
      destruct (Z.eqb_spec r3 AMQP_STATUS_TIMEOUT) as [->|_]; [contradiction|].
      destruct (Z.eqb_spec r3 AMQP_STATUS_OK) as [->|Hr3n]; cbn [negb].
      * eapply wp_conseq; [apply IH| |]; cbv beta.
        -- intros p c4 ev4 l4 W. rewrite app_assoc, app_assoc. eapply (waited_step _ false); [exact Bt3|rewrite Bo3; exact B4|exact K3| | |exact W].
           ++ intros Hs Hl. apply no_lost_app in Hl. destruct Hl as [Hl Hl3]. left. apply F10 in Hl3.
              destruct (Border false (fun _ => Hl3) Hs Hl) as [(G1 & G2 & _)|[G1 _]]; [|discriminate].
              split; [congruence|]. split; [rewrite frames_app, F7, app_nil_r; exact G2|auto].
           ++ intros Hs Hne. left. intros Hl. apply no_lost_app in Hl. destruct Hl as [_ Hl3]. apply F10 in Hl3. apply (Blost Hs Hne Hl3).
        -- intros s c4 l4 H. rewrite app_assoc, app_assoc, out_bytes_app, Bo3. apply beats_app; auto.
      * apply wp_ret. cbn [fst snd]. rewrite app_nil_r, !app_assoc.
        apply waited_err; [unfold AMQP_STATUS_OK in *; lia|exact Bt3|rewrite Bo3; exact B3|exact K3].
Qed.
Lemma wait_inner_ok d c ev :
  wp (wait_frame_inner N E d) c ev (fun p c' _ l => waited false (fst p) (snd p) c c' l) (fun s c' l => beats (out_bytes l)).
Proof. apply wait_loop_ok. Qed.
End Wait.
