(** Accounting: every decoded frame is delivered or queued, in order. *)
From Coq Require Import String ZArith List Bool Lia.
From Verif Require Import Base BaseFacts Codec TableModel TableSpec TableOps FramingStmt FramingGen FramingModel MethodSpec
  Frame FrameSpec Time Sasl Net NetApi NetSpec NetFacts NetSend NetRecv NetWalk NetAcct.
Import ListNotations.
Local Open Scope Z_scope.

(** fields that receiving and sending leave alone *)
Definition keepf (c c' : conn) : Prop :=
  frame_max c' = frame_max c /\ c_fd c' = c_fd c /\ c_hb c' = c_hb c /\ c_chmax c' = c_chmax c.
Lemma keepf_refl c : keepf c c.
Proof. repeat split. Qed.
Lemma keepf_trans a b c : keepf a b -> keepf b c -> keepf a c.
Proof. unfold keepf. intros (?&?&?&?) (?&?&?&?). repeat split; congruence. Qed.

Definition opt {A} (o : option A) : list A := match o with Some a => [a] | None => [] end.
(** what was decoded is in the queue *)
Definition qacc (c c' : conn) (l : list obs) : Prop := no_oom_obs l -> queued c' = queued c ++ frames l.
Lemma comp_qacc : comp qacc.
Proof.
  split; [intros c _; symmetry; apply app_nil_r|].
  intros c c1 c2 l1 l2 B1 B2 H. apply no_oom_obs_app in H. rewrite frames_app, app_assoc, <- B1, <- B2; tauto.
Qed.
Lemma qacc_same c c' l : c_queue c' = c_queue c -> frames l = [] -> qacc c c' l.
Proof. intros H2 H3 _. unfold queued. rewrite H2, H3, app_nil_r. auto. Qed.

Lemma no_oom_quiet l : quiet l -> no_oom_obs l.
Proof. intros H. apply quiet_dry, dry_facts in H. tauto. Qed.
Section Order.
Context (N : nat) (E : nat -> aenv).

Lemma drain_ok fuel : forall c ev,
  wp (try_recv_drain E fuel) c ev
    (fun r c' _ l => r <= 0 /\ qacc c c' l /\ (r = AMQP_STATUS_OK -> c_sbuf c' = []) /\ no_lost l /\ in_bytes l = [] /\ no_output l /\
       keepf c c' /\ c_outbuf c' = c_outbuf c /\ c_next_send c' = c_next_send c /\ c_next_recv c' = c_next_recv c)
    (fun s c' l => no_output l).
Proof.
  induction fuel as [|fuel IH]; intros c ev; cbn [try_recv_drain]; [apply wp_halt; constructor|].
  wstep. destruct (c_sbuf c) as [|b bs] eqn:Hs; unfold amqp_data_in_buffer at 1; rewrite Hs; cbn [negb].
  { apply wp_ret. split; [unfold AMQP_STATUS_OK; lia|]. split; [apply (comp_refl _ comp_qacc)|]. split; [auto|]. repeat split; constructor. }
  apply wp_bind. eapply wp_conseq; [apply consume_ok| |].
  2:{ cbv beta. intros s c' l (-> & -> & _). constructor. }
  cbv beta. intros [r f] c1 ev1 l1 (-> & G & Fm & Q & Fa & Oom & Lo & Ou & Ib & K1 & K2 & K3 & K4 & K5 & K6 & Hr & Hcase). cbn [fst snd] in *.
  assert (keepf c c1) as K by (repeat split; assumption).
  destruct Hcase as [(Hneg & Hf & _)|(-> & _ & _ & Hf)].
  - destruct (Z.eqb_spec r AMQP_STATUS_OK); [unfold AMQP_STATUS_OK in *; lia|]. apply wp_ret. rewrite app_nil_r.
    split; [exact Hr|]. split; [apply qacc_same; auto|]. split; [contradiction|]. repeat (split; [assumption|]). assumption.
  - destruct (Z.eqb_spec (f_type f) 0) as [Ht|Ht]; cbn [negb Z.eqb].
    + eapply wp_conseq; [apply IH| |]; cbv beta.
      * intros r c' ev' l (H1 & H2 & H3 & H4 & H5 & H6 & H7 & H8 & H9 & H10). split; [exact H1|].
        split; [apply (comp_trans _ comp_qacc c c1); [apply qacc_same; auto|exact H2]|]. split; [exact H3|].
        split; [apply no_lost_app; auto|]. split; [rewrite in_bytes_app, Ib, H5; reflexivity|]. split; [apply no_output_app; auto|].
        split; [eapply keepf_trans; eauto|]. repeat split; congruence.
      * intros s c' l H1. apply no_output_app; auto.
    + apply wp_bind. eapply wp_conseq; [apply create_link_ok| |]; cbv beta.
      2:{ intros s c' l (-> & _ & H3 & _). apply no_output_app; auto. }
      intros o c' ev' l2 (-> & (I1 & I2 & I3 & I4) & Ou2 & Hcr).
      destruct Hcr as [->|[-> Hoom]].
      * apply wp_bind. apply wp_upd. eapply wp_conseq; [apply IH| |]; cbv beta.
        -- intros r c' ev2 l (H1 & H2 & H3 & H4 & H5 & H6 & H7 & H8 & H9 & H10). split; [exact H1|].
           split.
           { intros Hoom. apply no_oom_obs_app in Hoom. destruct Hoom as [_ Hoom]. apply no_oom_obs_app in Hoom. destruct Hoom as [_ Hoom].
             rewrite (H2 Hoom). unfold queued. cbn [c_queue set_queue]. rewrite map_app, Q, !frames_app, Hf, I2. cbn.
             rewrite <- !app_assoc. reflexivity. }
           split; [exact H3|].
           split; [repeat (apply no_lost_app; split); auto; constructor|]. split; [rewrite !in_bytes_app, Ib, I1, H5; reflexivity|].
           split; [repeat (apply no_output_app; split); auto; constructor|].
           split; [eapply keepf_trans; [exact K|exact H7]|]. cbn in *. repeat split; congruence.
        -- intros s c' l H1. repeat (apply no_output_app; split); auto; constructor.
      * apply wp_ret. rewrite app_nil_r. split; [cbv; discriminate|].
        split; [intros Ho; apply no_oom_obs_app in Ho; destruct Ho as [_ Ho]; contradiction|]. split; [discriminate|].
        split; [apply no_lost_app; auto|]. split; [rewrite in_bytes_app, Ib, I1; reflexivity|]. split; [apply no_output_app; auto|].
        auto.
Qed.

Lemma qacc_recvd c c' l : recvd c c' l -> qacc c c' l.
Proof. intros H. apply recvd_facts in H. decompose [and] H. apply qacc_same; auto. Qed.
Lemma recvd_keepf c c' l : recvd c c' l -> keepf c c'.
Proof.
  intros (bs & l1 & l2 & _ & _ & [->|[t ->]] & _); repeat split.
Qed.
Lemma no_output_of_recvd c c' l : recvd c c' l -> no_output l.
Proof.
  intros (bs & l1 & l2 & _ & _ & _ & Hd & Hq & ->). apply dry_facts in Hd. apply quiet_output in Hq.
  repeat (apply no_output_app; split); try tauto; [repeat constructor|destruct (c_sbuf c); repeat constructor].
Qed.

Lemma try_recv_ok c ev :
  wp (amqp_try_recv N E) c ev
    (fun r c' _ l => r <= 0 /\ qacc c c' l /\ (r = AMQP_STATUS_OK -> c_sbuf c' <> []) /\ no_lost l /\ no_output l /\ keepf c c' /\
       c_outbuf c' = c_outbuf c /\ c_next_send c' = c_next_send c)
    (fun s c' l => no_output l).
Proof.
  unfold amqp_try_recv. apply wp_bind. eapply wp_conseq; [apply drain_ok| |auto]. cbv beta.
  intros r c1 ev1 l1 (H1 & H2 & H3 & H4 & H5 & H6 & H7 & H8 & H9 & H10).
  destruct (Z.eqb_spec r AMQP_STATUS_OK) as [->|Hr]; cbn [negb].
  - apply wp_bind.
    eapply wp_conseq; [eapply (wp_split _ _ _ _ (fun p _ _ _ => fst p <= 0 /\ (snd p = None -> fst p <> AMQP_STATUS_OK)) _ (fun _ _ _ => True)); [apply silent_time_from_now|]| |].
    + unfold time_from_now. cbn [tv_sec tv_usec Z.ltb Z.compare orb]. apply wp_bind.
      eapply wp_conseq; [apply (silent_clock c1 ev1)| |auto]. intros now c2 ev2 l2 _. apply wp_ret.
      unfold amqp_time_from_now. cbn [tv_sec tv_usec Z.ltb Z.compare orb]. destruct (now =? 0); cbn [fst snd].
      * split; [cbv; discriminate|intros _; discriminate].
      * cbv zeta. destruct (_ || _); cbn [fst snd]; (split; [cbv; discriminate|discriminate]).
    + cbv beta. intros [r2 t] c2 ev2 l2 [[-> Hq] [Hr2 Hn]]. cbn [fst snd] in *. pose proof (idle_quiet _ Hq) as (J1 & J2 & J3 & J4).
      destruct t as [t|].
      * destruct (Z.eqb_spec r2 AMQP_STATUS_OK) as [->|Hne].
        -- eapply wp_conseq; [apply recv_with_timeout_ok| |]; cbv beta.
           ++ intros r c' ev' l [G1 [(-> & G2 & G3 & _)|[G2 _]]].
              ** apply dry_facts in G2. destruct G2 as (G2 & G4 & G5 & G6 & G7 & G8 & G9). split; [exact G1|].
                 split; [intros Ho; apply no_oom_obs_app in Ho; destruct Ho as [Ho _]; rewrite (H2 Ho), !frames_app, J2, G5; cbn; rewrite app_nil_r; reflexivity|].
                 split; [contradiction|]. split; [repeat (apply no_lost_app; split); auto|].
                 split; [repeat (apply no_output_app; split); auto; apply quiet_output, Hq|]. auto.
              ** pose proof (no_output_of_recvd _ _ _ G2) as Gn. pose proof (recvd_keepf _ _ _ G2) as Gk. apply recvd_facts in G2.
                 destruct G2 as (F1 & F2 & F3 & F4 & F5 & F6 & F7 & F8 & F9 & F10 & F11 & F12 & F13 & F14). split; [exact G1|].
                 split; [intros Ho; apply no_oom_obs_app in Ho; destruct Ho as [Ho _]; unfold queued; rewrite F2; fold (queued c1); rewrite (H2 Ho), !frames_app, J2, F7; cbn; rewrite app_nil_r; reflexivity|].
                 split; [auto|]. split; [repeat (apply no_lost_app; split); auto; apply F10, H3; reflexivity|].
                 split; [repeat (apply no_output_app; split); auto; apply quiet_output, Hq|].
                 split; [eapply keepf_trans; eauto|]. split; congruence.
           ++ intros s c' l [[(-> & G2)|G2] _]; repeat (apply no_output_app; split); auto; try apply quiet_output, Hq.
              ** apply dry_facts in G2; tauto.
              ** eapply no_output_of_recvd; eauto.
        -- apply wp_ret. rewrite app_nil_r. split; [exact Hr2|].
           split; [intros Ho; apply no_oom_obs_app in Ho; destruct Ho as [Ho _]; rewrite (H2 Ho), !frames_app, J2; cbn; rewrite app_nil_r; reflexivity|].
           split; [contradiction|]. split; [apply no_lost_app; auto|]. split; [apply no_output_app; split; [auto|apply quiet_output, Hq]|]. auto.
      * apply wp_ret. rewrite app_nil_r. split; [exact Hr2|].
        split; [intros Ho; apply no_oom_obs_app in Ho; destruct Ho as [Ho _]; rewrite (H2 Ho), !frames_app, J2; cbn; rewrite app_nil_r; reflexivity|].
        split; [intros Hc; exfalso; apply (Hn eq_refl Hc)|]. split; [apply no_lost_app; auto|]. split; [apply no_output_app; split; [auto|apply quiet_output, Hq]|]. auto.
    + cbv beta. intros s c' l [[-> [Hq _]] _]. apply no_output_app; split; [auto|apply quiet_output, Hq].
  - apply wp_ret. rewrite app_nil_r. split; [exact H1|]. split; [exact H2|]. split; [contradiction|]. auto 10.
Qed.

(** *** sending a frame *)
Record sent_frame (enc : bytes) (d : Z) (r : Z) (c c' : conn) (l : list obs) : Prop := mkSent {
  sf_res : r <= 0;
  sf_timeout : r = AMQP_STATUS_TIMEOUT -> d <> amqp_time_infinite;
  sf_prefix : prefix (out_bytes l) enc;
  sf_all : r = AMQP_STATUS_OK -> out_bytes l = enc;
  sf_qacc : qacc c c' l;
  sf_still : (same c c' /\ idle_log l /\ no_oom_obs l) \/ (r = AMQP_STATUS_OK -> c_sbuf c' <> []);
  sf_keepf : keepf c c';
  sf_outbuf : c_outbuf c' = c_outbuf c;
  sf_hb : c_hb c = 0 -> c_next_send c = amqp_time_infinite -> c_next_send c' = amqp_time_infinite;
  sf_off : c_next_recv c = amqp_time_infinite -> same c c' /\ idle_log l /\ no_oom_obs l /\ c_next_recv c' = amqp_time_infinite }.


Lemma send_loop_ok fuel : forall enc more d c ev, d <= amqp_time_infinite ->
  wp (send_frame_loop N E fuel enc more d) c ev
    (fun r c' _ l => sent_frame enc d r c c' l)
    (fun s c' l => prefix (out_bytes l) enc).
Proof.
  induction fuel as [|fuel IH]; intros enc more d c ev Hd; cbn [send_frame_loop]; [apply wp_halt; apply prefix_nil|].
  wstep. cbv zeta. apply wp_bind. set (nt := amqp_time_first d (c_next_recv c)).
  eapply wp_conseq; [apply try_send_ok| |]; cbv beta.
  2:{ intros s c' l (-> & _ & H & _). exact H. }
  intros r c1 ev1 l1 (-> & Hsl & Hpre & Hnt & Hcnt).
  pose proof (idle_input _ (sendlog_input _ Hsl)) as Hid. pose proof (sendlog_oom _ Hsl) as Hoom.
  assert (forall r', r' <= 0 -> r' <> AMQP_STATUS_OK -> (r' = AMQP_STATUS_TIMEOUT -> d <> amqp_time_infinite) -> sent_frame enc d r' c c l1) as Hstop.
  { intros r' H1 H2 H3. split; [exact H1|exact H3|exact Hpre|contradiction|apply qacc_same; [reflexivity|apply Hid]|
      left; split; [apply same_refl|auto]|apply keepf_refl|reflexivity|auto|intros H; split; [apply same_refl|auto]]. }
  destruct (Z.ltb_spec r 0).
  { apply wp_ret. rewrite app_nil_r. apply Hstop; [lia|unfold AMQP_STATUS_OK; lia|contradiction]. }
  destruct (Hcnt H) as [Hr Hinf]. destruct (Z.eqb_spec (zlen enc) r) as [He|He]; cbn [negb].
  - assert (out_bytes l1 = enc) as Ho.
    { destruct Hpre as [rest Hpre]. assert (zlen rest = 0) by (rewrite Hpre in Hr at 1; rewrite Hpre in He at 1; rewrite zlen_app in *; rewrite Hpre in Hr; rewrite zlen_app in Hr; lia).
      apply zlen_0_nil in H0. subst rest. rewrite app_nil_r in Hpre. auto. }
    eapply wp_conseq; [apply update_next_send_ok| |]; cbv beta.
    + intros r2 c' ev' l2 (Hq & Hr2 & Hr3 & Hc & Hi). pose proof (idle_quiet _ Hq) as Hi2. pose proof (no_output_out _ (quiet_output _ Hq)) as Ho2.
      assert (same c c') as Hs by (destruct Hc as [->|[t ->]]; repeat split).
      assert (idle_log (l1 ++ l2)) as Hid2 by (apply idle_log_app; auto).
      assert (no_oom_obs (l1 ++ l2)) as Hoom2 by (apply no_oom_obs_app; split; [auto|apply no_oom_quiet, Hq]).
      split; [exact Hr2|contradiction|rewrite out_bytes_app, Ho, Ho2, app_nil_r; apply prefix_refl|rewrite out_bytes_app, Ho, Ho2, app_nil_r; auto
        |apply qacc_same; [destruct Hc as [->|[t ->]]; reflexivity|apply Hid2]|left; auto
        |destruct Hc as [->|[t ->]]; repeat split|destruct Hc as [->|[t ->]]; reflexivity
        |intros H1 H2; destruct (Hi H1) as [_ ->]; reflexivity|intros H1; destruct Hc as [->|[t ->]]; auto].
    + intros s c' l2 (-> & Hq & _). rewrite out_bytes_app, (no_output_out _ (quiet_output _ Hq)), app_nil_r. exact Hpre.
  - destruct (amqp_time_equal nt d) eqn:Heq.
    { apply wp_ret. rewrite app_nil_r. apply Z.eqb_eq in Heq. apply Hstop; [cbv; discriminate|discriminate|intros _].
      rewrite <- Heq. apply Hinf. congruence. }
    assert (c_next_recv c <> amqp_time_infinite) as Hnr.
    { intros Hnr. unfold nt, amqp_time_equal, amqp_time_first in Heq. rewrite Hnr in Heq.
      destruct (Z.ltb_spec d amqp_time_infinite); apply Z.eqb_neq in Heq; lia. }
    assert (out_bytes l1 = firstn (Z.to_nat r) enc) as Ho.
    { destruct Hpre as [rest Hpre]. assert (r = zlen (out_bytes l1)) as -> by lia. rewrite Hpre, zlen_length.
      rewrite firstn_app, Nat.sub_diag, firstn_all. cbn. symmetry. apply app_nil_r. }
    apply wp_bind. eapply wp_conseq; [apply try_recv_ok| |]; cbv beta.
    2:{ intros s c' l2 Hno. rewrite out_bytes_app, (no_output_out _ Hno), app_nil_r. exact Hpre. }
    intros r2 c2 ev2 l2 (H1 & H2 & H3 & H4 & H5 & H6 & H7 & H8).
    assert (forall r', r' <= 0 -> r' <> AMQP_STATUS_OK -> r' <> AMQP_STATUS_TIMEOUT -> sent_frame enc d r' c c2 (l1 ++ l2)) as Hstop2.
    { intros r' G1 G2 G3. split; [exact G1|contradiction|rewrite out_bytes_app, (no_output_out _ H5), app_nil_r; exact Hpre|contradiction
        |apply (comp_trans _ comp_qacc c c); [apply qacc_same; [reflexivity|apply Hid]|exact H2]|right; contradiction|exact H6|exact H7|intros _ G; rewrite H8; exact G|contradiction]. }
    destruct (Z.eqb_spec r2 AMQP_STATUS_TIMEOUT) as [->|Hnt2].
    { apply wp_ret. rewrite app_nil_r. apply Hstop2; [cbv|..]; discriminate. }
    destruct (Z.eqb_spec r2 AMQP_STATUS_OK) as [->|Hnok]; cbn [negb].
    2:{ apply wp_ret. rewrite app_nil_r. apply Hstop2; assumption. }
    eapply wp_conseq; [apply IH; assumption| |]; cbv beta.
    + intros r3 c3 ev3 l3 F. destruct F as [F1 F2 F3 F4 F5 F6 F7 F8 F9 F10].
      assert (out_bytes (l1 ++ l2 ++ l3) = firstn (Z.to_nat r) enc ++ out_bytes l3) as Hob
        by (rewrite !out_bytes_app, (no_output_out _ H5), Ho; reflexivity).
      split; [exact F1|exact F2|rewrite Hob; apply prefix_split, F3|intros G; rewrite Hob, (F4 G); apply firstn_skipn
        |apply (comp_trans _ comp_qacc c c); [apply qacc_same; [reflexivity|apply Hid]|apply (comp_trans _ comp_qacc c c2); assumption]
        |right; intros G; destruct F6 as [[Gs _]|F6]; [destruct Gs as (_ & Gs & _); rewrite Gs; apply H3; reflexivity|auto]
        |eapply keepf_trans; eauto|congruence|intros G1 G2; apply F9; [destruct H6 as (_ & _ & -> & _); exact G1|rewrite H8; exact G2]|contradiction].
    + intros s c3 l3 F3. rewrite !out_bytes_app, (no_output_out _ H5), Ho. apply prefix_split, F3.
Qed.

Lemma zlen_write mem o bs m : write mem o bs = Some m -> zlen m = zlen mem.
Proof. intros H. apply write_inv in H. destruct H as (H1 & H2 & ->). apply zlen_patch; lia. Qed.
Lemma frame_to_bytes_len f buf st buf' enc : amqp_frame_to_bytes f buf = FRet st buf' enc -> zlen buf' = zlen buf.
Proof.
  assert (forall w v mem o mem', e_at w v mem o = Some mem' -> zlen mem' = zlen mem) as He
    by (intros w v mem o mem'; unfold e_at; apply zlen_write).
  assert (forall n mem st' buf'' enc', frame_finish n mem = FRet st' buf'' enc' -> zlen buf'' = zlen mem) as Hf.
  { intros n mem st' buf'' enc'. unfold frame_finish. destruct (e_at W32 _ mem 3) as [m1|] eqn:H1; [|discriminate].
    destruct (e_at W8 _ m1 _) as [m2|] eqn:H2; [|discriminate]. cbv zeta. destruct (slice _ _ _); [|discriminate].
    intros H; inversion H; subst. apply He in H1, H2. congruence. }
  assert (forall o g mem r mem', encode_sub o g mem = Some (r, mem') -> zlen mem' = zlen mem) as Hs.
  { intros o g mem r mem'. unfold encode_sub. destruct (slice _ _ _); [|discriminate]. destruct (g _) as [[]|]; [|discriminate].
    destruct (write _ _ _) eqn:Hw; [|discriminate]. intros H; inversion H; subst. eapply zlen_write; eauto. }
  unfold amqp_frame_to_bytes.
  destruct (e_at W8 _ buf 0) as [m1|] eqn:H1; [|discriminate]. destruct (e_at W16 _ m1 1) as [m2|] eqn:H2; [|discriminate].
  apply He in H1, H2.
  destruct (_ =? _).
  { destruct (f_pay f); try discriminate. destruct (write _ _ _) eqn:Hw; [|discriminate]. apply zlen_write in Hw. intros H. apply Hf in H. congruence. }
  destruct (_ =? _).
  { destruct (f_pay f); try discriminate. destruct (e_at W32 _ m2 _) eqn:H3; [|discriminate]. destruct (encode_sub _ _ _) as [[r m]|] eqn:H4; [|discriminate].
    apply He in H3. apply Hs in H4. destruct (_ <? _); intros H; [inversion H; subst|apply Hf in H]; congruence. }
  destruct (_ =? _).
  { destruct (f_pay f); try discriminate. destruct (e_at W16 _ m2 _) as [m3|] eqn:H3; [|discriminate]. destruct (e_at W16 _ m3 _) as [m4|] eqn:H4; [|discriminate].
    destruct (e_at W64 _ m4 _) eqn:H5; [|discriminate]. destruct (encode_sub _ _ _) as [[r m]|] eqn:H6; [|discriminate].
    apply He in H3, H4, H5. apply Hs in H6. destruct (_ <? _); intros H; [inversion H; subst|apply Hf in H]; congruence. }
  destruct (_ =? _); intros H; [apply Hf in H|inversion H; subst]; congruence.
Qed.

(** amqp_send_frame_inner *)
Definition sent_f (f : frame) (d r : Z) (c c' : conn) (l : list obs) : Prop :=
  exists st buf enc c1, amqp_frame_to_bytes f (c_outbuf c) = FRet st buf enc /\ c1 = set_outbuf c buf /\ zlen (c_outbuf c') = zlen (c_outbuf c) /\
    ((st <> AMQP_STATUS_OK /\ r = st /\ c' = c1 /\ l = []) \/ (st = AMQP_STATUS_OK /\ sent_frame enc d r c1 c' l)).
Lemma send_frame_ok f more d c ev : d <= amqp_time_infinite ->
  wp (amqp_send_frame_inner N E f more d) c ev
    (fun r c' _ l => sent_f f d r c c' l)
    (fun s c' l => (amqp_frame_to_bytes f (c_outbuf c) = FUB /\ s = UB /\ c' = c /\ l = []) \/
        exists buf enc, amqp_frame_to_bytes f (c_outbuf c) = FRet AMQP_STATUS_OK buf enc /\ prefix (out_bytes l) enc).
Proof.
  intros Hd. unfold amqp_send_frame_inner. wstep. destruct (amqp_frame_to_bytes f (c_outbuf c)) as [st buf enc|] eqn:Hf; [|apply wp_halt; auto].
  wstep. destruct (Z.eqb_spec st AMQP_STATUS_OK) as [->|Hst]; cbn [negb].
  - eapply wp_conseq; [apply send_loop_ok; exact Hd| |]; cbv beta.
    + intros r c' ev' l H. exists AMQP_STATUS_OK, buf, enc, (set_outbuf c buf). split; [exact Hf|]. split; [reflexivity|].
      split; [|right; auto]. rewrite (sf_outbuf _ _ _ _ _ _ H). cbn. eapply frame_to_bytes_len; eauto.
    + intros s c' l H. right. eauto.
  - apply wp_ret. exists st, buf, enc, (set_outbuf c buf). split; [exact Hf|]. split; [reflexivity|]. split; [|left; auto].
    cbn. eapply frame_to_bytes_len; eauto.
Qed.
(** what the callers need of it *)
Lemma sent_f_facts f d r c c' l : sent_f f d r c c' l ->
  qacc c c' l /\ ((same c c' /\ idle_log l /\ no_oom_obs l) \/ (r = AMQP_STATUS_OK -> c_sbuf c' <> [])) /\ keepf c c' /\ zlen (c_outbuf c') = zlen (c_outbuf c) /\
  (c_next_recv c = amqp_time_infinite -> same c c' /\ idle_log l /\ no_oom_obs l /\ c_next_recv c' = amqp_time_infinite) /\
  (c_hb c = 0 -> c_next_send c = amqp_time_infinite -> c_next_send c' = amqp_time_infinite).
Proof.
  intros (st & buf & enc & c1 & Hf & -> & Hl & [(Hst & -> & -> & ->)|(-> & H)]).
  - split; [apply qacc_same; reflexivity|]. split; [left; split; [repeat split|split; [apply idle_log_nil|constructor]]|].
    split; [repeat split|]. split; [exact Hl|]. split; [intros H; repeat split; auto; constructor|auto].
  - destruct H as [F1 F2 F3 F4 F5 F6 F7 F8 F9 F10]. split; [exact F5|]. split; [exact F6|]. split; [exact F7|]. split; [exact Hl|].
    split; [exact F10|]. intros; apply F9; auto.
Qed.
End Order.
