(** Waiting for a particular frame: the others are queued in order. *)
From Coq Require Import String ZArith List Bool Lia.
From Verif Require Import Base BaseFacts Codec TableModel TableSpec TableOps FramingStmt FramingGen FramingModel MethodSpec
  Frame FrameSpec Time Sasl Net NetApi NetSpec NetFacts NetSend NetRecv NetWalk NetAcct NetOrder NetWait.
Import ListNotations.
Local Open Scope Z_scope.

Record gathered (P : frame -> bool) (o : option frame) (c c' : conn) (l : list obs) : Prop := mkGathered {
  ga_took : took c c' l o;
  ga_hit : forall f, o = Some f -> P f = true /\ f_type f <> 0 /\ f_type f <> 8;
  ga_order : forall f, o = Some f -> no_oom_obs l -> no_lost l ->
    exists others, queued c' = queued c ++ others /\ no_hb (frames l) = others ++ [f] /\ Forall (fun g => P g = false) others;
  ga_last : forall f, o = Some f -> exists pre, frames l = pre ++ [f];
  ga_beats : beats (out_bytes l);
  ga_whole : o <> None -> whole_beats (out_bytes l);
  ga_keep : keepw c c' }.

Lemma no_hb_one f : f_type f <> 8 -> no_hb [f] = [f].
Proof. intros H. unfold no_hb, is_heartbeat. cbn. destruct (Z.eqb_spec (f_type f) 8); [contradiction|reflexivity]. Qed.

Lemma gathered_none P c c' l : (no_oom_obs l -> no_hb (queued c ++ frames l) = no_hb (queued c')) -> beats (out_bytes l) -> keepw c c' -> gathered P None c c' l.
Proof. intros H1 H2 H3. split; auto; try discriminate; [apply took_none, H1|contradiction]. Qed.
Lemma gathered_err P r f c c' l : r <> AMQP_STATUS_OK -> waited false r f c c' l -> gathered P None c c' l.
Proof.
  intros Hr [F1 F2 F3 F4 F9 F5 F6 F7 F8]. apply gathered_none; auto.
  intros Ho. specialize (F2 Ho). rewrite okf_not in F2 by assumption. cbn in F2. rewrite app_nil_r in F2. exact F2.
Qed.
Lemma gathered_hit P f c c' l : P f = true -> waited false AMQP_STATUS_OK f c c' l -> gathered P (Some f) c c' l.
Proof.
  intros Hp [F1 F2 F3 F4 F9 F5 F6 F7 F8]. specialize (F5 eq_refl). split; auto.
  - intros g Hg; injection Hg as <-; auto.
  - intros g Hg _ Hl; injection Hg as <-. destruct (F3 eq_refl Hl (or_introl eq_refl)) as (G1 & hbs & G2 & G3).
    exists []. unfold queued. rewrite G1, app_nil_r, G3, no_hb_app, G2, no_hb_one by tauto. auto.
  - intros g Hg; injection Hg as <-; auto.
Qed.
Lemma gathered_step P o f g c c1 c2 c3 l1 l2 l3 :
  P f = false -> waited false AMQP_STATUS_OK f c c1 l1 -> c2 = set_queue c1 (c_queue c1 ++ [(f, g)]) -> idle_log l2 -> no_output l2 ->
  gathered P o c2 c3 l3 -> gathered P o c c3 (l1 ++ l2 ++ l3).
Proof.
  intros Hp W -> (I1 & I2 & I3 & I4) Ho G. pose proof (wt_type _ _ _ _ _ _ W eq_refl) as [Ht0 Ht8].
  destruct W as [F1 F2 F3 F4 F9 F5 F6 F7 F8]. destruct G as [G1 G2 G3 G7 G4 G5 G6]. split; auto.
  - apply (took_step _ (set_queue c1 (c_queue c1 ++ [(f, g)]))).
    + intros H. rewrite (F2 H). unfold queued. cbn [c_queue set_queue]. rewrite map_app. reflexivity.
    + intros H. apply no_oom_obs_app in H. rewrite frames_app, I2. apply G1, H.
  - intros h Hh Hoom Hl. apply no_oom_obs_app in Hoom. destruct Hoom as [H1 H2]. apply no_oom_obs_app in H2. destruct H2 as [H2 H3].
    apply no_lost_app in Hl. destruct Hl as [L1 L2]. apply no_lost_app in L2. destruct L2 as [L2 L3].
    destruct (F3 eq_refl L1 (or_introl eq_refl)) as (K1 & hbs & K2 & K3).
    destruct (G3 h Hh H3 L3) as (others & J1 & J2 & J3). exists (f :: others). split; [|split].
    + rewrite J1. unfold queued. cbn [c_queue set_queue]. rewrite map_app, K1, <- app_assoc. reflexivity.
    + rewrite !frames_app, I2, K3, !no_hb_app, K2, J2, no_hb_one by assumption. reflexivity.
    + constructor; auto.
  - intros h Hh. destruct (G7 h Hh) as [pre Hpre]. exists (frames l1 ++ pre). rewrite !frames_app, I2, Hpre. cbn. apply app_assoc.
  - rewrite !out_bytes_app, (no_output_out _ Ho). cbn. apply beats_app; auto.
  - intros H. rewrite !out_bytes_app, (no_output_out _ Ho). cbn. apply whole_app; auto.
  - eapply keepw_trans; [exact F8|]. exact G6.
Qed.

Section Calls.
Context (N : nat) (E : nat -> aenv).

(** the link could not be allocated: excluded by [no_oom_obs] *)
Lemma gathered_oom P f c c1 l1 l2 : waited false AMQP_STATUS_OK f c c1 l1 -> ~ no_oom_obs l2 -> no_output l2 -> gathered P None c c1 (l1 ++ l2).
Proof.
  intros W H Ho. apply gathered_none.
  - intros Hoom. apply no_oom_obs_app in Hoom. tauto.
  - rewrite out_bytes_app, (no_output_out _ Ho), app_nil_r. apply W.
  - apply W.
Qed.

(** one wait, then queue the frame or stop *)
Lemma on_channel_loop_ok fuel : forall ch c ev,
  wp (wait_on_channel_loop N E fuel ch) c ev
    (fun p c' _ l => fst p <= 0 /\ gathered (fun g => ch =? f_chan g) (okf (fst p) (snd p)) c c' l)
    (fun s c' l => beats (out_bytes l)).
Proof.
  induction fuel as [|fuel IH]; intros ch c ev; cbn [wait_on_channel_loop].
  { apply wp_halt. apply whole_beats_beats, whole_nil. }
  apply wp_bind. eapply wp_conseq; [apply wait_inner_ok| |]; cbv beta; [|auto].
  intros [r f] c1 ev1 l1 W. cbn [fst snd] in W.
  destruct (Z.eqb_spec r AMQP_STATUS_OK) as [->|Hr]; cbn [negb].
  2:{ apply wp_ret. rewrite app_nil_r. cbn [fst snd]. split; [apply W|]. rewrite okf_not by assumption. eapply gathered_err; eauto. }
  destruct (Z.eqb_spec ch (f_chan f)) as [Hc|Hc].
  { apply wp_ret. rewrite app_nil_r. cbn [fst snd]. split; [apply W|]. apply gathered_hit; [apply Z.eqb_eq, Hc|exact W]. }
  unfold amqp_queue_frame. apply wp_bind, wp_bind. eapply wp_conseq; [apply create_link_ok| |]; cbv beta.
  2:{ intros s c' l (-> & _ & H3 & _). rewrite out_bytes_app, (no_output_out _ H3), app_nil_r. apply W. }
  intros o c2 ev2 l2 (-> & Hi & Ho & Hcr). destruct Hcr as [->|[-> Hoom]].
  - apply wp_bind. apply wp_upd. wstep. rewrite !app_nil_r. change (AMQP_STATUS_OK =? AMQP_STATUS_OK) with true. cbn [negb]. cbv iota.
    eapply wp_conseq; [apply IH| |]; cbv beta.
    + intros p c3 ev3 l3 [Hr G]. split; [exact Hr|]. rewrite <- ?app_assoc. cbn [app]. eapply gathered_step; [apply Z.eqb_neq, Hc|exact W|reflexivity|exact Hi|exact Ho|exact G].
    + intros s c3 l3 G. rewrite !out_bytes_app, (no_output_out _ Ho). cbn. apply beats_app; [apply (wt_whole _ _ _ _ _ _ W); reflexivity|exact G].
  - wstep. change (AMQP_STATUS_NO_MEMORY =? AMQP_STATUS_OK) with false. cbn [negb]. cbv iota. apply wp_ret. rewrite !app_nil_r. cbn [fst snd].
    split; [cbv; discriminate|]. eapply gathered_oom; eauto.
Qed.

Lemma rpc_wait_ok fuel : forall ch ids d c ev,
  wp (rpc_wait N E fuel ch ids d) c ev
    (fun r c' _ l => exists o, gathered (concerns_rpc ch ids) o c c' l /\
       match o with
       | Some f => exists id m, f_pay f = PMethod id m /\ f_type f = AMQP_FRAME_METHOD /\ r = (if amqp_id_in_reply_list id ids then RNormal id m else RServer id m)
       | None => exists st, st < 0 /\ r = RLibrary st /\ (st = AMQP_STATUS_TIMEOUT -> c_fd c' = -1 \/ In (OClose false) l)
       end)
    (fun s c' l => beats (out_bytes l)).
Proof.
  induction fuel as [|fuel IH]; intros ch ids d c ev; cbn [rpc_wait].
  { apply wp_halt. apply whole_beats_beats, whole_nil. }
  apply wp_bind. eapply wp_conseq; [apply wait_inner_ok| |]; cbv beta; [|auto].
  intros [r f] c1 ev1 l1 W. cbn [fst snd] in W.
  destruct (Z.eqb_spec r AMQP_STATUS_OK) as [->|Hr]; cbn [negb].
  2:{ assert (r < 0) as Hneg by (pose proof (wt_res _ _ _ _ _ _ W); unfold AMQP_STATUS_OK in *; lia).
      pose proof (gathered_err (concerns_rpc ch ids) _ _ _ _ _ Hr W) as G.
      destruct (Z.eqb_spec r AMQP_STATUS_TIMEOUT) as [->|Hnt].
      - apply wp_bind. eapply wp_conseq; [apply socket_close_ok| |]; cbv beta.
        2:{ intros s c' l (-> & -> & _). rewrite app_nil_r. apply W. }
        intros r2 c2 ev2 l2 (C1 & (C2 & C3 & _) & C4 & C5 & C6). apply wp_ret. rewrite app_nil_r. exists None. split.
        + destruct G as [G1 G2 G3 G7 G4 G5 G6]. apply gathered_none.
          * intros Hoom. apply no_oom_obs_app in Hoom. rewrite frames_app, C3, app_nil_r.
            replace (queued c2) with (queued c1) by (destruct C6 as [[-> _]|[-> _]]; reflexivity).
            destruct Hoom as [Hoom _]. specialize (G1 Hoom). cbn in G1. rewrite app_nil_r in G1. exact G1.
          * rewrite out_bytes_app, (no_output_out _ C1), app_nil_r. exact G4.
          * eapply keepw_trans; [exact G6|]. destruct C6 as [[-> _]|[-> _]]; unfold keepw; auto 10.
        + exists AMQP_STATUS_TIMEOUT. split; [reflexivity|]. split; [reflexivity|]. intros _.
          destruct C6 as [[-> [H|H]]|[-> _]]; [left; exact H|right; apply in_or_app; auto|left; reflexivity].
      - apply wp_ret_bind. apply wp_ret. rewrite app_nil_r. exists None. split; [exact G|]. exists r. split; [exact Hneg|]. split; [reflexivity|]. contradiction. }
  destruct (concerns_rpc ch ids f) eqn:Hc; cbn [negb].
  - pose proof (gathered_hit _ _ _ _ _ Hc W) as G. unfold concerns_rpc in Hc. apply andb_true_iff in Hc. destruct Hc as [Ht Hc]. apply Z.eqb_eq in Ht.
    unfold method_of in *. destruct (f_pay f) as [|id m| | |] eqn:Hp; try discriminate. cbn [need]. wstep. apply wp_ret. rewrite app_nil_r.
    exists (Some f). split; [exact G|]. exists id, m. auto.
  - apply wp_bind. eapply wp_conseq; [apply create_link_ok| |]; cbv beta.
    2:{ intros s c' l (-> & _ & H3 & _). rewrite out_bytes_app, (no_output_out _ H3), app_nil_r. apply W. }
    intros o c2 ev2 l2 (-> & Hi & Ho & Hcr). destruct Hcr as [->|[-> Hoom]].
    + apply wp_bind. apply wp_upd. eapply wp_conseq; [apply IH| |]; cbv beta.
      * intros p c3 ev3 l3 (o & G & Hm). cbn [app]. exists o. split.
        -- eapply gathered_step; [exact Hc|exact W|reflexivity|exact Hi|exact Ho|exact G].
        -- destruct o; [exact Hm|]. destruct Hm as (st & H1 & H2 & H3). exists st. split; [exact H1|]. split; [exact H2|]. intros H; destruct (H3 H); auto.
           right. apply in_or_app; right. apply in_or_app; auto.
      * intros s c3 l3 G. cbn [app]. rewrite !out_bytes_app, (no_output_out _ Ho). cbn. apply beats_app; [apply (wt_whole _ _ _ _ _ _ W); reflexivity|exact G].
    + apply wp_ret. rewrite app_nil_r. exists None. split; [eapply gathered_oom; eauto|]. exists AMQP_STATUS_NO_MEMORY. split; [reflexivity|]. split; [reflexivity|discriminate].
Qed.
End Calls.
