(** What the sending functions put on the wire. *)
From Coq Require Import String ZArith List Bool Lia.
From Verif Require Import Base BaseFacts Codec TableModel TableSpec FramingStmt FramingGen FramingModel MethodSpec
  Frame FrameSpec Time Net NetSpec NetFacts.
Import ListNotations.
Local Open Scope Z_scope.

Lemma wp_and_silent {A} (m : M A) c ev Q :
  silent m -> wp m c ev Q (fun _ _ _ => True) ->
  wp m c ev (fun a c' ev' l => c' = c /\ quiet l /\ Q a c' ev' l) (fun s c' l => c' = c /\ quiet l /\ s <> UB /\ s <> Abort).
Proof. intros H1 H2. specialize (H1 c ev). unfold wp in *. destruct (m c ev); tauto. Qed.

Lemma clock_res c ev (Q : Z -> Prop) : (forall now, 0 <= now < M64 -> Q now) ->
  wp sys_clock c ev (fun r _ _ _ => Q r) (fun _ _ _ => True).
Proof.
  intros H. unfold wp, sys_clock. destruct ev as [|[] ev]; auto. apply H.
  unfold u64. apply Z.mod_pos_bound. lia.
Qed.
Lemma poll_res c ev w ms : wp (sys_poll w ms) c ev (fun r _ _ _ => r = PTimeout -> 0 <= ms) (fun _ _ _ => True).
Proof.
  unfold wp, sys_poll. destruct ev as [|[| | |[]| | |] ev]; auto; try discriminate.
  destruct (Z.ltb_spec ms 0); auto.
Qed.

Lemma amqp_poll_res fuel : forall w d c ev,
  wp (amqp_poll fuel w d) c ev (fun r _ _ _ => r <= 0 /\ (r = AMQP_STATUS_TIMEOUT -> d <> amqp_time_infinite)) (fun _ _ _ => True).
Proof.
  induction fuel as [|fuel IH]; intros w d c ev; cbn [amqp_poll]; [apply wp_halt; auto|].
  apply wp_bind. eapply (wp_conseq _ _ _ (fun ms _ _ _ => d = amqp_time_infinite -> ms = -1) _ (fun _ _ _ => True)); [| |auto].
  { unfold time_ms_until. destruct (Z.eqb_spec UINT64_MAX d) as [<-|].
    - apply wp_ret. intros _. reflexivity.
    - destruct (_ || _); [|apply wp_bind; eapply wp_conseq; [apply (silent_clock c ev)|intros|auto]];
        apply wp_ret; intros ->; contradiction n; reflexivity. }
  cbv beta. intros ms c1 ev1 l1 Hms.
  destruct (Z.ltb_spec ms (-1)).
  - apply wp_ret. split; [lia|]. intros _ Hd. specialize (Hms Hd). lia.
  - apply wp_bind. eapply wp_conseq; [apply (poll_res c1 ev1)| |auto].
    cbv beta. intros r c2 ev2 l2 Hr. destruct r.
    + apply wp_ret. split; [unfold AMQP_STATUS_OK; lia|discriminate].
    + apply wp_ret. specialize (Hr eq_refl). split; [unfold AMQP_STATUS_TIMEOUT; lia|]. intros _ Hd. specialize (Hms Hd). lia.
    + eapply wp_conseq; [apply IH|auto|auto].
    + apply wp_ret. split; [unfold AMQP_STATUS_SOCKET_ERROR; lia|discriminate].
Qed.

Lemma do_poll_res N res d c ev : res <= 0 ->
  wp (do_poll N res d) c ev (fun r c' _ l => c' = c /\ quiet l /\ r <= 0 /\
       (r = AMQP_STATUS_TIMEOUT -> res <> AMQP_STATUS_TIMEOUT -> d <> amqp_time_infinite))
    (fun s c' l => c' = c /\ quiet l /\ s <> UB /\ s <> Abort).
Proof.
  intros Hr. apply wp_and_silent; [apply silent_do_poll|]. unfold do_poll. wstep.
  destruct (_ =? _); [apply wp_ret; split; [unfold AMQP_STATUS_SOCKET_CLOSED; lia|discriminate]|].
  destruct (_ =? _); [eapply wp_conseq; [apply amqp_poll_res|cbv beta; intros; tauto|auto]|].
  destruct (_ =? _); [eapply wp_conseq; [apply amqp_poll_res|cbv beta; intros; tauto|auto]|].
  apply wp_ret. split; [lia|]. intros; congruence.
Qed.

(** amqp_try_send *)
Definition sent_ok (len : Z) (left : bytes) (d : Z) (r : Z) (l : list obs) : Prop :=
  sendlog l /\ prefix (out_bytes l) left /\ r <> AMQP_STATUS_TIMEOUT /\
  (0 <= r -> r = len - zlen left + zlen (out_bytes l) /\ (r <> len -> d <> amqp_time_infinite)).
Lemma prefix_firstn {A} n (l : list A) : prefix (firstn n l) l.
Proof. exists (skipn n l). symmetry. apply firstn_skipn. Qed.
Lemma prefix_split {A} n (l p : list A) : prefix p (skipn n l) -> prefix (firstn n l ++ p) l.
Proof. intros [r H]. exists r. rewrite <- app_assoc, <- H. symmetry. apply firstn_skipn. Qed.

Lemma try_send_loop_ok N fuel : forall len left d more c ev, zlen left <= len ->
  wp (try_send_loop N fuel len left d more) c ev
    (fun r c' _ l => c' = c /\ sent_ok len left d r l)
    (fun s c' l => c' = c /\ sendlog l /\ prefix (out_bytes l) left /\ s <> UB /\ s <> Abort).
Proof.
  induction fuel as [|fuel IH]; intros len left d more c ev Hl; cbn [try_send_loop].
  - apply wp_halt. split; [reflexivity|]. split; [constructor|]. split; [apply prefix_nil|]. split; discriminate.
  - apply wp_bind. eapply wp_conseq; [apply socket_send_ok| |].
    2:{ intros s c' l (-> & H1 & H2 & H3). rewrite H2. split; [reflexivity|]. split; [exact H1|]. split; [apply prefix_nil|exact H3]. }
    cbv beta. intros r c' ev1 l (-> & Hi & Hr).
    destruct (Z.ltb_spec 0 r).
    + destruct Hr as [[Hr Ho]|[Hr _]]; [|exfalso; destruct Hr as [Hr| ->]; [apply failed_send_neg in Hr; lia|discriminate]].
      cbv zeta. destruct (Z.eqb_spec (zlen (skipn (Z.to_nat r) left)) 0) as [Hz|Hz].
      * apply wp_ret. rewrite app_nil_r. split; [reflexivity|]. split; [exact Hi|].
        apply zlen_0_nil in Hz.
        assert (firstn (Z.to_nat r) left = left) as Hf by (rewrite <- (firstn_skipn (Z.to_nat r) left) at 2; rewrite Hz, app_nil_r; reflexivity).
        rewrite Ho, Hf. split; [apply prefix_refl|]. split; [unfold AMQP_STATUS_TIMEOUT; pose proof (zlen_nonneg left); lia|]. intros _. split; [lia|congruence].
      * assert (zlen (skipn (Z.to_nat r) left) = zlen left - r) as Hs by (rewrite zlen_skipn; lia).
        assert (zlen (firstn (Z.to_nat r) left) = r) as Hfr by (rewrite zlen_firstn; lia).
        eapply wp_conseq; [apply IH|..].
        -- lia.
        -- cbv beta. intros r' c' ev' l' (-> & H1 & H2 & H4 & H3). split; [reflexivity|]. split; [apply sendlog_app; auto|].
           rewrite out_bytes_app, Ho, zlen_app. split; [apply prefix_split, H2|]. split; [exact H4|].
           intros Hp. specialize (H3 Hp). rewrite Hfr. split; [lia|tauto].
        -- cbv beta. intros s c' l' (-> & H1 & H2 & H3). split; [reflexivity|]. split; [apply sendlog_app; auto|].
           rewrite out_bytes_app, Ho. split; [apply prefix_split, H2|exact H3].
    + assert (out_bytes l = [] /\ r <= 0 /\ r <> AMQP_STATUS_TIMEOUT) as (Ho & Hr0 & Hr1).
      { destruct Hr as [[Hr Ho]|[Hr Ho]].
        - assert (r = 0) as -> by lia. split; [exact Ho|]. split; [lia|discriminate].
        - split; [exact Ho|]. split; [lia|]. destruct Hr as [Hr| ->]; [apply failed_send_neg, Hr|discriminate]. }
      apply wp_bind. eapply wp_conseq; [apply do_poll_res; exact Hr0| |].
      2:{ intros s c' l' (-> & H1 & H2). split; [reflexivity|]. split; [apply sendlog_app; split; [exact Hi|apply quiet_sendlog, H1]|].
          rewrite out_bytes_app, Ho, (no_output_out _ (quiet_output _ H1)). split; [apply prefix_nil|exact H2]. }
      cbv beta. intros r2 c' ev2 l2 (-> & Hq & Hr2 & Hinf).
      pose proof (no_output_out _ (quiet_output _ Hq)) as Ho2. pose proof (quiet_sendlog _ Hq) as Hi2.
      destruct (Z.eqb_spec r2 AMQP_STATUS_OK) as [->|Hnok].
      * eapply wp_conseq; [apply IH; assumption|..].
        -- cbv beta. intros r' c' ev' l' (-> & H1 & H2 & H3). split; [reflexivity|].
           split; [repeat (apply sendlog_app; split); auto|].
           rewrite !out_bytes_app, Ho, Ho2. split; [exact H2|exact H3].
        -- cbv beta. intros s c' l' (-> & H1 & H2 & H3). split; [reflexivity|].
           split; [repeat (apply sendlog_app; split); auto|].
           rewrite !out_bytes_app, Ho, Ho2. split; [exact H2|exact H3].
      * destruct (Z.eqb_spec r2 AMQP_STATUS_TIMEOUT) as [->|Hnt]; apply wp_ret;
          (split; [reflexivity|]; split; [repeat (apply sendlog_app; split); auto; constructor|];
           rewrite !out_bytes_app, Ho, Ho2; cbn [app out_bytes flat_map]; split; [apply prefix_nil|]).
        -- split; [unfold AMQP_STATUS_TIMEOUT; lia|]. intros _. split; [rewrite zlen_nil; lia|]. intros _. apply Hinf; [reflexivity|exact Hr1].
        -- split; [exact Hnt|]. intros Hp. unfold AMQP_STATUS_OK in Hnok. lia.
Qed.

Lemma try_send_ok N buf d more c ev :
  wp (amqp_try_send N buf d more) c ev
    (fun r c' _ l => c' = c /\ sent_ok (zlen buf) buf d r l)
    (fun s c' l => c' = c /\ sendlog l /\ prefix (out_bytes l) buf /\ s <> UB /\ s <> Abort).
Proof. apply try_send_loop_ok. lia. Qed.
