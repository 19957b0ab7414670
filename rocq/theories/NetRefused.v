(** A request refused because it cannot be encoded has sent nothing (for C74). *)
From Coq Require Import String ZArith List Bool Lia.
From Verif Require Import Base BaseFacts Codec TableModel TableSpec TableOps FramingStmt FramingGen FramingModel MethodSpec
  Frame FrameSpec Time Sasl Net NetApi NetSpec NetFacts NetSend NetRecv NetWalk NetAcct NetOrder NetWait NetTyped NetSpeak EncStatus DecStatus CalmSpec SpeakSpec NetNear CodesSpec NetCodes NetCodesAll.
Import ListNotations.
Local Open Scope Z_scope.

(** if the readings of the clock are steady, a result in [bad] means that nothing was sent *)
Definition kno {A} (T : Z) (bad : A -> Prop) (m : M A) (c : conn) : Prop := forall ev,
  wp m c ev (fun a _ _ l => steady T l -> bad a -> out_bytes l = []) (fun _ _ _ => True).
Lemma kn_kno {A} T (bad : A -> Prop) m c : kn T (fun a _ _ => ~ bad a) m c -> kno T bad m c.
Proof. intros H ev. eapply wp_conseq; [apply H| |auto]; cbv beta. intros a c' ev' l K Hs Hb. destruct (K Hs) as [_ K2]. contradiction. Qed.
Lemma kno_ret {A} T (bad : A -> Prop) a c : kno T bad (ret a) c.
Proof. intros ev. apply wp_ret. reflexivity. Qed.
Lemma kno_map {A B} T (bad : A -> Prop) (bad' : B -> Prop) m (g : A -> B) c : kno T bad m c -> (forall a, bad' (g a) -> bad a) -> kno T bad' (bind m (fun a => ret (g a))) c.
Proof. intros H Hg ev. apply wp_bind. eapply wp_conseq; [apply H| |auto]; cbv beta. intros a c1 ev1 l1 K. apply wp_ret. rewrite app_nil_r. auto. Qed.
(** [m] sends nothing *)
Lemma kno_quiet {A B} T (P : A -> conn -> Z -> Prop) (bad : B -> Prop) m k c : ok_at T c -> kn T P m c ->
  (forall ev, wp m c ev (fun _ _ _ l => out_bytes l = []) (fun _ _ _ => True)) ->
  (forall a c' T', T <= T' < M63 -> ok_at T' c' -> P a c' T' -> kno T' bad (k a) c') -> kno T bad (bind m k) c.
Proof.
  intros Hn H1 H2 H3 ev. apply wp_bind. eapply wp_conseq; [apply (wp_split _ _ _ _ _ _ _ (H1 ev) (H2 ev))| |auto]; cbv beta. intros a c1 ev1 l1 [A1 A2].
  unfold wp. destruct (k a c1 ev1) as [b c2 ev2 l2|s c2 l2] eqn:Ek; [|exact I]. intros Hs Hb. apply steady_app in Hs. destruct Hs as [S1 S2].
  destruct (A1 S1) as [A3 A4]. pose proof (last_later l1 T (ok_range _ _ Hn) S1) as HT. specialize (H3 a c1 _ HT A3 A4 ev1). unfold wp in H3. rewrite Ek in H3.
  rewrite out_bytes_app, A2. apply H3; assumption.
Qed.
(** [m] decides *)
Lemma kno_then {A B} T (P : A -> conn -> Z -> Prop) (bad : A -> Prop) (bad' : B -> Prop) m k c : ok_at T c -> kn T P m c -> kno T bad m c ->
  (forall a c' T', T <= T' < M63 -> ok_at T' c' -> P a c' T' -> (exists b, k a = ret b /\ (bad' b -> bad a)) \/ kn T' (fun b _ _ => ~ bad' b) (k a) c') -> kno T bad' (bind m k) c.
Proof.
  intros Hn H1 H2 H3 ev. apply wp_bind. eapply wp_conseq; [apply (wp_split _ _ _ _ _ _ _ (H1 ev) (H2 ev))| |auto]; cbv beta. intros a c1 ev1 l1 [A1 A2].
  unfold wp. destruct (k a c1 ev1) as [b c2 ev2 l2|s c2 l2] eqn:Ek; [|exact I]. intros Hs Hb. apply steady_app in Hs. destruct Hs as [S1 S2].
  destruct (A1 S1) as [A3 A4]. pose proof (last_later l1 T (ok_range _ _ Hn) S1) as HT. destruct (H3 a c1 _ HT A3 A4) as [(b' & E' & K)|K].
  - rewrite E' in Ek. injection Ek as <- <- <- <-. rewrite app_nil_r. apply A2; auto.
  - specialize (K ev1). unfold wp in K. rewrite Ek in K. destruct (K S2) as [_ K2]. contradiction.
Qed.

(** the statuses that only the encoder reports *)
Definition refusal (st : Z) : Prop := st = AMQP_STATUS_TABLE_TOO_BIG \/ st = AMQP_STATUS_INVALID_PARAMETER.
Definition refusal_reply (r : rpc_reply_t) : Prop := match r with RLibrary st => refusal st | _ => False end.
Lemma not_refusal fs r : forallb (fun x => negb (x =? AMQP_STATUS_TABLE_TOO_BIG) && negb (x =? AMQP_STATUS_INVALID_PARAMETER)) fs = true -> got fs r -> ~ refusal r.
Proof.
  intros Hf [->|Hr]; [intros [K|K]; discriminate K|]. rewrite forallb_forall in Hf. specialize (Hf r Hr). intros [K|K]; rewrite K in Hf; discriminate Hf.
Qed.
Lemma not_refusal_lim d r : got (wait_failures ++ lim d) r -> ~ refusal r.
Proof. apply not_refusal. unfold lim. destruct (_ =? _); reflexivity. Qed.

Section Refused.
Context (N : nat) (E : nat -> aenv).
Lemma kno_send_frame T f more d c : ok_at T c -> keepd d T -> kno T refusal (amqp_send_frame_inner N E f more d) c.
Proof.
  intros Hn Hd ev. unfold amqp_send_frame_inner. apply wp_get_bind. destruct (amqp_frame_to_bytes f (c_outbuf c)) as [r buf enc|] eqn:Ef; [|apply wp_halt; exact I].
  apply wp_upd_bind. cbn [app]. pose proof (frame_kept T c buf r f enc Hn Ef) as Hk. destruct (Z.eqb_spec r AMQP_STATUS_OK); cbn [negb]; [|apply wp_ret; reflexivity].
  apply (kn_kno T refusal). eapply kn_conseq; [apply kn_send_frame_loop; eassumption|]. cbv beta. intros a _ _. apply not_refusal_lim.
Qed.
Lemma kno_send_method T ch id m c : ok_at T c -> kno T refusal (amqp_send_method N E ch id m) c.
Proof. intros Hn. unfold amqp_send_method, amqp_send_method_inner. apply kno_send_frame; [exact Hn|eapply keepd_infinite, Hn]. Qed.
Lemma reply_not_refusal d r : reply_in (wait_failures ++ lim d) r -> ~ refusal_reply r.
Proof. destruct r; cbn [reply_in refusal_reply]; auto. intros H. apply (not_refusal_lim d). right. exact H. Qed.
Lemma kno_rpc_inner T ch id ids m d c : ok_at T c -> keepd d T -> kno T refusal_reply (simple_rpc_inner N E ch id ids m d) c.
Proof.
  intros Hn Hd. unfold simple_rpc_inner. eapply (kno_then T (fun r _ _ => got send_failures r) refusal); [exact Hn|apply kn_send, Hn|apply kno_send_method, Hn|].
  cbv beta. intros r c1 T1 HT1 Hn1 Hr. destruct (Z.ltb_spec r 0); [left; eexists; split; [reflexivity|exact (fun K => K)]|].
  right. eapply kn_conseq; [apply kn_rpc_wait; [exact Hn1|eapply keepd_later; [|exact Hd]; lia]|]. cbv beta. intros a _ _. apply reply_not_refusal.
Qed.
Lemma kno_rpc T ch id ids m c : ok_at T c -> kno T refusal_reply (amqp_simple_rpc N E ch id ids m) c.
Proof.
  intros Hn ev. unfold amqp_simple_rpc. apply wp_get_bind. revert ev. pose proof Hn as (_ & _ & Ht & _). set (t := amqp_get_rpc_timeout (c_to c)) in *. clearbody t.
  match goal with |- forall ev, wp ?m _ _ _ _ => change (kno T refusal_reply m c) end.
  eapply kno_quiet; [exact Hn|apply (kn_from_now T t c Hn Ht)| |].
  - intros ev. eapply wp_conseq; [apply (silent_time_from_now t c ev)| |auto]; cbv beta. intros a c' ev' l [_ Hq]. apply no_output_out, quiet_output, Hq.
  - cbv beta. intros [r d] c1 T1 HT1 Hn1 (-> & Hd). cbn [fst snd] in Hd.
    destruct Hd as [(-> & d' & -> & Hd & Hi)|(-> & ->)]; [|apply kno_ret]. change (AMQP_STATUS_OK =? AMQP_STATUS_OK) with true. cbn [negb]. cbv iota.
    apply kno_rpc_inner; assumption.
Qed.
End Refused.

(** ** Without heartbeats sending reads no clock *)
Lemma poll_infinite fuel : forall w c ev, wp (amqp_poll fuel w amqp_time_infinite) c ev (fun r _ _ _ => r <> AMQP_STATUS_TIMER_FAILURE) (fun _ _ _ => True).
Proof.
  induction fuel as [|fuel IH]; intros w c ev; cbn [amqp_poll]; [apply wp_halt; exact I|].
  unfold time_ms_until. change (UINT64_MAX =? amqp_time_infinite) with true. cbn [orb]. apply wp_ret_bind.
  change (amqp_time_ms_until 0 amqp_time_infinite) with (-1). change (-1 <? -1) with false. cbv iota.
  apply wp_bind. eapply wp_conseq; [apply (silent_poll w (-1) c ev)| |auto]; cbv beta. intros r c1 ev1 l1 _.
  destruct r; try (apply wp_ret; discriminate). eapply wp_conseq; [apply IH| |auto]; cbv beta. auto.
Qed.
Lemma do_poll_infinite N r c ev : r <> AMQP_STATUS_TIMER_FAILURE -> wp (do_poll N r amqp_time_infinite) c ev (fun r _ _ _ => r <> AMQP_STATUS_TIMER_FAILURE) (fun _ _ _ => True).
Proof.
  intros Hr. unfold do_poll. apply wp_get_bind. destruct (_ =? _); [apply wp_ret; discriminate|].
  destruct (_ =? _); [apply poll_infinite|]. destruct (_ =? _); [apply poll_infinite|]. apply wp_ret. exact Hr.
Qed.
Lemma try_send_infinite N fuel : forall len left more c ev, zlen left <= len -> wp (try_send_loop N fuel len left amqp_time_infinite more) c ev (fun r _ _ _ => r <> AMQP_STATUS_TIMER_FAILURE) (fun _ _ _ => True).
Proof.
  induction fuel as [|fuel IH]; intros len left more c ev Hl; cbn [try_send_loop]; [apply wp_halt; exact I|]. pose proof (zlen_nonneg left) as H0.
  apply wp_bind. eapply wp_conseq; [apply socket_send_ok| |auto]; cbv beta. intros r c1 ev1 l1 (-> & _ & Hr).
  assert (r <> AMQP_STATUS_TIMER_FAILURE) as Hn.
  { destruct Hr as [[Hr _]|[Hr _]]; [unfold AMQP_STATUS_TIMER_FAILURE; lia|]. destruct Hr as [[->|[->|[->|[->| ->]]]]| ->]; discriminate. }
  destruct (0 <? r).
  - cbv zeta. pose proof (zlen_skipn_le (Z.to_nat r) left) as Hk. destruct (_ =? _); [apply wp_ret; unfold AMQP_STATUS_TIMER_FAILURE; lia|].
    eapply wp_conseq; [apply IH; lia| |auto]; cbv beta; auto.
  - apply wp_bind. eapply wp_conseq; [apply do_poll_infinite, Hn| |auto]; cbv beta. intros r2 c2 ev2 l2 Hr2.
    destruct (_ =? _); [eapply wp_conseq; [apply IH; exact Hl| |auto]; cbv beta; auto|].
    destruct (_ =? _); apply wp_ret; [unfold AMQP_STATUS_TIMER_FAILURE; lia|exact Hr2].
Qed.
Section Off.
Context (N : nat) (E : nat -> aenv).
Lemma send_frame_off f more c ev : off c -> zlen (c_outbuf c) < M31 ->
  wp (amqp_send_frame_inner N E f more amqp_time_infinite) c ev (fun r c' _ _ => off c' /\ zlen (c_outbuf c') < M31 /\ r <> AMQP_STATUS_TIMER_FAILURE) (fun _ _ _ => True).
Proof.
  intros Ho Hb. 
  assert (wp (amqp_send_frame_inner N E f more amqp_time_infinite) c ev (fun r _ _ _ => r <> AMQP_STATUS_TIMER_FAILURE) (fun _ _ _ => True)) as H.
  { unfold amqp_send_frame_inner. apply wp_get_bind. destruct (amqp_frame_to_bytes f (c_outbuf c)) as [st buf enc|] eqn:Ef; [|apply wp_halt; exact I].
    pose proof (frame_to_bytes_status _ _ _ _ _ Hb Ef) as Hst. apply wp_upd_bind. destruct (Z.eqb_spec st AMQP_STATUS_OK); cbn [negb].
    2:{ apply wp_ret. destruct Hst as [->|[->|[->|[->|[->| ->]]]]]; discriminate. }
    destruct N as [|n] eqn:EN; cbn [send_frame_loop]; [apply wp_halt; exact I|]. apply wp_get_bind. cbv zeta. destruct Ho as (O1 & O2 & O3).
    cbn [c_next_recv set_outbuf]. rewrite O3. change (amqp_time_first amqp_time_infinite amqp_time_infinite) with amqp_time_infinite.
    apply wp_bind. eapply wp_conseq; [apply (wp_split _ _ _ _ _ _ _ (try_send_ok (S n) enc amqp_time_infinite more _ ev) (try_send_infinite (S n) (S n) (zlen enc) enc more _ ev (Z.le_refl _)))| |auto]; cbv beta. intros r c1 ev1 l1 [Hr Hr']. destruct (r <? 0); [apply wp_ret; exact Hr'|].
    destruct (negb _); [change (amqp_time_equal amqp_time_infinite amqp_time_infinite) with true; apply wp_ret; discriminate|].
    assert (c_hb c1 = 0) as O1'. { destruct Hr as [-> _]. exact O1. } unfold update_next_send. apply wp_get_bind. unfold amqp_heartbeat_send. rewrite O1'.
    change (time_s_from_now 0) with (ret (AMQP_STATUS_OK, Some amqp_time_infinite)). apply wp_ret_bind. apply wp_upd_bind. apply wp_ret. discriminate. }
  pose proof (send_frame_ok N E f more amqp_time_infinite c ev (Z.le_refl _)) as H2.
  eapply wp_conseq; [apply (wp_split _ _ _ _ _ _ _ H H2)| |auto]; cbv beta. intros r c' ev' l [K1 K2]. apply sent_f_facts in K2. destruct K2 as (_ & _ & K & K3 & H1 & H3). destruct Ho as (O1 & O2 & O3).
  destruct (H1 O3) as (_ & _ & _ & H4). split; [|split; [lia|exact K1]]. split; [destruct K as (_ & _ & K & _); congruence|]. auto.
Qed.
Definition ntm (m : M Z) (c : conn) : Prop := forall ev, off c -> zlen (c_outbuf c) < M31 ->
  wp m c ev (fun r c' _ _ => off c' /\ zlen (c_outbuf c') < M31 /\ r <> AMQP_STATUS_TIMER_FAILURE) (fun _ _ _ => True).
Lemma ntm_ret r c : r <> AMQP_STATUS_TIMER_FAILURE -> ntm (ret r) c.
Proof. intros H ev Ho Hb. apply wp_ret. auto. Qed.
Lemma ntm_bind m k c : ntm m c -> (forall r c', r <> AMQP_STATUS_TIMER_FAILURE -> ntm (k r) c') -> ntm (bind m k) c.
Proof.
  intros H1 H2 ev Ho Hb. apply wp_bind. eapply wp_conseq; [apply (H1 ev Ho Hb)| |auto]; cbv beta. intros r c1 ev1 l1 (A1 & A2 & A3).
  eapply wp_conseq; [apply (H2 r c1 A3 ev1 A1 A2)| |auto]; cbv beta; auto.
Qed.
Lemma ntm_send f more c : ntm (amqp_send_frame_inner N E f more amqp_time_infinite) c.
Proof. intros ev Ho Hb. apply send_frame_off; assumption. Qed.
Lemma ntm_body fuel : forall ch b u o c, ntm (publish_body N E fuel ch b u o) c.
Proof.
  induction fuel as [|fuel IH]; intros ch b u o c; cbn [publish_body]; [intros ev _ _; apply wp_halt; exact I|].
  destruct (negb _); [apply ntm_ret; discriminate|]. cbv zeta. destruct (_ =? _); [apply ntm_ret; discriminate|].
  destruct (slice _ _ _); [|intros ev _ _; apply wp_bind; cbn [need]; apply wp_halt; exact I]. intros ev Ho Hb. cbn [need]. apply wp_ret_bind. revert ev Ho Hb.
  match goal with |- forall ev, _ -> _ -> wp ?m _ _ _ _ => change (ntm m c) end.
  apply ntm_bind; [apply ntm_send|]. intros r c' Hr. destruct (r <? 0); [apply ntm_ret, Hr|apply IH].
Qed.
Lemma ntm_publish ch x k ma im p b c : ntm (amqp_basic_publish N E ch x k ma im p b) c.
Proof.
  intros ev Ho Hb. unfold amqp_basic_publish. apply wp_get_bind. cbv zeta. pose proof Ho as (_ & _ & O3). rewrite O3.
  change (time_has_past amqp_time_infinite) with (ret (A := Z) AMQP_STATUS_OK). apply wp_ret_bind.
  change (AMQP_STATUS_OK =? AMQP_STATUS_TIMER_FAILURE) with false. change (AMQP_STATUS_OK =? AMQP_STATUS_TIMEOUT) with false. cbv iota. apply wp_ret_bind.
  change (AMQP_STATUS_OK =? AMQP_STATUS_TIMEOUT) with false. change (negb (AMQP_STATUS_OK =? AMQP_STATUS_OK)) with false. cbv iota. revert ev Ho Hb.
  match goal with |- forall ev, _ -> _ -> wp ?m _ _ _ _ => change (ntm m c) end.
  apply ntm_bind; [apply ntm_send|]. intros r c1 Hr. destruct (r <? 0); [apply ntm_ret, Hr|]. 
  apply ntm_bind; [apply ntm_send|]. intros r2 c2 Hr2. destruct (r2 <? 0); [apply ntm_ret, Hr2|apply ntm_body].
Qed.
End Off.
