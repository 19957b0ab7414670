(** * C76: amqp_simple_wait_method takes one frame and judges it. *)
From Coq Require Import String ZArith List Bool Lia.
From Verif Require Import Base BaseFacts Codec TableModel TableSpec TableOps FramingStmt FramingGen FramingModel MethodSpec
  Frame FrameSpec Time Net NetApi NetSpec NetFacts NetAcct NetRx NetWell NetTyped FrameStream FrameProofs Queue Prop_Frame Prop_Send Prop_Release Prop_Rpc Prop_Receive Prop_Safe Prop_Queue Prop_Message.
Import ListNotations.
Open Scope Z_scope.

(** ** Specification *)
(** the frame is method [id] on channel [ch], with arguments [m] *)
Definition is_method (ch id : Z) (f : frame) (m : mstruct) : Prop := f_type f = AMQP_FRAME_METHOD /\ f_chan f = ch /\ f_pay f = PMethod id m.
(** what amqp_simple_wait_method reports if amqp_simple_wait_frame would have reported
    status [s] and frame [f] *)
Definition judged (ch id s : Z) (f : frame) (s' id' : Z) (m : mstruct) : Prop :=
  (s <> AMQP_STATUS_OK /\ s' = s) \/
  (s = AMQP_STATUS_OK /\ is_method ch id f m /\ s' = AMQP_STATUS_OK /\ id' = id) \/
  (s = AMQP_STATUS_OK /\ (forall m', ~ is_method ch id f m') /\ s' = AMQP_STATUS_WRONG_METHOD).

(** ** Proofs *)
Definition proper (f : frame) : Prop := f_type f = AMQP_FRAME_METHOD -> exists id m, f_pay f = PMethod id m.
Lemma judge N E ch id c ev :
  match exec N E (WaitFrame None) c ev with
  | Done (OutFrame s f) c' ev' l =>
      (s = AMQP_STATUS_OK -> proper f) ->
      exists s' id' m, exec N E (WaitMethod ch id) c ev = Done (OutMethod s' id' m) c' ev' l /\ judged ch id s f s' id' m
  | Done _ _ _ _ => False
  | Halt h c' l => exec N E (WaitMethod ch id) c ev = Halt h c' l
  end.
Proof.
  cbn [exec]. unfold amqp_simple_wait_method, simple_wait_method_inner, amqp_simple_wait_method_list, time_tv_until.
  change ((UINT64_MAX =? amqp_time_infinite) || (0 =? amqp_time_infinite)) with true. cbv iota.
  change (amqp_time_tv_until 0 amqp_time_infinite) with (AMQP_STATUS_OK, Some (@None timeval)). unfold bind, ret, need, halt.
  change (negb (AMQP_STATUS_OK =? AMQP_STATUS_OK)) with false. cbv beta iota.
  destruct (amqp_simple_wait_frame_noblock N E None c ev) as [[s f] c1 ev1 l1|h c1 l1]; [|reflexivity].
  cbv beta iota. cbn [app]. rewrite !app_nil_r. intros Hp.
  destruct (Z.eqb_spec s AMQP_STATUS_OK) as [->|Hs]; cbn [negb].
  2:{ eexists _, _, _. rewrite ?app_nil_r. split; [reflexivity|]. left. auto. }
  destruct (Z.eqb_spec AMQP_FRAME_METHOD (f_type f)) as [Ht|Ht]; cbn [negb orb].
  2:{ eexists _, _, _. rewrite ?app_nil_r. split; [reflexivity|]. right; right. split; [reflexivity|]. split; [|reflexivity]. intros m' (K & _). congruence. }
  destruct (Z.eqb_spec ch (f_chan f)) as [Hc|Hc]; cbn [negb].
  2:{ eexists _, _, _. rewrite ?app_nil_r. split; [reflexivity|]. right; right. split; [reflexivity|]. split; [|reflexivity]. intros m' (_ & K & _). congruence. }
  destruct (Hp eq_refl (eq_sym Ht)) as (i & m & Hm). unfold method_of. rewrite Hm. unfold ret. cbv beta iota.
  unfold amqp_id_in_reply_list. cbn [existsb]. destruct (Z.eqb_spec i id) as [->|Hi]; cbn [orb negb].
  - eexists _, _, _. rewrite ?app_nil_r. split; [reflexivity|]. right; left. repeat split; auto.
  - eexists _, _, _. rewrite ?app_nil_r. split; [reflexivity|]. right; right. split; [reflexivity|]. split; [|reflexivity]. intros m' (_ & _ & K). congruence.
Qed.
Lemma waits_proper N E c ev : J (fun _ => True) c ->
  match exec N E (WaitFrame None) c ev with Done (OutFrame s f) _ _ _ => s = AMQP_STATUS_OK -> proper f | _ => True end.
Proof.
  intros HJ. cbn [exec]. unfold bind. 
  assert (wp (amqp_simple_wait_frame_noblock N E None) c ev (fun p _ _ _ => fst p = AMQP_STATUS_OK -> proper (snd p)) (fun _ _ _ => True)) as H.
  2:{ unfold wp in H. destruct (amqp_simple_wait_frame_noblock N E None c ev) as [[s f] c1 ev1 l1|h c1 l1]; [|exact I]. cbn [ret]. exact H. }
  eapply wp_conseq; [apply (ty_noblock N E (fun _ => True) (fun _ _ => True) ltac:(intros; exact I) ltac:(intros; exact I) ltac:(intros; exact I) ltac:(intros; exact I) None c ev HJ)| |auto]; cbv beta.
  intros [s f] c1 ev1 l1 K Hs. cbn [fst snd] in *. destruct K as (_ & _ & K); [apply Forall_forall; auto|]. destruct (K Hs) as [K1 _]. cbn [fst snd] in K1.
  intros Ht. destruct (typed_method f K1 Ht) as (i & m & Hm & _). eauto.
Qed.
Lemma J_any X c : J X c -> J (fun _ => True) c.
Proof. intros (H1 & H2 & H3). split; [exact H1|]. split; [|exact H3]. eapply Forall_impl; [|exact H2]. intros f [H _]. split; auto. Qed.

(** ** Theorems *)
(** After any calls on a connection, amqp_simple_wait_method does to the connection what
    amqp_simple_wait_frame does - the same system calls in the same order, the same
    frames read, the same frame taken - and reports, instead of the frame, whether it is
    the method asked for. *)
Theorem C76_one_frame_judged :
  forall (N : nat) (E : nat -> aenv) (calls : list api) (c0 c : conn) (ev0 ev : list event) (os : list outcome_t) (l0 : list obs) (ch id : Z),
    Forall arguments_ok calls ->
    idle (c_in c0) -> c_queue c0 = [] -> 0 <= frame_max c0 < M30 -> zlen (c_outbuf c0) < M31 ->
    exec_all N E calls c0 ev0 = Done os c ev l0 -> Forall basic_content (frames l0) ->
    match exec N E (WaitFrame None) c ev with
    | Done (OutFrame s f) c' ev' l =>
        exists s' id' m, exec N E (WaitMethod ch id) c ev = Done (OutMethod s' id' m) c' ev' l /\ judged ch id s f s' id' m
    | Done _ _ _ _ => False
    | Halt h c' l => exec N E (WaitMethod ch id) c ev = Halt h c' l
    end.
Proof.
  intros N E calls c0 c ev0 ev os l0 ch id Ha Hi Hq Hf Hb Hrun HF.
  assert (J (fun _ => True) c) as HJ.
  { apply (J_any basic_content). pose proof (ty_exec_all N E basic_content (fun _ _ => True) ltac:(intros; exact I) ltac:(intros; exact I) ltac:(intros; exact I) ltac:(intros; exact I) basic_content_header calls) as H.
    assert (Forall call_fine calls) as Hc by (eapply Forall_impl; [|exact Ha]; apply arguments_fine).
    specialize (H Hc c0 ev0). assert (J basic_content c0) as HJ. { split; [apply idle_in_ok; assumption|]. split; [|exact Hb]. unfold queued. rewrite Hq. constructor. }
    specialize (H HJ). unfold wp in H. rewrite Hrun in H. apply H, HF. }
  pose proof (judge N E ch id c ev) as H. pose proof (waits_proper N E c ev HJ) as HP.
  destruct (exec N E (WaitFrame None) c ev) as [[] c1 ev1 l1|]; try exact H. apply H, HP.
Qed.
(** A pending frame that is not the one asked for is taken all the same: it is lost. *)
Theorem C76_frame_taken :
  forall (N : nat) (E : nat -> aenv) (c : conn) (ev : list event) (f : frame) (rest : list frame) (ch id : Z),
    Forall (entry_valid c) (c_queue c) -> queued c = f :: rest -> (f_type f = AMQP_FRAME_METHOD -> exists i m, f_pay f = PMethod i m) ->
    exists s id' m c' l, exec N E (WaitMethod ch id) c ev = Done (OutMethod s id' m) c' ev l /\ queued c' = rest /\ no_input l /\ out_bytes l = [] /\
      ((s = AMQP_STATUS_OK /\ id' = id /\ is_method ch id f m) \/ (s = AMQP_STATUS_WRONG_METHOD /\ forall m', ~ is_method ch id f m')).
Proof.
  intros N E c ev f rest ch id Hv Hq Hp. pose proof (C36_queued_first N E None c ev f rest Hv Hq) as H.
  pose proof (judge N E ch id c ev) as HJ. assert (exists c' l, amqp_simple_wait_frame_noblock N E None c ev = Done (AMQP_STATUS_OK, f) c' ev l) as (c2 & l2 & Hr).
  { clear H HJ. unfold amqp_simple_wait_frame_noblock, time_from_now. change (amqp_time_from_now 0 None) with (AMQP_STATUS_OK, Some amqp_time_infinite).
    unfold bind, ret, get, upd. change (AMQP_STATUS_OK =? AMQP_STATUS_OK) with true. cbv beta iota. cbn [negb]. apply valid_qalive in Hv. unfold queued in Hq. unfold qalive in Hv.
    destruct (c_queue c) as [|e q]; [discriminate|]. cbn in Hq. injection Hq as <- <-. cbn in Hv. apply andb_true_iff in Hv. destruct Hv as [Hv _].
    rewrite Hv. cbn [negb app]. eauto. }
  rewrite Hr in H. destruct H as (H1 & H2 & [(_ & _ & H3)|(K & _)]); [|discriminate K].
  cbn [exec] in HJ. unfold bind at 1 in HJ. rewrite Hr in HJ. cbn [ret] in HJ. rewrite app_nil_r in HJ.
  destruct (HJ (fun _ => Hp)) as (s' & id' & m & Hx & Hj). exists s', id', m, c2, l2. split; [exact Hx|]. split; [exact H3|]. split; [exact H1|]. split; [exact H2|].
  destruct Hj as [[K _]|[(_ & Hm & -> & ->)|(_ & Hm & ->)]]; [contradiction|left; auto|right; auto].
Qed.

(** ** The hypotheses are met *)
(** three frames of the server: channel 2 gets basic.ack (method 60,80); a wait for it
    on channel 1 reports WRONG_METHOD, a wait for basic.nack too, and both frames are gone *)
Example C76_case :
  match exec_all 100 plain_env [WaitMethod 1 (method_id 60 80); WaitMethod 2 (method_id 60 120); WaitMethod 2 (method_id 60 80)] ready
    [EvRecv (ROk (ser [(2, sample_ack); (2, sample_ack); (2, sample_ack)]))] with
  | Done [OutMethod s1 _ _; OutMethod s2 _ _; OutMethod s3 id m] c' ev l =>
      s1 = AMQP_STATUS_WRONG_METHOD /\ s2 = AMQP_STATUS_WRONG_METHOD /\ s3 = AMQP_STATUS_OK /\ id = method_id 60 80 /\ m <> [] /\ length (frames l) = 3%nat
  | _ => False
  end.
Proof. vm_compute. repeat split. discriminate. Qed.
Definition one_pending : conn := set_queue ready [(received_frame 0 2 sample_ack, 0%nat)].
Example C76_taken_case :
  Forall (entry_valid one_pending) (c_queue one_pending) /\ queued one_pending = [received_frame 0 2 sample_ack] /\
  (f_type (received_frame 0 2 sample_ack) = AMQP_FRAME_METHOD -> exists i m, f_pay (received_frame 0 2 sample_ack) = PMethod i m) /\
  is_method 2 (method_id 60 80) (received_frame 0 2 sample_ack) [("delivery_tag", VInt 7); ("multiple", VBool 1)]%string.
Proof. split; [|split; [reflexivity|split; [intros _; eexists _, _; reflexivity|repeat split]]]. constructor; [|constructor]. split; reflexivity. Qed.

Print Assumptions C76_one_frame_judged.
Print Assumptions C76_frame_taken.
