(** C47, C48: publisher confirms and consuming; frames that are not the expected
    ones are put back. *)
From Coq Require Import String ZArith List Bool Lia.
From Verif Require Import Base BaseFacts Codec TableModel TableSpec TableOps FramingStmt FramingGen FramingModel MethodSpec
  Frame FrameSpec Time Sasl Net NetApi NetSpec NetFacts NetSend NetRecv NetWalk NetAcct NetOrder NetWait NetOff NetCalls EncStatus NetRpc NetOffAll NetChan Queue Prop_Frame Prop_Send Prop_Release Prop_Rpc Prop_Queue.
Import ListNotations.
Local Open Scope Z_scope.

(** ** Vocabulary *)
(** [f] is the next frame for a reader of the connection [c]: the oldest pending
    frame (and then nothing is read from the socket), or, if none is pending, the
    last frame decoded in the run [l]; the frames decoded before it are heartbeats
    (unless the library threw received bytes away: [no_lost], see C35, C38).
    [rest]: the frames pending after [f] has been taken. *)
Definition next_frame (c : conn) (l : list obs) (f : frame) (rest : list frame) : Prop :=
  (queued c = f :: rest /\ no_input l) \/
  (queued c = [] /\ f_type f <> 8 /\ exists pre, frames l = pre ++ [f] /\ (no_lost l -> no_hb pre = [] /\ rest = [])).
(** the frame can be read again: the next amqp_simple_wait_frame returns it, without
    any system call, and leaves [rest] *)
Definition can_be_read_again (N : nat) (E : nat -> aenv) (c : conn) (f : frame) (rest : list frame) : Prop :=
  forall ev, exists c2, amqp_simple_wait_frame N E c ev = Done (AMQP_STATUS_OK, f) c2 ev [] /\ queued c2 = rest.
(** a method frame carrying one of the methods *)
Definition carries (ids : list Z) (f : frame) (id : Z) (args : mstruct) : Prop :=
  f_type f = 1 /\ f_pay f = PMethod id args /\ In id ids.

Section Consume.
Context (N : nat) (E : nat -> aenv).

Lemma nexted_next f c c' l : nexted AMQP_STATUS_OK f c c' l -> next_frame c l f (queued c').
Proof.
  intros [H1 H2 H3 H4 H5 H6 H7 H8 H9 H10]. destruct (c_queue c) as [|e q] eqn:Hq.
  - right. destruct (H8 eq_refl eq_refl) as [_ H8']. destruct (H4 eq_refl eq_refl) as [pre Hp]. split; [unfold queued; rewrite Hq; reflexivity|]. split; [exact H8'|]. exists pre. split; [exact Hp|].
    intros Hl. destruct (H5 eq_refl eq_refl Hl) as (G1 & hbs & G2 & G3). rewrite Hp in G3. apply app_inj_tail in G3. destruct G3 as [-> _]. split; [exact G2|]. unfold queued. rewrite G1. reflexivity.
  - left. destruct (H3 eq_refl e q eq_refl) as (-> & -> & Hl). split; [unfold queued; rewrite Hq; reflexivity|]. eapply Forall_impl; [|exact Hl]. intros []; tauto.
Qed.
Lemma next_frame_more c l f rest l' : next_frame c l f rest -> no_input l' -> next_frame c (l ++ l') f rest.
Proof.
  intros H Hi. assert (frames l' = []) as Hf.
  { clear H. induction Hi as [|o l0 Ho _ IH]; [reflexivity|]. destruct o; cbn; try contradiction; exact IH. }
  destruct H as [[H1 H2]|(H1 & Ht & pre & H2 & H3)].
  - left. split; [exact H1|]. apply Forall_app. auto.
  - right. split; [exact H1|]. split; [exact Ht|]. exists pre. rewrite frames_app, Hf, app_nil_r. split; [exact H2|]. intros Hl. apply no_lost_app in Hl. apply H3, Hl.
Qed.
Lemma noblock_next t c ev : qalive c ->
  wp (amqp_simple_wait_frame_noblock N E t) c ev
    (fun p c' _ l => nexted (fst p) (snd p) c c' l /\ qalive c' /\ fresh_ok p c') (fun s c' l => True).
Proof.
  intros Hq. pose proof (al_noblock N E t c ev Hq) as H2.
  eapply wp_conseq; [apply (wp_split _ _ _ _ _ _ _ (noblock_ok N E t c ev Hq) H2)| |auto]. cbv beta. intros p c' ev' l H. tauto.
Qed.
Lemma put_back_ok f c ev : qalive c -> falive (gens c) f ->
  wp (amqp_put_back_frame f) c ev
    (fun _ c' _ l => (exists b, l = [OAlloc b]) /\ (no_oom_obs l -> can_be_read_again N E c' f (queued c))) (fun _ _ _ => True).
Proof.
  intros Hq Hf. unfold amqp_put_back_frame, create_link, wp, bind, sys_alloc, get, ret, upd. destruct ev as [|[] ev]; try exact I.
  destruct ok.
  - cbn [app]. split; [eauto|]. intros _ ev2. unfold amqp_simple_wait_frame, amqp_simple_wait_frame_noblock, bind, time_from_now, amqp_time_from_now, ret, get, upd.
    cbn [Z.eqb AMQP_STATUS_OK negb c_queue set_queue fst].
    assert (entry_alive (gens c) (f, gens c (f_chan f)) = true) as He by (apply entry_alive_iff; auto).
    cbn [gens c_in set_queue] in *. unfold gens in *. cbn [c_in set_queue]. rewrite He. cbn [negb app]. eexists. split; [reflexivity|]. reflexivity.
  - cbn [app]. split; [eauto|]. intros H. inversion H; subst. discriminate.
Qed.
Lemma alloc_input b : no_input [OAlloc b].
Proof. repeat constructor. Qed.

(** ** C47 *)
(** basic.ack, basic.nack and basic.reject *)
Definition confirms : list Z := [method_id 60 80; method_id 60 120; method_id 60 90].
(** Every return of the call: the next frame was a confirmation and is reported
    with its channel and arguments; or it was something else, is not lost, and the
    call fails with AMQP_STATUS_UNEXPECTED_STATE; or waiting failed and no frame was
    taken. *)
Inductive confirm_result (c c' : conn) (l : list obs) : rpc_reply_t -> option (Z * Z * mstruct) -> Prop :=
| got_confirm f id args : next_frame c l f (queued c') -> carries confirms f id args ->
    confirm_result c c' l (RNormal 0 []) (Some (f_chan f, id, args))
| got_other f rest : next_frame c l f rest -> (forall id args, ~ carries confirms f id args) ->
    (no_oom_obs l -> can_be_read_again N E c' f rest) ->
    confirm_result c c' l (RLibrary AMQP_STATUS_UNEXPECTED_STATE) None
| got_none st : st < 0 -> (no_oom_obs l -> no_hb (queued c') = no_hb (queued c ++ frames l)) ->
    confirm_result c c' l (RLibrary st) None.

Lemma confirm_ok t c ev : qalive c ->
  wp (amqp_publisher_confirm_wait N E t) c ev (fun p c' _ l => confirm_result c c' l (fst p) (snd p)) (fun _ _ _ => True).
Proof.
  intros Hq. unfold amqp_publisher_confirm_wait. apply wp_bind. eapply wp_conseq; [apply noblock_next, Hq| |auto]. cbv beta.
  intros [r f] c1 ev1 l1 (Hn & Hq1 & Hf). cbn [fst snd] in *. unfold fresh_ok in Hf. cbn [fst snd] in Hf.
  destruct (Z.eqb_spec r AMQP_STATUS_OK) as [->|Hr]; cbn [negb].
  2:{ apply wp_ret. rewrite app_nil_r. cbn [fst snd]. destruct Hn as [H1 H2 H3 H4 H5 H6 H7 H8 H9 H10]. apply got_none; [unfold AMQP_STATUS_OK in *; lia|]. intros Ho. symmetry. apply H6; assumption. }
  specialize (Hf eq_refl). pose proof (nexted_next _ _ _ _ Hn) as Hx.
  assert ((forall id args, ~ carries confirms f id args) ->
    wp (bind (amqp_put_back_frame f) (fun _ => ret (RLibrary AMQP_STATUS_UNEXPECTED_STATE, @None (Z * Z * mstruct)))) c1 ev1
      (fun p c' (_ : list event) l => confirm_result c c' (l1 ++ l) (fst p) (snd p)) (fun _ _ _ => True)) as Hpb.
  { intros Hno. apply wp_bind. eapply wp_conseq; [apply put_back_ok; eassumption| |auto]. cbv beta. intros st c2 ev2 l2 [(b & ->) H2].
    apply wp_ret. rewrite app_nil_r. cbn [fst snd]. eapply got_other; [apply next_frame_more; [exact Hx|apply alloc_input]|exact Hno|].
    intros Ho. apply H2. apply no_oom_obs_app in Ho. apply Ho. }
  destruct (Z.eqb_spec (f_type f) AMQP_FRAME_METHOD) as [Ht|Ht].
  2:{ apply Hpb. intros id args (K & _). apply Ht. exact K. }
  unfold method_of. destruct (f_pay f) as [|id m| | |] eqn:Hp; try (apply Hpb; intros id' args (_ & K & _); congruence).
  destruct ((id =? BASIC_ACK) || (id =? BASIC_NACK) || (id =? BASIC_REJECT)) eqn:Hid.
  - apply wp_ret. rewrite app_nil_r. cbn [fst snd]. apply got_confirm; [exact Hx|]. split; [exact Ht|]. split; [exact Hp|].
    apply orb_true_iff in Hid. destruct Hid as [Hid|Hid]; [apply orb_true_iff in Hid; destruct Hid as [Hid|Hid]|]; apply Z.eqb_eq in Hid; subst id; cbn; auto.
  - apply Hpb. intros id' args (_ & K & Hin). rewrite Hp in K. injection K as -> ->. apply orb_false_iff in Hid. destruct Hid as [Hid H3]. apply orb_false_iff in Hid. destruct Hid as [H1 H2].
    apply Z.eqb_neq in H1, H2, H3. cbn in Hin. unfold BASIC_ACK, BASIC_NACK, BASIC_REJECT in *. destruct Hin as [K|[K|[K|[]]]]; unfold method_id in K; lia.
Qed.

(** ** C48 *)
Definition deliver : list Z := [method_id 60 60].
(** The call found a frame that is not a basic.deliver. *)
Inductive consume_result (c c' : conn) (l : list obs) : rpc_reply_t -> option envelope -> Prop :=
| con_other f rest : next_frame c l f rest -> (forall id args, ~ carries deliver f id args) ->
    (no_oom_obs l -> can_be_read_again N E c' f rest) ->
    consume_result c c' l (RLibrary AMQP_STATUS_UNEXPECTED_STATE) None
| con_none st : st < 0 -> (no_oom_obs l -> no_hb (queued c') = no_hb (queued c ++ frames l)) ->
    consume_result c c' l (RLibrary st) None
| con_deliver r e f args rest l1 l2 : l = l1 ++ l2 -> next_frame c l1 f rest -> carries deliver f (method_id 60 60) args ->
    consume_result c c' l r e.

Lemma consume_res_ok t c ev : qalive c ->
  wp (amqp_consume_message N E t) c ev (fun p c' _ l => consume_result c c' l (fst p) (snd p)) (fun _ _ _ => True).
Proof.
  intros Hq. unfold amqp_consume_message. apply wp_bind. eapply wp_conseq; [apply noblock_next, Hq| |auto]. cbv beta.
  intros [r f] c1 ev1 l1 (Hn & Hq1 & Hf). cbn [fst snd] in *. unfold fresh_ok in Hf. cbn [fst snd] in Hf.
  destruct (Z.eqb_spec r AMQP_STATUS_OK) as [->|Hr]; cbn [negb].
  2:{ apply wp_ret. rewrite app_nil_r. cbn [fst snd]. destruct Hn as [H1 H2 H3 H4 H5 H6 H7 H8 H9 H10]. apply con_none; [unfold AMQP_STATUS_OK in *; lia|]. intros Ho. symmetry. apply H6; assumption. }
  specialize (Hf eq_refl). pose proof (nexted_next _ _ _ _ Hn) as Hx.
  assert ((forall id args, ~ carries deliver f id args) ->
    wp (bind (amqp_put_back_frame f) (fun _ => ret (RLibrary AMQP_STATUS_UNEXPECTED_STATE, @None envelope))) c1 ev1
      (fun p c' (_ : list event) l => consume_result c c' (l1 ++ l) (fst p) (snd p)) (fun _ _ _ => True)) as Hpb.
  { intros Hno. apply wp_bind. eapply wp_conseq; [apply put_back_ok; eassumption| |auto]. cbv beta. intros st c2 ev2 l2 [(b & ->) H2].
    apply wp_ret. rewrite app_nil_r. cbn [fst snd]. eapply con_other; [apply next_frame_more; [exact Hx|apply alloc_input]|exact Hno|].
    intros Ho. apply H2. apply no_oom_obs_app in Ho. apply Ho. }
  destruct (Z.eqb_spec (f_type f) AMQP_FRAME_METHOD) as [Ht|Ht].
  2:{ apply Hpb. intros id args (K & _). apply Ht. exact K. }
  unfold method_of. destruct (f_pay f) as [|id m| | |] eqn:Hp; try (apply Hpb; intros id' args (_ & K & _); congruence).
  destruct (Z.eqb_spec id BASIC_DELIVER) as [->|Hid].
  - match goal with |- wp ?m _ _ _ _ => assert (wp m c1 ev1 (fun _ _ _ _ => True) (fun _ _ _ => True)) as K by (unfold wp; destruct (m c1 ev1); exact I) end.
    eapply wp_conseq; [exact K| |auto]. cbv beta. intros a c2 ev2 l2 _. eapply con_deliver; [reflexivity|exact Hx|].
    split; [exact Ht|]. split; [exact Hp|]. cbn. auto.
  - apply Hpb. intros id' args (_ & K & Hin). rewrite Hp in K. injection K as -> ->. cbn in Hin. unfold BASIC_DELIVER in *. destruct Hin as [K|[]]; unfold method_id in K; lia.
Qed.
End Consume.

Theorem C47_confirms :
  forall (N : nat) (E : nat -> aenv) (timeout : option timeval) (c c' : conn) (ev ev' : list event) (l : list obs)
         (r : rpc_reply_t) (k : option (Z * Z * mstruct)),
    Forall (entry_valid c) (c_queue c) ->
    amqp_publisher_confirm_wait N E timeout c ev = Done (r, k) c' ev' l ->
    confirm_result N E c c' l r k.
Proof.
  intros N E t c c' ev ev' l r k Hv Hrun. apply valid_qalive in Hv. pose proof (confirm_ok N E t c ev Hv) as H. unfold wp in H. rewrite Hrun in H. exact H.
Qed.
(** in particular with the frame already waiting: an exact function of the frame *)
Theorem C47_pending_confirm :
  forall (N : nat) (E : nat -> aenv) (c : conn) (ev : list event) (f : frame) (q : list frame),
    Forall (entry_valid c) (c_queue c) -> queued c = f :: q ->
    (forall id args, carries confirms f id args ->
      exists c', amqp_publisher_confirm_wait N E None c ev = Done (RNormal 0 [], Some (f_chan f, id, args)) c' ev [] /\ queued c' = q) /\
    ((forall id args, ~ carries confirms f id args) ->
      exists c', amqp_publisher_confirm_wait N E None c (EvAlloc true :: ev) = Done (RLibrary AMQP_STATUS_UNEXPECTED_STATE, None) c' ev [OAlloc true] /\
        can_be_read_again N E c' f q).
Proof.
  intros N E c ev f q Hv Hq. assert (qalive c) as Ha by (apply valid_qalive, Hv). unfold queued in Hq.
  destruct (c_queue c) as [|e q'] eqn:Hqu; [discriminate|]. cbn in Hq. injection Hq as He Hq. subst f.
  pose proof Ha as Ha'. unfold qalive in Ha'. rewrite Hqu in Ha'. cbn in Ha'. apply andb_true_iff in Ha'. destruct Ha' as [He Hq'].
  assert (forall ev, amqp_simple_wait_frame_noblock N E None c ev = Done (AMQP_STATUS_OK, fst e) (set_queue c q') ev []) as Hw.
  { intros ev'. unfold amqp_simple_wait_frame_noblock, bind, time_from_now, amqp_time_from_now, ret, get, upd. cbn [Z.eqb AMQP_STATUS_OK negb]. rewrite Hqu, He. reflexivity. }
  assert (qalive (set_queue c q')) as Ha1 by exact Hq'.
  apply entry_alive_iff in He. destruct He as [_ He].
  split.
  - intros id args (H1 & H2 & H3). exists (set_queue c q'). split; [|exact Hq].
    unfold amqp_publisher_confirm_wait, bind. rewrite Hw. cbn [Z.eqb AMQP_STATUS_OK negb]. rewrite H1. cbn [Z.eqb AMQP_FRAME_METHOD]. unfold method_of. rewrite H2.
    cbn in H3. destruct H3 as [<-|[<-|[<-|[]]]]; reflexivity.
  - intros Hno. pose proof (put_back_ok N E (fst e) (set_queue c q') (EvAlloc true :: ev) Ha1 He) as Hp.
    unfold wp in Hp. destruct (amqp_put_back_frame (fst e) (set_queue c q') (EvAlloc true :: ev)) as [st c2 ev2 l2|] eqn:Hpb.
    2:{ unfold amqp_put_back_frame, create_link, bind, sys_alloc, get, ret, upd in Hpb. discriminate. }
    assert (ev2 = ev /\ l2 = [OAlloc true]) as [-> ->].
    { unfold amqp_put_back_frame, create_link, bind, sys_alloc, get, ret, upd in Hpb. injection Hpb as _ _ <- <-. auto. }
    destruct Hp as [_ Hp]. exists c2. split; [|rewrite <- Hq; apply Hp; repeat constructor].
    unfold amqp_publisher_confirm_wait, bind. rewrite Hw. cbn [Z.eqb AMQP_STATUS_OK negb].
    destruct (if f_type (fst e) =? AMQP_FRAME_METHOD then method_of (fst e) else None) as [[id m]|] eqn:Hm.
    + destruct ((id =? BASIC_ACK) || (id =? BASIC_NACK) || (id =? BASIC_REJECT)) eqn:Hid; [exfalso|rewrite Hpb; reflexivity].
      destruct (Z.eqb_spec (f_type (fst e)) AMQP_FRAME_METHOD) as [Ht|]; [|discriminate]. unfold method_of in Hm. destruct (f_pay (fst e)) eqn:Hp'; try discriminate. injection Hm as -> ->.
      apply (Hno id m). split; [exact Ht|]. split; [exact Hp'|].
      apply orb_true_iff in Hid. destruct Hid as [Hid|Hid]; [apply orb_true_iff in Hid; destruct Hid as [Hid|Hid]|]; apply Z.eqb_eq in Hid; subst id; cbn; auto.
    + rewrite Hpb. reflexivity.
Qed.

Theorem C48_unexpected_frames_kept :
  forall (N : nat) (E : nat -> aenv) (timeout : option timeval) (c c' : conn) (ev ev' : list event) (l : list obs)
         (r : rpc_reply_t) (e : option envelope),
    Forall (entry_valid c) (c_queue c) ->
    amqp_consume_message N E timeout c ev = Done (r, e) c' ev' l ->
    consume_result N E c c' l r e.
Proof.
  intros N E t c c' ev ev' l r k Hv Hrun. apply valid_qalive in Hv. pose proof (consume_res_ok N E t c ev Hv) as H. unfold wp in H. rewrite Hrun in H. exact H.
Qed.

(** non-vacuity: a basic.ack of channel 7 pending, and a basic.return (a method, but
    not one of the expected ones); an ack arriving in two pieces *)
Definition ack_7 : frame := mkFrame 1 7 (PMethod (method_id 60 80) [("delivery_tag", VInt 3); ("multiple", VBool 1)]%string) 0.
Example C47_case :
  let c := set_queue (set_in (new_connection 5) idle0) [(ack_7, 0%nat); (body_1, 0%nat)] in
  Forall (entry_valid c) (c_queue c) /\ queued c = [ack_7; body_1] /\
  carries confirms ack_7 (method_id 60 80) [("delivery_tag", VInt 3); ("multiple", VBool 1)]%string /\
  (forall id args, ~ carries confirms body_1 id args).
Proof.
  split; [repeat constructor|]. split; [reflexivity|]. split; [repeat split; cbn; auto|]. intros id args (H & _). discriminate H.
Qed.
Definition ack_wire : bytes := ser_frame 7 (AMethod 60 80 [("delivery_tag", Longlong); ("multiple", Bit)]%string [("delivery_tag", VInt 3); ("multiple", VBool 1)]%string).
Example C47_from_the_socket :
  match amqp_publisher_confirm_wait 100 plain_env None (set_in (new_connection 5) idle0)
    [EvRecv (ROk (firstn 5 ack_wire)); EvRecv (ROk (skipn 5 ack_wire))] with
  | Done p c' rest l => p = (RNormal 0 [], Some (7, method_id 60 80, [("delivery_tag", VInt 3); ("multiple", VBool 1)]%string)) /\ rest = []
  | Halt _ _ _ => False
  end.
Proof. vm_compute. split; reflexivity. Qed.
Example C48_case :
  match amqp_consume_message 100 plain_env None some_conn [EvAlloc true] with
  | Done p c' rest l => p = (RLibrary AMQP_STATUS_UNEXPECTED_STATE, None) /\ queued c' = [body_1] /\ rest = []
  | Halt _ _ _ => False
  end.
Proof. vm_compute. repeat split; reflexivity. Qed.

Print Assumptions C47_confirms.
Print Assumptions C47_pending_confirm.
Print Assumptions C48_unexpected_frames_kept.
