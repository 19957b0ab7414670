(** Heartbeats switched off: they stay off, and no received byte is ever lost, in
    every history of calls. *)
From Coq Require Import String ZArith List Bool Lia.
From Verif Require Import Base BaseFacts Codec TableModel TableSpec TableOps FramingStmt FramingGen FramingModel MethodSpec
  Frame FrameSpec Time Sasl Net NetApi NetSpec NetFacts NetSend NetRecv NetWalk NetAcct NetOrder NetWait NetOff NetCalls EncStatus NetRpc.
Import ListNotations.
Local Open Scope Z_scope.

Section OffAll.
Context (N : nat) (E : nat -> aenv).

Definition offs {A} (m : M A) (Q : A -> Prop) (c : conn) : Prop :=
  forall ev, off c -> wp m c ev (fun a c' _ l => off c' /\ no_lost l /\ Q a) (fun _ _ l => no_lost l).
Definition what {A} (a : A) : Prop := True.

Lemma of_bind {A B} (m : M A) (k : A -> M B) P Q c : offs m P c -> (forall a c', P a -> offs (k a) Q c') -> offs (bind m k) Q c.
Proof.
  intros Hm Hk ev Hc. apply wp_bind. eapply wp_conseq; [apply Hm, Hc| |auto].
  cbv beta. intros a c1 ev1 l1 (H1 & H2 & H3). eapply wp_conseq; [apply Hk; [exact H3|exact H1]| |].
  - cbv beta. intros b c2 ev2 l2 (G1 & G2 & G3). split; [exact G1|]. split; [apply no_lost_app; auto|exact G3].
  - cbv beta. intros s c2 l2 G. apply no_lost_app; auto.
Qed.
Lemma of_get_bind {B} (k : conn -> M B) Q c : (off c -> offs (k c) Q c) -> offs (bind get k) Q c.
Proof. intros H ev Hc. apply wp_get_bind, H; assumption. Qed.
Lemma of_ret {A} (a : A) (Q : A -> Prop) c : Q a -> offs (ret a) Q c.
Proof. intros H ev Hc. apply wp_ret. split; [exact Hc|]. split; [constructor|exact H]. Qed.
Lemma of_ret' {A} (a : A) c : offs (ret a) what c.
Proof. apply of_ret. exact I. Qed.
Lemma of_halt {A} s (Q : A -> Prop) c : offs (halt s) Q c.
Proof. intros ev Hc. apply wp_halt. constructor. Qed.
Lemma of_upd f c : (off c -> off (f c)) -> offs (upd f) what c.
Proof. intros H ev Hc. apply wp_upd. split; [auto|]. split; [constructor|exact I]. Qed.
Lemma of_weak {A} (m : M A) (P Q : A -> Prop) c : offs m P c -> (forall a, P a -> Q a) -> offs m Q c.
Proof. intros H H1 ev Hc. eapply wp_conseq; [apply H, Hc|cbv beta; intros a c' ? ? (? & ? & ?); auto|auto]. Qed.
Lemma of_need {A} (o : option A) c : offs (need o) what c.
Proof. destruct o; [apply of_ret'|apply of_halt]. Qed.
Lemma of_silent {A} (m : M A) c : silent m -> offs m what c.
Proof.
  intros H ev Hc. eapply wp_conseq; [apply H| |intros ? ? ? (_ & Hq & _); apply idle_quiet, Hq]. cbv beta. intros a c' ev' l [-> Hq].
  split; [exact Hc|]. split; [apply idle_quiet, Hq|exact I].
Qed.
Lemma of_from_now t c : offs (time_from_now t) deadline_ok c.
Proof.
  intros ev Hc. eapply wp_conseq; [apply from_now_ok| |intros ? ? ? (_ & Hq & _); apply idle_quiet, Hq]. cbv beta. intros a c' ev' l (-> & Hq & Hd & _).
  split; [exact Hc|]. split; [apply idle_quiet, Hq|exact Hd].
Qed.
Lemma of_create f c : offs (create_link f) what c.
Proof.
  intros ev Hc. eapply wp_conseq; [apply create_link_ok| |intros ? ? ? (_ & Hi & _); apply Hi]. cbv beta. intros a c' ev' l (-> & Hi & _).
  split; [exact Hc|]. split; [apply Hi|exact I].
Qed.
Lemma of_append e c : offs (append_entry e) what c.
Proof. apply of_upd. auto. Qed.
Lemma of_queue_frame f c : offs (amqp_queue_frame f) what c.
Proof.
  unfold amqp_queue_frame. eapply of_bind; [apply of_create|]. intros [e|] c' _; [|apply of_ret'].
  eapply of_bind; [apply of_append|intros; apply of_ret'].
Qed.
Lemma of_put_back f c : offs (amqp_put_back_frame f) what c.
Proof.
  unfold amqp_put_back_frame. eapply of_bind; [apply of_create|]. intros [e|] c' _; [|apply of_ret'].
  eapply of_bind; [apply of_upd; auto|intros; apply of_ret'].
Qed.
Lemma send_halt_off f more d c ev : d <= amqp_time_infinite -> off c ->
  wp (amqp_send_frame_inner N E f more d) c ev (fun _ _ _ _ => True) (fun _ _ l => no_lost l).
Proof.
  intros Hd (_ & _ & O3). unfold amqp_send_frame_inner. wstep. destruct (amqp_frame_to_bytes _ _) as [r b e|]; [|apply wp_halt; constructor].
  wstep. destruct (negb _); [apply wp_ret; exact I|]. destruct N as [|fuel]; cbn [send_frame_loop]; [apply wp_halt; constructor|].
  wstep. cbv zeta. apply wp_bind. eapply wp_conseq; [apply try_send_ok| |intros ? ? ? (_ & Hsl & _); apply (idle_input _ (sendlog_input _ Hsl))].
  cbv beta. intros n c1 ev1 l1 (-> & Hsl & _). pose proof (idle_input _ (sendlog_input _ Hsl)) as (_ & _ & _ & Hl).
  destruct (_ <? 0); [apply wp_ret; exact I|]. destruct (negb _).
  - cbn [c_next_recv set_outbuf]. rewrite O3. assert (amqp_time_first d amqp_time_infinite = d) as ->.
    { unfold amqp_time_first. destruct (Z.ltb_spec d amqp_time_infinite); lia. }
    unfold amqp_time_equal. rewrite Z.eqb_refl. apply wp_ret. exact I.
  - eapply wp_conseq; [apply update_next_send_ok|auto|]. cbv beta. intros s c2 l2 K. apply no_lost_app. split; [exact Hl|]. apply idle_quiet, K.
Qed.
Lemma of_send f more d c : d <= amqp_time_infinite -> offs (amqp_send_frame_inner N E f more d) what c.
Proof.
  intros Hd ev Hc. eapply wp_conseq; [apply (wp_split _ _ _ _ _ _ _ (send_frame_ok N E f more d c ev Hd) (send_halt_off f more d c ev Hd Hc))| |intros ? ? ? [_ H]; exact H]. cbv beta. intros r c' ev' l [H _].
  apply sent_f_facts in H. destruct H as (_ & _ & K & _ & H1 & H2). destruct Hc as (O1 & O2 & O3).
  destruct (H1 O3) as (_ & Hi & _ & H4). split; [|split; [apply Hi|exact I]].
  split; [destruct K as (_ & _ & K & _); congruence|]. auto.
Qed.
Lemma of_close c : offs amqp_socket_close what c.
Proof.
  intros ev Hc. eapply wp_conseq; [apply socket_close_ok| |intros ? ? ? (_ & -> & _); constructor]. cbv beta. intros r c' ev' l (_ & Hi & _ & _ & H).
  split; [|split; [apply Hi|exact I]]. destruct H as [[-> _]|[-> _]]; exact Hc.
Qed.
Lemma of_release_on ch c : offs (amqp_maybe_release_buffers_on_channel ch) what c.
Proof.
  intros ev Hc. eapply wp_conseq; [apply release_on_ok| |intros ? ? ? (_ & -> & _); constructor]. cbv beta. intros r c' ev' l (_ & H & ->).
  split; [|split; [constructor|exact I]]. destruct H as [->|[g ->]]; exact Hc.
Qed.
Lemma of_release c : offs amqp_release_buffers what c.
Proof.
  unfold amqp_release_buffers. apply of_get_bind. intros _. destruct (i_state _); try apply of_halt.
  destruct (negb _); [apply of_halt|]. apply of_upd. auto.
Qed.
Lemma of_maybe_release c : offs amqp_maybe_release_buffers what c.
Proof. unfold amqp_maybe_release_buffers. apply of_get_bind. intros _. destruct (amqp_release_buffers_ok _); [apply of_release|apply of_ret']. Qed.
Lemma of_wait d c : d <= amqp_time_infinite -> offs (wait_frame_inner N E d) what c.
Proof.
  intros Hd ev Hc. eapply wp_conseq; [apply wait_off; assumption| |intros ? ? ? H; apply H]. cbv beta. intros p c' ev' l (H1 & _ & H2 & _). repeat split; try apply H1; assumption.
Qed.
Lemma of_on_channel_loop fuel : forall ch c, offs (wait_on_channel_loop N E fuel ch) what c.
Proof.
  induction fuel as [|fuel IH]; intros ch c; cbn [wait_on_channel_loop]; [apply of_halt|].
  eapply of_bind; [apply of_wait; lia|]. intros [r f] c1 _. destruct (negb _); [apply of_ret'|].
  destruct (_ =? _); [apply of_ret'|]. eapply of_bind; [apply of_queue_frame|]. intros r2 c2 _. destruct (negb _); [apply of_ret'|apply IH].
Qed.
Lemma of_on_channel ch c : offs (amqp_simple_wait_frame_on_channel N E ch) what c.
Proof.
  unfold amqp_simple_wait_frame_on_channel. apply of_get_bind. intros _.
  destruct (find_on_channel _ _ _) as [[[f q]|]|]; [|apply of_on_channel_loop|apply of_halt].
  eapply of_bind; [apply of_upd; auto|intros; apply of_ret'].
Qed.
Lemma of_noblock t c : offs (amqp_simple_wait_frame_noblock N E t) what c.
Proof.
  unfold amqp_simple_wait_frame_noblock. eapply of_bind; [apply of_from_now|]. intros [r [d|]] c1 Hd; [|apply of_ret'].
  destruct (negb _); [apply of_ret'|]. apply of_get_bind. intros _. destruct (c_queue c1) as [|e q]; [apply of_wait; apply Hd; reflexivity|].
  destruct (negb _); [apply of_halt|]. eapply of_bind; [apply of_upd; auto|intros; apply of_ret'].
Qed.
Lemma of_method_list ch ids d c : offs (amqp_simple_wait_method_list N E ch ids d) what c.
Proof.
  unfold amqp_simple_wait_method_list. eapply of_bind; [apply of_silent, silent_time_tv|]. intros [r [tv|]] c1 _; [|apply of_ret'].
  destruct (negb _); [apply of_ret'|]. eapply of_bind; [apply of_noblock|]. intros [r2 f] c2 _.
  destruct (negb _); [apply of_ret'|]. destruct (_ || _); [apply of_ret'|].
  eapply of_bind; [apply of_need|]. intros [id m] c3 _. destruct (negb _); apply of_ret'.
Qed.
Lemma of_rpc_wait fuel : forall ch ids d c, d <= amqp_time_infinite -> offs (rpc_wait N E fuel ch ids d) what c.
Proof.
  induction fuel as [|fuel IH]; intros ch ids d c Hd; cbn [rpc_wait]; [apply of_halt|].
  eapply of_bind; [apply of_wait, Hd|]. intros [r f] c1 _. destruct (negb (r =? _)).
  - eapply (of_bind _ _ what); [destruct (_ =? _); [apply of_close|apply of_ret']|]. intros; apply of_ret'.
  - destruct (negb _).
    + eapply of_bind; [apply of_create|]. intros [e|] c2 _; [|apply of_ret'].
      eapply of_bind; [apply of_append|intros; apply IH, Hd].
    + eapply of_bind; [apply of_need|]. intros [id m] c3 _. apply of_ret'.
Qed.
Lemma of_rpc_inner ch id ids m d c : d <= amqp_time_infinite -> offs (simple_rpc_inner N E ch id ids m d) what c.
Proof.
  intros Hd. unfold simple_rpc_inner. eapply of_bind; [apply of_send; lia|]. intros r c1 _. destruct (_ <? _); [apply of_ret'|apply of_rpc_wait, Hd].
Qed.
Lemma of_rpc ch id ids m c : offs (amqp_simple_rpc N E ch id ids m) what c.
Proof.
  unfold amqp_simple_rpc. apply of_get_bind. intros _. eapply of_bind; [apply of_from_now|]. intros [r [d|]] c1 Hd; [|apply of_ret'].
  destruct (negb _); [apply of_ret'|apply of_rpc_inner; apply Hd; reflexivity].
Qed.
Lemma of_rpc_decoded ch id r m c : offs (amqp_simple_rpc_decoded N E ch id r m) what c.
Proof.
  unfold amqp_simple_rpc_decoded. eapply of_bind; [apply of_rpc|]. intros r2 c1 _.
  eapply of_bind; [apply of_upd; auto|intros; apply of_ret'].
Qed.
Lemma of_publish_body fuel : forall ch b u o c, offs (publish_body N E fuel ch b u o) what c.
Proof.
  induction fuel as [|fuel IH]; intros ch b u o c; cbn [publish_body]; [apply of_halt|].
  destruct (negb _); [apply of_ret'|]. cbv zeta. destruct (_ =? _); [apply of_ret'|].
  eapply of_bind; [apply of_need|]. intros fr c1 _. eapply of_bind; [apply of_send; lia|]. intros r c2 _.
  destruct (_ <? _); [apply of_ret'|apply IH].
Qed.
Lemma of_publish ch x k ma im p b c : offs (amqp_basic_publish N E ch x k ma im p b) what c.
Proof.
  unfold amqp_basic_publish. apply of_get_bind. intros (_ & _ & O3). cbv zeta.
  eapply (of_bind _ _ (fun r => r = AMQP_STATUS_OK)).
  { rewrite O3. unfold time_has_past. change (UINT64_MAX =? amqp_time_infinite) with true. cbv iota. apply of_ret. reflexivity. }
  intros r c1 ->. change (AMQP_STATUS_OK =? AMQP_STATUS_TIMER_FAILURE) with false. change (AMQP_STATUS_OK =? AMQP_STATUS_TIMEOUT) with false. cbv iota.
  eapply (of_bind _ _ what); [apply of_ret'|]. intros r2 c2 _.
  destruct (_ =? _); [apply of_ret'|]. destruct (negb _); [apply of_ret'|].
  eapply of_bind; [apply of_send; lia|]. intros r3 c3 _. destruct (_ <? _); [apply of_ret'|].
  eapply of_bind; [apply of_send; lia|]. intros r4 c4 _. destruct (_ <? _); [apply of_ret'|apply of_publish_body].
Qed.
Lemma of_read_body fuel : forall ch b o c, offs (read_body N E fuel ch b o) what c.
Proof.
  induction fuel as [|fuel IH]; intros ch b o c; cbn [read_body]; [apply of_halt|].
  destruct (negb _); [apply of_ret'|]. eapply of_bind; [apply of_on_channel|]. intros [r f] c1 _.
  destruct (negb _); [apply of_ret'|]. destruct (negb _); [destruct (is_close f) as [[]|]; apply of_ret'|].
  destruct (f_pay f); try apply of_halt. destruct (_ <? _); [apply of_ret'|].
  eapply of_bind; [apply of_need|]. intros b2 c2 _. apply IH.
Qed.
Lemma of_alloc c : offs sys_alloc what c.
Proof. intros ev Hc. unfold wp, sys_alloc. destruct ev as [|[] ev]; try constructor; try exact Hc. split; [repeat constructor|exact I]. Qed.
Lemma of_clone c : offs sys_clone what c.
Proof. intros ev Hc. unfold wp, sys_clone. destruct ev as [|[] ev]; try constructor; try exact Hc. split; [repeat constructor|exact I]. Qed.
Lemma of_malloc n c : offs (sys_malloc n) what c.
Proof. unfold sys_malloc. eapply of_bind; [apply of_alloc|intros; apply of_ret']. Qed.
Lemma of_read ch c : offs (amqp_read_message N E ch) what c.
Proof.
  unfold amqp_read_message. eapply of_bind; [apply of_on_channel|]. intros [r f] c1 _. destruct (negb (r =? _)); [apply of_ret'|].
  destruct (negb _).
  - destruct (is_close f) as [[]|]; [apply of_ret'|]. eapply of_bind; [apply of_put_back|intros; apply of_ret'].
  - destruct (f_pay f); try apply of_halt. eapply of_bind; [apply of_clone|]. intros oom c2 _.
    eapply of_bind; [apply of_need|]. intros [e|p] c3 _; [apply of_ret'|].
    eapply (of_bind _ _ what); [destruct (_ =? _); [apply of_ret'|apply of_malloc]|]. intros ok c4 _.
    destruct (negb _); [apply of_ret'|]. eapply of_bind; [apply of_read_body|]. intros [r2 b] c5 _. apply of_ret'.
Qed.
Lemma of_consume_message t c : offs (amqp_consume_message N E t) what c.
Proof.
  unfold amqp_consume_message. eapply of_bind; [apply of_noblock|]. intros [r f] c1 _. destruct (negb (r =? _)); [apply of_ret'|].
  assert (offs (bind (amqp_put_back_frame f) (fun _ => ret (RLibrary AMQP_STATUS_UNEXPECTED_STATE, @None envelope))) what c1) as Hpb
    by (eapply of_bind; [apply of_put_back|intros; apply of_ret']).
  match goal with |- offs (match ?x with Some _ => _ | None => _ end) _ _ => destruct x as [[id m]|] end; [|exact Hpb]. destruct (_ =? _); [|exact Hpb].
  do 5 (eapply of_bind; [apply of_need|]; intros ? ? _). eapply of_bind; [apply of_alloc|]. intros ok c2 _.
  destruct (negb _); [apply of_ret'|]. eapply of_bind; [apply of_read|]. intros [r2 msg] c3 _. apply of_ret'.
Qed.
Lemma of_confirm t c : offs (amqp_publisher_confirm_wait N E t) what c.
Proof.
  unfold amqp_publisher_confirm_wait. eapply of_bind; [apply of_noblock|]. intros [r f] c1 _. destruct (negb (r =? _)); [apply of_ret'|].
  assert (offs (bind (amqp_put_back_frame f) (fun _ => ret (RLibrary AMQP_STATUS_UNEXPECTED_STATE, @None (Z * Z * mstruct)))) what c1) as Hpb
    by (eapply of_bind; [apply of_put_back|intros; apply of_ret']).
  match goal with |- offs (match ?x with Some _ => _ | None => _ end) _ _ => destruct x as [[id m]|] end; [|exact Hpb]. destruct (_ || _); [apply of_ret'|exact Hpb].
Qed.
Lemma of_next_send c : offs update_next_send what c.
Proof.
  unfold update_next_send. apply of_get_bind. intros (O1 & _ & _). unfold amqp_heartbeat_send. rewrite O1.
  change (time_s_from_now 0) with (ret (AMQP_STATUS_OK, Some amqp_time_infinite)).
  eapply (of_bind _ _ (fun p => p = (AMQP_STATUS_OK, Some amqp_time_infinite))); [apply of_ret; reflexivity|]. intros p c1 ->.
  eapply of_bind; [apply of_upd; intros (?&?&?); repeat split; assumption|intros; apply of_ret'].
Qed.
Lemma of_next_recv c : offs update_next_recv what c.
Proof.
  unfold update_next_recv. apply of_get_bind. intros (O1 & _ & _). unfold amqp_heartbeat_recv. rewrite O1.
  change (time_s_from_now (signed M32 (2 * 0))) with (ret (AMQP_STATUS_OK, Some amqp_time_infinite)).
  eapply (of_bind _ _ (fun p => p = (AMQP_STATUS_OK, Some amqp_time_infinite))); [apply of_ret; reflexivity|]. intros p c1 ->.
  eapply of_bind; [apply of_upd; intros (?&?&?); repeat split; assumption|intros; apply of_ret'].
Qed.
Lemma of_tune cm fm hb c : hb <= 0 -> offs (amqp_tune_connection cm fm hb) what c.
Proof.
  intros Hhb. unfold amqp_tune_connection. apply of_get_bind. intros _. destruct (i_state _); try apply of_halt.
  eapply of_bind; [apply of_upd|].
  { intros (?&?&?). repeat split; try assumption. cbn. destruct (Z.ltb_spec hb 0); [reflexivity|lia]. }
  intros _ c1 _.
  eapply of_bind; [apply of_next_send|]. intros r c2 _. destruct (negb _); [apply of_ret'|].
  eapply of_bind; [apply of_next_recv|]. intros r2 c3 _. destruct (negb _); [apply of_ret'|].
  eapply of_bind; [apply of_alloc|]. intros ok c4 _.
  destruct ok; (eapply of_bind; [apply of_upd; intros (?&?&?); try destruct (_ =? _); repeat split; assumption|intros; apply of_ret']).
Qed.
Lemma of_header d c : offs (send_header_inner N d) what c.
Proof.
  unfold send_header_inner. eapply of_bind.
  - intros ev Hc. eapply wp_conseq; [apply try_send_ok| |intros ? ? ? (_ & Hsl & _); apply (idle_input _ (sendlog_input _ Hsl))]. cbv beta. intros r c' ev' l (-> & Hsl & _).
    split; [exact Hc|]. split; [apply (idle_input _ (sendlog_input _ Hsl))|exact I].
  - intros r c' _. destruct (_ =? _); apply of_ret'.
Qed.
Lemma of_login_error r c : offs (login_error r) what c.
Proof. unfold login_error. eapply of_bind; [apply of_close|intros; apply of_ret']. Qed.
Lemma of_login_open vh d c : d <= amqp_time_infinite -> offs (login_open N E vh d) what c.
Proof.
  intros Hd. unfold login_open. eapply of_bind; [apply of_rpc_inner, Hd|]. intros r c1 _. destruct r; try apply of_ret'.
  eapply of_bind; [apply of_maybe_release|intros; apply of_ret'].
Qed.
Lemma of_login_tune vh cm fm d c : d <= amqp_time_infinite -> offs (login_tune N E vh cm fm 0 d) what c.
Proof.
  intros Hd. unfold login_tune. eapply of_bind; [apply of_release|]. intros _ c0 _. eapply of_bind; [apply of_method_list|]. intros [r [id m]] c1 _.
  destruct (negb _); [apply of_login_error|]. destruct (_ =? _); [apply of_ret'|].
  do 3 (eapply of_bind; [apply of_need|]; intros ? ? _). cbv zeta. eapply of_bind; [apply of_tune|].
  { unfold tune_limit. destruct (Z.ltb_spec (u16 a1) 0); rewrite ?andb_false_r; [|lia].
    unfold u16 in H. pose proof (Z.mod_pos_bound a1 M16 ltac:(lia)). lia. }
  intros r2 c2 _.
  destruct (_ <? _); [apply of_login_error|]. eapply of_bind; [apply of_send, Hd|]. intros r3 c3 _. destruct (_ <? _); [apply of_login_error|].
  eapply of_bind; [apply of_release|]. intros; apply of_login_open, Hd.
Qed.
Lemma of_login pf vh cm fm cp t cr c : offs (amqp_login_inner N E pf vh cm fm 0 cp t cr) what c.
Proof.
  unfold amqp_login_inner. do 3 (match goal with |- offs (if ?b then _ else _) _ _ => destruct b end; [apply of_ret'|]).
  eapply of_bind; [apply of_from_now|]. intros [r [d|]] c1 Hd; [|apply of_login_error]. assert (d <= amqp_time_infinite) as Hdd by (apply Hd; reflexivity).
  destruct (negb _); [apply of_login_error|]. eapply of_bind; [apply of_header|]. intros r2 c2 _. destruct (negb _); [apply of_login_error|].
  eapply of_bind; [apply of_method_list|]. intros [r3 [id m]] c3 _. destruct (negb _); [apply of_login_error|].
  do 2 (eapply of_bind; [apply of_need|]; intros ? ? _). destruct (_ || _); [apply of_login_error|].
  eapply of_bind; [apply of_need|]; intros ? ? _. eapply of_bind; [apply of_clone|]; intros oom ? _.
  destruct (fst _) as [e|tt']; [apply of_login_error|]. eapply of_bind; [apply of_upd; auto|]; intros ? ? _.
  eapply of_bind; [apply of_need|]; intros mechs ? _. destruct (sasl_mechanism_in_list _ _) as [[]| |]; try apply of_halt; [|apply of_login_error].
  eapply of_bind; [apply of_alloc|]; intros ok ? _. destruct (sasl_response _ _); [|apply of_login_error|apply of_halt].
  eapply of_bind; [apply of_clone|]; intros oom2 ? _. eapply of_bind; [apply of_need|]; intros merged ? _.
  destruct (fst merged); [apply of_login_error|]. eapply of_bind; [apply of_upd; auto|]; intros ? ? _.
  eapply of_bind; [apply of_send, Hdd|]; intros r5 ? _. destruct (_ <? _); [apply of_login_error|apply of_login_tune, Hdd].
Qed.

Lemma of_exec a c : no_heartbeat a -> offs (exec N E a) what c.
Proof.
  intros Ha.
  assert (forall (A : Type) (m : M A) (k : A -> M outcome_t) c, offs m what c -> (forall (a : A) c', offs (k a) what c') -> offs (bind m k) what c) as B
    by (intros; eapply of_bind; [eassumption|auto]).
  destruct a; cbn [exec]; try (apply B; [|intros; try match goal with |- offs (match ?x with _ => _ end) _ _ => destruct x; try match goal with |- offs (match ?x with _ => _ end) _ _ => destruct x end end; apply of_ret']).
  - apply of_header.
  - apply of_send; lia.
  - apply of_send; lia.
  - apply of_noblock.
  - apply of_method_list.
  - apply of_rpc.
  - unfold amqp_call. destruct (build_request _ _ _); [apply of_rpc_decoded|apply of_halt].
  - unfold amqp_channel_close. destruct (_ || _); [apply of_ret'|apply of_rpc].
  - unfold amqp_connection_close. destruct (_ || _); [apply of_ret'|apply of_rpc].
  - apply of_publish.
  - apply of_send; lia.
  - apply of_send; lia.
  - apply of_send; lia.
  - unfold amqp_basic_get. eapply of_bind; [apply of_rpc|]. intros r c1 _. eapply of_bind; [apply of_upd; auto|intros; apply of_ret'].
  - apply of_read.
  - apply of_consume_message.
  - apply of_confirm.
  - apply of_release.
  - apply of_maybe_release.
  - apply of_release_on.
  - apply of_tune, Ha.
  - apply of_get_bind. intros _. cbv zeta. apply B; [apply of_upd; auto|intros; apply of_ret'].
  - apply of_get_bind. intros _. cbv zeta. apply B; [apply of_upd; auto|intros; apply of_ret'].
  - unfold amqp_login_with_properties. apply of_get_bind. intros _. cbn in Ha. subst heartbeat. apply of_login.
Qed.
Lemma of_exec_all l : forall c, Forall no_heartbeat l -> offs (exec_all N E l) what c.
Proof.
  induction l as [|a l IH]; intros c Hl; cbn [exec_all]; [apply of_ret'|]. inversion Hl; subst.
  eapply of_bind; [apply of_exec; assumption|]. intros o c1 _. eapply of_bind; [apply IH; assumption|]. intros os c2 _. apply of_ret'.
Qed.
End OffAll.
