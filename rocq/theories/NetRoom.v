(** The send buffer: nothing but amqp_tune_connection changes its size or the
    maximum frame size. *)
From Coq Require Import String ZArith List Bool Lia.
From Verif Require Import Base BaseFacts Codec TableModel TableSpec TableOps FramingStmt FramingGen FramingModel MethodSpec
  Frame FrameSpec Time Sasl Net NetApi NetSpec NetFacts NetSend NetRecv NetWalk NetAcct NetOrder NetTyped NetWell.
Import ListNotations.
Local Open Scope Z_scope.

Definition room (c c' : conn) (l : list obs) : Prop := zlen (c_outbuf c') = zlen (c_outbuf c) /\ frame_max c' = frame_max c.
Lemma room_comp : comp room.
Proof. split; [intros; split; reflexivity|]. intros c c1 c2 l1 l2 [A1 A2] [B1 B2]. split; congruence. Qed.

Section Room.
Context (N : nat) (E : nat -> aenv).
Lemma room_still {A} (m : M A) c : still_at m c -> sat_at room m c.
Proof.
  intros H ev. eapply wp_conseq; [apply H| |]; cbv beta.
  - intros a c' _ l (H1 & _ & H3 & _). split; [exact H3|]. unfold frame_max. rewrite H1. reflexivity.
  - intros s c' l ((H1 & _ & H3 & _) & _). split; [exact H3|]. unfold frame_max. rewrite H1. reflexivity.
Qed.
Lemma room_silent {A} (m : M A) c : silent m -> sat_at room m c.
Proof. intros H. apply room_still, still_silent, H. Qed.
Lemma room_upd f c : zlen (c_outbuf (f c)) = zlen (c_outbuf c) -> frame_max (f c) = frame_max c -> sat_at room (upd f) c.
Proof. intros H1 H2. apply sat_upd. split; assumption. Qed.
Lemma room_consume : sat room (consume_one_frame E).
Proof.
  intros c ev. unfold wp, consume_one_frame. pose proof (handle_input_keeps E (c_in c) (c_sbuf c)) as H.
  destruct (amqp_handle_input E (c_in c) (c_sbuf c)) as [res f s| |]; try (split; reflexivity).
  destruct H as (_ & H & _). destruct (_ <? _); split; try reflexivity; exact H.
Qed.
Ltac room1 :=
  match goal with
  | |- sat_at _ (bind get _) _ => apply sat_get_bind
  | |- sat_at _ (bind _ _) _ => apply (sat_bind room room_comp); [|intros]
  | |- sat_at _ (ret _) _ => apply (sat_ret room room_comp)
  | |- sat_at _ (halt _) _ => apply (sat_halt room room_comp)
  | |- sat_at _ (upd _) _ => apply room_upd; solve [repeat (match goal with |- context [match ?t with _ => _ end] => destruct t end); reflexivity]
  | |- sat_at _ (if ?b then _ else _) _ => destruct b
  | |- sat_at _ (match ?x with _ => _ end) _ => destruct x
  | |- sat_at _ (let _ := _ in _) _ => cbv zeta
  | |- sat_at _ (need ?o) _ => unfold need
  | |- sat_at _ (consume_one_frame _) _ => apply room_consume
  | |- _ => solve [auto with room]
  end.
Ltac room := repeat room1.
Lemma room_from_now t c : sat_at room (time_from_now t) c.
Proof. apply room_silent, silent_time_from_now. Qed.
Lemma room_tv t c : sat_at room (time_tv_until t) c.
Proof. apply room_silent, silent_time_tv. Qed.
Lemma room_past t c : sat_at room (time_has_past t) c.
Proof. apply room_silent, silent_time_past. Qed.
Lemma room_alloc c : sat_at room sys_alloc c.
Proof. apply room_still, still_alloc. Qed.
Lemma room_clone c : sat_at room sys_clone c.
Proof. apply room_still, still_clone. Qed.
Lemma room_close c : sat_at room amqp_socket_close c.
Proof. apply room_still, still_close. Qed.
Lemma room_next_send c : sat_at room update_next_send c.
Proof. apply room_still, still_next_send. Qed.
Lemma room_next_recv c : sat_at room update_next_recv c.
Proof. apply room_still, still_next_recv. Qed.
Lemma room_try_send buf d more c : sat_at room (amqp_try_send N buf d more) c.
Proof. apply room_still, still_try_send. Qed.
Lemma room_send_header d c : sat_at room (send_header_inner N d) c.
Proof. apply room_still, still_header. Qed.
Lemma room_recv fuel t c : sat_at room (recv_with_timeout N fuel t) c.
Proof. apply room_still, still_recv. Qed.
Hint Resolve room_from_now room_tv room_past room_alloc room_clone room_close room_next_send room_next_recv room_try_send room_send_header room_recv : room.
Lemma room_create_link f c : sat_at room (create_link f) c.
Proof. unfold create_link. room. Qed.
Lemma room_append e c : sat_at room (append_entry e) c.
Proof. unfold append_entry. room. Qed.
Hint Resolve room_create_link room_append : room.
Lemma room_drain fuel : forall c, sat_at room (try_recv_drain E fuel) c.
Proof. induction fuel as [|fuel IH]; intros; cbn [try_recv_drain]; room; apply IH. Qed.
Lemma room_drain' c : sat_at room (try_recv_drain E N) c.
Proof. apply room_drain. Qed.
Hint Resolve room_drain' : room.
Lemma room_try_recv c : sat_at room (amqp_try_recv N E) c.
Proof. unfold amqp_try_recv. room. Qed.
Hint Resolve room_try_recv : room.
Lemma room_send_loop fuel : forall enc more d c, sat_at room (send_frame_loop N E fuel enc more d) c.
Proof. induction fuel as [|fuel IH]; intros; cbn [send_frame_loop]; room; apply IH. Qed.
Lemma room_send_frame f more d c : sat_at room (amqp_send_frame_inner N E f more d) c.
Proof.
  unfold amqp_send_frame_inner. apply sat_get_bind. destruct (amqp_frame_to_bytes _ _) as [r b e|] eqn:Hf; [|room].
  apply (sat_bind room room_comp); [apply room_upd; [cbn; eapply frame_to_bytes_len; exact Hf|reflexivity]|intros]. destruct (negb _); [room|apply room_send_loop].
Qed.
Hint Resolve room_send_frame : room.
Lemma room_send_frame' f c : sat_at room (amqp_send_frame N E f) c.
Proof. apply room_send_frame. Qed.
Hint Resolve room_send_frame' : room.

Lemma room_release_on ch c : sat_at room (amqp_maybe_release_buffers_on_channel ch) c.
Proof.
  unfold amqp_maybe_release_buffers_on_channel. apply sat_get_bind.
  room.
Qed.
Lemma room_release c : sat_at room amqp_release_buffers c.
Proof.
  unfold amqp_release_buffers. apply sat_get_bind.
  room.
Qed.
Hint Resolve room_release_on room_release : room.
Lemma room_maybe_release c : sat_at room amqp_maybe_release_buffers c.
Proof. unfold amqp_maybe_release_buffers. room. Qed.
Hint Resolve room_maybe_release : room.

Lemma room_wait_loop fuel : forall skip d c, sat_at room (wait_frame_loop N E fuel skip d) c.
Proof. induction fuel as [|fuel IH]; intros; cbn [wait_frame_loop]; room; apply IH. Qed.
Lemma room_wait d c : sat_at room (wait_frame_inner N E d) c.
Proof. apply room_wait_loop. Qed.
Hint Resolve room_wait : room.
Lemma room_queue_frame f c : sat_at room (amqp_queue_frame f) c.
Proof. unfold amqp_queue_frame. room. Qed.
Lemma room_put_back f c : sat_at room (amqp_put_back_frame f) c.
Proof. unfold amqp_put_back_frame. room. Qed.
Hint Resolve room_queue_frame room_put_back : room.
Lemma room_on_channel_loop fuel : forall ch c, sat_at room (wait_on_channel_loop N E fuel ch) c.
Proof. induction fuel as [|fuel IH]; intros; cbn [wait_on_channel_loop]; room; apply IH. Qed.
Lemma room_on_channel_loop' ch c : sat_at room (wait_on_channel_loop N E N ch) c.
Proof. apply room_on_channel_loop. Qed.
Hint Resolve room_on_channel_loop' : room.
Lemma room_on_channel ch c : sat_at room (amqp_simple_wait_frame_on_channel N E ch) c.
Proof. unfold amqp_simple_wait_frame_on_channel. room. Qed.
Lemma room_noblock t c : sat_at room (amqp_simple_wait_frame_noblock N E t) c.
Proof. unfold amqp_simple_wait_frame_noblock. room. Qed.
Hint Resolve room_on_channel room_noblock : room.
Lemma room_method_list ch ids d c : sat_at room (amqp_simple_wait_method_list N E ch ids d) c.
Proof. unfold amqp_simple_wait_method_list. room. Qed.
Hint Resolve room_method_list : room.
Lemma room_rpc_wait fuel : forall ch ids d c, sat_at room (rpc_wait N E fuel ch ids d) c.
Proof. induction fuel as [|fuel IH]; intros; cbn [rpc_wait]; room; apply IH. Qed.
Lemma room_rpc_wait' ch ids d c : sat_at room (rpc_wait N E N ch ids d) c.
Proof. apply room_rpc_wait. Qed.
Hint Resolve room_rpc_wait' : room.
Lemma room_send_method ch id m c : sat_at room (amqp_send_method N E ch id m) c.
Proof. apply room_send_frame. Qed.
Lemma room_send_method_inner ch id m mo d c : sat_at room (amqp_send_method_inner N E ch id m mo d) c.
Proof. apply room_send_frame. Qed.
Hint Resolve room_send_method room_send_method_inner : room.
Lemma room_rpc_inner ch id ids m d c : sat_at room (simple_rpc_inner N E ch id ids m d) c.
Proof. unfold simple_rpc_inner. room. Qed.
Hint Resolve room_rpc_inner : room.
Lemma room_rpc ch id ids m c : sat_at room (amqp_simple_rpc N E ch id ids m) c.
Proof. unfold amqp_simple_rpc. room. Qed.
Hint Resolve room_rpc : room.
Lemma room_rpc_decoded ch id r m c : sat_at room (amqp_simple_rpc_decoded N E ch id r m) c.
Proof. unfold amqp_simple_rpc_decoded. room. Qed.
Hint Resolve room_rpc_decoded : room.
Lemma room_call w ch args c : sat_at room (amqp_call N E w ch args) c.
Proof. unfold amqp_call. destruct (build_request _ _ _); room. Qed.
Lemma room_channel_close ch code c : sat_at room (amqp_channel_close N E ch code) c.
Proof. unfold amqp_channel_close. room. Qed.
Lemma room_connection_close code c : sat_at room (amqp_connection_close N E code) c.
Proof. unfold amqp_connection_close. room. Qed.
Lemma room_get ch q na c : sat_at room (amqp_basic_get N E ch q na) c.
Proof. unfold amqp_basic_get. room. Qed.
Hint Resolve room_call room_channel_close room_connection_close room_get : room.
Lemma room_publish_body fuel : forall ch b u o c, sat_at room (publish_body N E fuel ch b u o) c.
Proof. induction fuel as [|fuel IH]; intros; cbn [publish_body]; room; apply IH. Qed.
Lemma room_publish_body' ch b u o c : sat_at room (publish_body N E N ch b u o) c.
Proof. apply room_publish_body. Qed.
Hint Resolve room_publish_body' : room.
Lemma room_publish ch x k ma im p b c : sat_at room (amqp_basic_publish N E ch x k ma im p b) c.
Proof. unfold amqp_basic_publish. room. Qed.
Lemma room_read_body fuel : forall ch b o c, sat_at room (read_body N E fuel ch b o) c.
Proof. induction fuel as [|fuel IH]; intros; cbn [read_body]; room; apply IH. Qed.
Lemma room_read_body' ch b o c : sat_at room (read_body N E N ch b o) c.
Proof. apply room_read_body. Qed.
Hint Resolve room_publish room_read_body' : room.
Lemma room_malloc n c : sat_at room (sys_malloc n) c.
Proof. unfold sys_malloc. room. Qed.
Hint Resolve room_malloc : room.
Lemma room_read ch c : sat_at room (amqp_read_message N E ch) c.
Proof. unfold amqp_read_message. room. Qed.
Hint Resolve room_read : room.
Lemma room_consume_message t c : sat_at room (amqp_consume_message N E t) c.
Proof. unfold amqp_consume_message. room. Qed.
Lemma room_confirm t c : sat_at room (amqp_publisher_confirm_wait N E t) c.
Proof. unfold amqp_publisher_confirm_wait. room. Qed.
Hint Resolve room_consume_message room_confirm : room.

Theorem room_exec a c : keeps_limits a -> sat_at room (exec N E a) c.
Proof.
  intros HP. destruct a; cbn [exec keeps_limits] in *; try contradiction; unfold amqp_send_header, amqp_basic_ack, amqp_basic_nack, amqp_basic_reject,
    amqp_simple_wait_method, simple_wait_method_inner; room.
Qed.
Theorem room_exec_all l : forall c, Forall keeps_limits l -> sat_at room (exec_all N E l) c.
Proof.
  induction l as [|a l IH]; intros c HP; cbn [exec_all]; [room|]. inversion HP; subst.
  apply (sat_bind room room_comp); [apply room_exec; assumption|intros]. apply (sat_bind room room_comp); [apply IH; assumption|intros]. room.
Qed.
End Room.
