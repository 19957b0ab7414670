(** Once close() has succeeded no later system call of the same session is on the descriptor:
    the log version of NetDeaf. *)
From Coq Require Import String ZArith List Bool Lia.
From Verif Require Import Base BaseFacts Codec TableModel TableSpec TableOps FramingStmt FramingGen FramingModel MethodSpec
  Frame FrameSpec Time Sasl Net NetApi NetSpec NetFacts ClosedSpec.
Import ListNotations.
Local Open Scope Z_scope.

Definition opened (c : conn) : bool := negb (c_fd c =? -1).
Definition fdok (c c' : conn) (l : list obs) : Prop := fd_use (opened c) l = Some (opened c') /\ (c_fd c' = c_fd c \/ c_fd c' = -1).
Lemma fd_use_app l1 : forall o l2, fd_use o (l1 ++ l2) = match fd_use o l1 with Some o' => fd_use o' l2 | None => None end.
Proof. induction l1 as [|x l1 IH]; intros o l2; [reflexivity|]. cbn. destruct x, o; try apply IH; try reflexivity; destruct ok; apply IH. Qed.
Lemma fdok_comp : comp fdok.
Proof.
  split; [intros; split; [reflexivity|tauto]|]. intros c c1 c2 l1 l2 [A1 A2] [B1 B2]. split; [rewrite fd_use_app, A1; exact B1|].
  destruct A2, B2; intuition congruence.
Qed.
(** runs that keep the descriptor *)
Definition fdsame (c c' : conn) (l : list obs) : Prop := c_fd c' = c_fd c /\ fd_use true l = Some true.
Lemma fdsame_comp : comp fdsame.
Proof. split; [intros; split; reflexivity|]. intros c c1 c2 l1 l2 [A1 A2] [B1 B2]. split; [congruence|]. rewrite fd_use_app, A2. exact B2. Qed.
Lemma fdok_same {A} (m : M A) c : opened c = true -> sat_at fdsame m c -> sat_at fdok m c.
Proof.
  intros Ho H ev. eapply wp_conseq; [apply H| |]; cbv beta.
  - intros a c' l' l [H1 H2]. split; [|tauto]. unfold opened in *. rewrite H1, Ho. exact H2.
  - intros s c' l [H1 H2]. split; [|tauto]. unfold opened in *. rewrite H1, Ho. exact H2.
Qed.
Lemma fdok_upd f c : c_fd (f c) = c_fd c -> sat_at fdok (upd f) c.
Proof. intros H. apply sat_upd. split; [unfold opened; rewrite H; reflexivity|tauto]. Qed.
Lemma fdok_note o c : fd_use (opened c) [o] = Some (opened c) -> sat_at fdok (note o) c.
Proof. intros H. apply sat_note. split; [exact H|tauto]. Qed.
Lemma fdok_closed {A} (a b : M A) c : sat_at fdok a c -> (opened c = true -> sat_at fdok b c) -> sat_at fdok (if c_fd c =? -1 then a else b) c.
Proof. intros Ha Hb. unfold opened in Hb. destruct (c_fd c =? -1); [exact Ha|exact (Hb eq_refl)]. Qed.
Ltac prim := intros ev; unfold wp; destruct ev as [|[] ev]; try (split; [reflexivity|tauto]).
Lemma fdk_clock c : sat_at fdok sys_clock c.
Proof. unfold sys_clock. prim. Qed.
Lemma fdk_alloc c : sat_at fdok sys_alloc c.
Proof. unfold sys_alloc. prim. Qed.
Lemma fdk_clone c : sat_at fdok sys_clone c.
Proof. unfold sys_clone. prim. Qed.
#[global] Hint Resolve fdk_clock fdk_alloc fdk_clone : fdk.
Lemma fds_clock c : sat_at fdsame sys_clock c.
Proof. unfold sys_clock. intros ev; unfold wp; destruct ev as [|[] ev]; split; reflexivity. Qed.
Lemma fds_send m b c : sat_at fdsame (sys_send m b) c.
Proof. unfold sys_send. intros ev; unfold wp; destruct ev as [|[] ev]; try (split; reflexivity). destruct r; split; reflexivity. Qed.
Lemma fds_recv n c : sat_at fdsame (sys_recv n) c.
Proof. unfold sys_recv. intros ev; unfold wp; destruct ev as [|[] ev]; try (split; reflexivity). destruct r; split; reflexivity. Qed.
Lemma fds_poll w n c : sat_at fdsame (sys_poll w n) c.
Proof. unfold sys_poll. intros ev; unfold wp; destruct ev as [|[] ev]; try (split; reflexivity). destruct r; try destruct (_ <? _); split; reflexivity. Qed.
#[global] Hint Resolve fds_clock fds_send fds_recv fds_poll : fds.
Lemma fdk_close c : sat_at fdok amqp_socket_close c.
Proof.
  unfold amqp_socket_close. apply sat_get_bind. apply fdok_closed; [apply (sat_ret fdok fdok_comp)|]. intros Ho ev. unfold bind, sys_close, upd, ret, wp.
  destruct ev as [|[] ev]; try (split; [reflexivity|tauto]). destruct ok; cbn.
  - split; [rewrite Ho; reflexivity|right; reflexivity].
  - split; [rewrite Ho; reflexivity|left; reflexivity].
Qed.
#[global] Hint Resolve fdk_close : fdk.

Section Fd.
Context (N : nat) (E : nat -> aenv).
Lemma fdk_consume c : sat_at fdok (consume_one_frame E) c.
Proof.
  intros ev. unfold wp, consume_one_frame. destruct (amqp_handle_input E (c_in c) (c_sbuf c)) as [res f s| |]; try (split; [reflexivity|tauto]).
  destruct (_ <? _); try (split; [reflexivity|left; reflexivity]). split; [|left; reflexivity]. unfold opened. cbn. destruct (negb _), (f_type f =? 0); reflexivity.
Qed.
Ltac fds1 :=
  match goal with
  | |- sat_at _ (bind get _) _ => apply sat_get_bind
  | |- sat_at _ (bind _ _) _ => apply (sat_bind fdsame fdsame_comp); [|intros]
  | |- sat_at _ (ret _) _ => apply (sat_ret fdsame fdsame_comp)
  | |- sat_at _ (halt _) _ => apply (sat_halt fdsame fdsame_comp)
  | |- sat_at _ (if ?b then _ else _) _ => destruct b
  | |- sat_at _ (match ?x with _ => _ end) _ => destruct x
  | |- _ => solve [auto with fds]
  end.
Ltac fds := repeat fds1.
Lemma fds_tcp_send fuel : forall m b c, sat_at fdsame (tcp_send_loop fuel m b) c.
Proof. induction fuel as [|fuel IH]; intros; cbn [tcp_send_loop]; fds; apply IH. Qed.
Lemma fds_tcp_recv fuel : forall n c, sat_at fdsame (tcp_recv_loop fuel n) c.
Proof. induction fuel as [|fuel IH]; intros; cbn [tcp_recv_loop]; fds; apply IH. Qed.
Lemma fds_ms t c : sat_at fdsame (time_ms_until t) c.
Proof. unfold time_ms_until. fds. Qed.
Hint Resolve fds_ms : fds.
Lemma fds_amqp_poll fuel : forall w d c, sat_at fdsame (amqp_poll fuel w d) c.
Proof. induction fuel as [|fuel IH]; intros; cbn [amqp_poll]; fds; apply IH. Qed.
Ltac fdk1 :=
  match goal with
  | |- sat_at _ (bind get _) _ => apply sat_get_bind
  | |- sat_at _ (bind _ _) _ => apply (sat_bind fdok fdok_comp); [|intros]
  | |- sat_at _ (ret _) _ => apply (sat_ret fdok fdok_comp)
  | |- sat_at _ (halt _) _ => apply (sat_halt fdok fdok_comp)
  | |- sat_at _ (note _) _ => apply fdok_note; solve [unfold opened; destruct (negb _); reflexivity]
  | |- sat_at _ (upd _) _ => apply fdok_upd; solve [repeat (match goal with |- context [match ?t with _ => _ end] => destruct t end); auto]
  | |- sat_at _ (if c_fd ?c =? -1 then _ else _) ?c => apply fdok_closed; [|intro]
  | |- sat_at _ (if ?b then _ else _) _ => destruct b
  | |- sat_at _ (match ?x with _ => _ end) _ => destruct x
  | |- sat_at _ (let _ := _ in _) _ => cbv zeta
  | |- sat_at _ (need ?o) _ => unfold need
  | |- sat_at _ (consume_one_frame _) _ => apply fdk_consume
  | |- _ => solve [auto with fdk]
  end.
Ltac fdk := repeat fdk1.
Lemma fdk_from_now t c : sat_at fdok (time_from_now t) c.
Proof. unfold time_from_now. fdk. Qed.
Lemma fdk_s_from_now t c : sat_at fdok (time_s_from_now t) c.
Proof. unfold time_s_from_now. fdk. Qed.
Lemma fdk_tv t c : sat_at fdok (time_tv_until t) c.
Proof. unfold time_tv_until. fdk. Qed.
Lemma fdk_past t c : sat_at fdok (time_has_past t) c.
Proof. unfold time_has_past. fdk. Qed.
Hint Resolve fdk_from_now fdk_s_from_now fdk_tv fdk_past : fdk.
Lemma fdk_next_send c : sat_at fdok update_next_send c.
Proof. unfold update_next_send. fdk. Qed.
Lemma fdk_next_recv c : sat_at fdok update_next_recv c.
Proof. unfold update_next_recv. fdk. Qed.
Lemma fdk_socket_send more b c : sat_at fdok (amqp_socket_send N more b) c.
Proof. unfold amqp_socket_send. fdk. apply fdok_same; [assumption|apply fds_tcp_send]. Qed.
Lemma fdk_socket_recv n c : sat_at fdok (amqp_socket_recv N n) c.
Proof. unfold amqp_socket_recv. fdk. apply fdok_same; [assumption|apply fds_tcp_recv]. Qed.
Lemma fdk_do_poll r d c : sat_at fdok (do_poll N r d) c.
Proof. unfold do_poll. fdk; (apply fdok_same; [assumption|apply fds_amqp_poll]). Qed.
Hint Resolve fdk_next_send fdk_next_recv fdk_socket_send fdk_socket_recv fdk_close fdk_do_poll : fdk.
Lemma fdk_try_send_loop fuel : forall len buf d more c, sat_at fdok (try_send_loop N fuel len buf d more) c.
Proof. induction fuel as [|fuel IH]; intros; cbn [try_send_loop]; fdk; apply IH. Qed.
Lemma fdk_try_send buf d more c : sat_at fdok (amqp_try_send N buf d more) c.
Proof. apply fdk_try_send_loop. Qed.
Hint Resolve fdk_try_send : fdk.
Lemma fdk_send_header d c : sat_at fdok (send_header_inner N d) c.
Proof. unfold send_header_inner. fdk. Qed.
Lemma fdk_store bs c : sat_at fdok (store_received bs) c.
Proof. unfold store_received. fdk. Qed.
Hint Resolve fdk_send_header fdk_store : fdk.
Lemma fdk_recv fuel : forall t c, sat_at fdok (recv_with_timeout N fuel t) c.
Proof. induction fuel as [|fuel IH]; intros; cbn [recv_with_timeout]; fdk; try (apply fdok_same; [assumption|apply fds_amqp_poll]); apply IH. Qed.
Hint Resolve fdk_recv : fdk.
Lemma fdk_create_link f c : sat_at fdok (create_link f) c.
Proof. unfold create_link. fdk. Qed.
Lemma fdk_append e c : sat_at fdok (append_entry e) c.
Proof. unfold append_entry. fdk. Qed.
Hint Resolve fdk_create_link fdk_append : fdk.
Lemma fdk_drain fuel : forall c, sat_at fdok (try_recv_drain E fuel) c.
Proof. induction fuel as [|fuel IH]; intros; cbn [try_recv_drain]; fdk; apply IH. Qed.
Lemma fdk_drain' c : sat_at fdok (try_recv_drain E N) c.
Proof. apply fdk_drain. Qed.
Hint Resolve fdk_drain' : fdk.
Lemma fdk_try_recv c : sat_at fdok (amqp_try_recv N E) c.
Proof. unfold amqp_try_recv. fdk. Qed.
Hint Resolve fdk_try_recv : fdk.
Lemma fdk_send_loop fuel : forall enc more d c, sat_at fdok (send_frame_loop N E fuel enc more d) c.
Proof. induction fuel as [|fuel IH]; intros; cbn [send_frame_loop]; fdk; apply IH. Qed.
Lemma fdk_send_loop' enc more d c : sat_at fdok (send_frame_loop N E N enc more d) c.
Proof. apply fdk_send_loop. Qed.
Hint Resolve fdk_send_loop' : fdk.
Lemma fdk_send_frame f more d c : sat_at fdok (amqp_send_frame_inner N E f more d) c.
Proof. unfold amqp_send_frame_inner. fdk. Qed.
Hint Resolve fdk_send_frame : fdk.
Lemma fdk_send_frame' f c : sat_at fdok (amqp_send_frame N E f) c.
Proof. apply fdk_send_frame. Qed.
Hint Resolve fdk_send_frame' : fdk.

Lemma fdk_release_on ch c : sat_at fdok (amqp_maybe_release_buffers_on_channel ch) c.
Proof.
  unfold amqp_maybe_release_buffers_on_channel. apply sat_get_bind.
  fdk.
Qed.
Lemma fdk_release c : sat_at fdok amqp_release_buffers c.
Proof.
  unfold amqp_release_buffers. apply sat_get_bind.
  fdk.
Qed.
Hint Resolve fdk_release_on fdk_release : fdk.
Lemma fdk_maybe_release c : sat_at fdok amqp_maybe_release_buffers c.
Proof. unfold amqp_maybe_release_buffers. fdk. Qed.
Hint Resolve fdk_maybe_release : fdk.

Lemma fdk_wait_loop fuel : forall skip d c, sat_at fdok (wait_frame_loop N E fuel skip d) c.
Proof. induction fuel as [|fuel IH]; intros; cbn [wait_frame_loop]; fdk; apply IH. Qed.
Lemma fdk_wait d c : sat_at fdok (wait_frame_inner N E d) c.
Proof. apply fdk_wait_loop. Qed.
Hint Resolve fdk_wait : fdk.
Lemma fdk_queue_frame f c : sat_at fdok (amqp_queue_frame f) c.
Proof. unfold amqp_queue_frame. fdk. Qed.
Lemma fdk_put_back f c : sat_at fdok (amqp_put_back_frame f) c.
Proof. unfold amqp_put_back_frame. fdk. Qed.
Hint Resolve fdk_queue_frame fdk_put_back : fdk.
Lemma fdk_on_channel_loop fuel : forall ch c, sat_at fdok (wait_on_channel_loop N E fuel ch) c.
Proof. induction fuel as [|fuel IH]; intros; cbn [wait_on_channel_loop]; fdk; apply IH. Qed.
Lemma fdk_on_channel_loop' ch c : sat_at fdok (wait_on_channel_loop N E N ch) c.
Proof. apply fdk_on_channel_loop. Qed.
Hint Resolve fdk_on_channel_loop' : fdk.
Lemma fdk_on_channel ch c : sat_at fdok (amqp_simple_wait_frame_on_channel N E ch) c.
Proof. unfold amqp_simple_wait_frame_on_channel. fdk. Qed.
Lemma fdk_noblock t c : sat_at fdok (amqp_simple_wait_frame_noblock N E t) c.
Proof. unfold amqp_simple_wait_frame_noblock. fdk. Qed.
Hint Resolve fdk_on_channel fdk_noblock : fdk.
Lemma fdk_method_list ch ids d c : sat_at fdok (amqp_simple_wait_method_list N E ch ids d) c.
Proof. unfold amqp_simple_wait_method_list. fdk. Qed.
Hint Resolve fdk_method_list : fdk.
Lemma fdk_rpc_wait fuel : forall ch ids d c, sat_at fdok (rpc_wait N E fuel ch ids d) c.
Proof. induction fuel as [|fuel IH]; intros; cbn [rpc_wait]; fdk; apply IH. Qed.
Lemma fdk_rpc_wait' ch ids d c : sat_at fdok (rpc_wait N E N ch ids d) c.
Proof. apply fdk_rpc_wait. Qed.
Hint Resolve fdk_rpc_wait' : fdk.
Lemma fdk_send_method ch id m c : sat_at fdok (amqp_send_method N E ch id m) c.
Proof. apply fdk_send_frame. Qed.
Lemma fdk_send_method_inner ch id m mo d c : sat_at fdok (amqp_send_method_inner N E ch id m mo d) c.
Proof. apply fdk_send_frame. Qed.
Hint Resolve fdk_send_method fdk_send_method_inner : fdk.
Lemma fdk_rpc_inner ch id ids m d c : sat_at fdok (simple_rpc_inner N E ch id ids m d) c.
Proof. unfold simple_rpc_inner. fdk. Qed.
Hint Resolve fdk_rpc_inner : fdk.
Lemma fdk_rpc ch id ids m c : sat_at fdok (amqp_simple_rpc N E ch id ids m) c.
Proof. unfold amqp_simple_rpc. fdk. Qed.
Hint Resolve fdk_rpc : fdk.
Lemma fdk_rpc_decoded ch id r m c : sat_at fdok (amqp_simple_rpc_decoded N E ch id r m) c.
Proof. unfold amqp_simple_rpc_decoded. fdk. Qed.
Hint Resolve fdk_rpc_decoded : fdk.
Lemma fdk_call w ch args c : sat_at fdok (amqp_call N E w ch args) c.
Proof. unfold amqp_call. destruct (build_request _ _ _); fdk. Qed.
Lemma fdk_channel_close ch code c : sat_at fdok (amqp_channel_close N E ch code) c.
Proof. unfold amqp_channel_close. fdk. Qed.
Lemma fdk_connection_close code c : sat_at fdok (amqp_connection_close N E code) c.
Proof. unfold amqp_connection_close. fdk. Qed.
Lemma fdk_get ch q na c : sat_at fdok (amqp_basic_get N E ch q na) c.
Proof. unfold amqp_basic_get. fdk. Qed.
Hint Resolve fdk_call fdk_channel_close fdk_connection_close fdk_get : fdk.
Lemma fdk_publish_body fuel : forall ch b u o c, sat_at fdok (publish_body N E fuel ch b u o) c.
Proof. induction fuel as [|fuel IH]; intros; cbn [publish_body]; fdk; apply IH. Qed.
Lemma fdk_publish_body' ch b u o c : sat_at fdok (publish_body N E N ch b u o) c.
Proof. apply fdk_publish_body. Qed.
Hint Resolve fdk_publish_body' : fdk.
Lemma fdk_publish ch x k ma im p b c : sat_at fdok (amqp_basic_publish N E ch x k ma im p b) c.
Proof. unfold amqp_basic_publish. fdk. Qed.
Lemma fdk_read_body fuel : forall ch b o c, sat_at fdok (read_body N E fuel ch b o) c.
Proof. induction fuel as [|fuel IH]; intros; cbn [read_body]; fdk; apply IH. Qed.
Lemma fdk_read_body' ch b o c : sat_at fdok (read_body N E N ch b o) c.
Proof. apply fdk_read_body. Qed.
Hint Resolve fdk_publish fdk_read_body' : fdk.
Lemma fdk_malloc n c : sat_at fdok (sys_malloc n) c.
Proof. unfold sys_malloc. fdk. Qed.
Hint Resolve fdk_malloc : fdk.
Lemma fdk_read ch c : sat_at fdok (amqp_read_message N E ch) c.
Proof. unfold amqp_read_message. fdk. Qed.
Hint Resolve fdk_read : fdk.
Lemma fdk_consume_message t c : sat_at fdok (amqp_consume_message N E t) c.
Proof. unfold amqp_consume_message. fdk. Qed.
Lemma fdk_confirm t c : sat_at fdok (amqp_publisher_confirm_wait N E t) c.
Proof. unfold amqp_publisher_confirm_wait. fdk. Qed.
Hint Resolve fdk_consume_message fdk_confirm : fdk.

Lemma fdk_tune cm fm hb c : sat_at fdok (amqp_tune_connection cm fm hb) c.
Proof. unfold amqp_tune_connection. fdk. Qed.
Hint Resolve fdk_tune : fdk.
Lemma fdk_login_error r c : sat_at fdok (login_error r) c.
Proof. unfold login_error. fdk. Qed.
Lemma fdk_wait_method ch id d c : sat_at fdok (simple_wait_method_inner N E ch id d) c.
Proof. unfold simple_wait_method_inner. fdk. Qed.
Lemma fdk_login_open vh d c : sat_at fdok (login_open N E vh d) c.
Proof. unfold login_open. fdk. Qed.
Hint Resolve fdk_login_error fdk_wait_method fdk_login_open : fdk.
Lemma fdk_login_tune vh cm fm hb d c : sat_at fdok (login_tune N E vh cm fm hb d) c.
Proof. unfold login_tune. fdk. Qed.
Hint Resolve fdk_login_tune : fdk.
Lemma fdk_login_inner pf vh cm fm hb p t cr c : sat_at fdok (amqp_login_inner N E pf vh cm fm hb p t cr) c.
Proof. unfold amqp_login_inner. fdk. Qed.
Hint Resolve fdk_login_inner : fdk.
Theorem fdk_exec a c : sat_at fdok (exec N E a) c.
Proof.
  destruct a; cbn [exec]; unfold amqp_send_header, amqp_basic_ack, amqp_basic_nack, amqp_basic_reject,
    amqp_simple_wait_method, amqp_login_with_properties; fdk.
Qed.
Theorem fdk_exec_all l : forall c, sat_at fdok (exec_all N E l) c.
Proof.
  induction l as [|a l IH]; intros c; cbn [exec_all]; [fdk|].
  apply (sat_bind fdok fdok_comp); [apply fdk_exec|intros]. apply (sat_bind fdok fdok_comp); [apply IH|intros]. fdk.
Qed.
End Fd.
