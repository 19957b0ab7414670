(** A connection whose descriptor has been closed: no call makes a system call on it.
    [deaf]: a run whose next event is about the socket never takes it. *)
From Coq Require Import String ZArith List Bool Lia.
From Verif Require Import Base BaseFacts Codec TableModel TableSpec TableOps FramingStmt FramingGen FramingModel MethodSpec
  Frame FrameSpec Time Sasl Net NetApi NetSpec NetFacts ClosedSpec.
Import ListNotations.
Local Open Scope Z_scope.

(** the same run, with [tail] left over *)
Definition leave {A} (tail : list event) (r : run A) : run A :=
  match r with Done a c ev l => Done a c (ev ++ tail) l | Halt s c l => Halt s c l end.
Definition closed_after {A} (r : run A) : Prop := match r with Done _ c _ _ => c_fd c = -1 | Halt _ c _ => c_fd c = -1 end.
Definition deaf {A} (m : M A) (c : conn) : Prop := c_fd c = -1 ->
  forall ev e tail, about_socket e = true -> m c (ev ++ e :: tail) = leave (e :: tail) (m c ev) /\ closed_after (m c ev).

Lemma deaf_ret {A} (a : A) c : deaf (ret a) c.
Proof. intros H ev e tail He. split; [reflexivity|exact H]. Qed.
Lemma deaf_halt {A} s c : deaf (@halt A s) c.
Proof. intros H ev e tail He. split; [reflexivity|exact H]. Qed.
Lemma deaf_upd f c : c_fd (f c) = c_fd c \/ c_fd (f c) = -1 -> deaf (upd f) c.
Proof. intros Hf H ev e tail He. split; [reflexivity|]. cbn. destruct Hf; congruence. Qed.
Lemma deaf_note o c : deaf (note o) c.
Proof. intros H ev e tail He. split; [reflexivity|exact H]. Qed.
Lemma deaf_get_bind {B} (k : conn -> M B) c : deaf (k c) c -> deaf (bind get k) c.
Proof.
  intros Hk H ev e tail He. destruct (Hk H ev e tail He) as [H1 H2]. unfold bind, get in *. rewrite H1. destruct (k c c ev); split; try reflexivity; exact H2.
Qed.
Lemma deaf_bind {A B} (m : M A) (k : A -> M B) c : deaf m c -> (forall a c', deaf (k a) c') -> deaf (bind m k) c.
Proof.
  intros Hm Hk H ev e tail He. destruct (Hm H ev e tail He) as [H1 H2]. unfold bind. rewrite H1. destruct (m c ev) as [a c1 ev1 l1|s c1 l1]; cbn [leave closed_after] in *; [|split; [reflexivity|exact H2]].
  destruct (Hk a c1 H2 ev1 e tail He) as [H3 H4]. rewrite H3. destruct (k a c1 ev1); split; try reflexivity; exact H4.
Qed.
Lemma deaf_closed {A} (a b : M A) c : deaf a c -> deaf (if c_fd c =? -1 then a else b) c.
Proof. intros Ha H. rewrite H. exact (Ha H). Qed.
Lemma deaf_clock c : deaf sys_clock c.
Proof. intros H ev e tail He. destruct ev as [|[] ev]; (split; [|exact H]); try reflexivity. destruct e; try discriminate He; reflexivity. Qed.
Lemma deaf_alloc c : deaf sys_alloc c.
Proof. intros H ev e tail He. destruct ev as [|[] ev]; (split; [|exact H]); try reflexivity. destruct e; try discriminate He; reflexivity. Qed.
Lemma deaf_clone c : deaf sys_clone c.
Proof. intros H ev e tail He. destruct ev as [|[] ev]; (split; [|exact H]); try reflexivity. destruct e; try discriminate He; reflexivity. Qed.
#[global] Hint Resolve deaf_clock deaf_alloc deaf_clone : deaf.

Section Deaf.
Context (N : nat) (E : nat -> aenv).
Lemma deaf_consume c : deaf (consume_one_frame E) c.
Proof.
  intros H ev e tail He. unfold consume_one_frame. destruct (amqp_handle_input E (c_in c) (c_sbuf c)) as [res f s| |]; try (split; [reflexivity|exact H]).
  destruct (_ <? _); (split; [reflexivity|exact H]).
Qed.
Ltac deaf1 :=
  match goal with
  | |- deaf (bind get _) _ => apply deaf_get_bind
  | |- deaf (bind _ _) _ => apply deaf_bind; [|intros]
  | |- deaf (ret _) _ => apply deaf_ret
  | |- deaf (halt _) _ => apply deaf_halt
  | |- deaf (note _) _ => apply deaf_note
  | |- deaf (upd _) _ => apply deaf_upd; solve [repeat (match goal with |- context [match ?t with _ => _ end] => destruct t end); auto]
  | |- deaf (if c_fd ?c =? -1 then _ else _) ?c => apply deaf_closed
  | |- deaf (if ?b then _ else _) _ => destruct b
  | |- deaf (match ?x with _ => _ end) _ => destruct x
  | |- deaf (let _ := _ in _) _ => cbv zeta
  | |- deaf (need ?o) _ => unfold need
  | |- deaf (consume_one_frame _) _ => apply deaf_consume
  | |- _ => solve [auto with deaf]
  end.
Ltac deaf := repeat deaf1.
Lemma deaf_from_now t c : deaf (time_from_now t) c.
Proof. unfold time_from_now. deaf. Qed.
Lemma deaf_s_from_now t c : deaf (time_s_from_now t) c.
Proof. unfold time_s_from_now. deaf. Qed.
Lemma deaf_ms t c : deaf (time_ms_until t) c.
Proof. unfold time_ms_until. deaf. Qed.
Lemma deaf_tv t c : deaf (time_tv_until t) c.
Proof. unfold time_tv_until. deaf. Qed.
Lemma deaf_past t c : deaf (time_has_past t) c.
Proof. unfold time_has_past. deaf. Qed.
Hint Resolve deaf_from_now deaf_s_from_now deaf_ms deaf_tv deaf_past : deaf.
Lemma deaf_next_send c : deaf update_next_send c.
Proof. unfold update_next_send. deaf. Qed.
Lemma deaf_next_recv c : deaf update_next_recv c.
Proof. unfold update_next_recv. deaf. Qed.
Lemma deaf_socket_send more b c : deaf (amqp_socket_send N more b) c.
Proof. unfold amqp_socket_send. deaf. Qed.
Lemma deaf_socket_recv n c : deaf (amqp_socket_recv N n) c.
Proof. unfold amqp_socket_recv. deaf. Qed.
Lemma deaf_close c : deaf amqp_socket_close c.
Proof. unfold amqp_socket_close. deaf. Qed.
Lemma deaf_do_poll r d c : deaf (do_poll N r d) c.
Proof. unfold do_poll. deaf. Qed.
Hint Resolve deaf_next_send deaf_next_recv deaf_socket_send deaf_socket_recv deaf_close deaf_do_poll : deaf.
Lemma deaf_try_send_loop fuel : forall len buf d more c, deaf (try_send_loop N fuel len buf d more) c.
Proof. induction fuel as [|fuel IH]; intros; cbn [try_send_loop]; deaf; apply IH. Qed.
Lemma deaf_try_send buf d more c : deaf (amqp_try_send N buf d more) c.
Proof. apply deaf_try_send_loop. Qed.
Hint Resolve deaf_try_send : deaf.
Lemma deaf_send_header d c : deaf (send_header_inner N d) c.
Proof. unfold send_header_inner. deaf. Qed.
Lemma deaf_store bs c : deaf (store_received bs) c.
Proof. unfold store_received. deaf. Qed.
Hint Resolve deaf_send_header deaf_store : deaf.
Lemma deaf_recv fuel : forall t c, deaf (recv_with_timeout N fuel t) c.
Proof. destruct fuel as [|fuel]; intros; cbn [recv_with_timeout]; deaf. Qed.
Hint Resolve deaf_recv : deaf.
Lemma deaf_create_link f c : deaf (create_link f) c.
Proof. unfold create_link. deaf. Qed.
Lemma deaf_append e c : deaf (append_entry e) c.
Proof. unfold append_entry. deaf. Qed.
Hint Resolve deaf_create_link deaf_append : deaf.
Lemma deaf_drain fuel : forall c, deaf (try_recv_drain E fuel) c.
Proof. induction fuel as [|fuel IH]; intros; cbn [try_recv_drain]; deaf; apply IH. Qed.
Lemma deaf_drain' c : deaf (try_recv_drain E N) c.
Proof. apply deaf_drain. Qed.
Hint Resolve deaf_drain' : deaf.
Lemma deaf_try_recv c : deaf (amqp_try_recv N E) c.
Proof. unfold amqp_try_recv. deaf. Qed.
Hint Resolve deaf_try_recv : deaf.
Lemma deaf_send_loop fuel : forall enc more d c, deaf (send_frame_loop N E fuel enc more d) c.
Proof. induction fuel as [|fuel IH]; intros; cbn [send_frame_loop]; deaf; apply IH. Qed.
Lemma deaf_send_loop' enc more d c : deaf (send_frame_loop N E N enc more d) c.
Proof. apply deaf_send_loop. Qed.
Hint Resolve deaf_send_loop' : deaf.
Lemma deaf_send_frame f more d c : deaf (amqp_send_frame_inner N E f more d) c.
Proof. unfold amqp_send_frame_inner. deaf. Qed.
Hint Resolve deaf_send_frame : deaf.
Lemma deaf_send_frame' f c : deaf (amqp_send_frame N E f) c.
Proof. apply deaf_send_frame. Qed.
Hint Resolve deaf_send_frame' : deaf.

Lemma deaf_release_on ch c : deaf (amqp_maybe_release_buffers_on_channel ch) c.
Proof.
  unfold amqp_maybe_release_buffers_on_channel. apply deaf_get_bind.
  deaf.
Qed.
Lemma deaf_release c : deaf amqp_release_buffers c.
Proof.
  unfold amqp_release_buffers. apply deaf_get_bind.
  deaf.
Qed.
Hint Resolve deaf_release_on deaf_release : deaf.
Lemma deaf_maybe_release c : deaf amqp_maybe_release_buffers c.
Proof. unfold amqp_maybe_release_buffers. deaf. Qed.
Hint Resolve deaf_maybe_release : deaf.

Lemma deaf_wait_loop fuel : forall skip d c, deaf (wait_frame_loop N E fuel skip d) c.
Proof. induction fuel as [|fuel IH]; intros; cbn [wait_frame_loop]; deaf; apply IH. Qed.
Lemma deaf_wait d c : deaf (wait_frame_inner N E d) c.
Proof. apply deaf_wait_loop. Qed.
Hint Resolve deaf_wait : deaf.
Lemma deaf_queue_frame f c : deaf (amqp_queue_frame f) c.
Proof. unfold amqp_queue_frame. deaf. Qed.
Lemma deaf_put_back f c : deaf (amqp_put_back_frame f) c.
Proof. unfold amqp_put_back_frame. deaf. Qed.
Hint Resolve deaf_queue_frame deaf_put_back : deaf.
Lemma deaf_on_channel_loop fuel : forall ch c, deaf (wait_on_channel_loop N E fuel ch) c.
Proof. induction fuel as [|fuel IH]; intros; cbn [wait_on_channel_loop]; deaf; apply IH. Qed.
Lemma deaf_on_channel_loop' ch c : deaf (wait_on_channel_loop N E N ch) c.
Proof. apply deaf_on_channel_loop. Qed.
Hint Resolve deaf_on_channel_loop' : deaf.
Lemma deaf_on_channel ch c : deaf (amqp_simple_wait_frame_on_channel N E ch) c.
Proof. unfold amqp_simple_wait_frame_on_channel. deaf. Qed.
Lemma deaf_noblock t c : deaf (amqp_simple_wait_frame_noblock N E t) c.
Proof. unfold amqp_simple_wait_frame_noblock. deaf. Qed.
Hint Resolve deaf_on_channel deaf_noblock : deaf.
Lemma deaf_method_list ch ids d c : deaf (amqp_simple_wait_method_list N E ch ids d) c.
Proof. unfold amqp_simple_wait_method_list. deaf. Qed.
Hint Resolve deaf_method_list : deaf.
Lemma deaf_rpc_wait fuel : forall ch ids d c, deaf (rpc_wait N E fuel ch ids d) c.
Proof. induction fuel as [|fuel IH]; intros; cbn [rpc_wait]; deaf; apply IH. Qed.
Lemma deaf_rpc_wait' ch ids d c : deaf (rpc_wait N E N ch ids d) c.
Proof. apply deaf_rpc_wait. Qed.
Hint Resolve deaf_rpc_wait' : deaf.
Lemma deaf_send_method ch id m c : deaf (amqp_send_method N E ch id m) c.
Proof. apply deaf_send_frame. Qed.
Lemma deaf_send_method_inner ch id m mo d c : deaf (amqp_send_method_inner N E ch id m mo d) c.
Proof. apply deaf_send_frame. Qed.
Hint Resolve deaf_send_method deaf_send_method_inner : deaf.
Lemma deaf_rpc_inner ch id ids m d c : deaf (simple_rpc_inner N E ch id ids m d) c.
Proof. unfold simple_rpc_inner. deaf. Qed.
Hint Resolve deaf_rpc_inner : deaf.
Lemma deaf_rpc ch id ids m c : deaf (amqp_simple_rpc N E ch id ids m) c.
Proof. unfold amqp_simple_rpc. deaf. Qed.
Hint Resolve deaf_rpc : deaf.
Lemma deaf_rpc_decoded ch id r m c : deaf (amqp_simple_rpc_decoded N E ch id r m) c.
Proof. unfold amqp_simple_rpc_decoded. deaf. Qed.
Hint Resolve deaf_rpc_decoded : deaf.
Lemma deaf_call w ch args c : deaf (amqp_call N E w ch args) c.
Proof. unfold amqp_call. destruct (build_request _ _ _); deaf. Qed.
Lemma deaf_channel_close ch code c : deaf (amqp_channel_close N E ch code) c.
Proof. unfold amqp_channel_close. deaf. Qed.
Lemma deaf_connection_close code c : deaf (amqp_connection_close N E code) c.
Proof. unfold amqp_connection_close. deaf. Qed.
Lemma deaf_get ch q na c : deaf (amqp_basic_get N E ch q na) c.
Proof. unfold amqp_basic_get. deaf. Qed.
Hint Resolve deaf_call deaf_channel_close deaf_connection_close deaf_get : deaf.
Lemma deaf_publish_body fuel : forall ch b u o c, deaf (publish_body N E fuel ch b u o) c.
Proof. induction fuel as [|fuel IH]; intros; cbn [publish_body]; deaf; apply IH. Qed.
Lemma deaf_publish_body' ch b u o c : deaf (publish_body N E N ch b u o) c.
Proof. apply deaf_publish_body. Qed.
Hint Resolve deaf_publish_body' : deaf.
Lemma deaf_publish ch x k ma im p b c : deaf (amqp_basic_publish N E ch x k ma im p b) c.
Proof. unfold amqp_basic_publish. deaf. Qed.
Lemma deaf_read_body fuel : forall ch b o c, deaf (read_body N E fuel ch b o) c.
Proof. induction fuel as [|fuel IH]; intros; cbn [read_body]; deaf; apply IH. Qed.
Lemma deaf_read_body' ch b o c : deaf (read_body N E N ch b o) c.
Proof. apply deaf_read_body. Qed.
Hint Resolve deaf_publish deaf_read_body' : deaf.
Lemma deaf_malloc n c : deaf (sys_malloc n) c.
Proof. unfold sys_malloc. deaf. Qed.
Hint Resolve deaf_malloc : deaf.
Lemma deaf_read ch c : deaf (amqp_read_message N E ch) c.
Proof. unfold amqp_read_message. deaf. Qed.
Hint Resolve deaf_read : deaf.
Lemma deaf_consume_message t c : deaf (amqp_consume_message N E t) c.
Proof. unfold amqp_consume_message. deaf. Qed.
Lemma deaf_confirm t c : deaf (amqp_publisher_confirm_wait N E t) c.
Proof. unfold amqp_publisher_confirm_wait. deaf. Qed.
Hint Resolve deaf_consume_message deaf_confirm : deaf.

Lemma deaf_tune cm fm hb c : deaf (amqp_tune_connection cm fm hb) c.
Proof. unfold amqp_tune_connection. deaf. Qed.
Hint Resolve deaf_tune : deaf.
Lemma deaf_login_error r c : deaf (login_error r) c.
Proof. unfold login_error. deaf. Qed.
Lemma deaf_wait_method ch id d c : deaf (simple_wait_method_inner N E ch id d) c.
Proof. unfold simple_wait_method_inner. deaf. Qed.
Lemma deaf_login_open vh d c : deaf (login_open N E vh d) c.
Proof. unfold login_open. deaf. Qed.
Hint Resolve deaf_login_error deaf_wait_method deaf_login_open : deaf.
Lemma deaf_login_tune vh cm fm hb d c : deaf (login_tune N E vh cm fm hb d) c.
Proof. unfold login_tune. deaf. Qed.
Hint Resolve deaf_login_tune : deaf.
Lemma deaf_login_inner pf vh cm fm hb p t cr c : deaf (amqp_login_inner N E pf vh cm fm hb p t cr) c.
Proof. unfold amqp_login_inner. deaf. Qed.
Hint Resolve deaf_login_inner : deaf.
Theorem deaf_exec a c : deaf (exec N E a) c.
Proof.
  destruct a; cbn [exec]; unfold amqp_send_header, amqp_basic_ack, amqp_basic_nack, amqp_basic_reject,
    amqp_simple_wait_method, amqp_login_with_properties; deaf.
Qed.
Theorem deaf_exec_all l : forall c, deaf (exec_all N E l) c.
Proof.
  induction l as [|a l IH]; intros c; cbn [exec_all]; [deaf|].
  apply deaf_bind; [apply deaf_exec|intros]. apply deaf_bind; [apply IH|intros]. deaf.
Qed.
End Deaf.
