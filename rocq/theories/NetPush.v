(** MSG_MORE: which bytes are sent with it (for C75). *)
From Coq Require Import String ZArith List Bool Lia.
From Verif Require Import Base BaseFacts Codec TableModel TableSpec TableOps FramingStmt FramingGen FramingModel MethodSpec
  Frame FrameSpec Time Sasl Net NetApi NetSpec NetFacts PushSpec.
Import ListNotations.
Local Open Scope Z_scope.

Definition flat (b : bool) (c c' : conn) (l : list obs) : Prop := all_flagged b l.
Lemma flat_comp b : comp (flat b).
Proof. split; [intros; constructor|]. intros c c1 c2 l1 l2 A B. apply Forall_app. split; assumption. Qed.
Ltac prim := intros ev; unfold wp; destruct ev as [|[] ev]; try constructor.
Lemma fp_clock b c : sat_at (flat b) sys_clock c.
Proof. unfold sys_clock. prim; auto. Qed.
Lemma fp_alloc b c : sat_at (flat b) sys_alloc c.
Proof. unfold sys_alloc. prim; auto. Qed.
Lemma fp_clone b c : sat_at (flat b) sys_clone c.
Proof. unfold sys_clone. prim. Qed.
Lemma fp_sysclose b c : sat_at (flat b) sys_close c.
Proof. unfold sys_close. prim; auto. Qed.
Lemma fp_syssend b x c : sat_at (flat b) (sys_send b x) c.
Proof. unfold sys_send. intros ev; unfold wp; destruct ev as [|[] ev]; try (constructor; fail). destruct r; try (constructor; fail); (constructor; [reflexivity|constructor]). Qed.
Lemma fp_sysrecv b n c : sat_at (flat b) (sys_recv n) c.
Proof. unfold sys_recv. intros ev; unfold wp; destruct ev as [|[] ev]; try (constructor; fail). destruct r; try (constructor; fail); (constructor; [exact I|constructor]). Qed.
Lemma fp_syspoll b w n c : sat_at (flat b) (sys_poll w n) c.
Proof. unfold sys_poll. intros ev; unfold wp; destruct ev as [|[] ev]; try (constructor; fail). destruct r; try destruct (_ <? _); try (constructor; fail); (constructor; [exact I|constructor]). Qed.
#[global] Hint Resolve fp_clock fp_alloc fp_clone fp_sysclose fp_syssend fp_sysrecv fp_syspoll : fp.
Lemma fp_upd b f c : sat_at (flat b) (upd f) c.
Proof. apply sat_upd. constructor. Qed.
Lemma fp_note b o c : (forall m x, o <> OSend m x) -> sat_at (flat b) (note o) c.
Proof. intros H. apply sat_note. constructor; [|constructor]. destruct o; auto. destruct (H more bs eq_refl). Qed.

Section Push.
Context (N : nat) (E : nat -> aenv).
Section Any.
Context (fl : bool).
Lemma fp_consume c : sat_at (flat fl) (consume_one_frame E) c.
Proof.
  intros ev. unfold wp, consume_one_frame. destruct (amqp_handle_input E (c_in c) (c_sbuf c)) as [res f s| |]; try (constructor; fail).
  destruct (_ <? _); [constructor; [exact I|constructor]|]. destruct (_ =? _); [constructor|constructor; [exact I|constructor]].
Qed.
Ltac fp1 :=
  match goal with
  | |- sat_at _ (bind get _) _ => apply sat_get_bind
  | |- sat_at (flat ?b) (bind _ _) _ => apply (sat_bind (flat b) (flat_comp b)); [|intros]
  | |- sat_at (flat ?b) (ret _) _ => apply (sat_ret (flat b) (flat_comp b))
  | |- sat_at (flat ?b) (halt _) _ => apply (sat_halt (flat b) (flat_comp b))
  | |- sat_at _ (note _) _ => apply fp_note; discriminate
  | |- sat_at _ (upd _) _ => apply fp_upd
  | |- sat_at _ (if ?b then _ else _) _ => destruct b
  | |- sat_at _ (match ?x with _ => _ end) _ => destruct x
  | |- sat_at _ (let _ := _ in _) _ => cbv zeta
  | |- sat_at _ (need ?o) _ => unfold need
  | |- sat_at _ (consume_one_frame _) _ => apply fp_consume
  | |- _ => solve [auto with fp]
  end.
Ltac fp := repeat fp1.
Lemma fp_close c : sat_at (flat fl) amqp_socket_close c.
Proof. unfold amqp_socket_close. fp. Qed.
Hint Resolve fp_close : fp.
Lemma fp_tcp_send fuel : forall x c, sat_at (flat fl) (tcp_send_loop fuel fl x) c.
Proof. induction fuel as [|fuel IH]; intros; cbn [tcp_send_loop]; fp; apply IH. Qed.
Lemma fp_tcp_recv fuel : forall n c, sat_at (flat fl) (tcp_recv_loop fuel n) c.
Proof. induction fuel as [|fuel IH]; intros; cbn [tcp_recv_loop]; fp; apply IH. Qed.
Hint Resolve fp_tcp_send fp_tcp_recv : fp.
Lemma fp_ms t c : sat_at (flat fl) (time_ms_until t) c.
Proof. unfold time_ms_until. fp. Qed.
Hint Resolve fp_ms : fp.
Lemma fp_amqp_poll fuel : forall w d c, sat_at (flat fl) (amqp_poll fuel w d) c.
Proof. induction fuel as [|fuel IH]; intros; cbn [amqp_poll]; fp; apply IH. Qed.
Hint Resolve fp_amqp_poll : fp.
Lemma fp_from_now t c : sat_at (flat fl) (time_from_now t) c.
Proof. unfold time_from_now. fp. Qed.
Lemma fp_s_from_now t c : sat_at (flat fl) (time_s_from_now t) c.
Proof. unfold time_s_from_now. fp. Qed.
Lemma fp_tv t c : sat_at (flat fl) (time_tv_until t) c.
Proof. unfold time_tv_until. fp. Qed.
Lemma fp_past t c : sat_at (flat fl) (time_has_past t) c.
Proof. unfold time_has_past. fp. Qed.
Hint Resolve fp_from_now fp_s_from_now fp_tv fp_past : fp.
Lemma fp_next_send c : sat_at (flat fl) update_next_send c.
Proof. unfold update_next_send. fp. Qed.
Lemma fp_next_recv c : sat_at (flat fl) update_next_recv c.
Proof. unfold update_next_recv. fp. Qed.
Lemma fp_socket_send x c : sat_at (flat fl) (amqp_socket_send N fl x) c.
Proof. unfold amqp_socket_send. fp. Qed.
Lemma fp_socket_recv n c : sat_at (flat fl) (amqp_socket_recv N n) c.
Proof. unfold amqp_socket_recv. fp. Qed.
Lemma fp_do_poll r d c : sat_at (flat fl) (do_poll N r d) c.
Proof. unfold do_poll. fp. Qed.
Hint Resolve fp_next_send fp_next_recv fp_socket_send fp_socket_recv fp_close fp_do_poll : fp.
Lemma fp_try_send_loop fuel : forall len buf d c, sat_at (flat fl) (try_send_loop N fuel len buf d fl) c.
Proof. induction fuel as [|fuel IH]; intros; cbn [try_send_loop]; fp; apply IH. Qed.
Lemma fp_try_send buf d c : sat_at (flat fl) (amqp_try_send N buf d fl) c.
Proof. apply fp_try_send_loop. Qed.
Hint Resolve fp_try_send : fp.
Lemma fp_store bs c : sat_at (flat fl) (store_received bs) c.
Proof. unfold store_received. fp. Qed.
Hint Resolve fp_store : fp.
Lemma fp_recv fuel : forall t c, sat_at (flat fl) (recv_with_timeout N fuel t) c.
Proof. induction fuel as [|fuel IH]; intros; cbn [recv_with_timeout]; fp; apply IH. Qed.
Hint Resolve fp_recv : fp.
Lemma fp_create_link f c : sat_at (flat fl) (create_link f) c.
Proof. unfold create_link. fp. Qed.
Lemma fp_append e c : sat_at (flat fl) (append_entry e) c.
Proof. unfold append_entry. fp. Qed.
Hint Resolve fp_create_link fp_append : fp.
Lemma fp_drain fuel : forall c, sat_at (flat fl) (try_recv_drain E fuel) c.
Proof. induction fuel as [|fuel IH]; intros; cbn [try_recv_drain]; fp; apply IH. Qed.
Lemma fp_drain' c : sat_at (flat fl) (try_recv_drain E N) c.
Proof. apply fp_drain. Qed.
Hint Resolve fp_drain' : fp.
Lemma fp_try_recv c : sat_at (flat fl) (amqp_try_recv N E) c.
Proof. unfold amqp_try_recv. fp. Qed.
Hint Resolve fp_try_recv : fp.
Lemma fp_send_loop fuel : forall enc d c, sat_at (flat fl) (send_frame_loop N E fuel enc fl d) c.
Proof. induction fuel as [|fuel IH]; intros; cbn [send_frame_loop]; fp; apply IH. Qed.
Lemma fp_send_loop' enc d c : sat_at (flat fl) (send_frame_loop N E N enc fl d) c.
Proof. apply fp_send_loop. Qed.
Hint Resolve fp_send_loop' : fp.
Lemma fp_send_frame f d c : sat_at (flat fl) (amqp_send_frame_inner N E f fl d) c.
Proof. unfold amqp_send_frame_inner. fp. Qed.
End Any.
Hint Resolve fp_close fp_from_now fp_s_from_now fp_tv fp_past fp_next_send fp_next_recv fp_store fp_recv fp_create_link fp_append fp_drain' fp_try_recv fp_send_frame fp_try_send : fp.
Ltac fp1 :=
  match goal with
  | |- sat_at _ (bind get _) _ => apply sat_get_bind
  | |- sat_at (flat ?b) (bind _ _) _ => apply (sat_bind (flat b) (flat_comp b)); [|intros]
  | |- sat_at (flat ?b) (ret _) _ => apply (sat_ret (flat b) (flat_comp b))
  | |- sat_at (flat ?b) (halt _) _ => apply (sat_halt (flat b) (flat_comp b))
  | |- sat_at _ (note _) _ => apply fp_note; discriminate
  | |- sat_at _ (upd _) _ => apply fp_upd
  | |- sat_at _ (if ?b then _ else _) _ => destruct b
  | |- sat_at _ (match ?x with _ => _ end) _ => destruct x
  | |- sat_at _ (let _ := _ in _) _ => cbv zeta
  | |- sat_at _ (need ?o) _ => unfold need
  | |- sat_at _ (consume_one_frame _) _ => apply fp_consume
  | |- _ => solve [auto with fp]
  end.
Ltac fp := repeat fp1.
Lemma fp_send_frame' f c : sat_at (flat false) (amqp_send_frame N E f) c.
Proof. apply fp_send_frame. Qed.
Hint Resolve fp_send_frame' : fp.

Lemma fp_send_header d c : sat_at (flat false) (send_header_inner N d) c.
Proof. unfold send_header_inner. fp. Qed.
Hint Resolve fp_send_header : fp.
Lemma fp_release_on ch c : sat_at (flat false) (amqp_maybe_release_buffers_on_channel ch) c.
Proof.
  unfold amqp_maybe_release_buffers_on_channel. apply sat_get_bind.
  fp.
Qed.
Lemma fp_release c : sat_at (flat false) amqp_release_buffers c.
Proof.
  unfold amqp_release_buffers. apply sat_get_bind.
  fp.
Qed.
Hint Resolve fp_release_on fp_release : fp.
Lemma fp_maybe_release c : sat_at (flat false) amqp_maybe_release_buffers c.
Proof. unfold amqp_maybe_release_buffers. fp. Qed.
Hint Resolve fp_maybe_release : fp.

Lemma fp_wait_loop fuel : forall skip d c, sat_at (flat false) (wait_frame_loop N E fuel skip d) c.
Proof. induction fuel as [|fuel IH]; intros; cbn [wait_frame_loop]; fp; apply IH. Qed.
Lemma fp_wait d c : sat_at (flat false) (wait_frame_inner N E d) c.
Proof. apply fp_wait_loop. Qed.
Hint Resolve fp_wait : fp.
Lemma fp_queue_frame f c : sat_at (flat false) (amqp_queue_frame f) c.
Proof. unfold amqp_queue_frame. fp. Qed.
Lemma fp_put_back f c : sat_at (flat false) (amqp_put_back_frame f) c.
Proof. unfold amqp_put_back_frame. fp. Qed.
Hint Resolve fp_queue_frame fp_put_back : fp.
Lemma fp_on_channel_loop fuel : forall ch c, sat_at (flat false) (wait_on_channel_loop N E fuel ch) c.
Proof. induction fuel as [|fuel IH]; intros; cbn [wait_on_channel_loop]; fp; apply IH. Qed.
Lemma fp_on_channel_loop' ch c : sat_at (flat false) (wait_on_channel_loop N E N ch) c.
Proof. apply fp_on_channel_loop. Qed.
Hint Resolve fp_on_channel_loop' : fp.
Lemma fp_on_channel ch c : sat_at (flat false) (amqp_simple_wait_frame_on_channel N E ch) c.
Proof. unfold amqp_simple_wait_frame_on_channel. fp. Qed.
Lemma fp_noblock t c : sat_at (flat false) (amqp_simple_wait_frame_noblock N E t) c.
Proof. unfold amqp_simple_wait_frame_noblock. fp. Qed.
Hint Resolve fp_on_channel fp_noblock : fp.
Lemma fp_method_list ch ids d c : sat_at (flat false) (amqp_simple_wait_method_list N E ch ids d) c.
Proof. unfold amqp_simple_wait_method_list. fp. Qed.
Hint Resolve fp_method_list : fp.
Lemma fp_rpc_wait fuel : forall ch ids d c, sat_at (flat false) (rpc_wait N E fuel ch ids d) c.
Proof. induction fuel as [|fuel IH]; intros; cbn [rpc_wait]; fp; apply IH. Qed.
Lemma fp_rpc_wait' ch ids d c : sat_at (flat false) (rpc_wait N E N ch ids d) c.
Proof. apply fp_rpc_wait. Qed.
Hint Resolve fp_rpc_wait' : fp.
Lemma fp_send_method ch id m c : sat_at (flat false) (amqp_send_method N E ch id m) c.
Proof. apply fp_send_frame. Qed.
Lemma fp_send_method_inner ch id m d c : sat_at (flat false) (amqp_send_method_inner N E ch id m false d) c.
Proof. apply fp_send_frame. Qed.
Hint Resolve fp_send_method fp_send_method_inner : fp.
Lemma fp_rpc_inner ch id ids m d c : sat_at (flat false) (simple_rpc_inner N E ch id ids m d) c.
Proof. unfold simple_rpc_inner. fp. Qed.
Hint Resolve fp_rpc_inner : fp.
Lemma fp_rpc ch id ids m c : sat_at (flat false) (amqp_simple_rpc N E ch id ids m) c.
Proof. unfold amqp_simple_rpc. fp. Qed.
Hint Resolve fp_rpc : fp.
Lemma fp_rpc_decoded ch id r m c : sat_at (flat false) (amqp_simple_rpc_decoded N E ch id r m) c.
Proof. unfold amqp_simple_rpc_decoded. fp. Qed.
Hint Resolve fp_rpc_decoded : fp.
Lemma fp_call w ch args c : sat_at (flat false) (amqp_call N E w ch args) c.
Proof. unfold amqp_call. destruct (build_request _ _ _); fp. Qed.
Lemma fp_channel_close ch code c : sat_at (flat false) (amqp_channel_close N E ch code) c.
Proof. unfold amqp_channel_close. fp. Qed.
Lemma fp_connection_close code c : sat_at (flat false) (amqp_connection_close N E code) c.
Proof. unfold amqp_connection_close. fp. Qed.
Lemma fp_get ch q na c : sat_at (flat false) (amqp_basic_get N E ch q na) c.
Proof. unfold amqp_basic_get. fp. Qed.
Hint Resolve fp_call fp_channel_close fp_connection_close fp_get : fp.
Lemma fp_read_body fuel : forall ch b o c, sat_at (flat false) (read_body N E fuel ch b o) c.
Proof. induction fuel as [|fuel IH]; intros; cbn [read_body]; fp; apply IH. Qed.
Lemma fp_read_body' ch b o c : sat_at (flat false) (read_body N E N ch b o) c.
Proof. apply fp_read_body. Qed.
Hint Resolve fp_read_body' : fp.
Lemma fp_malloc n c : sat_at (flat false) (sys_malloc n) c.
Proof. unfold sys_malloc. fp. Qed.
Hint Resolve fp_malloc : fp.
Lemma fp_read ch c : sat_at (flat false) (amqp_read_message N E ch) c.
Proof. unfold amqp_read_message. fp. Qed.
Hint Resolve fp_read : fp.
Lemma fp_consume_message t c : sat_at (flat false) (amqp_consume_message N E t) c.
Proof. unfold amqp_consume_message. fp. Qed.
Lemma fp_confirm t c : sat_at (flat false) (amqp_publisher_confirm_wait N E t) c.
Proof. unfold amqp_publisher_confirm_wait. fp. Qed.
Hint Resolve fp_consume_message fp_confirm : fp.

Lemma fp_tune cm fm hb c : sat_at (flat false) (amqp_tune_connection cm fm hb) c.
Proof. unfold amqp_tune_connection. fp. Qed.
Hint Resolve fp_tune : fp.
Lemma fp_login_error r c : sat_at (flat false) (login_error r) c.
Proof. unfold login_error. fp. Qed.
Lemma fp_wait_method ch id d c : sat_at (flat false) (simple_wait_method_inner N E ch id d) c.
Proof. unfold simple_wait_method_inner. fp. Qed.
Lemma fp_login_open vh d c : sat_at (flat false) (login_open N E vh d) c.
Proof. unfold login_open. fp. Qed.
Hint Resolve fp_login_error fp_wait_method fp_login_open : fp.
Lemma fp_login_tune vh cm fm hb d c : sat_at (flat false) (login_tune N E vh cm fm hb d) c.
Proof. unfold login_tune. fp. Qed.
Hint Resolve fp_login_tune : fp.
Lemma fp_login_inner pf vh cm fm hb p t cr c : sat_at (flat false) (amqp_login_inner N E pf vh cm fm hb p t cr) c.
Proof. unfold amqp_login_inner. fp. Qed.
Hint Resolve fp_login_inner : fp.
Theorem fp_exec a c : (forall ch x k m i p b, a <> Publish ch x k m i p b) -> sat_at (flat false) (exec N E a) c.
Proof.
  intros Hp. destruct a; cbn [exec]; unfold amqp_send_header, amqp_basic_ack, amqp_basic_nack, amqp_basic_reject,
    amqp_simple_wait_method, amqp_login_with_properties; fp. destruct (Hp channel exchange routing_key mandatory immediate p body eq_refl).
Qed.
End Push.
