(** The client and server properties: nothing but login changes them; and pools are
    recycled, never restored. *)
From Coq Require Import String ZArith List Bool Lia.
From Verif Require Import Base BaseFacts Codec TableModel TableSpec TableOps FramingStmt FramingGen FramingModel MethodSpec
  Frame FrameSpec Time Sasl Net NetApi NetSpec NetFacts NetSend NetRecv NetWalk NetAcct NetOrder NetTyped NetWell.
Import ListNotations.
Local Open Scope Z_scope.

Definition kept (c c' : conn) (l : list obs) : Prop :=
  c_cprops c' = c_cprops c /\ c_sprops c' = c_sprops c /\ forall k, (gens c k <= gens c' k)%nat.
Lemma kept_comp : comp kept.
Proof.
  split; [intros; split; [reflexivity|split; [reflexivity|intros; lia]]|]. intros c c1 c2 l1 l2 (A1 & A2 & A3) (B1 & B2 & B3). split; [congruence|]. split; [congruence|].
  intros k. specialize (A3 k). specialize (B3 k). lia.
Qed.

Section Kept.
Context (N : nat) (E : nat -> aenv).
Lemma kept_silent {A} (m : M A) c : silent m -> sat_at kept m c.
Proof. intros H ev. eapply wp_conseq; [apply H| |]; cbv beta; [intros a c' _ l [-> _]|intros s c' l [-> _]]; apply kept_comp. Qed.
Lemma kept_upd f c : c_cprops (f c) = c_cprops c -> c_sprops (f c) = c_sprops c -> (forall k, gens c k <= gens (f c) k)%nat -> sat_at kept (upd f) c.
Proof. intros H1 H2 H3. apply sat_upd. split; [exact H1|]. split; [exact H2|exact H3]. Qed.
Lemma kept_consume : sat kept (consume_one_frame E).
Proof.
  intros c ev. unfold wp, consume_one_frame. pose proof (handle_input_keeps E (c_in c) (c_sbuf c)) as H.
  destruct (amqp_handle_input E (c_in c) (c_sbuf c)) as [res f s| |]; try apply kept_comp.
  destruct H as (H & _ & _). destruct (_ <? _); (split; [reflexivity|]; split; [reflexivity|]); intros k; unfold gens; cbn; rewrite H; lia.
Qed.
Ltac kept1 :=
  match goal with
  | |- sat_at _ (bind get _) _ => apply sat_get_bind
  | |- sat_at _ (bind _ _) _ => apply (sat_bind kept kept_comp); [|intros]
  | |- sat_at _ (ret _) _ => apply (sat_ret kept kept_comp)
  | |- sat_at _ (halt _) _ => apply (sat_halt kept kept_comp)
  | |- sat_at _ (upd _) _ => apply kept_upd; [solve [repeat (match goal with |- context [match ?t with _ => _ end] => destruct t end); reflexivity]|
      solve [repeat (match goal with |- context [match ?t with _ => _ end] => destruct t end); reflexivity]|
      intros; solve [unfold gens; cbn; repeat (match goal with |- context [match ?t with _ => _ end] => destruct t end); unfold gens; cbn; lia]]
  | |- sat_at _ (if ?b then _ else _) _ => destruct b
  | |- sat_at _ (match ?x with _ => _ end) _ => destruct x
  | |- sat_at _ (let _ := _ in _) _ => cbv zeta
  | |- sat_at _ (need ?o) _ => unfold need
  | |- sat_at _ (consume_one_frame _) _ => apply kept_consume
  | |- _ => solve [auto with kept]
  end.
Ltac kept := repeat kept1.
Lemma kept_from_now t c : sat_at kept (time_from_now t) c.
Proof. apply kept_silent, silent_time_from_now. Qed.
Lemma kept_tv t c : sat_at kept (time_tv_until t) c.
Proof. apply kept_silent, silent_time_tv. Qed.
Lemma kept_past t c : sat_at kept (time_has_past t) c.
Proof. apply kept_silent, silent_time_past. Qed.
Lemma kept_s t c : sat_at kept (time_s_from_now t) c.
Proof. apply kept_silent, silent_time_s. Qed.
Lemma kept_do_poll r d c : sat_at kept (do_poll N r d) c.
Proof. apply kept_silent, silent_do_poll. Qed.
Lemma kept_refl c l : kept c c l.
Proof. split; [reflexivity|split; [reflexivity|intros; lia]]. Qed.
Ltac prim := intros ev; unfold wp; destruct ev as [|[] ev]; try apply kept_refl;
  repeat match goal with |- context [match ?x with _ => _ end] => destruct x end; apply kept_refl.
Lemma kept_alloc c : sat_at kept sys_alloc c.
Proof. unfold sys_alloc. prim. Qed.
Lemma kept_clone c : sat_at kept sys_clone c.
Proof. unfold sys_clone. prim. Qed.
Lemma kept_sys_close c : sat_at kept sys_close c.
Proof. unfold sys_close. prim. Qed.
Lemma kept_socket_send more buf c : sat_at kept (amqp_socket_send N more buf) c.
Proof.
  intros ev. eapply wp_conseq; [apply socket_send_ok| |]; cbv beta.
  - intros r c' ev' l (-> & _). apply kept_comp.
  - intros s c' l (-> & _). apply kept_comp.
Qed.
Lemma kept_amqp_poll w d c : sat_at kept (amqp_poll N w d) c.
Proof. apply kept_silent, silent_amqp_poll. Qed.
Hint Resolve kept_amqp_poll : kept.
Hint Resolve kept_from_now kept_tv kept_past kept_s kept_do_poll kept_alloc kept_clone kept_sys_close kept_socket_send : kept.
Lemma kept_close c : sat_at kept amqp_socket_close c.
Proof. unfold amqp_socket_close. kept. Qed.
Lemma kept_next_send c : sat_at kept update_next_send c.
Proof. unfold update_next_send. kept. Qed.
Lemma kept_next_recv c : sat_at kept update_next_recv c.
Proof. unfold update_next_recv. kept. Qed.
Hint Resolve kept_close kept_next_send kept_next_recv : kept.
Lemma kept_try_send_loop fuel : forall len left d more c, sat_at kept (try_send_loop N fuel len left d more) c.
Proof. induction fuel as [|fuel IH]; intros; cbn [try_send_loop]; kept; try apply IH. Qed.
Lemma kept_try_send buf d more c : sat_at kept (amqp_try_send N buf d more) c.
Proof. apply kept_try_send_loop. Qed.
Hint Resolve kept_try_send : kept.
Lemma kept_send_header d c : sat_at kept (send_header_inner N d) c.
Proof. unfold send_header_inner. kept. Qed.
Lemma kept_sys_recv len c : sat_at kept (sys_recv len) c.
Proof. intros ev. unfold wp, sys_recv. destruct ev as [|[| |[]| | | |] ev]; try apply kept_refl; repeat match goal with |- context [if ?x then _ else _] => destruct x end; apply kept_refl. Qed.
Lemma kept_note o c : sat_at kept (note o) c.
Proof. intros ev. apply kept_refl. Qed.
Hint Resolve kept_note : kept.
Lemma kept_store b c : sat_at kept (store_received b) c.
Proof. unfold store_received. kept. Qed.
Hint Resolve kept_store : kept.
Hint Resolve kept_sys_recv : kept.
Lemma kept_tcp_recv fuel : forall len c, sat_at kept (tcp_recv_loop fuel len) c.
Proof. induction fuel as [|fuel IH]; intros; cbn [tcp_recv_loop]; kept; try apply IH. Qed.
Lemma kept_tcp_recv' len c : sat_at kept (tcp_recv_loop N len) c.
Proof. apply kept_tcp_recv. Qed.
Hint Resolve kept_tcp_recv' : kept.
Lemma kept_socket_recv len c : sat_at kept (amqp_socket_recv N len) c.
Proof. unfold amqp_socket_recv. kept. Qed.
Hint Resolve kept_socket_recv : kept.
Lemma kept_recv fuel : forall t c, sat_at kept (recv_with_timeout N fuel t) c.
Proof. induction fuel as [|fuel IH]; intros; cbn [recv_with_timeout]; kept; try apply IH. Qed.
Lemma kept_recv' t c : sat_at kept (recv_with_timeout N N t) c.
Proof. apply kept_recv. Qed.
Hint Resolve kept_send_header kept_recv' kept_recv : kept.
Lemma kept_create_link f c : sat_at kept (create_link f) c.
Proof. unfold create_link. kept. Qed.
Lemma kept_append e c : sat_at kept (append_entry e) c.
Proof. unfold append_entry. kept. Qed.
Hint Resolve kept_create_link kept_append : kept.
Lemma kept_drain fuel : forall c, sat_at kept (try_recv_drain E fuel) c.
Proof. induction fuel as [|fuel IH]; intros; cbn [try_recv_drain]; kept; try apply IH. Qed.
Lemma kept_drain' c : sat_at kept (try_recv_drain E N) c.
Proof. apply kept_drain. Qed.
Hint Resolve kept_drain' : kept.
Lemma kept_try_recv c : sat_at kept (amqp_try_recv N E) c.
Proof. unfold amqp_try_recv. kept. Qed.
Hint Resolve kept_try_recv : kept.
Lemma kept_send_loop fuel : forall enc more d c, sat_at kept (send_frame_loop N E fuel enc more d) c.
Proof. induction fuel as [|fuel IH]; intros; cbn [send_frame_loop]; kept; try apply IH. Qed.
Lemma kept_send_loop' enc more d c : sat_at kept (send_frame_loop N E N enc more d) c.
Proof. apply kept_send_loop. Qed.
Hint Resolve kept_send_loop' : kept.
Lemma kept_send_frame f more d c : sat_at kept (amqp_send_frame_inner N E f more d) c.
Proof. unfold amqp_send_frame_inner. kept. Qed.
Hint Resolve kept_send_frame : kept.
Lemma kept_send_frame' f c : sat_at kept (amqp_send_frame N E f) c.
Proof. apply kept_send_frame. Qed.
Hint Resolve kept_send_frame' : kept.

Lemma kept_release_on ch c : sat_at kept (amqp_maybe_release_buffers_on_channel ch) c.
Proof.
  unfold amqp_maybe_release_buffers_on_channel. apply sat_get_bind.
  kept.
Qed.
Lemma kept_release c : sat_at kept amqp_release_buffers c.
Proof.
  unfold amqp_release_buffers. apply sat_get_bind.
  kept.
Qed.
Hint Resolve kept_release_on kept_release : kept.
Lemma kept_maybe_release c : sat_at kept amqp_maybe_release_buffers c.
Proof. unfold amqp_maybe_release_buffers. kept. Qed.
Hint Resolve kept_maybe_release : kept.

Lemma kept_wait_loop fuel : forall skip d c, sat_at kept (wait_frame_loop N E fuel skip d) c.
Proof. induction fuel as [|fuel IH]; intros; cbn [wait_frame_loop]; kept; try apply IH. Qed.
Lemma kept_wait d c : sat_at kept (wait_frame_inner N E d) c.
Proof. apply kept_wait_loop. Qed.
Hint Resolve kept_wait : kept.
Lemma kept_queue_frame f c : sat_at kept (amqp_queue_frame f) c.
Proof. unfold amqp_queue_frame. kept. Qed.
Lemma kept_put_back f c : sat_at kept (amqp_put_back_frame f) c.
Proof. unfold amqp_put_back_frame. kept. Qed.
Hint Resolve kept_queue_frame kept_put_back : kept.
Lemma kept_on_channel_loop fuel : forall ch c, sat_at kept (wait_on_channel_loop N E fuel ch) c.
Proof. induction fuel as [|fuel IH]; intros; cbn [wait_on_channel_loop]; kept; try apply IH. Qed.
Lemma kept_on_channel_loop' ch c : sat_at kept (wait_on_channel_loop N E N ch) c.
Proof. apply kept_on_channel_loop. Qed.
Hint Resolve kept_on_channel_loop' : kept.
Lemma kept_on_channel ch c : sat_at kept (amqp_simple_wait_frame_on_channel N E ch) c.
Proof. unfold amqp_simple_wait_frame_on_channel. kept. Qed.
Lemma kept_noblock t c : sat_at kept (amqp_simple_wait_frame_noblock N E t) c.
Proof. unfold amqp_simple_wait_frame_noblock. kept. Qed.
Hint Resolve kept_on_channel kept_noblock : kept.
Lemma kept_method_list ch ids d c : sat_at kept (amqp_simple_wait_method_list N E ch ids d) c.
Proof. unfold amqp_simple_wait_method_list. kept. Qed.
Hint Resolve kept_method_list : kept.
Lemma kept_rpc_wait fuel : forall ch ids d c, sat_at kept (rpc_wait N E fuel ch ids d) c.
Proof. induction fuel as [|fuel IH]; intros; cbn [rpc_wait]; kept; try apply IH. Qed.
Lemma kept_rpc_wait' ch ids d c : sat_at kept (rpc_wait N E N ch ids d) c.
Proof. apply kept_rpc_wait. Qed.
Hint Resolve kept_rpc_wait' : kept.
Lemma kept_send_method ch id m c : sat_at kept (amqp_send_method N E ch id m) c.
Proof. apply kept_send_frame. Qed.
Lemma kept_send_method_inner ch id m mo d c : sat_at kept (amqp_send_method_inner N E ch id m mo d) c.
Proof. apply kept_send_frame. Qed.
Hint Resolve kept_send_method kept_send_method_inner : kept.
Lemma kept_rpc_inner ch id ids m d c : sat_at kept (simple_rpc_inner N E ch id ids m d) c.
Proof. unfold simple_rpc_inner. kept. Qed.
Hint Resolve kept_rpc_inner : kept.
Lemma kept_rpc ch id ids m c : sat_at kept (amqp_simple_rpc N E ch id ids m) c.
Proof. unfold amqp_simple_rpc. kept. Qed.
Hint Resolve kept_rpc : kept.
Lemma kept_rpc_decoded ch id r m c : sat_at kept (amqp_simple_rpc_decoded N E ch id r m) c.
Proof. unfold amqp_simple_rpc_decoded. kept. Qed.
Hint Resolve kept_rpc_decoded : kept.
Lemma kept_call w ch args c : sat_at kept (amqp_call N E w ch args) c.
Proof. unfold amqp_call. destruct (build_request _ _ _); kept. Qed.
Lemma kept_channel_close ch code c : sat_at kept (amqp_channel_close N E ch code) c.
Proof. unfold amqp_channel_close. kept. Qed.
Lemma kept_connection_close code c : sat_at kept (amqp_connection_close N E code) c.
Proof. unfold amqp_connection_close. kept. Qed.
Lemma kept_get ch q na c : sat_at kept (amqp_basic_get N E ch q na) c.
Proof. unfold amqp_basic_get. kept. Qed.
Hint Resolve kept_call kept_channel_close kept_connection_close kept_get : kept.
Lemma kept_publish_body fuel : forall ch b u o c, sat_at kept (publish_body N E fuel ch b u o) c.
Proof. induction fuel as [|fuel IH]; intros; cbn [publish_body]; kept; try apply IH. Qed.
Lemma kept_publish_body' ch b u o c : sat_at kept (publish_body N E N ch b u o) c.
Proof. apply kept_publish_body. Qed.
Hint Resolve kept_publish_body' : kept.
Lemma kept_publish ch x k ma im p b c : sat_at kept (amqp_basic_publish N E ch x k ma im p b) c.
Proof. unfold amqp_basic_publish. kept. Qed.
Lemma kept_read_body fuel : forall ch b o c, sat_at kept (read_body N E fuel ch b o) c.
Proof. induction fuel as [|fuel IH]; intros; cbn [read_body]; kept; try apply IH. Qed.
Lemma kept_read_body' ch b o c : sat_at kept (read_body N E N ch b o) c.
Proof. apply kept_read_body. Qed.
Hint Resolve kept_publish kept_read_body' : kept.
Lemma kept_malloc n c : sat_at kept (sys_malloc n) c.
Proof. unfold sys_malloc. kept. Qed.
Hint Resolve kept_malloc : kept.
Lemma kept_read ch c : sat_at kept (amqp_read_message N E ch) c.
Proof. unfold amqp_read_message. kept. Qed.
Hint Resolve kept_read : kept.
Lemma kept_consume_message t c : sat_at kept (amqp_consume_message N E t) c.
Proof. unfold amqp_consume_message. kept. Qed.
Lemma kept_confirm t c : sat_at kept (amqp_publisher_confirm_wait N E t) c.
Proof. unfold amqp_publisher_confirm_wait. kept. Qed.
Hint Resolve kept_consume_message kept_confirm : kept.

Theorem kept_exec a c : keeps_limits a -> sat_at kept (exec N E a) c.
Proof.
  intros HP. destruct a; cbn [exec keeps_limits] in *; try contradiction; unfold amqp_send_header, amqp_basic_ack, amqp_basic_nack, amqp_basic_reject,
    amqp_simple_wait_method, simple_wait_method_inner; kept.
Qed.
Theorem kept_exec_all l : forall c, Forall keeps_limits l -> sat_at kept (exec_all N E l) c.
Proof.
  induction l as [|a l IH]; intros c HP; cbn [exec_all]; [kept|]. inversion HP; subst.
  apply (sat_bind kept kept_comp); [apply kept_exec; assumption|intros]. apply (sat_bind kept kept_comp); [apply IH; assumption|intros]. kept.
Qed.

(** the last part of login *)
Lemma kept_tune cm fm hb c : sat_at kept (amqp_tune_connection cm fm hb) c.
Proof. unfold amqp_tune_connection. kept. Qed.
Lemma kept_login_error r c : sat_at kept (login_error r) c.
Proof. unfold login_error. kept. Qed.
Lemma kept_login_open vh d c : sat_at kept (login_open N E vh d) c.
Proof. unfold login_open. kept. Qed.
Hint Resolve kept_tune kept_login_error kept_login_open kept_release : kept.
Definition after_release (vh : bytes) (cm fm hb d : Z) : M rpc_reply_t :=
  ltac:(let t := eval unfold login_tune in (login_tune N E vh cm fm hb d) in
        match t with bind amqp_release_buffers (fun _ => ?k) => exact k end).
Lemma login_tune_eq vh cm fm hb d : login_tune N E vh cm fm hb d = (amqp_release_buffers;; after_release vh cm fm hb d).
Proof. reflexivity. Qed.
Lemma kept_after_release vh cm fm hb d c : sat_at kept (after_release vh cm fm hb d) c.
Proof. unfold after_release. kept. Qed.
End Kept.
