(** A relation between the states before and after that is closed under
    sequencing and holds of the elementary steps holds of every call. *)
From Coq Require Import String ZArith List Bool Lia.
From Verif Require Import Base BaseFacts Codec TableModel TableSpec TableOps FramingStmt FramingGen FramingModel MethodSpec
  Frame FrameSpec Time Sasl Net NetApi NetSpec NetFacts NetSend NetRecv.
Import ListNotations.
Local Open Scope Z_scope.

Definition idle_log (l : list obs) : Prop := in_bytes l = [] /\ frames l = [] /\ no_bad l /\ no_lost l.
Lemma idle_log_nil : idle_log [].
Proof. repeat split; constructor. Qed.
Lemma idle_log_app a b : idle_log a -> idle_log b -> idle_log (a ++ b).
Proof.
  intros (A1 & A2 & A3 & A4) (B1 & B2 & B3 & B4). unfold idle_log.
  rewrite in_bytes_app, frames_app, no_bad_app, no_lost_app, A1, A2, B1, B2. auto.
Qed.
Lemma idle_input l : no_input l -> idle_log l.
Proof. apply no_input_in. Qed.
Lemma idle_dry l : dry l -> idle_log l.
Proof. intros H. apply dry_facts in H. unfold idle_log. tauto. Qed.
Lemma idle_quiet l : quiet l -> idle_log l.
Proof. intros H. apply idle_dry, quiet_dry, H. Qed.
Lemma idle_one o : (forall bs, o <> ORecv bs) -> (forall f, o <> OFrame f) -> (forall b, o <> OBad b) -> (forall b, o <> OLost b) -> idle_log [o].
Proof.
  intros H1 H2 H3 H4. destruct o; repeat split; try constructor; try constructor;
    (specialize (H1 bs) || specialize (H2 f) || specialize (H3 st) || specialize (H4 bs)); congruence.
Qed.

Definition release_steps (R : conn -> conn -> list obs -> Prop) : Prop :=
  forall c g, i_state (c_in c) = IDLE -> R c (set_gens c g) [].
Definition tune_steps (P : Z -> Prop) (R : conn -> conn -> list obs -> Prop) : Prop :=
  forall c cm fm hb, i_state (c_in c) = IDLE -> P fm -> R c (set_limits c cm fm hb) [].

Section Walk.
Context (N : nat) (E : nat -> aenv) (R : conn -> conn -> list obs -> Prop)
  (HR : comp R)
  (Hneutral : forall c c' l, same c c' -> idle_log l -> R c c' l)
  (Hrecvd : forall c c' l, recvd c c' l -> R c c' l)
  (Hconsume : sat R (consume_one_frame E))
  (Hqueue : forall c q, R c (set_queue c q) []).

Lemma walk_upd_same f c : same c (f c) -> sat_at R (upd f) c.
Proof. intros H. apply sat_upd, Hneutral; [exact H|apply idle_log_nil]. Qed.
Lemma walk_note o c : idle_log [o] -> sat_at R (note o) c.
Proof. intros H. apply sat_note, Hneutral; [apply same_refl|exact H]. Qed.
Lemma walk_silent {A} (m : M A) c : silent m -> sat_at R m c.
Proof.
  intros H ev. eapply wp_conseq; [apply H| |]; cbv beta.
  - intros a c' ev' l [-> Hl]. apply Hneutral; [apply same_refl|apply idle_quiet, Hl].
  - intros s c' l (-> & Hl & _). apply Hneutral; [apply same_refl|apply idle_quiet, Hl].
Qed.
Lemma walk_upd_queue q c : sat_at R (upd (fun c => set_queue c (q c))) c.
Proof. apply sat_upd, Hqueue. Qed.

Ltac walk1 :=
  match goal with
  | |- sat_at _ (bind get _) _ => apply sat_get_bind
  | |- sat_at _ (bind _ _) _ => apply (sat_bind R HR); [|intros]
  | |- sat_at _ (ret _) _ => apply (sat_ret R HR)
  | |- sat_at _ (halt _) _ => apply (sat_halt R HR)
  | |- sat_at _ (upd (fun c => set_queue c _)) _ => apply walk_upd_queue
  | |- sat_at _ (upd _) _ => apply walk_upd_same; solve [repeat (match goal with |- context [match ?t with _ => _ end] => destruct t end); repeat split; reflexivity]
  | |- sat_at _ (if ?b then _ else _) _ => destruct b
  | |- sat_at _ (match ?x with _ => _ end) _ => destruct x
  | |- sat_at _ (let _ := _ in _) _ => cbv zeta
  | |- sat_at _ (need ?o) _ => unfold need
  | H : sat R ?m |- sat_at _ ?m _ => apply H
  | |- _ => solve [auto with walk]
  end.
Ltac walk := repeat walk1.

Lemma walk_clock c : sat_at R sys_clock c.
Proof. apply walk_silent, silent_clock. Qed.
Lemma walk_from_now t c : sat_at R (time_from_now t) c.
Proof. apply walk_silent, silent_time_from_now. Qed.
Lemma walk_tv t c : sat_at R (time_tv_until t) c.
Proof. apply walk_silent, silent_time_tv. Qed.
Lemma walk_past t c : sat_at R (time_has_past t) c.
Proof. apply walk_silent, silent_time_past. Qed.
Lemma walk_s t c : sat_at R (time_s_from_now t) c.
Proof. apply walk_silent, silent_time_s. Qed.
Lemma walk_alloc c : sat_at R sys_alloc c.
Proof.
  intros ev. unfold wp, sys_alloc. destruct ev as [|[] ev]; try (apply (comp_refl R HR)).
  apply Hneutral; [apply same_refl|apply idle_one; discriminate].
Qed.
Lemma walk_clone c : sat_at R sys_clone c.
Proof. intros ev. unfold wp, sys_clone. destruct ev as [|[] ev]; apply (comp_refl R HR). Qed.
Lemma walk_close c : sat_at R amqp_socket_close c.
Proof.
  assert (sat R sys_close) as H.
  { intros c' ev. unfold wp, sys_close. destruct ev as [|[] ev]; try (apply (comp_refl R HR)).
    apply Hneutral; [apply same_refl|apply idle_one; discriminate]. }
  unfold amqp_socket_close. walk.
Qed.
Hint Resolve walk_clock walk_from_now walk_tv walk_past walk_s walk_alloc walk_clone walk_close : walk.

Lemma walk_next_send c : sat_at R update_next_send c.
Proof. unfold update_next_send. walk. Qed.
Lemma walk_next_recv c : sat_at R update_next_recv c.
Proof. unfold update_next_recv. walk. Qed.
Hint Resolve walk_next_send walk_next_recv : walk.

Lemma walk_socket_send more buf c : sat_at R (amqp_socket_send N more buf) c.
Proof.
  intros ev. eapply wp_conseq; [apply socket_send_ok| |]; cbv beta.
  - intros r c' ev' l (-> & H & _). apply Hneutral; [apply same_refl|apply idle_input, sendlog_input, H].
  - intros s c' l (-> & H & _). apply Hneutral; [apply same_refl|apply idle_input, sendlog_input, H].
Qed.
Lemma walk_do_poll r d c : sat_at R (do_poll N r d) c.
Proof. apply walk_silent, silent_do_poll. Qed.
Hint Resolve walk_socket_send walk_do_poll : walk.
Lemma walk_try_send_loop fuel : forall len left d more c, sat_at R (try_send_loop N fuel len left d more) c.
Proof. induction fuel as [|fuel IH]; intros; cbn [try_send_loop]; walk; apply IH. Qed.
Lemma walk_try_send buf d more c : sat_at R (amqp_try_send N buf d more) c.
Proof. apply walk_try_send_loop. Qed.
Hint Resolve walk_try_send : walk.
Lemma walk_send_header d c : sat_at R (send_header_inner N d) c.
Proof. unfold send_header_inner. walk. Qed.
Hint Resolve walk_send_header : walk.

Lemma walk_recv fuel t c : sat_at R (recv_with_timeout N fuel t) c.
Proof.
  intros ev. eapply wp_conseq; [apply recv_with_timeout_ok| |]; cbv beta.
  - intros r c' ev' l [_ [(-> & H & _)|[H _]]]; [apply Hneutral; [apply same_refl|apply idle_dry, H]|apply Hrecvd, H].
  - intros s c' l [[(-> & H)|H] _]; [apply Hneutral; [apply same_refl|apply idle_dry, H]|apply Hrecvd, H].
Qed.
Hint Resolve walk_recv : walk.
Lemma walk_create_link f c : sat_at R (create_link f) c.
Proof. unfold create_link. walk. Qed.
Lemma walk_append e c : sat_at R (append_entry e) c.
Proof. apply sat_upd, Hqueue. Qed.
Hint Resolve walk_create_link walk_append : walk.
Lemma walk_drain fuel : forall c, sat_at R (try_recv_drain E fuel) c.
Proof. induction fuel as [|fuel IH]; intros; cbn [try_recv_drain]; walk; apply IH. Qed.
Lemma walk_drain' c : sat_at R (try_recv_drain E N) c.
Proof. apply walk_drain. Qed.
Hint Resolve walk_drain' : walk.
Lemma walk_try_recv c : sat_at R (amqp_try_recv N E) c.
Proof. unfold amqp_try_recv. walk. Qed.
Hint Resolve walk_try_recv : walk.
Lemma walk_send_loop fuel : forall enc more d c, sat_at R (send_frame_loop N E fuel enc more d) c.
Proof. induction fuel as [|fuel IH]; intros; cbn [send_frame_loop]; walk; apply IH. Qed.
Lemma walk_send_frame f more d c : sat_at R (amqp_send_frame_inner N E f more d) c.
Proof. unfold amqp_send_frame_inner. walk. apply walk_send_loop. Qed.
Hint Resolve walk_send_frame : walk.
Lemma walk_send_frame' f c : sat_at R (amqp_send_frame N E f) c.
Proof. apply walk_send_frame. Qed.
Hint Resolve walk_send_frame' : walk.

Section Release.
Context (Hrelease : release_steps R).
Lemma walk_release_on ch c : sat_at R (amqp_maybe_release_buffers_on_channel ch) c.
Proof.
  unfold amqp_maybe_release_buffers_on_channel. apply sat_get_bind.
  destruct (i_state (c_in c)) eqn:Hi; walk. apply sat_upd, Hrelease, Hi.
Qed.
Lemma walk_release c : sat_at R amqp_release_buffers c.
Proof.
  unfold amqp_release_buffers. apply sat_get_bind.
  destruct (i_state (c_in c)) eqn:Hi; walk. apply sat_upd, Hrelease, Hi.
Qed.
Hint Resolve walk_release_on walk_release : walk.
Lemma walk_maybe_release c : sat_at R amqp_maybe_release_buffers c.
Proof. unfold amqp_maybe_release_buffers. walk. Qed.
Hint Resolve walk_maybe_release : walk.

Lemma walk_wait_loop fuel : forall skip d c, sat_at R (wait_frame_loop N E fuel skip d) c.
Proof. induction fuel as [|fuel IH]; intros; cbn [wait_frame_loop]; walk; apply IH. Qed.
Lemma walk_wait d c : sat_at R (wait_frame_inner N E d) c.
Proof. apply walk_wait_loop. Qed.
Hint Resolve walk_wait : walk.
Lemma walk_queue_frame f c : sat_at R (amqp_queue_frame f) c.
Proof. unfold amqp_queue_frame. walk. Qed.
Lemma walk_put_back f c : sat_at R (amqp_put_back_frame f) c.
Proof. unfold amqp_put_back_frame. walk. Qed.
Hint Resolve walk_queue_frame walk_put_back : walk.
Lemma walk_on_channel_loop fuel : forall ch c, sat_at R (wait_on_channel_loop N E fuel ch) c.
Proof. induction fuel as [|fuel IH]; intros; cbn [wait_on_channel_loop]; walk; apply IH. Qed.
Lemma walk_on_channel_loop' ch c : sat_at R (wait_on_channel_loop N E N ch) c.
Proof. apply walk_on_channel_loop. Qed.
Hint Resolve walk_on_channel_loop' : walk.
Lemma walk_on_channel ch c : sat_at R (amqp_simple_wait_frame_on_channel N E ch) c.
Proof. unfold amqp_simple_wait_frame_on_channel. walk. Qed.
Lemma walk_noblock t c : sat_at R (amqp_simple_wait_frame_noblock N E t) c.
Proof. unfold amqp_simple_wait_frame_noblock. walk. Qed.
Hint Resolve walk_on_channel walk_noblock : walk.
Lemma walk_method_list ch ids d c : sat_at R (amqp_simple_wait_method_list N E ch ids d) c.
Proof. unfold amqp_simple_wait_method_list. walk. Qed.
Hint Resolve walk_method_list : walk.
Lemma walk_rpc_wait fuel : forall ch ids d c, sat_at R (rpc_wait N E fuel ch ids d) c.
Proof. induction fuel as [|fuel IH]; intros; cbn [rpc_wait]; walk; apply IH. Qed.
Lemma walk_rpc_wait' ch ids d c : sat_at R (rpc_wait N E N ch ids d) c.
Proof. apply walk_rpc_wait. Qed.
Hint Resolve walk_rpc_wait' : walk.
Lemma walk_send_method ch id m c : sat_at R (amqp_send_method N E ch id m) c.
Proof. apply walk_send_frame. Qed.
Lemma walk_send_method_inner ch id m mo d c : sat_at R (amqp_send_method_inner N E ch id m mo d) c.
Proof. apply walk_send_frame. Qed.
Hint Resolve walk_send_method walk_send_method_inner : walk.
Lemma walk_rpc_inner ch id ids m d c : sat_at R (simple_rpc_inner N E ch id ids m d) c.
Proof. unfold simple_rpc_inner. walk. Qed.
Hint Resolve walk_rpc_inner : walk.
Lemma walk_rpc ch id ids m c : sat_at R (amqp_simple_rpc N E ch id ids m) c.
Proof. unfold amqp_simple_rpc. walk. Qed.
Hint Resolve walk_rpc : walk.
Lemma walk_rpc_decoded ch id r m c : sat_at R (amqp_simple_rpc_decoded N E ch id r m) c.
Proof. unfold amqp_simple_rpc_decoded. walk. Qed.
Hint Resolve walk_rpc_decoded : walk.
Lemma walk_call w ch args c : sat_at R (amqp_call N E w ch args) c.
Proof. unfold amqp_call. destruct (build_request _ _ _); walk. Qed.
Lemma walk_channel_close ch code c : sat_at R (amqp_channel_close N E ch code) c.
Proof. unfold amqp_channel_close. walk. Qed.
Lemma walk_connection_close code c : sat_at R (amqp_connection_close N E code) c.
Proof. unfold amqp_connection_close. walk. Qed.
Lemma walk_get ch q na c : sat_at R (amqp_basic_get N E ch q na) c.
Proof. unfold amqp_basic_get. walk. Qed.
Hint Resolve walk_call walk_channel_close walk_connection_close walk_get : walk.
Lemma walk_publish_body fuel : forall ch b u o c, sat_at R (publish_body N E fuel ch b u o) c.
Proof. induction fuel as [|fuel IH]; intros; cbn [publish_body]; walk; apply IH. Qed.
Lemma walk_publish_body' ch b u o c : sat_at R (publish_body N E N ch b u o) c.
Proof. apply walk_publish_body. Qed.
Hint Resolve walk_publish_body' : walk.
Lemma walk_publish ch x k ma im p b c : sat_at R (amqp_basic_publish N E ch x k ma im p b) c.
Proof. unfold amqp_basic_publish. walk. Qed.
Lemma walk_read_body fuel : forall ch b o c, sat_at R (read_body N E fuel ch b o) c.
Proof. induction fuel as [|fuel IH]; intros; cbn [read_body]; walk; apply IH. Qed.
Lemma walk_read_body' ch b o c : sat_at R (read_body N E N ch b o) c.
Proof. apply walk_read_body. Qed.
Hint Resolve walk_publish walk_read_body' : walk.
Lemma walk_malloc n c : sat_at R (sys_malloc n) c.
Proof. unfold sys_malloc. walk. Qed.
Hint Resolve walk_malloc : walk.
Lemma walk_read ch c : sat_at R (amqp_read_message N E ch) c.
Proof. unfold amqp_read_message. walk. Qed.
Hint Resolve walk_read : walk.
Lemma walk_consume_message t c : sat_at R (amqp_consume_message N E t) c.
Proof. unfold amqp_consume_message. walk. Qed.
Lemma walk_confirm t c : sat_at R (amqp_publisher_confirm_wait N E t) c.
Proof. unfold amqp_publisher_confirm_wait. walk. Qed.
Hint Resolve walk_consume_message walk_confirm : walk.

Section Tune.
Context (P : Z -> Prop) (Htune : tune_steps P R).
Lemma walk_tune cm fm hb c : P fm -> sat_at R (amqp_tune_connection cm fm hb) c.
Proof.
  intros HP. unfold amqp_tune_connection. apply sat_get_bind.
  destruct (i_state (c_in c)) eqn:Hi; try (apply (sat_halt R HR)).
  apply (sat_bind R HR); [apply sat_upd, Htune; assumption|intros; walk].
Qed.
Lemma walk_login_error r c : sat_at R (login_error r) c.
Proof. unfold login_error. walk. Qed.
Hint Resolve walk_login_error : walk.
Lemma walk_login_open vh d c : sat_at R (login_open N E vh d) c.
Proof. unfold login_open. walk. Qed.
Hint Resolve walk_login_open : walk.
Lemma walk_login_tune vh cm fm hb d c : (forall s, 0 <= s -> P (tune_limit s fm)) -> sat_at R (login_tune N E vh cm fm hb d) c.
Proof. intros HP. unfold login_tune. walk. apply walk_tune, HP, Z.mod_pos_bound. reflexivity. Qed.
Lemma walk_login pf vh cm fm hb cp t cr c : (0 <= fm -> forall s, 0 <= s -> P (tune_limit s fm)) -> sat_at R (amqp_login_inner N E pf vh cm fm hb cp t cr) c.
Proof.
  intros HP. unfold amqp_login_inner, simple_wait_method_inner. walk1; [walk|]. destruct (Z.ltb_spec fm 0); [walk|].
  walk; apply walk_login_tune, HP; assumption.
Qed.

(** the arguments for which the relation is claimed *)
Definition call_ok (a : api) : Prop :=
  match a with
  | Tune _ fm _ => P fm
  | Login _ _ _ fm _ _ _ => 0 <= fm -> forall s, 0 <= s -> P (tune_limit s fm)
  | _ => True
  end.
Lemma walk_exec a c : call_ok a -> sat_at R (exec N E a) c.
Proof.
  intros HP. destruct a; cbn [exec] in *; unfold amqp_send_header, amqp_login_with_properties, amqp_basic_ack, amqp_basic_nack, amqp_basic_reject,
    amqp_simple_wait_method, simple_wait_method_inner; walk; try (apply walk_tune, HP); try (apply walk_login, HP).
Qed.
Lemma walk_exec_all l : forall c, Forall call_ok l -> sat_at R (exec_all N E l) c.
Proof.
  induction l as [|a l IH]; intros c HP; cbn [exec_all]; [walk|]. inversion HP; subst.
  apply (sat_bind R HR); [apply walk_exec; assumption|intros]. apply (sat_bind R HR); [apply IH; assumption|intros]. walk.
Qed.
End Tune.
End Release.
End Walk.
