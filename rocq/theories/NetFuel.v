(** The bound [N] on loops does not matter once it is large enough: a run that does
    not hit it is the same with every larger bound. *)
From Coq Require Import String ZArith List Bool Lia.
From Verif Require Import Base BaseFacts Codec TableModel TableOps FramingStmt FramingGen FramingModel Frame Time Sasl Net NetApi NetSpec NetFacts.
Import ListNotations.
Local Open Scope Z_scope.

Definition upto {A} (m m' : M A) : Prop :=
  forall c ev, match m c ev with Halt Fuel _ _ => True | r => m' c ev = r end.
Lemma upto_refl A (m : M A) : upto m m.
Proof. intros c ev. destruct (m c ev) as [|[]]; auto. Qed.
Lemma upto_fuel A (m : M A) : upto (halt Fuel) m.
Proof. intros c ev. exact I. Qed.
Lemma upto_bind A B (m m' : M A) (k k' : A -> M B) : upto m m' -> (forall a, upto (k a) (k' a)) -> upto (bind m k) (bind m' k').
Proof.
  intros Hm Hk c ev. unfold bind. specialize (Hm c ev). destruct (m c ev) as [a c1 ev1 l1|s c1 l1].
  - rewrite Hm. specialize (Hk a c1 ev1). destruct (k a c1 ev1) as [b c2 ev2 l2|[] c2 l2]; rewrite ?Hk; auto.
  - destruct s; rewrite ?Hm; auto.
Qed.
Create HintDb upto discriminated.
#[export] Hint Resolve upto_fuel : upto.
Ltac up := repeat first
  [ match goal with |- upto ?m ?m' => constr_eq m m'; apply upto_refl end
  | progress eauto 2 with upto
  | apply upto_bind; [|intros ?]
  | match goal with
    | |- upto (let _ := ?p in _) _ => progress cbv zeta
    | |- upto (if ?b then _ else _) _ => destruct b
    | |- upto (match ?x with _ => _ end) _ => destruct x
    end
  ].

Section Fuel.
Context (N N' : nat) (E : nat -> aenv) (HN : (N <= N')%nat).

Lemma upto_send_loop f : forall f' more buf, (f <= f')%nat -> upto (tcp_send_loop f more buf) (tcp_send_loop f' more buf).
Proof. induction f as [|f IH]; intros f' more buf Hf; [apply upto_fuel|]. destruct f' as [|f']; [lia|]. cbn [tcp_send_loop]. up; apply IH; lia. Qed.
Lemma upto_recv_loop f : forall f' len, (f <= f')%nat -> upto (tcp_recv_loop f len) (tcp_recv_loop f' len).
Proof. induction f as [|f IH]; intros f' len Hf; [apply upto_fuel|]. destruct f' as [|f']; [lia|]. cbn [tcp_recv_loop]. up; apply IH; lia. Qed.
Lemma upto_socket_send more buf : upto (amqp_socket_send N more buf) (amqp_socket_send N' more buf).
Proof. unfold amqp_socket_send. up. apply upto_send_loop, HN. Qed.
Lemma upto_socket_recv len : upto (amqp_socket_recv N len) (amqp_socket_recv N' len).
Proof. unfold amqp_socket_recv. up. apply upto_recv_loop, HN. Qed.
Lemma upto_poll f : forall f' w d, (f <= f')%nat -> upto (amqp_poll f w d) (amqp_poll f' w d).
Proof. induction f as [|f IH]; intros f' w d Hf; [apply upto_fuel|]. destruct f' as [|f']; [lia|]. cbn [amqp_poll]. up; apply IH; lia. Qed.
Lemma upto_poll' w d : upto (amqp_poll N w d) (amqp_poll N' w d).
Proof. apply upto_poll, HN. Qed.
Hint Resolve upto_socket_send upto_socket_recv upto_poll' : upto.
Lemma upto_do_poll r d : upto (do_poll N r d) (do_poll N' r d).
Proof. unfold do_poll. up. Qed.
Hint Resolve upto_do_poll : upto.
Lemma upto_try_send_loop f : forall f' len left d more, (f <= f')%nat -> upto (try_send_loop N f len left d more) (try_send_loop N' f' len left d more).
Proof. induction f as [|f IH]; intros f' len left d more Hf; [apply upto_fuel|]. destruct f' as [|f']; [lia|]. cbn [try_send_loop]. up; apply IH; lia. Qed.
Lemma upto_try_send buf d more : upto (amqp_try_send N buf d more) (amqp_try_send N' buf d more).
Proof. apply upto_try_send_loop, HN. Qed.
Hint Resolve upto_try_send : upto.
Lemma upto_send_header d : upto (send_header_inner N d) (send_header_inner N' d).
Proof. unfold send_header_inner. up. Qed.
Lemma upto_recv f : forall f' t, (f <= f')%nat -> upto (recv_with_timeout N f t) (recv_with_timeout N' f' t).
Proof. induction f as [|f IH]; intros f' t Hf; [apply upto_fuel|]. destruct f' as [|f']; [lia|]. cbn [recv_with_timeout]. up; apply IH; lia. Qed.
Lemma upto_recv' t : upto (recv_with_timeout N N t) (recv_with_timeout N' N' t).
Proof. apply upto_recv, HN. Qed.
Lemma upto_drain f : forall f', (f <= f')%nat -> upto (try_recv_drain E f) (try_recv_drain E f').
Proof. induction f as [|f IH]; intros f' Hf; [apply upto_fuel|]. destruct f' as [|f']; [lia|]. cbn [try_recv_drain]. up; apply IH; lia. Qed.
Lemma upto_drain' : upto (try_recv_drain E N) (try_recv_drain E N').
Proof. apply upto_drain, HN. Qed.
Hint Resolve upto_send_header upto_recv' upto_drain' : upto.
Lemma upto_try_recv : upto (amqp_try_recv N E) (amqp_try_recv N' E).
Proof. unfold amqp_try_recv. up. Qed.
Hint Resolve upto_try_recv : upto.
Lemma upto_send_frame_loop f : forall f' enc more d, (f <= f')%nat -> upto (send_frame_loop N E f enc more d) (send_frame_loop N' E f' enc more d).
Proof. induction f as [|f IH]; intros f' enc more d Hf; [apply upto_fuel|]. destruct f' as [|f']; [lia|]. cbn [send_frame_loop]. up; apply IH; lia. Qed.
Lemma upto_send_frame_loop' enc more d : upto (send_frame_loop N E N enc more d) (send_frame_loop N' E N' enc more d).
Proof. apply upto_send_frame_loop, HN. Qed.
Hint Resolve upto_send_frame_loop' : upto.
Lemma upto_send_frame f more d : upto (amqp_send_frame_inner N E f more d) (amqp_send_frame_inner N' E f more d).
Proof. unfold amqp_send_frame_inner. up. Qed.
Hint Resolve upto_send_frame : upto.
Lemma upto_send_frame' f : upto (amqp_send_frame N E f) (amqp_send_frame N' E f).
Proof. apply upto_send_frame. Qed.
Hint Resolve upto_send_frame' : upto.
Lemma upto_wait_loop f : forall f' skip d, (f <= f')%nat -> upto (wait_frame_loop N E f skip d) (wait_frame_loop N' E f' skip d).
Proof. induction f as [|f IH]; intros f' skip d Hf; [apply upto_fuel|]. destruct f' as [|f']; [lia|]. cbn [wait_frame_loop]. up; apply IH; lia. Qed.
Lemma upto_wait d : upto (wait_frame_inner N E d) (wait_frame_inner N' E d).
Proof. apply upto_wait_loop, HN. Qed.
Hint Resolve upto_wait : upto.
Lemma upto_on_channel_loop f : forall f' ch, (f <= f')%nat -> upto (wait_on_channel_loop N E f ch) (wait_on_channel_loop N' E f' ch).
Proof. induction f as [|f IH]; intros f' ch Hf; [apply upto_fuel|]. destruct f' as [|f']; [lia|]. cbn [wait_on_channel_loop]. up; apply IH; lia. Qed.
Lemma upto_on_channel_loop' ch : upto (wait_on_channel_loop N E N ch) (wait_on_channel_loop N' E N' ch).
Proof. apply upto_on_channel_loop, HN. Qed.
Hint Resolve upto_on_channel_loop' : upto.
Lemma upto_on_channel ch : upto (amqp_simple_wait_frame_on_channel N E ch) (amqp_simple_wait_frame_on_channel N' E ch).
Proof. unfold amqp_simple_wait_frame_on_channel. up. Qed.
Lemma upto_noblock t : upto (amqp_simple_wait_frame_noblock N E t) (amqp_simple_wait_frame_noblock N' E t).
Proof. unfold amqp_simple_wait_frame_noblock. up. Qed.
Hint Resolve upto_on_channel upto_noblock : upto.
Lemma upto_method_inner ch id m more d : upto (amqp_send_method_inner N E ch id m more d) (amqp_send_method_inner N' E ch id m more d).
Proof. apply upto_send_frame. Qed.
Hint Resolve upto_method_inner : upto.
Lemma upto_method ch id m : upto (amqp_send_method N E ch id m) (amqp_send_method N' E ch id m).
Proof. apply upto_method_inner. Qed.
Hint Resolve upto_method : upto.
Lemma upto_list ch ids d : upto (amqp_simple_wait_method_list N E ch ids d) (amqp_simple_wait_method_list N' E ch ids d).
Proof. unfold amqp_simple_wait_method_list. up. Qed.
Hint Resolve upto_list : upto.
Lemma upto_wait_method ch id d : upto (simple_wait_method_inner N E ch id d) (simple_wait_method_inner N' E ch id d).
Proof. apply upto_list. Qed.
Hint Resolve upto_wait_method : upto.
Lemma upto_rpc_wait f : forall f' ch ids d, (f <= f')%nat -> upto (rpc_wait N E f ch ids d) (rpc_wait N' E f' ch ids d).
Proof. induction f as [|f IH]; intros f' ch ids d Hf; [apply upto_fuel|]. destruct f' as [|f']; [lia|]. cbn [rpc_wait]. up; apply IH; lia. Qed.
Lemma upto_rpc_wait' ch ids d : upto (rpc_wait N E N ch ids d) (rpc_wait N' E N' ch ids d).
Proof. apply upto_rpc_wait, HN. Qed.
Hint Resolve upto_rpc_wait' : upto.
Lemma upto_rpc_inner ch id ids m d : upto (simple_rpc_inner N E ch id ids m d) (simple_rpc_inner N' E ch id ids m d).
Proof. unfold simple_rpc_inner. up. Qed.
Hint Resolve upto_rpc_inner : upto.
Lemma upto_rpc ch id ids m : upto (amqp_simple_rpc N E ch id ids m) (amqp_simple_rpc N' E ch id ids m).
Proof. unfold amqp_simple_rpc. up. Qed.
Hint Resolve upto_rpc : upto.
Lemma upto_rpc_decoded ch id r m : upto (amqp_simple_rpc_decoded N E ch id r m) (amqp_simple_rpc_decoded N' E ch id r m).
Proof. unfold amqp_simple_rpc_decoded. up. Qed.
Hint Resolve upto_rpc_decoded : upto.
Lemma upto_call w ch args : upto (amqp_call N E w ch args) (amqp_call N' E w ch args).
Proof. unfold amqp_call. up. Qed.
Lemma upto_channel_close ch code : upto (amqp_channel_close N E ch code) (amqp_channel_close N' E ch code).
Proof. unfold amqp_channel_close. up. Qed.
Lemma upto_connection_close code : upto (amqp_connection_close N E code) (amqp_connection_close N' E code).
Proof. unfold amqp_connection_close. up. Qed.
Lemma upto_basic_get ch q na : upto (amqp_basic_get N E ch q na) (amqp_basic_get N' E ch q na).
Proof. unfold amqp_basic_get. up. Qed.
Lemma upto_publish_body f : forall f' ch b u o, (f <= f')%nat -> upto (publish_body N E f ch b u o) (publish_body N' E f' ch b u o).
Proof. induction f as [|f IH]; intros f' ch b u o Hf; [apply upto_fuel|]. destruct f' as [|f']; [lia|]. cbn [publish_body]. up; apply IH; lia. Qed.
Lemma upto_publish_body' ch b u o : upto (publish_body N E N ch b u o) (publish_body N' E N' ch b u o).
Proof. apply upto_publish_body, HN. Qed.
Hint Resolve upto_call upto_channel_close upto_connection_close upto_basic_get upto_publish_body' : upto.
Lemma upto_publish ch x k ma im p b : upto (amqp_basic_publish N E ch x k ma im p b) (amqp_basic_publish N' E ch x k ma im p b).
Proof. unfold amqp_basic_publish. up. Qed.
Lemma upto_read_body f : forall f' ch b o, (f <= f')%nat -> upto (read_body N E f ch b o) (read_body N' E f' ch b o).
Proof. induction f as [|f IH]; intros f' ch b o Hf; [apply upto_fuel|]. destruct f' as [|f']; [lia|]. cbn [read_body]. up; apply IH; lia. Qed.
Lemma upto_read_body' ch b o : upto (read_body N E N ch b o) (read_body N' E N' ch b o).
Proof. apply upto_read_body, HN. Qed.
Hint Resolve upto_publish upto_read_body' : upto.
Lemma upto_read_message ch : upto (amqp_read_message N E ch) (amqp_read_message N' E ch).
Proof. unfold amqp_read_message. up. Qed.
Hint Resolve upto_read_message : upto.
Lemma upto_consume t : upto (amqp_consume_message N E t) (amqp_consume_message N' E t).
Proof. unfold amqp_consume_message. up. Qed.
Lemma upto_confirm t : upto (amqp_publisher_confirm_wait N E t) (amqp_publisher_confirm_wait N' E t).
Proof. unfold amqp_publisher_confirm_wait. up. Qed.
Lemma upto_login_open vh d : upto (login_open N E vh d) (login_open N' E vh d).
Proof. unfold login_open. up. Qed.
Hint Resolve upto_consume upto_confirm upto_login_open : upto.
Lemma upto_login_tune vh cm fm hb d : upto (login_tune N E vh cm fm hb d) (login_tune N' E vh cm fm hb d).
Proof. unfold login_tune. up. Qed.
Hint Resolve upto_login_tune : upto.
Lemma upto_login pf vh cm fm hb p t cr : upto (amqp_login_inner N E pf vh cm fm hb p t cr) (amqp_login_inner N' E pf vh cm fm hb p t cr).
Proof. unfold amqp_login_inner. up. Qed.
Hint Resolve upto_login : upto.
Lemma upto_exec a : upto (exec N E a) (exec N' E a).
Proof. destruct a; cbn [exec]; unfold amqp_send_header, amqp_simple_wait_method, amqp_basic_ack, amqp_basic_nack, amqp_basic_reject, amqp_login_with_properties; up. Qed.
Hint Resolve upto_exec : upto.
Lemma upto_exec_all l : upto (exec_all N E l) (exec_all N' E l).
Proof. induction l; cbn [exec_all]; up. Qed.
End Fuel.
