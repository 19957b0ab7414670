(** Every call keeps the deadline for the next heartbeat near (for C72). *)
From Coq Require Import String ZArith List Bool Lia.
From Verif Require Import Base BaseFacts Codec TableModel TableSpec TableOps FramingStmt FramingGen FramingModel MethodSpec
  Frame FrameSpec Time Sasl Net NetApi NetSpec NetFacts NetSend NetRecv NetWalk NetAcct NetOrder NetWait NetTyped NetWell NetSpeak CalmSpec SpeakSpec NetNear.
Import ListNotations.
Local Open Scope Z_scope.

Section NearAll.
Context (N : nat) (E : nat -> aenv).
Lemma nr_same {A} (m : M A) c : (forall ev, wp m c ev (fun _ c' _ _ => c' = c) (fun _ c' _ => c' = c)) -> sat_at R m c.
Proof.
  intros H ev. eapply wp_conseq; [apply H| |]; cbv beta; [intros a c' _ l -> T Hn Hs|intros st c' l -> T Hn Hs]; apply near_later; assumption.
Qed.
Lemma nr_silent {A} (m : M A) c : silent m -> sat_at R m c.
Proof. intros H. apply nr_same. intros ev. eapply wp_conseq; [apply H| |]; cbv beta; intros; tauto. Qed.
Lemma nr_upd f c : c_hb (f c) = c_hb c -> c_next_recv (f c) = c_next_recv c -> zlen (c_sbuf (f c)) <= zlen (c_sbuf c) -> sat_at R (upd f) c.
Proof. intros H1 H2 H3. apply sat_upd. intros T Hn _. eapply near_fields; eassumption. Qed.
Lemma nr_consume : sat R (consume_one_frame E).
Proof.
  intros c ev. unfold wp, consume_one_frame. destruct (amqp_handle_input E (c_in c) (c_sbuf c)) as [res f s| |]; try (intros T Hn Hs; exact Hn).
  destruct (_ <? _); intros T Hn Hs; [|destruct (_ =? _)]; cbn [last_reading]; (eapply near_fields; [| | |exact Hn]; try reflexivity; try apply Z.le_refl; apply zlen_skipn_le).
Qed.
Lemma nr_after {A B} (P : A -> Prop) (m : M A) (k : A -> M B) c : (forall ev, wp m c ev (fun a c' _ l => R c c' l /\ P a) (fun _ c' l => R c c' l)) ->
  (forall a c', P a -> sat_at R (k a) c') -> sat_at R (bind m k) c.
Proof.
  intros H1 H2 ev. apply wp_bind. eapply wp_conseq; [apply H1| |auto]; cbv beta. intros a c1 ev1 l1 [A1 A2].
  eapply wp_conseq; [apply (H2 a c1 A2)| |]; cbv beta; intros; eapply near_comp; eassumption.
Qed.
Lemma recv_same fuel : forall len c ev, 0 <= len -> wp (tcp_recv_loop fuel len) c ev (fun p c' _ _ => c' = c /\ zlen (snd p) <= len) (fun _ c' _ => c' = c).
Proof.
  induction fuel as [|fuel IH]; intros len c ev Hl; cbn [tcp_recv_loop]; [apply wp_halt; reflexivity|].
  apply wp_bind. unfold wp at 1, sys_recv. destruct ev as [|[| |r| | | |] ev]; try reflexivity. destruct r as [bs| | | | |]; try (apply wp_ret; split; [reflexivity|exact Hl]).
  - assert (zlen (firstn (Z.to_nat len) bs) <= len) as H by (unfold zlen; rewrite firstn_length; lia).
    destruct (firstn (Z.to_nat len) bs); apply wp_ret; (split; [reflexivity|exact H]).
  - apply IH, Hl.
Qed.
Lemma nr_s_from_now s c : 0 <= s <= 131070 -> forall ev, wp (time_s_from_now s) c ev (fun p c' _ l => c' = c /\ forall T, near T c -> steady T l -> forall d, snd p = Some d -> modest_deadline (last_reading T l) d) (fun _ c' _ => c' = c).
Proof.
  intros Hs ev. eapply wp_conseq; [apply (wp_split _ _ _ _ _ _ _ (silent_time_s s c ev) (knows_s_from_now s c Hs ev))| |]; cbv beta.
  - intros p c' ev' l [[-> _] H]. split; [reflexivity|]. intros T Hn Hst. apply (H T I Hn Hst).
  - intros st c' l [[-> _] _]. reflexivity.
Qed.
Lemma nr_next_recv c : sat_at R update_next_recv c.
Proof.
  intros ev. destruct (Z_le_dec 0 (c_hb c)) as [H0|H0]; [destruct (Z_le_dec (c_hb c) 65535) as [H1|H1]|].
  2,3: unfold wp; destruct (update_next_recv c ev); intros T (_ & K & _); lia.
  unfold update_next_recv. apply wp_get_bind.
  assert (amqp_heartbeat_recv c = 2 * c_hb c) as ->.
  { unfold amqp_heartbeat_recv, signed. rewrite Z.mod_small by lia. destruct (Z.ltb_spec (2 * c_hb c) (M32 / 2)); [reflexivity|]. change (M32 / 2) with M31 in *. lia. }
  apply wp_bind. eapply wp_conseq; [apply nr_s_from_now; lia| |]; cbv beta.
  - intros [r t] c1 ev1 l1 [-> H]. cbn [snd] in H. apply wp_upd_bind, wp_ret. rewrite app_nil_r. intros T Hn Hs. specialize (H T Hn Hs).
    pose proof (near_later T l1 c Hn Hs) as Hn'. destruct t as [t|]; [|exact Hn']. destruct Hn' as (K1 & K2 & K3 & K4).
    split; [exact K1|]. split; [exact K2|]. split; [apply H; reflexivity|exact K4].
  - intros s c' l -> T Hn Hs. apply near_later; assumption.
Qed.
Ltac nr1 :=
  match goal with
  | |- sat_at _ (bind get _) _ => apply sat_get_bind
  | |- sat_at _ (bind _ _) _ => apply (sat_bind R near_comp); [|intros]
  | |- sat_at _ (ret _) _ => apply (sat_ret R near_comp)
  | |- sat_at _ (halt _) _ => apply (sat_halt R near_comp)
  | |- sat_at _ (upd _) _ => apply nr_upd; solve [repeat (match goal with |- context [match ?t with _ => _ end] => destruct t end); first [reflexivity|apply Z.le_refl]]
  | |- sat_at _ (if ?b then _ else _) _ => destruct b
  | |- sat_at _ (match ?x with _ => _ end) _ => destruct x
  | |- sat_at _ (let _ := _ in _) _ => cbv zeta
  | |- sat_at _ (need ?o) _ => unfold need
  | |- sat_at _ (consume_one_frame _) _ => apply nr_consume
  | |- _ => solve [auto with nr]
  end.
Ltac nr := repeat nr1.
Lemma nr_from_now t c : sat_at R (time_from_now t) c.
Proof. apply nr_silent, silent_time_from_now. Qed.
Lemma nr_tv t c : sat_at R (time_tv_until t) c.
Proof. apply nr_silent, silent_time_tv. Qed.
Lemma nr_past t c : sat_at R (time_has_past t) c.
Proof. apply nr_silent, silent_time_past. Qed.
Lemma nr_alloc c : sat_at R sys_alloc c.
Proof. apply nr_same. intros ev. unfold wp, sys_alloc. destruct ev as [|[] ev]; reflexivity. Qed.
Lemma nr_clone c : sat_at R sys_clone c.
Proof. apply nr_same. intros ev. unfold wp, sys_clone. destruct ev as [|[] ev]; reflexivity. Qed.
Lemma nr_close c : sat_at R amqp_socket_close c.
Proof. unfold amqp_socket_close. apply sat_get_bind. destruct (_ =? _); [apply (sat_ret R near_comp)|].
  apply (sat_bind R near_comp); [apply nr_same; intros ev; unfold wp, sys_close; destruct ev as [|[] ev]; reflexivity|intros]. nr. Qed.
Lemma nr_next_send c : sat_at R update_next_send c.
Proof. unfold update_next_send. apply sat_get_bind. apply (sat_bind R near_comp); [apply nr_silent, silent_time_s|]. intros [r t] c1. nr. Qed.
Lemma nr_try_send buf d more c : sat_at R (amqp_try_send N buf d more) c.
Proof. apply nr_same. intros ev. eapply wp_conseq; [apply try_send_ok| |]; cbv beta; intros; tauto. Qed.
Lemma nr_send_header d c : sat_at R (send_header_inner N d) c.
Proof. unfold send_header_inner. apply (sat_bind R near_comp); [apply nr_try_send|intros]. nr. Qed.
Lemma nr_recv fuel t c : sat_at R (recv_with_timeout N fuel t) c.
Proof.
  revert t c. induction fuel as [|fuel IH]; intros t c; cbn [recv_with_timeout]; [apply (sat_halt R near_comp)|].
  apply (nr_after (fun p => zlen (snd p) <= SOCK_BUFFER_SIZE)).
  { intros ev. unfold amqp_socket_recv. apply wp_get_bind. destruct (_ =? _).
    - apply wp_ret. split; [|cbn [snd]; change (zlen (@nil byte)) with 0; unfold SOCK_BUFFER_SIZE; lia]. intros T Hn _. exact Hn.
    - eapply wp_conseq; [apply recv_same; unfold SOCK_BUFFER_SIZE; lia| |]; cbv beta.
      + intros p c' _ l [-> H]. split; [|exact H]. intros T Hn Hs. apply near_later; assumption.
      + intros st c' l -> T Hn Hs. apply near_later; assumption. }
  intros [r bs] c1 Hb. cbn [snd] in Hb. destruct (_ <? _).
  - nr; try apply IH. apply nr_silent, silent_amqp_poll.
  - apply (sat_bind R near_comp); [|intros; apply nr_next_recv]. unfold store_received. apply sat_get_bind. apply (sat_bind R near_comp).
    + destruct (c_sbuf c1); [apply (sat_ret R near_comp)|]. apply sat_note. intros T Hn _. exact Hn.
    + intros. apply sat_upd. intros T (H1 & H2 & H3 & H4) _. split; [exact H1|]. split; [exact H2|]. split; [exact H3|]. cbn [c_sbuf set_sbuf]. unfold SOCK_BUFFER_SIZE in Hb. lia.
Qed.
Hint Resolve nr_from_now nr_tv nr_past nr_alloc nr_clone nr_close nr_next_send nr_next_recv nr_try_send nr_send_header nr_recv : nr.
Lemma nr_create_link f c : sat_at R (create_link f) c.
Proof. unfold create_link. nr. Qed.
Lemma nr_append e c : sat_at R (append_entry e) c.
Proof. unfold append_entry. nr. Qed.
Hint Resolve nr_create_link nr_append : nr.
Lemma nr_drain fuel : forall c, sat_at R (try_recv_drain E fuel) c.
Proof. induction fuel as [|fuel IH]; intros; cbn [try_recv_drain]; nr; apply IH. Qed.
Lemma nr_drain' c : sat_at R (try_recv_drain E N) c.
Proof. apply nr_drain. Qed.
Hint Resolve nr_drain' : nr.
Lemma nr_try_recv c : sat_at R (amqp_try_recv N E) c.
Proof. unfold amqp_try_recv. nr. Qed.
Hint Resolve nr_try_recv : nr.
Lemma nr_send_loop fuel : forall enc more d c, sat_at R (send_frame_loop N E fuel enc more d) c.
Proof. induction fuel as [|fuel IH]; intros; cbn [send_frame_loop]; nr; apply IH. Qed.
Lemma nr_send_frame f more d c : sat_at R (amqp_send_frame_inner N E f more d) c.
Proof.
  unfold amqp_send_frame_inner. apply sat_get_bind. destruct (amqp_frame_to_bytes _ _) as [r b e|] eqn:Hf; [|nr].
  apply (sat_bind R near_comp); [apply nr_upd; try reflexivity; apply Z.le_refl|intros]. destruct (negb _); [nr|apply nr_send_loop].
Qed.
Hint Resolve nr_send_frame : nr.
Lemma nr_send_frame' f c : sat_at R (amqp_send_frame N E f) c.
Proof. apply nr_send_frame. Qed.
Hint Resolve nr_send_frame' : nr.

Lemma nr_release_on ch c : sat_at R (amqp_maybe_release_buffers_on_channel ch) c.
Proof.
  unfold amqp_maybe_release_buffers_on_channel. apply sat_get_bind.
  nr.
Qed.
Lemma nr_release c : sat_at R amqp_release_buffers c.
Proof.
  unfold amqp_release_buffers. apply sat_get_bind.
  nr.
Qed.
Hint Resolve nr_release_on nr_release : nr.
Lemma nr_maybe_release c : sat_at R amqp_maybe_release_buffers c.
Proof. unfold amqp_maybe_release_buffers. nr. Qed.
Hint Resolve nr_maybe_release : nr.

Lemma nr_wait_loop fuel : forall skip d c, sat_at R (wait_frame_loop N E fuel skip d) c.
Proof. induction fuel as [|fuel IH]; intros; cbn [wait_frame_loop]; nr; apply IH. Qed.
Lemma nr_wait d c : sat_at R (wait_frame_inner N E d) c.
Proof. apply nr_wait_loop. Qed.
Hint Resolve nr_wait : nr.
Lemma nr_queue_frame f c : sat_at R (amqp_queue_frame f) c.
Proof. unfold amqp_queue_frame. nr. Qed.
Lemma nr_put_back f c : sat_at R (amqp_put_back_frame f) c.
Proof. unfold amqp_put_back_frame. nr. Qed.
Hint Resolve nr_queue_frame nr_put_back : nr.
Lemma nr_on_channel_loop fuel : forall ch c, sat_at R (wait_on_channel_loop N E fuel ch) c.
Proof. induction fuel as [|fuel IH]; intros; cbn [wait_on_channel_loop]; nr; apply IH. Qed.
Lemma nr_on_channel_loop' ch c : sat_at R (wait_on_channel_loop N E N ch) c.
Proof. apply nr_on_channel_loop. Qed.
Hint Resolve nr_on_channel_loop' : nr.
Lemma nr_on_channel ch c : sat_at R (amqp_simple_wait_frame_on_channel N E ch) c.
Proof. unfold amqp_simple_wait_frame_on_channel. nr. Qed.
Lemma nr_noblock t c : sat_at R (amqp_simple_wait_frame_noblock N E t) c.
Proof. unfold amqp_simple_wait_frame_noblock. nr. Qed.
Hint Resolve nr_on_channel nr_noblock : nr.
Lemma nr_method_list ch ids d c : sat_at R (amqp_simple_wait_method_list N E ch ids d) c.
Proof. unfold amqp_simple_wait_method_list. nr. Qed.
Hint Resolve nr_method_list : nr.
Lemma nr_rpc_wait fuel : forall ch ids d c, sat_at R (rpc_wait N E fuel ch ids d) c.
Proof. induction fuel as [|fuel IH]; intros; cbn [rpc_wait]; nr; apply IH. Qed.
Lemma nr_rpc_wait' ch ids d c : sat_at R (rpc_wait N E N ch ids d) c.
Proof. apply nr_rpc_wait. Qed.
Hint Resolve nr_rpc_wait' : nr.
Lemma nr_send_method ch id m c : sat_at R (amqp_send_method N E ch id m) c.
Proof. apply nr_send_frame. Qed.
Lemma nr_send_method_inner ch id m mo d c : sat_at R (amqp_send_method_inner N E ch id m mo d) c.
Proof. apply nr_send_frame. Qed.
Hint Resolve nr_send_method nr_send_method_inner : nr.
Lemma nr_rpc_inner ch id ids m d c : sat_at R (simple_rpc_inner N E ch id ids m d) c.
Proof. unfold simple_rpc_inner. nr. Qed.
Hint Resolve nr_rpc_inner : nr.
Lemma nr_rpc ch id ids m c : sat_at R (amqp_simple_rpc N E ch id ids m) c.
Proof. unfold amqp_simple_rpc. nr. Qed.
Hint Resolve nr_rpc : nr.
Lemma nr_rpc_decoded ch id r m c : sat_at R (amqp_simple_rpc_decoded N E ch id r m) c.
Proof. unfold amqp_simple_rpc_decoded. nr. Qed.
Hint Resolve nr_rpc_decoded : nr.
Lemma nr_call w ch args c : sat_at R (amqp_call N E w ch args) c.
Proof. unfold amqp_call. destruct (build_request _ _ _); nr. Qed.
Lemma nr_channel_close ch code c : sat_at R (amqp_channel_close N E ch code) c.
Proof. unfold amqp_channel_close. nr. Qed.
Lemma nr_connection_close code c : sat_at R (amqp_connection_close N E code) c.
Proof. unfold amqp_connection_close. nr. Qed.
Lemma nr_get ch q na c : sat_at R (amqp_basic_get N E ch q na) c.
Proof. unfold amqp_basic_get. nr. Qed.
Hint Resolve nr_call nr_channel_close nr_connection_close nr_get : nr.
Lemma nr_publish_body fuel : forall ch b u o c, sat_at R (publish_body N E fuel ch b u o) c.
Proof. induction fuel as [|fuel IH]; intros; cbn [publish_body]; nr; apply IH. Qed.
Lemma nr_publish_body' ch b u o c : sat_at R (publish_body N E N ch b u o) c.
Proof. apply nr_publish_body. Qed.
Hint Resolve nr_publish_body' : nr.
Lemma nr_publish ch x k ma im p b c : sat_at R (amqp_basic_publish N E ch x k ma im p b) c.
Proof. unfold amqp_basic_publish. nr. Qed.
Lemma nr_read_body fuel : forall ch b o c, sat_at R (read_body N E fuel ch b o) c.
Proof. induction fuel as [|fuel IH]; intros; cbn [read_body]; nr; apply IH. Qed.
Lemma nr_read_body' ch b o c : sat_at R (read_body N E N ch b o) c.
Proof. apply nr_read_body. Qed.
Hint Resolve nr_publish nr_read_body' : nr.
Lemma nr_malloc n c : sat_at R (sys_malloc n) c.
Proof. unfold sys_malloc. nr. Qed.
Hint Resolve nr_malloc : nr.
Lemma nr_read ch c : sat_at R (amqp_read_message N E ch) c.
Proof. unfold amqp_read_message. nr. Qed.
Hint Resolve nr_read : nr.
Lemma nr_consume_message t c : sat_at R (amqp_consume_message N E t) c.
Proof. unfold amqp_consume_message. nr. Qed.
Lemma nr_confirm t c : sat_at R (amqp_publisher_confirm_wait N E t) c.
Proof. unfold amqp_publisher_confirm_wait. nr. Qed.
Hint Resolve nr_consume_message nr_confirm : nr.

Theorem nr_exec a c : keeps_limits a -> sat_at R (exec N E a) c.
Proof.
  intros HP. destruct a; cbn [exec keeps_limits] in *; try contradiction; unfold amqp_send_header, amqp_basic_ack, amqp_basic_nack, amqp_basic_reject,
    amqp_simple_wait_method, simple_wait_method_inner; nr.
Qed.
End NearAll.
