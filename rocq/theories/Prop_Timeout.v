(** C61: a timeout bounds how long a call waits for the peer. *)
From Coq Require Import String ZArith List Bool Lia.
From Verif Require Import Base BaseFacts Codec TableModel TableSpec TableDec TableOps FramingStmt FramingGen FramingModel MethodSpec
  Frame FrameSpec Time Sasl Net NetApi NetSpec NetFacts NetSend NetRecv NetWait NetRpc HeartbeatSpec TimeoutSpec NetWatch NetVerdict NetPunctual NetTimeUp NetSlip
  Prop_Heartbeat Prop_Receive Prop_Frame Prop_Rpc Prop_Message Prop_Safe NetWell.
Import ListNotations.
Local Open Scope Z_scope.

Notation init := (OnTime 0 false false).
Lemma start_ok tv c ev : reasonable tv ->
  wp (time_from_now (Some tv)) c ev (fun p c' _ l => c' = c /\ exists t, l = [OClock t] /\ good (t + nanoseconds tv) (crun (t + nanoseconds tv) l init) /\
     fst p <> AMQP_STATUS_TIMEOUT /\ (fst p = AMQP_STATUS_OK -> snd p = Some (t + nanoseconds tv) /\ 0 < t + nanoseconds tv)) (fun _ _ l => l = []).
Proof.
  intros (H1 & H2 & H3). unfold time_from_now. destruct (Z.ltb_spec (tv_sec tv) 0); [lia|]. destruct (Z.ltb_spec (tv_usec tv) 0); [lia|]. cbn [orb].
  apply wp_bind. unfold wp, sys_clock. destruct ev as [|[] ev]; try reflexivity. cbn [ret app]. pose proof (Z.mod_pos_bound now M64 ltac:(lia)) as Hn. fold (u64 now) in Hn. set (t := u64 now) in *. clearbody t.
  split; [reflexivity|]. exists t. split; [reflexivity|]. split.
  { cbn [crun fold_left clock_step]. destruct (Z.ltb_spec t 0); [lia|]. cbn [orb]. destruct (Z.leb_spec (2 ^ 63) t); [exact I|]. unfold good. lia. }
  unfold amqp_time_from_now. destruct (Z.ltb_spec (tv_sec tv) 0); [lia|]. destruct (Z.ltb_spec (tv_usec tv) 0); [lia|]. cbn [orb]. cbv zeta.
  unfold nanoseconds in *. change AMQP_NS_PER_S with 1000000000. change AMQP_NS_PER_US with 1000.
  assert (u64 (u64 (u64 (tv_sec tv) * 1000000000) + u64 (u64 (tv_usec tv) * 1000)) = tv_sec tv * 1000000000 + tv_usec tv * 1000) as ->.
  { unfold u64. rewrite (Z.mod_small (tv_sec tv)) by lia. rewrite (Z.mod_small (tv_usec tv)) by lia. rewrite (Z.mod_small (tv_sec tv * 1000000000)) by lia. rewrite (Z.mod_small (tv_usec tv * 1000)) by lia. apply Z.mod_small. lia. }
  set (ns := tv_sec tv * 1000000000 + tv_usec tv * 1000) in *. assert (0 <= ns) by lia. clearbody ns.
  destruct (Z.eqb_spec t 0); [split; discriminate|]. destruct (Z.lt_ge_cases (t + ns) M64) as [Hlt|Hge].
  - assert (u64 (t + ns) = t + ns) as -> by (unfold u64; apply Z.mod_small; lia). destruct (_ || _); cbn [fst snd]; (split; [discriminate|]); [discriminate|]. intros _. split; [reflexivity|lia].
  - assert (u64 (t + ns) = t + ns - M64) as ->. { unfold u64. rewrite <- (Z.mod_small (t + ns - M64) M64) by lia. replace (t + ns) with (t + ns - M64 + 1 * M64) at 1 by lia. apply Z.mod_add. lia. }
    assert (t + ns - M64 < t) as Hl by lia. apply Z.ltb_lt in Hl. rewrite Hl. cbn [orb fst snd]. split; discriminate.
Qed.
Section With.
Context {A : Type} (tv : timeval) (k : Z * option Z -> M A) (c : conn).
Lemma start_keeps ev : reasonable tv -> (forall T r d, (r = AMQP_STATUS_OK -> d = Some T) -> pu T (k (r, d)) c) ->
  wp (bind (time_from_now (Some tv)) k) c ev (fun _ _ _ l => keeps_timeout tv l /\ l <> []) (fun _ _ l => keeps_timeout tv l).
Proof.
  intros Hr Hk. apply wp_bind. eapply wp_conseq; [apply start_ok, Hr| |]; cbv beta; [|intros s c' l ->; exact I].
  intros [r d] c1 ev1 l1 (-> & t & -> & G & _ & Hd). cbn [fst snd] in Hd.
  eapply wp_conseq; [apply (Hk (t + nanoseconds tv) r d); [intros X; apply Hd, X|exact G]| |]; cbv beta.
  - intros a c2 ev2 l2 G2. rewrite <- crun_app in G2. apply good_late in G2. split; [exact G2|discriminate].
  - intros a c2 l2 G2. rewrite <- crun_app in G2. exact G2.
Qed.
Lemma start_up (Q : A -> conn -> Prop) ev : reasonable tv ->
  (forall T w r d ev1, good T w -> (r = AMQP_STATUS_OK -> d = Some T /\ 0 < T) -> r <> AMQP_STATUS_TIMEOUT -> wp (k (r, d)) c ev1 (fun x c' _ l => Q x c' -> no_bad l -> up T w l) (fun _ _ _ => True)) ->
  wp (bind (time_from_now (Some tv)) k) c ev (fun x c' _ l => Q x c' -> no_bad l -> time_is_up tv l) (fun _ _ _ => True).
Proof.
  intros Hr Hk. apply wp_bind. eapply wp_conseq; [apply start_ok, Hr| |]; cbv beta; [|auto].
  intros [r d] c1 ev1 l1 (-> & t & -> & G & Hne & Hd). cbn [fst snd] in *.
  eapply wp_conseq; [apply (Hk (t + nanoseconds tv) _ r d ev1 G Hd Hne)| |auto]; cbv beta.
  intros a c2 ev2 l2 K X Y. rewrite no_bad_app in Y. specialize (K X (proj2 Y)). unfold time_is_up, clock_run. cbn [app].
  apply up_app in K. destruct K as [K|(l0 & t1 & wr & ms & cl & H1 & H2 & H3)]; [left; exact K|right]. exists l0, t1, wr, ms, cl. auto.
Qed.
End With.

Lemma keeps_calm tv a b : keeps_timeout tv a -> a <> [] -> Forall calm b -> keeps_timeout tv (a ++ b).
Proof.
  intros H Hne Hb. destruct a as [|o a]; [contradiction|]. unfold keeps_timeout in *. cbn [app] in *. destruct o; try exact H. unfold clock_run in *.
  rewrite app_comm_cons, fold_left_app. set (w := fold_left _ _ _) in *. clearbody w. revert w H. induction b as [|o b IH]; intros w H; [exact H|].
  inversion Hb as [|? ? H1 H2]; subst. cbn [fold_left]. apply (IH H2). destruct w; [|exact H|exact H]. destruct o; try contradiction; discriminate.
Qed.
Lemma put_back_calm f c ev : wp (amqp_put_back_frame f) c ev (fun _ _ _ l => Forall calm l) (fun _ _ l => Forall calm l).
Proof.
  unfold amqp_put_back_frame, create_link. apply wp_bind. apply wp_bind. unfold wp at 1, sys_alloc. destruct ev as [|[] ev]; try constructor. wstep. apply wp_ret.
  destruct ok; [wstep|]; apply wp_ret; repeat constructor.
Qed.

(** *** The calls *)
Section Calls.
Context (N : nat) (E : nat -> aenv).
Lemma noblock_keeps tv c ev : reasonable tv -> wp (amqp_simple_wait_frame_noblock N E (Some tv)) c ev (fun _ _ _ l => keeps_timeout tv l /\ l <> []) (fun _ _ l => keeps_timeout tv l).
Proof.
  intros Hr. unfold amqp_simple_wait_frame_noblock. apply start_keeps; [exact Hr|]. intros T r d Hd. destruct d as [d|]; [|apply pu_ret]. destruct (Z.eqb_spec r AMQP_STATUS_OK) as [->|]; cbn [negb]; [|apply pu_ret].
  specialize (Hd eq_refl). injection Hd as ->. apply pu_get_bind. destruct (c_queue c); [apply pu_wait_loop, Z.le_refl|]. destruct (negb _); [apply pu_halt|apply pu_bind; [apply pu_upd|intros; apply pu_ret]].
Qed.
Lemma noblock_up tv c ev : reasonable tv -> wp (amqp_simple_wait_frame_noblock N E (Some tv)) c ev (fun p _ _ l => fst p = AMQP_STATUS_TIMEOUT -> no_bad l -> time_is_up tv l) (fun _ _ _ => True).
Proof.
  intros Hr. unfold amqp_simple_wait_frame_noblock. apply (start_up tv _ c (fun p _ => fst p = AMQP_STATUS_TIMEOUT)); [exact Hr|]. intros T w r d ev1 G Hd Hne. destruct d as [d|]; [|apply wp_ret; intros X; contradiction].
  destruct (Z.eqb_spec r AMQP_STATUS_OK) as [->|]; cbn [negb]; [|apply wp_ret; intros X; contradiction].
  destruct (Hd eq_refl) as [Hd1 HT]. injection Hd1 as ->. wstep. destruct (c_queue c); [|destruct (negb _); [apply wp_halt; exact I|wstep; apply wp_ret; discriminate]].
  eapply wp_conseq; [apply (wait_time_up N E T HT T (or_introl eq_refl) N false c w ev1 (fun _ => G))| |auto]; cbv beta. intros p c' ev' l [_ V] X Y. apply V; assumption.
Qed.
Lemma rpc_keeps tv ch id ids m c ev : amqp_get_rpc_timeout (c_to c) = Some tv -> reasonable tv ->
  wp (amqp_simple_rpc N E ch id ids m) c ev (fun _ _ _ l => keeps_timeout tv l) (fun _ _ l => keeps_timeout tv l).
Proof.
  intros Ht Hr. unfold amqp_simple_rpc. wstep. rewrite Ht. eapply wp_conseq; [apply start_keeps; [exact Hr|]|intros ? ? ? ? X; apply X|auto]. intros T r d Hd. destruct d as [d|]; [|apply pu_ret]. destruct (Z.eqb_spec r AMQP_STATUS_OK) as [->|]; cbn [negb]; [|apply pu_ret].
  specialize (Hd eq_refl). injection Hd as ->. apply pu_rpc_inner, Z.le_refl.
Qed.
Lemma rpc_up tv ch id ids m c ev : amqp_get_rpc_timeout (c_to c) = Some tv -> reasonable tv -> zlen (c_outbuf c) < M31 ->
  wp (amqp_simple_rpc N E ch id ids m) c ev (fun r _ _ l => r = RLibrary AMQP_STATUS_TIMEOUT -> no_bad l -> time_is_up tv l) (fun _ _ _ => True).
Proof.
  intros Ht Hr Hb. unfold amqp_simple_rpc. wstep. rewrite Ht. apply (start_up tv _ c (fun r _ => r = RLibrary AMQP_STATUS_TIMEOUT)); [exact Hr|]. intros T w r d ev1 G Hd Hne. destruct d as [d|]; [|apply wp_ret; intros X; congruence].
  destruct (Z.eqb_spec r AMQP_STATUS_OK) as [->|]; cbn [negb]; [|apply wp_ret; intros X; congruence].
  destruct (Hd eq_refl) as [Hd1 HT]. injection Hd1 as ->. apply rpc_inner_time_up; assumption.
Qed.
End Calls.

(** No call waits for the peer past its timeout: amqp_simple_wait_frame_noblock,
    amqp_publisher_confirm_wait, and all synchronous calls with amqp_set_rpc_timeout.
    Missing: amqp_consume_message (see [C61_consume_partial]). *)
Theorem C61_keeps_timeout_partial N E a c tv ev :
  (forall t, a <> ConsumeMessage t) -> timeout_of c a = Some tv -> reasonable tv -> keeps_timeout tv (log_of (exec N E a c ev)).
Proof.
  intros Hnc Ht Hr.
  assert (wp (exec N E a) c ev (fun _ _ _ l => keeps_timeout tv l) (fun _ _ l => keeps_timeout tv l)) as W; [|unfold wp in W; destruct (exec N E a c ev); exact W].
  assert (forall (A B : Type) (m : M A) (f : A -> B), wp m c ev (fun _ _ _ l => keeps_timeout tv l) (fun _ _ l => keeps_timeout tv l) -> wp (bind m (fun x => ret (f x))) c ev (fun _ _ _ l => keeps_timeout tv l) (fun _ _ l => keeps_timeout tv l)) as J.
  { intros A B m f H. apply wp_bind. eapply wp_conseq; [exact H| |auto]; cbv beta. intros. apply wp_ret. rewrite app_nil_r. assumption. }
  assert (forall (A : Type) (m : M A) f, wp m c ev (fun _ _ _ l => keeps_timeout tv l) (fun _ _ l => keeps_timeout tv l) -> forall (B : Type) (g : A -> B), wp (bind m (fun x => bind (upd (f x)) (fun _ => ret (g x)))) c ev (fun _ _ _ l => keeps_timeout tv l) (fun _ _ l => keeps_timeout tv l)) as J2.
  { intros A m f H B g. apply wp_bind. eapply wp_conseq; [exact H| |auto]; cbv beta. intros. wstep. apply wp_ret. rewrite app_nil_r. assumption. }
  destruct a; cbn [timeout_of exec] in *; try discriminate.
  - subst timeout. apply wp_bind. eapply wp_conseq; [apply noblock_keeps, Hr| |auto]; cbv beta. intros [r f] c1 ev1 l1 [K _]. apply wp_ret. rewrite app_nil_r. exact K.
  - apply J. apply rpc_keeps; assumption.
  - apply J. unfold amqp_call. destruct (build_request _ _ _); [|apply wp_halt; exact I]. unfold amqp_simple_rpc_decoded. apply J2. apply rpc_keeps; assumption.
  - apply J. unfold amqp_channel_close. destruct (_ || _); [apply wp_ret; exact I|]. apply rpc_keeps; assumption.
  - apply J. unfold amqp_connection_close. destruct (_ || _); [apply wp_ret; exact I|]. apply rpc_keeps; assumption.
  - apply J. unfold amqp_basic_get. apply J2. apply rpc_keeps; assumption.
  - exfalso. apply (Hnc timeout). reflexivity.
  - subst timeout. apply wp_bind. unfold amqp_publisher_confirm_wait. apply wp_bind. eapply wp_conseq; [apply noblock_keeps, Hr| |auto]; cbv beta. intros [r f] c1 ev1 l1 [K Hne].
    assert (forall x, wp (ret x) c1 ev1 (fun (a : rpc_reply_t * option (Z * Z * mstruct)) c' ev' l => wp ((fun p => let '(r0, k) := p in ret (OutConfirm r0 k)) a) c' ev' (fun _ _ _ l' => keeps_timeout tv ((l1 ++ l) ++ l')) (fun _ _ l' => keeps_timeout tv ((l1 ++ l) ++ l'))) (fun _ _ l => keeps_timeout tv (l1 ++ l))) as Q.
    { intros [x y]. apply wp_ret. apply wp_ret. rewrite !app_nil_r. exact K. }
    assert (forall x, wp (amqp_put_back_frame f;; ret x) c1 ev1 (fun (a : rpc_reply_t * option (Z * Z * mstruct)) c' ev' l => wp ((fun p => let '(r0, k) := p in ret (OutConfirm r0 k)) a) c' ev' (fun _ _ _ l' => keeps_timeout tv ((l1 ++ l) ++ l')) (fun _ _ l' => keeps_timeout tv ((l1 ++ l) ++ l'))) (fun _ _ l => keeps_timeout tv (l1 ++ l))) as Q2.
    { intros [x y]. apply wp_bind. eapply wp_conseq; [apply put_back_calm| |]; cbv beta; intros; [apply wp_ret; apply wp_ret; rewrite !app_nil_r|]; apply keeps_calm; assumption. }
    destruct (negb _); [apply Q|]. destruct (if _ =? _ then _ else _) as [[i m]|]; [|apply Q2]. destruct (_ || _); [apply Q|apply Q2].
Qed.
(** Until a delivery has begun, amqp_consume_message keeps its timeout too. *)
Definition a_delivery (f : frame) : Prop := exists m, f_type f = AMQP_FRAME_METHOD /\ f_pay f = PMethod BASIC_DELIVER m.
Definition no_poll (o : obs) : Prop := match o with OPoll _ _ _ => False | _ => True end.
Theorem C61_consume_partial N E c tv ev : reasonable tv ->
  match amqp_simple_wait_frame_noblock N E (Some tv) c ev with
  | Done (status, f) _ _ l => keeps_timeout tv l /\
      exists rest, log_of (exec N E (ConsumeMessage (Some tv)) c ev) = l ++ rest /\ (status <> AMQP_STATUS_OK \/ ~ a_delivery f -> Forall no_poll rest)
  | Halt _ _ l => keeps_timeout tv l /\ log_of (exec N E (ConsumeMessage (Some tv)) c ev) = l
  end.
Proof.
  intros Hr. pose proof (noblock_keeps N E tv c ev Hr) as K. unfold wp in K. cbn [exec]. unfold amqp_consume_message.
  match goal with |- context [log_of (bind (bind _ ?k) ?k2 c ev)] => set (f1 := k); set (f2 := k2) end.
  unfold bind. destruct (amqp_simple_wait_frame_noblock N E (Some tv) c ev) as [[st f] c1 ev1 l|s c1 l]; [|split; [exact K|reflexivity]].
  split; [apply K|].
  assert (st <> AMQP_STATUS_OK \/ ~ a_delivery f -> wp (f1 (st, f)) c1 ev1 (fun _ _ _ l => Forall no_poll l) (fun _ _ l => Forall no_poll l)) as W.
  { intros X. unfold f1. destruct (Z.eqb_spec st AMQP_STATUS_OK) as [->|]; cbn [negb]; [|apply wp_ret; constructor].
    assert (wp (amqp_put_back_frame f;; ret (RLibrary AMQP_STATUS_UNEXPECTED_STATE, @None envelope)) c1 ev1 (fun _ _ _ l => Forall no_poll l) (fun _ _ l => Forall no_poll l)) as Q.
    { assert (forall l, Forall calm l -> Forall no_poll l) as CN by (intros l0; apply Forall_impl; intros []; cbn; tauto).
      apply wp_bind. eapply wp_conseq; [apply put_back_calm| |]; cbv beta; intros; [apply wp_ret; rewrite app_nil_r|]; apply CN; assumption. }
    destruct (Z.eqb_spec (f_type f) AMQP_FRAME_METHOD); [|exact Q]. unfold method_of. destruct (f_pay f) as [|id m| | |] eqn:Hp; try exact Q.
    destruct (Z.eqb_spec id BASIC_DELIVER) as [->|]; [|exact Q]. destruct X as [X|X]; [contradiction|]. exfalso. apply X. exists m. auto. }
  unfold wp in W. destruct (f1 (st, f) c1 ev1) as [[r e] c2 ev2 l2|s c2 l2].
  - unfold f2. cbn [ret log_of]. exists l2. rewrite app_nil_r. split; [reflexivity|exact W].
  - exists l2. split; [reflexivity|exact W].
Qed.
(** amqp_login and amqp_login_with_properties compute their deadline again from the time
    that is left: they keep their timeout (amqp_set_handshake_timeout) up to the time that
    passes between two readings of the clock. *)
Theorem C61_login_partial N E platform vhost channel_max frame_max heartbeat properties cred c tv slip ev :
  amqp_get_handshake_timeout (c_to c) = Some tv -> 0 <= tv_sec tv -> 0 <= tv_usec tv -> 0 <= slip -> nanoseconds tv + slip <= 2147483647 * 1000000 ->
  keeps_timeout_within tv slip (log_of (exec N E (Login platform vhost channel_max frame_max heartbeat properties cred) c ev)).
Proof.
  intros Ht H1 H2 Hs Hn. assert (reasonable tv) as Hr by (unfold reasonable; lia).
  assert (wp (exec N E (Login platform vhost channel_max frame_max heartbeat properties cred)) c ev (fun _ _ _ l => keeps_timeout_within tv slip l) (fun _ _ l => keeps_timeout_within tv slip l)) as W; [|unfold wp in W; destruct (exec _ _ _ c ev); exact W].
  cbn [exec]. apply wp_bind. apply (wp_conseq _ _ _ (fun _ _ _ l => keeps_timeout_within tv slip l) _ (fun _ _ l => keeps_timeout_within tv slip l) _); cbv beta; [|intros; apply wp_ret; rewrite app_nil_r; assumption|auto].
  unfold amqp_login_with_properties. wstep. rewrite login_split. do 3 (match goal with |- context [if ?b then _ else _] => destruct b; [apply wp_ret; exact I|] end). rewrite Ht.
  apply wp_bind. eapply wp_conseq; [apply start_ok, Hr| |]; cbv beta; [|intros s c' l ->; exact I].
  intros [r d] c1 ev1 l1 (-> & t & -> & G & _ & Hd). cbn [fst snd] in Hd. set (T := t + nanoseconds tv + slip).
  assert (forall l, hiccup slip l \/ crun T l (crun T [OClock t] init) <> Overslept -> keeps_timeout_within tv slip ([OClock t] ++ l)) as K.
  { intros l [H|H]; cbn [app]; [right; apply (hiccup_r slip [OClock t]), H|left; exact H]. }
  assert (0 <= t \/ crun T [OClock t] init = Forgiven) as [H0|HF]; [cbn [crun fold_left clock_step]; destruct (Z.ltb_spec t 0); auto| |].
  2:{ unfold wp. destruct (login_rest _ _ _ _ _ _ _ _ _ _ _ _); apply K; right; rewrite HF, forgiven; discriminate. }
  destruct (Z.lt_ge_cases t (2 ^ 63)) as [Hlt|Hge].
  2:{ unfold wp. destruct (login_rest _ _ _ _ _ _ _ _ _ _ _ _); apply K; right; cbn [crun fold_left clock_step]; destruct (_ <? _); cbn [orb]; (destruct (Z.leb_spec (2 ^ 63) t); [|lia]); fold (crun T l); rewrite forgiven; discriminate. }
  assert (good T (crun T [OClock t] init)) as G'.
  { cbn [crun fold_left clock_step]. destruct (Z.ltb_spec t 0); [lia|]. destruct (Z.leb_spec (2 ^ 63) t); [lia|]. cbn [orb good]. unfold T. lia. }
  eapply wp_conseq; [apply (pg_login N E T slip Hs _ _ _ _ _ _ _ r d c)| |]; cbv beta.
  - intros X. destruct (Hd X) as [-> X2]. eexists. split; [reflexivity|]. unfold reasonable in Hr. unfold UINT64_MAX, T. lia.
  - exact G'.
  - intros a c2 ev2 l2 [H|H]; apply K; [left; exact H|right; apply (good_late T), H].
  - intros a c2 l2 H. apply K, H.
Qed.
(** amqp_login is amqp_login_with_properties without properties (the empty table): the
    theorems about [Login] are about both. *)
Theorem C46_plain_login N E platform vhost channel_max frame_max heartbeat cred c ev :
  amqp_login N E platform vhost channel_max frame_max heartbeat cred c ev =
  amqp_login_with_properties N E platform vhost channel_max frame_max heartbeat (Some []) cred c ev.
Proof. reflexivity. Qed.
Theorem C61_plain_login_partial N E platform vhost channel_max frame_max heartbeat cred c tv slip ev :
  amqp_get_handshake_timeout (c_to c) = Some tv -> 0 <= tv_sec tv -> 0 <= tv_usec tv -> 0 <= slip -> nanoseconds tv + slip <= 2147483647 * 1000000 ->
  keeps_timeout_within tv slip (log_of (amqp_login N E platform vhost channel_max frame_max heartbeat cred c ev)).
Proof.
  intros Ht H1 H2 Hs Hn. pose proof (C61_login_partial N E platform vhost channel_max frame_max heartbeat (Some []) cred c tv slip ev Ht H1 H2 Hs Hn) as K.
  rewrite C46_plain_login. cbn [exec] in K. unfold bind at 1 in K. destruct (amqp_login_with_properties _ _ _ _ _ _ _ _ _ _ _); [|exact K]. unfold ret in K. cbn [log_of] in *. rewrite app_nil_r in K. exact K.
Qed.
(** If a call with a timeout reports AMQP_STATUS_TIMEOUT, its time is up.
    [no_bad]: nothing received was refused as malformed. *)
Theorem C61_timeout_when_due N E a c tv ev :
  timeout_of c a = Some tv -> reasonable tv -> zlen (c_outbuf c) < M31 ->
  match exec N E a c ev with
  | Done o c' _ l => reports_timeout o c' -> no_bad l -> time_is_up tv l
  | Halt _ _ _ => True
  end.
Proof.
  intros Ht Hr Hb.
  assert (wp (exec N E a) c ev (fun o c' _ l => reports_timeout o c' -> no_bad l -> time_is_up tv l) (fun _ _ _ => True)) as W; [|unfold wp in W; destruct (exec N E a c ev); exact W].
  assert (forall ch id ids m, amqp_get_rpc_timeout (c_to c) = Some tv -> wp (bind (amqp_simple_rpc N E ch id ids m) (fun r => ret (OutReply r))) c ev (fun o c' _ l => reports_timeout o c' -> no_bad l -> time_is_up tv l) (fun _ _ _ => True)) as J.
  { intros ch id ids m Hto. apply wp_bind. eapply wp_conseq; [apply (rpc_up N E tv ch id ids m c ev Hto Hr Hb)| |auto]; cbv beta. intros r c1 ev1 l1 K. apply wp_ret. rewrite app_nil_r. exact K. }
  destruct a; cbn [timeout_of exec] in *; try discriminate.
  - subst timeout. apply wp_bind. eapply wp_conseq; [apply noblock_up, Hr| |auto]; cbv beta. intros [r f] c1 ev1 l1 K. apply wp_ret. rewrite app_nil_r. exact K.
  - apply J, Ht.
  - apply wp_bind. unfold amqp_call. destruct (build_request _ _ _); [|apply wp_halt; exact I]. unfold amqp_simple_rpc_decoded. apply wp_bind. eapply wp_conseq; [apply (rpc_up N E tv _ _ _ _ c ev Ht Hr Hb)| |auto]; cbv beta.
    intros r c1 ev1 l1 K. wstep. apply wp_ret. apply wp_ret. cbn [app]. rewrite !app_nil_r. destruct r; cbn [reports_timeout c_recent set_recent]; first [discriminate|contradiction|exact K].
  - unfold amqp_channel_close. destruct (_ || _); [apply wp_bind; apply wp_ret; apply wp_ret; discriminate|apply J, Ht].
  - unfold amqp_connection_close. destruct (_ || _); [apply wp_bind; apply wp_ret; apply wp_ret; discriminate|apply J, Ht].
  - apply wp_bind. unfold amqp_basic_get. apply wp_bind. eapply wp_conseq; [apply (rpc_up N E tv _ _ _ _ c ev Ht Hr Hb)| |auto]; cbv beta.
    intros r c1 ev1 l1 K. wstep. apply wp_ret. apply wp_ret. cbn [app]. rewrite !app_nil_r. exact K.
  - subst timeout. apply wp_bind. unfold amqp_consume_message. apply wp_bind. eapply wp_conseq; [apply noblock_up, Hr| |auto]; cbv beta. intros [r f] c1 ev1 l1 K. cbn [fst] in K.
    destruct (Z.eqb_spec r AMQP_STATUS_OK) as [->|]; cbn [negb]; [|apply wp_ret; apply wp_ret; rewrite !app_nil_r; intros X; apply K; cbn [reports_timeout] in X; congruence].
    assert (forall x, wp (amqp_put_back_frame f;; ret (RLibrary AMQP_STATUS_UNEXPECTED_STATE, x)) c1 ev1 (fun (a : rpc_reply_t * option envelope) c' ev' l => wp ((fun p => let '(r0, k) := p in ret (OutEnvelope r0 k)) a) c' ev' (fun o c' _ l' => reports_timeout o c' -> no_bad ((l1 ++ l) ++ l') -> time_is_up tv ((l1 ++ l) ++ l')) (fun _ _ l' => True)) (fun _ _ l => True)) as Q2.
    { intros x. apply wp_bind. unfold wp at 1. destruct (amqp_put_back_frame f c1 ev1); [apply wp_ret; apply wp_ret; discriminate|exact I]. }
    destruct (if _ =? _ then _ else _) as [[i m]|]; [|apply Q2]. destruct (_ =? _); [|apply Q2].
    do 5 (apply wp_bind; unfold need at 1; match goal with |- context [match ?x with Some _ => _ | None => _ end] => destruct x; [apply wp_ret|apply wp_halt; exact I] end).
    apply wp_bind. unfold wp at 1. destruct (sys_alloc c1 ev1) as [ok cA evA lA|]; [|exact I]. destruct (negb ok); [apply wp_ret; apply wp_ret; discriminate|].
    apply wp_bind. eapply wp_conseq; [apply read_forever| |auto]; cbv beta. intros [r2 msg] cB evB lB V. apply wp_ret. apply wp_ret. cbn [fst] in V. cbn [reports_timeout]. intros -> Y. exfalso. apply (V eq_refl). rewrite !no_bad_app in Y. cbn [app] in Y. rewrite ?no_bad_app in Y. tauto.
  - subst timeout. apply wp_bind. unfold amqp_publisher_confirm_wait. apply wp_bind. eapply wp_conseq; [apply noblock_up, Hr| |auto]; cbv beta. intros [r f] c1 ev1 l1 K. cbn [fst] in K.
    destruct (Z.eqb_spec r AMQP_STATUS_OK) as [->|]; cbn [negb]; [|apply wp_ret; apply wp_ret; rewrite !app_nil_r; intros X; apply K; cbn [reports_timeout] in X; congruence].
    assert (forall x, wp (amqp_put_back_frame f;; ret (RLibrary AMQP_STATUS_UNEXPECTED_STATE, x)) c1 ev1 (fun (a : rpc_reply_t * option (Z * Z * mstruct)) c' ev' l => wp ((fun p => let '(r0, k) := p in ret (OutConfirm r0 k)) a) c' ev' (fun o c' _ l' => reports_timeout o c' -> no_bad ((l1 ++ l) ++ l') -> time_is_up tv ((l1 ++ l) ++ l')) (fun _ _ l' => True)) (fun _ _ l => True)) as Q2.
    { intros x. apply wp_bind. unfold wp at 1. destruct (amqp_put_back_frame f c1 ev1); [apply wp_ret; apply wp_ret; discriminate|exact I]. }
    destruct (if _ =? _ then _ else _) as [[i m]|]; [|apply Q2]. destruct (_ || _); [apply wp_ret; apply wp_ret; discriminate|apply Q2].
Qed.

(** *** The full claim is false *)
(** amqp_consume_message waits without any limit for the content of a delivery
    (amqp_consumer.c:146 passes no timeout to amqp_read_message): *)
Theorem C61_consume_refuted :
  exists (c : conn) (ev : list event), reasonable (mkTv 1 0) /\
    match exec 100 plain_env (ConsumeMessage (Some (mkTv 1 0))) c ev with
    | Done _ _ _ l => ~ keeps_timeout (mkTv 1 0) l /\ In (OPoll false (-1) PReady) l
    | Halt _ _ _ => False
    end.
Proof.
  exists ready, [EvClock 1000000000; EvRecv (ROk (ser [(2, sample_deliver)])); EvAlloc true; EvRecv RAgain; EvPoll PReady; EvRecv RErr].
  split; [unfold reasonable, nanoseconds; cbn; lia|]. vm_compute. split; [intros H; apply H; reflexivity|]. repeat (first [left; reflexivity|right]).
Qed.
(** A synchronous call waits without any limit for room to send its request
    (amqp_socket.c:1023 sends without the deadline): *)
Definition with_rpc_timeout (c : conn) (tv : timeval) : conn := set_to c (snd (amqp_set_rpc_timeout (c_to c) (Some tv))).
Definition unbind (c : conn) (ev : list event) :=
  exec 100 plain_env (Rpc 2 (method_id 50 30) [method_id 50 21] [("ticket", VInt 0); ("queue", VBytes [x71]); ("nowait", VBool 0)]%string) c ev.
Theorem C61_request_refuted :
  exists (ev : list event),
    match unbind (with_rpc_timeout ready (mkTv 1 0)) ev with
    | Done o c' _ l => o = OutReply (RLibrary AMQP_STATUS_SOCKET_ERROR) /\ In (OPoll true (-1) PErr) l
    | Halt _ _ _ => False
    end.
Proof.
  exists [EvClock 1000000000; EvSend SAgain; EvPoll PErr]. vm_compute. split; [reflexivity|]. repeat (first [left; reflexivity|right]).
Qed.
(** As long as data keeps arriving, a synchronous call goes on after its deadline
    and may succeed (here ten seconds after the start, with a timeout of one): *)
Theorem C61_late_reply_refuted :
  exists (ev : list event),
    match unbind (with_rpc_timeout beating (mkTv 1 0)) ev with
    | Done o c' _ l => o = OutReply (RNormal (method_id 50 21) []) /\ nth_error l 0 = Some (OClock 900000000) /\ In (OClock 10900000000) l
    | Halt _ _ _ => False
    end.
Proof.
  exists [EvClock 900000000; EvSend (SOk 100); EvClock 900000001; EvClock 900000002; EvRecv (ROk heartbeat_wire); EvClock 10900000000; EvClock 10900000001; EvSend (SOk 8); EvClock 10900000002; EvRecv (ROk bind_ok_2); EvClock 10900000003].
  vm_compute. split; [reflexivity|]. split; [reflexivity|]. repeat (first [left; reflexivity|right]).
Qed.

(** amqp_login (amqp_socket.c:934-960 turns the deadline into a timeout and back): if the
    process stands still in between, it waits past its deadline by as much *)
Definition first_login (ev : list event) :=
  exec 100 plain_env (Login "Linux" [x2f] 0 131072 0 (Some []) (Plain [x67] [x67])) (set_to (new_connection 5) (snd (amqp_set_handshake_timeout new_timeouts (Some (mkTv 1 0))))) ev.
Theorem C61_login_refuted :
  exists (ev : list event),
    match first_login ev with
    | Done o c' _ l => o = OutReply (RLibrary AMQP_STATUS_TIMEOUT) /\ nth_error l 0 = Some (OClock 1000000000) /\ In (OPoll false 900 PTimeout) l /\ In (OClock 60000000000) l /\ ~ keeps_timeout (mkTv 1 0) l
    | Halt _ _ _ => False
    end.
Proof.
  exists [EvClock 1000000000; EvSend (SOk 8); EvClock 1100000000; EvClock 60000000000; EvRecv RAgain; EvClock 60000000000; EvPoll PTimeout; EvClose true].
  vm_compute. split; [reflexivity|]. split; [reflexivity|]. do 2 (split; [repeat (first [left; reflexivity|right])|]). intros H; apply H; reflexivity.
Qed.

(** *** Cases *)
(** the server does not answer the protocol header *)
Example C61_case_login :
  match first_login [EvClock 1000000000; EvSend SAgain; EvClock 1000000005; EvPoll PReady; EvSend (SOk 8); EvClock 1100000000; EvClock 1100000010; EvRecv RAgain; EvClock 1100000020; EvPoll PTimeout; EvClose true] with
  | Done o c' rest l => rest = [] /\ o = OutReply (RLibrary AMQP_STATUS_TIMEOUT) /\ keeps_timeout_within (mkTv 1 0) 10 l /\
      In (OPoll false 899 PTimeout) l /\ clock_run (2000000000 + 10) l <> Forgiven
  | Halt _ _ _ => False
  end.
Proof.
  vm_compute. split; [reflexivity|]. split; [reflexivity|]. split; [left; discriminate|]. split; [repeat (first [left; reflexivity|right])|discriminate].
Qed.
(** the reply does not come: the call waits for exactly its timeout, and the socket is
    closed *)
Example C61_case_rpc :
  let c := with_rpc_timeout ready (mkTv 1 500000) in
  timeout_of c (Rpc 2 (method_id 50 30) [method_id 50 21] []) = Some (mkTv 1 500000) /\ reasonable (mkTv 1 500000) /\ zlen (c_outbuf c) < M31 /\
  match unbind c [EvClock 1000000000; EvSend (SOk 100); EvRecv RAgain; EvClock 1000000000; EvPoll PIntr; EvClock 1700000000; EvPoll PTimeout; EvClose true] with
  | Done o c' rest l =>
      reports_timeout o c' /\ no_bad l /\ rest = [] /\ c_fd c' = -1 /\ keeps_timeout (mkTv 1 500000) l /\
      clock_run (1000000000 + nanoseconds (mkTv 1 500000)) l <> Forgiven /\
      filter (fun o => match o with OPoll _ _ _ => true | _ => false end) l = [OPoll false 1500 PIntr; OPoll false 800 PTimeout]
  | Halt _ _ _ => False
  end.
Proof. cbv zeta. split; [reflexivity|]. split; [unfold reasonable, nanoseconds; cbn; lia|]. vm_compute. repeat split; try discriminate; repeat constructor. Qed.
Example C61_case_wait :
  reasonable (mkTv 0 10) /\
  match exec 100 plain_env (WaitFrame (Some (mkTv 0 10))) ready [EvClock 1000000000; EvRecv RAgain; EvClock 1000000001; EvPoll PTimeout] with
  | Done o c' rest l => reports_timeout o c' /\ no_bad l /\ time_is_up (mkTv 0 10) l /\ l = [OClock 1000000000; OClock 1000000001; OPoll false 0 PTimeout]
  | Halt _ _ _ => False
  end.
Proof.
  split; [unfold reasonable, nanoseconds; cbn; lia|].
  assert (time_is_up (mkTv 0 10) [OClock 1000000000; OClock 1000000001; OPoll false 0 PTimeout]) as T.
  { right. exists [OClock 1000000000], 1000000001, false, 0, []. split; [reflexivity|]. split; [unfold nanoseconds; cbn [tv_sec tv_usec]; lia|constructor]. }
  vm_compute in T. vm_compute. split; [reflexivity|]. split; [repeat constructor|]. split; [exact T|reflexivity].
Qed.
(** logs that do not keep a timeout *)
Example C61_long_log : ~ keeps_timeout (mkTv 1 0) [OClock 1000000000; OClock 1000000001; OPoll false 1000 PReady].
Proof. intros H. apply H. reflexivity. Qed.
Example C61_stale_log : ~ keeps_timeout (mkTv 1 0) [OClock 1000000000; OPoll false 500 PReady; OPoll false 500 PReady].
Proof. intros H. apply H. reflexivity. Qed.
Print Assumptions C61_keeps_timeout_partial.
Print Assumptions C61_consume_partial.
Print Assumptions C61_timeout_when_due.
Print Assumptions C61_consume_refuted.
Print Assumptions C61_request_refuted.
Print Assumptions C61_late_reply_refuted.
Print Assumptions C61_login_partial.
Print Assumptions C61_login_refuted.
Print Assumptions C46_plain_login.
Print Assumptions C61_plain_login_partial.
