(** C75: what is sent is not held back. *)
From Coq Require Import String ZArith List Bool Lia.
From Verif Require Import Base BaseFacts Codec TableModel TableSpec TableOps FramingStmt FramingGen FramingModel MethodSpec
  Frame FrameSpec Time Sasl Net NetApi NetSpec NetFacts NetSend NetRoom NetWalk NetOrder NetTyped NetWire PushSpec NetPush
  Prop_Frame Prop_Send Prop_Safe Prop_Publish.
Import ListNotations.
Local Open Scope Z_scope.

(** ** Proofs *)
Lemma flagged_app b l1 l2 : all_flagged b (l1 ++ l2) <-> all_flagged b l1 /\ all_flagged b l2.
Proof. apply Forall_app. Qed.
Lemma pushed_flagged l : all_flagged false l -> out_bytes l <> [] -> pushed l.
Proof.
  induction l as [|o l IH] using rev_ind; intros Hf Hn; [contradiction Hn; reflexivity|]. apply flagged_app in Hf. destruct Hf as [Hf Ho].
  destruct (list_eq_dec Byte.byte_eq_dec (out_bytes [o]) []) as [He|He].
  - rewrite out_bytes_app, He, app_nil_r in Hn. destruct (IH Hf Hn) as (l1 & bs & l2 & -> & H1 & H2). exists l1, bs, (l2 ++ [o]).
    split; [rewrite <- app_assoc; reflexivity|]. split; [exact H1|]. rewrite out_bytes_app, H2, He. reflexivity.
  - destruct o; try (contradiction He; reflexivity). apply Forall_inv in Ho. subst more. exists l, bs, []. split; [reflexivity|]. split; [|reflexivity].
    cbn in He. rewrite app_nil_r in He. exact He.
Qed.
Lemma pushed_app l1 l2 : pushed l2 -> pushed (l1 ++ l2).
Proof. intros (a & bs & b & -> & H). exists (l1 ++ a), bs, b. rewrite <- app_assoc. auto. Qed.
Section Push.
Context (N : nat) (E : nat -> aenv).
Lemma ser_frame_pos ch a : ser_frame ch a <> [].
Proof.
  clear N E. intros K. assert (zlen (ser_frame ch a) = 0) as H by (rewrite K; reflexivity). unfold ser_frame in H. rewrite FrameFacts.zlen_wire in H.
  match type of H with ?x + _ = 0 => assert (0 <= x) by apply zlen_nonneg end. lia.
Qed.
(** a frame that was sent without the flag *)
Lemma frame_pushed ch a c ev : aframe_ok a -> 20 <= zlen (c_outbuf c) < M31 -> (forall b, a = ABody b -> zlen b + 8 <= zlen (c_outbuf c)) ->
  wp (amqp_send_frame_inner N E (c_frame ch a) false amqp_time_infinite) c ev (fun r c' _ l => r <= 0 /\ room c c' l /\ (r = AMQP_STATUS_OK -> pushed l)) (fun _ _ _ => True).
Proof.
  intros H1 H2 H3. eapply wp_conseq; [apply (wp_split _ _ _ _ _ _ _ (sends_frame N E ch a false c H1 H2 H3 ev) (fp_send_frame N E false (c_frame ch a) amqp_time_infinite c ev))| |auto]; cbv beta.
  intros r c' ev' l [((A1 & _ & A2 & A3) & _) B]. split; [exact A1|]. split; [exact A3|]. intros Hr. apply pushed_flagged; [exact B|]. rewrite (A2 Hr). apply ser_frame_pos.
Qed.
(** any frame of the message *)
Lemma frame_room ch a more c ev : aframe_ok a -> 20 <= zlen (c_outbuf c) < M31 -> (forall b, a = ABody b -> zlen b + 8 <= zlen (c_outbuf c)) ->
  wp (amqp_send_frame_inner N E (c_frame ch a) more amqp_time_infinite) c ev (fun r c' _ l => r <= 0 /\ room c c' l) (fun _ _ _ => True).
Proof.
  intros H1 H2 H3. eapply wp_conseq; [apply (sends_frame N E ch a more c H1 H2 H3 ev)| |auto]; cbv beta. intros r c' ev' l ((A1 & _ & A2 & A3) & _). auto.
Qed.
Lemma body_pushed ch body u : 12 <= u -> zlen body < M63 -> forall fuel off c ev, u + 8 <= zlen (c_outbuf c) < M31 -> 0 <= off < zlen body -> (zlen body - off) mod u <> 0 ->
  wp (publish_body N E fuel ch body u off) c ev (fun r _ _ l => r = AMQP_STATUS_OK -> pushed l) (fun _ _ _ => True).
Proof.
  intros Hu Hb. induction fuel as [|fuel IH]; intros off c ev Hc Ho Hm; cbn [publish_body]; [apply wp_halt; exact I|].
  destruct (Z.ltb_spec off (zlen body)) as [_|]; [|lia]. cbn [negb]. cbv zeta.
  assert (sub_size (zlen body) off = zlen body - off) as -> by (unfold sub_size; apply Z.mod_small; lia).
  destruct (Z.eqb_spec (zlen body - off) 0); [lia|].
  destruct (Z.leb_spec u (zlen body - off)) as [Hle|Hlt].
  - destruct (slice body off u) as [x|] eqn:Hs; [|apply wp_bind; cbn [need]; apply wp_halt; exact I]. cbn [need]. apply wp_ret_bind.
    pose proof (slice_len _ _ _ _ Hs) as Hx. apply wp_bind.
    eapply wp_conseq; [apply (frame_room ch (ABody x) true c ev I ltac:(lia) ltac:(intros b0 K; injection K as <-; lia))| |auto]; cbv beta.
    intros r c1 ev1 l1 (A1 & A2 & A3). destruct (Z.ltb_spec r 0); [apply wp_ret; unfold AMQP_STATUS_OK; lia|].
    assert (add_size off u = off + u) as -> by (unfold add_size; apply Z.mod_small; lia).
    assert ((zlen body - (off + u)) mod u <> 0) as Hm'.
    { replace (zlen body - (off + u)) with (zlen body - off + (-1) * u) by lia. rewrite Z.mod_add by lia. exact Hm. }
    assert (zlen body - off <> u) as Hne by (intros K; rewrite K, Z.mod_same in Hm by lia; lia).
    eapply wp_conseq; [apply IH; [lia|lia|exact Hm']| |auto]; cbv beta. intros r2 c2 ev2 l2 K Hr. apply pushed_app, K, Hr.
  - destruct (slice body off (zlen body - off)) as [x|] eqn:Hs; [|apply wp_bind; cbn [need]; apply wp_halt; exact I]. cbn [need]. apply wp_ret_bind.
    pose proof (slice_len _ _ _ _ Hs) as Hx. apply wp_bind.
    eapply wp_conseq; [apply (frame_pushed ch (ABody x) c ev I ltac:(lia) ltac:(intros b0 K; injection K as <-; lia))| |auto]; cbv beta.
    intros r c1 ev1 l1 (A1 & A2 & A3). destruct (Z.ltb_spec r 0); [apply wp_ret; unfold AMQP_STATUS_OK; lia|].
    assert (add_size off (zlen body - off) = zlen body) as -> by (unfold add_size; replace (off + (zlen body - off)) with (zlen body) by lia; apply Z.mod_small; lia).
    destruct fuel as [|fuel]; cbn [publish_body]; [apply wp_halt; exact I|]. destruct (Z.ltb_spec (zlen body) (zlen body)); [lia|]. cbn [negb]. apply wp_ret. rewrite app_nil_r. intros _. apply A3. unfold AMQP_STATUS_OK; lia.
Qed.
Lemma body_held ch body u : 12 <= u -> zlen body < M63 -> forall fuel off c ev, 0 <= off <= zlen body -> (zlen body - off) mod u = 0 ->
  wp (publish_body N E fuel ch body u off) c ev (fun _ _ _ l => all_flagged true l) (fun _ _ l => all_flagged true l).
Proof.
  intros Hu Hb. induction fuel as [|fuel IH]; intros off c ev Ho Hm; cbn [publish_body]; [apply wp_halt; constructor|].
  destruct (Z.ltb_spec off (zlen body)) as [Hlt|]; cbn [negb]; [|apply wp_ret; constructor]. cbv zeta.
  assert (sub_size (zlen body) off = zlen body - off) as -> by (unfold sub_size; apply Z.mod_small; lia).
  destruct (Z.eqb_spec (zlen body - off) 0); [lia|].
  assert (u <= zlen body - off) as Hle by (destruct (Z.le_gt_cases u (zlen body - off)); [assumption|rewrite Z.mod_small in Hm; lia]).
  destruct (Z.leb_spec u (zlen body - off)); [|lia].
  destruct (slice body off u) as [x|] eqn:Hs; [|apply wp_bind; cbn [need]; apply wp_halt; constructor]. cbn [need]. apply wp_ret_bind.
  apply wp_bind. eapply wp_conseq; [apply (fp_send_frame N E true _ amqp_time_infinite c ev)| |intros s0 c0 l0 K; exact K]; cbv beta.
  intros r c1 ev1 l1 A. unfold flat in A. destruct (r <? 0); [apply wp_ret; rewrite app_nil_r; exact A|].
  assert (add_size off u = off + u) as -> by (unfold add_size; apply Z.mod_small; lia).
  eapply wp_conseq; [apply IH; [lia|]| |]; cbv beta.
  - replace (zlen body - (off + u)) with (zlen body - off + (-1) * u) by lia. rewrite Z.mod_add by lia. exact Hm.
  - intros r2 c2 ev2 l2 K. apply flagged_app. auto.
  - intros s2 c2 l2 K. apply flagged_app. auto.
Qed.
End Push.

(** ** Theorems *)
(** Calls other than publishing, heartbeats included: nothing is ever sent with the flag. *)
Theorem C75_calls :
  forall (N : nat) (E : nat -> aenv) (a : api) (c : conn) (ev : list event),
    (forall ch x k m i p b, a <> Publish ch x k m i p b) ->
    match exec N E a c ev with Done _ _ _ l => all_flagged false l | Halt _ _ l => all_flagged false l end.
Proof. intros N E a c ev Ha. pose proof (fp_exec N E a c Ha ev) as H. unfold wp in H. destruct (exec N E a c ev); exact H. Qed.
(** A successful publish pushes the whole message, unless the body fills its last frame. *)
Theorem C75_publish_partial :
  forall (N : nat) (E : nat -> aenv) (ch : Z) (exchange routing_key : bytes) (mandatory immediate : Z) (p : option props)
         (body : bytes) (c c' : conn) (ev ev' : list event) (l : list obs),
    arguments_ok (Publish ch exchange routing_key mandatory immediate p body) -> roomy c -> zlen (c_outbuf c) < M31 ->
    body = [] \/ zlen body mod (frame_max c - 8) <> 0 ->
    exec N E (Publish ch exchange routing_key mandatory immediate p body) c ev = Done (OutStatus AMQP_STATUS_OK) c' ev' l ->
    pushed l.
Proof.
  intros N E ch ex rk ma im p body c c' ev ev' l (He & Hk & Hma & Him & Hp & Hb) [HR1 HR2] Ho Hm Hrun.
  assert (wp (amqp_basic_publish N E ch ex rk ma im p body) c ev (fun r _ _ l => r = AMQP_STATUS_OK -> pushed l) (fun _ _ _ => True)) as H.
  2:{ cbn [exec] in Hrun. unfold bind, ret in Hrun. unfold wp in H. destruct (amqp_basic_publish N E ch ex rk ma im p body c ev) as [r c1 ev1 l1|]; [|discriminate].
    injection Hrun as -> _ _ <-. rewrite app_nil_r. auto. }
  clear Hrun. destruct (NetWire.content_exists _ body Hp) as [h Ha]. destruct (header_ok p body h Hp Ha Hb) as [Ha1 Ha2].
  unfold amqp_basic_publish. change (HEADER_SIZE + FOOTER_SIZE) with 8.
  assert (u64 (frame_max c - 8) = frame_max c - 8) as Hu by (unfold u64; apply Z.mod_small; lia). apply wp_get_bind. cbv zeta. rewrite Hu.
  assert (forall m1 (k : Z -> M Z), (forall r c', zlen (c_outbuf c') = zlen (c_outbuf c) -> forall ev, wp (k r) c' ev (fun r _ _ l => r = AMQP_STATUS_OK -> pushed l) (fun _ _ _ => True)) ->
    forall c1 ev, zlen (c_outbuf c1) = zlen (c_outbuf c) -> wp m1 c1 ev (fun r c' _ l => zlen (c_outbuf c') = zlen (c_outbuf c1)) (fun _ _ _ => True) ->
    wp (bind m1 k) c1 ev (fun r _ _ l => r = AMQP_STATUS_OK -> pushed l) (fun _ _ _ => True)) as Hseq.
  { intros m1 k H2 c1 ev1 Hc1 H1. apply wp_bind. eapply wp_conseq; [apply H1| |auto]; cbv beta. intros r c2 ev2 l2 K.
    eapply wp_conseq; [apply H2; congruence| |auto]; cbv beta. intros r2 c3 ev3 l3 K2 Hr. apply pushed_app, K2, Hr. }
  apply Hseq; [|reflexivity|].
  2:{ eapply wp_conseq; [apply (silent_time_past (c_next_recv c) c ev)| |auto]; cbv beta. intros r c1 ev1 l1 [-> _]. reflexivity. }
  intros r c1 R1 ev1. destruct (Z.eqb_spec r AMQP_STATUS_TIMER_FAILURE) as [->|_]; [apply wp_ret; discriminate|].
  apply Hseq; [|exact R1|].
  2:{ destruct (_ =? _); [|apply wp_ret; reflexivity]. eapply wp_conseq; [apply (room_try_recv N E c1 ev1)| |auto]; cbv beta. intros r0 c0 ev0 l0 [K _]. exact K. }
  clear ev1. intros r2 c2 R3 ev2. destruct (Z.eqb_spec r2 AMQP_STATUS_TIMEOUT) as [->|_]; [apply wp_ret; discriminate|].
  destruct (Z.eqb_spec r2 AMQP_STATUS_OK) as [->|Hn]; cbn [negb]; [|apply wp_ret; intros K; contradiction].
  unfold amqp_send_method_inner. change (mkFrame AMQP_FRAME_METHOD ch (PMethod BASIC_PUBLISH _) 0) with (c_frame ch (publish_method ex rk ma im)).
  assert (mkFrame AMQP_FRAME_HEADER ch (PHeader AMQP_BASIC_CLASS (zlen body) (match p with Some p => p | None => mkProps 0 [] end) []) 0 = c_frame ch h) as ->.
  { destruct p as [[fl ms]|]; cbn [content_header] in Ha; [destruct Ha as (pl & -> & _)|subst h]; reflexivity. }
  apply wp_bind. eapply wp_conseq; [apply (frame_room N E ch (publish_method ex rk ma im) true c2 ev2 (publish_method_ok _ _ _ _ He Hk Hma Him) ltac:(lia) ltac:(discriminate))| |auto]; cbv beta.
  intros r3 c3 ev3 l3 (A1 & A2 & _). destruct (Z.ltb_spec r3 0); [apply wp_ret; unfold AMQP_STATUS_OK; lia|]. apply wp_bind.
  destruct (Z.ltb_spec 0 (zlen body)) as [Hpos|Hz].
  - eapply wp_conseq; [apply (frame_room N E ch h true c3 ev3 Ha1 ltac:(lia) ltac:(intros b K; destruct (Ha2 b K)))| |auto]; cbv beta.
    intros r4 c4 ev4 l4 (B1 & B2 & _). destruct (Z.ltb_spec r4 0); [apply wp_ret; unfold AMQP_STATUS_OK; lia|].
    eapply wp_conseq; [apply (body_pushed N E ch body (frame_max c - 8) ltac:(lia) Hb N 0 c4 ev4)| |auto]; cbv beta.
    + lia.
    + lia.
    + rewrite Z.sub_0_r. destruct Hm as [->|Hm]; [change (zlen (@nil byte)) with 0 in Hpos; lia|exact Hm].
    + intros r5 c5 ev5 l5 K Hr. do 2 apply pushed_app. apply K, Hr.
  - assert (body = []) as -> by (destruct body; [reflexivity|unfold zlen in Hz; cbn [length] in Hz; lia]).
    eapply wp_conseq; [apply (frame_pushed N E ch h c3 ev3 Ha1 ltac:(lia) ltac:(intros b K; destruct (Ha2 b K)))| |auto]; cbv beta.
    intros r4 c4 ev4 l4 (B1 & B2 & B3). destruct (Z.ltb_spec r4 0); [apply wp_ret; unfold AMQP_STATUS_OK; lia|].
    destruct N as [|n]; cbn [publish_body]; [apply wp_halt; exact I|]. change (0 <? zlen (@nil byte)) with false. cbn [negb]. apply wp_ret. rewrite app_nil_r. intros _. apply pushed_app, B3. unfold AMQP_STATUS_OK; lia.
Qed.
(** And if it does, the system is told of every byte of the message that more will follow:
    it may hold back the end of the message until something else is sent. *)
Theorem C75_held_back_refuted :
  forall (N : nat) (E : nat -> aenv) (ch : Z) (exchange routing_key : bytes) (mandatory immediate : Z) (p : option props)
         (body : bytes) (c c' : conn) (ev ev' : list event) (o : outcome_t) (l : list obs),
    20 <= frame_max c < M31 -> body <> [] -> zlen body < M63 -> zlen body mod (frame_max c - 8) = 0 ->
    exec N E (Publish ch exchange routing_key mandatory immediate p body) c ev = Done o c' ev' l ->
    all_flagged true l.
Proof.
  intros N E ch ex rk ma im p body c c' ev ev' o l HR Hne Hb Hm Hrun.
  assert (wp (amqp_basic_publish N E ch ex rk ma im p body) c ev (fun r _ _ l => all_flagged true l) (fun _ _ _ => True)) as H.
  2:{ cbn [exec] in Hrun. unfold bind, ret in Hrun. unfold wp in H. destruct (amqp_basic_publish N E ch ex rk ma im p body c ev) as [r c1 ev1 l1|]; [|discriminate].
    injection Hrun as _ _ _ <-. rewrite app_nil_r. auto. }
  clear Hrun. assert (forall (m1 : M Z) (k : Z -> M Z), (forall r c' ev, wp (k r) c' ev (fun r _ _ l => all_flagged true l) (fun _ _ _ => True)) ->
    forall c1 ev, sat_at (flat true) m1 c1 -> wp (bind m1 k) c1 ev (fun r _ _ l => all_flagged true l) (fun _ _ _ => True)) as Hseq.
  { intros m1 k H2 c1 ev1 H1. apply wp_bind. eapply wp_conseq; [apply (H1 ev1)| |auto]; cbv beta. intros r c2 ev2 l2 K.
    eapply wp_conseq; [apply H2| |auto]; cbv beta. intros r2 c3 ev3 l3 K2. apply flagged_app. auto. }
  unfold amqp_basic_publish. change (HEADER_SIZE + FOOTER_SIZE) with 8.
  assert (u64 (frame_max c - 8) = frame_max c - 8) as Hu by (unfold u64; apply Z.mod_small; lia). apply wp_get_bind. cbv zeta. rewrite Hu.
  apply Hseq; [|apply fp_past]. intros r c1 ev1. destruct (_ =? _); [apply wp_ret; constructor|].
  apply Hseq; [|destruct (_ =? _); [apply fp_try_recv|apply (sat_ret (flat true) (flat_comp true))]]. intros r2 c2 ev2. destruct (_ =? _); [apply wp_ret; constructor|]. destruct (negb _); [apply wp_ret; constructor|].
  unfold amqp_send_method_inner. apply Hseq; [|apply fp_send_frame]. intros r3 c3 ev3. destruct (_ <? _); [apply wp_ret; constructor|].
  assert (0 < zlen body) as Hpos by (destruct body; [contradiction|unfold zlen; cbn [length]; lia]). destruct (Z.ltb_spec 0 (zlen body)); [|lia].
  apply Hseq; [|apply fp_send_frame]. intros r4 c4 ev4. destruct (_ <? _); [apply wp_ret; constructor|].
  eapply wp_conseq; [apply (body_held N E ch body (frame_max c - 8) ltac:(lia) Hb N 0 c4 ev4 ltac:(lia))| |auto]; cbv beta; [rewrite Z.sub_0_r; exact Hm|auto].
Qed.

(** ** The hypotheses can be met *)
Example C75_publish_case :
  exists c' l, exec 100 plain_env (Publish 1 [x65] [x6b] 1 0 (Some a_props) body_70) small_conn
    [EvSend (SOk 5); EvSend SAgain; EvPoll PReady; EvSend (SOk 99); EvSend (SOk 99); EvSend (SOk 99); EvSend (SOk 99); EvSend (SOk 99)] = Done (OutStatus AMQP_STATUS_OK) c' [] l
  /\ zlen body_70 mod (frame_max small_conn - 8) <> 0.
Proof. eexists. eexists. split; [vm_compute; reflexivity|vm_compute; discriminate]. Qed.
(** a body of 64 bytes in frames that hold 32: nothing is pushed *)
Example C75_held_back_case :
  exists c' l, exec 100 plain_env (Publish 1 [x65] [x6b] 1 0 None (repeat x61 64)) small_conn
    [EvSend (SOk 99); EvSend (SOk 99); EvSend (SOk 99); EvSend (SOk 99)] = Done (OutStatus AMQP_STATUS_OK) c' [] l
  /\ zlen (repeat x61 64) mod (frame_max small_conn - 8) = 0 /\ ~ pushed l /\ zlen (out_bytes l) = 121.
Proof.
  eexists. eexists. split; [vm_compute; reflexivity|]. split; [vm_compute; reflexivity|]. split; [|vm_compute; reflexivity].
  intros (l1 & bs & l2 & K & _). repeat (destruct l1 as [|? l1]; [discriminate K|injection K as _ K]). destruct l1; discriminate K.
Qed.

Print Assumptions C75_calls.
Print Assumptions C75_publish_partial.
Print Assumptions C75_held_back_refuted.
