(** C40, C41, C53: publishing. *)
From Coq Require Import String ZArith List Bool Lia.
From Verif Require Import Base BaseFacts Codec TableModel TableSpec TableOps FramingStmt FramingGen FramingModel MethodSpec
  Frame FrameSpec FrameProofs Time Sasl Net NetApi NetSpec CallSpec NetFacts NetSend NetRecv NetWalk NetAcct NetOrder NetShort NetTyped NetRx NetWell NetRoom
  Prop_Frame Prop_Send Prop_Release Prop_Safe.
Import ListNotations.
Local Open Scope Z_scope.

(** ** Vocabulary *)
(** the method basic.publish (60, 40) *)
Definition publish_method (exchange routing_key : bytes) (mandatory immediate : Z) : aframe :=
  AMethod 60 40 [("ticket", Short); ("exchange", ShortStr); ("routing_key", ShortStr); ("mandatory", Bit); ("immediate", Bit)]%string
    [("ticket", VInt 0); ("exchange", VBytes exchange); ("routing_key", VBytes routing_key);
     ("mandatory", VBool mandatory); ("immediate", VBool immediate)]%string.
(** a content header with these properties (NULL: none) *)
Definition content_header (p : option props) (body : bytes) (a : aframe) : Prop :=
  match p with
  | Some p => exists pl, a = AContent (zlen body) (pflags p) (pfields p) pl /\ present (pflags p) basic_catalogue (pfields p) = Some pl
  | None => a = AContent (zlen body) 0 [] []
  end.
(** the body in pieces of [u] bytes, the last one perhaps shorter *)
Fixpoint cut (n : nat) (u : Z) (b : bytes) : list bytes :=
  match n, b with
  | S n, _ :: _ => firstn (Z.to_nat u) b :: cut n u (skipn (Z.to_nat u) b)
  | _, _ => []
  end.
Definition pieces (frame_max : Z) (body : bytes) : list bytes := cut (length body) (frame_max - 8) body.
(** all that is sent *)
Definition message_wire (ch : Z) (method header : aframe) (frame_max : Z) (body : bytes) : bytes :=
  ser ((ch, method) :: (ch, header) :: map (fun b => (ch, ABody b)) (pieces frame_max body)).

(** What [pieces] are: no empty one, each fits into a frame (payload and eight
    bytes more), together the body. *)
Lemma cut_concat u : 0 < u -> forall n b, (length b <= n)%nat -> concat (cut n u b) = b.
Proof.
  intros Hu. induction n as [|n IH]; intros [|x b] Hb; try reflexivity; [cbn in Hb; lia|]. cbn [cut concat].
  rewrite IH; [apply firstn_skipn|]. rewrite skipn_length. lia.
Qed.
Lemma cut_sizes u : 0 < u -> forall n b, Forall (fun p => 0 < zlen p <= u) (cut n u b).
Proof.
  intros Hu. induction n as [|n IH]; intros [|x b]; try constructor; [|apply IH]. cbn [cut]. unfold zlen. rewrite firstn_length. cbn [length]. lia.
Qed.
Lemma cut_full u : 0 < u -> forall n b, (length b <= n)%nat -> forall before p after, cut n u b = before ++ p :: after -> after <> [] -> zlen p = u.
Proof.
  intros Hu. induction n as [|n IH]; intros [|x b] Hb before p after He Ha; try (destruct before; discriminate). cbn [cut] in He. destruct before as [|p0 before]; cbn [app] in He.
  - injection He as <- <-. unfold zlen. rewrite firstn_length. destruct (skipn (Z.to_nat u) (x :: b)) eqn:Hs; [destruct n; contradiction|].
    assert (length (skipn (Z.to_nat u) (x :: b)) <> 0)%nat by (rewrite Hs; discriminate). rewrite skipn_length in H. lia.
  - injection He as _ He. eapply IH; [|exact He|exact Ha]. rewrite skipn_length. lia.
Qed.
Theorem C40_pieces : forall (frame_max : Z) (body : bytes), 8 < frame_max ->
  concat (pieces frame_max body) = body /\
  Forall (fun p => 0 < zlen p /\ zlen (ser_frame 0 (ABody p)) <= frame_max) (pieces frame_max body) /\
  (forall before p after, pieces frame_max body = before ++ p :: after -> after <> [] -> zlen (ser_frame 0 (ABody p)) = frame_max).
Proof.
  intros fm body H. assert (forall p, zlen (ser_frame 0 (ABody p)) = zlen p + 8) as Hw. { intros p. unfold ser_frame. rewrite FrameFacts.zlen_wire. reflexivity. }
  split; [apply cut_concat; lia|]. split.
  - eapply Forall_impl; [|apply (cut_sizes (fm - 8)); lia]. cbv beta. intros p Hp. rewrite Hw. lia.
  - intros before p after He Ha. rewrite Hw. rewrite (cut_full (fm - 8) ltac:(lia) _ _ (Nat.le_refl _) _ _ _ He Ha). lia.
Qed.

(** ** Proofs *)
Section Publish.
Context (N : nat) (E : nat -> aenv).
(** a computation that sends [W] and nothing else *)
Definition sends (W : bytes) (m : M Z) (c : conn) : Prop := forall ev,
  wp m c ev (fun r c' _ l => r <= 0 /\ prefix (out_bytes l) W /\ (r = AMQP_STATUS_OK -> out_bytes l = W) /\ room c c' l)
            (fun _ _ l => prefix (out_bytes l) W).
(** and not all of [W] if it fails (but for the clock) *)
Definition cuts (W : bytes) (m : M Z) (c : conn) : Prop := forall ev,
  wp m c ev (fun r c' _ l => (r <= 0 /\ prefix (out_bytes l) W /\ (r = AMQP_STATUS_OK -> out_bytes l = W) /\ room c c' l) /\ c_hb c' = c_hb c /\ shorter c W r l)
            (fun _ _ l => prefix (out_bytes l) W).
Lemma cuts_sends W m c : cuts W m c -> sends W m c.
Proof. clear N E. intros H ev. eapply wp_conseq; [apply H| |auto]; cbv beta. intros r c1 ev1 l1 [K _]. exact K. Qed.
Lemma sends_ret c : cuts [] (ret AMQP_STATUS_OK) c.
Proof.
  intros ev. apply wp_ret. split; [|split; [reflexivity|intros _ _ K; contradiction K; reflexivity]].
  split; [unfold AMQP_STATUS_OK; lia|]. split; [apply prefix_refl|]. split; [reflexivity|split; reflexivity].
Qed.
Lemma prefix_app_r {A} (a b w : list A) : prefix b w -> prefix (a ++ b) (a ++ w).
Proof. intros [r ->]. exists r. apply app_assoc. Qed.
Lemma prefix_more {A} (a b w : list A) : prefix a b -> prefix a (b ++ w).
Proof. intros [r ->]. exists (r ++ w). symmetry. apply app_assoc. Qed.
Lemma sends_seq W1 W2 m1 (k : M Z) c : cuts W1 m1 c ->
  (forall c', zlen (c_outbuf c') = zlen (c_outbuf c) -> frame_max c' = frame_max c -> cuts W2 k c') ->
  cuts (W1 ++ W2) (bind m1 (fun r => if r <? 0 then ret r else k)) c.
Proof.
  intros H1 H2 ev. apply wp_bind. eapply wp_conseq; [apply H1| |]; cbv beta; [|intros s c' l H; apply prefix_more, H].
  intros r c1 ev1 l1 ((A1 & A2 & A3 & A4 & A5) & A6 & A7). destruct (Z.ltb_spec r 0).
  - apply wp_ret. rewrite app_nil_r. split; [|split; [exact A6|]].
    + split; [lia|]. split; [apply prefix_more, A2|]. split; [unfold AMQP_STATUS_OK; lia|split; assumption].
    + intros Hh Hs N1 N2. specialize (A7 Hh Hs N1 N2). rewrite zlen_app. pose proof (zlen_nonneg W2). lia.
  - assert (r = AMQP_STATUS_OK) as Hr by (unfold AMQP_STATUS_OK; lia). specialize (A3 Hr).
    eapply wp_conseq; [apply (H2 c1 A4 A5)| |]; cbv beta.
    + intros r2 c2 ev2 l2 ((B1 & B2 & B3 & B4 & B5) & B6 & B7). split; [|split; [congruence|]].
      * rewrite out_bytes_app, A3. split; [exact B1|]. split; [apply prefix_app_r, B2|]. split; [intros K; rewrite (B3 K); reflexivity|]. split; congruence.
      * intros Hh Hs N1 N2. apply sane_app in Hs. rewrite <- A6 in Hh. specialize (B7 Hh (proj2 Hs) N1 N2). rewrite out_bytes_app, A3, !zlen_app. lia.
    + intros s c2 l2 B2. rewrite out_bytes_app, A3. apply prefix_app_r, B2.
Qed.
Lemma hb_send_frame f more d c ev : d <= amqp_time_infinite -> wp (amqp_send_frame_inner N E f more d) c ev (fun _ c' _ _ => c_hb c' = c_hb c) (fun _ _ _ => True).
Proof.
  intros Hd. eapply wp_conseq; [apply (send_frame_ok N E f more d c ev Hd)| |auto]; cbv beta. intros r c' ev' l H. apply sent_f_facts in H. destruct H as (_ & _ & (_ & _ & H & _) & _). exact H.
Qed.
Lemma sends_frame ch a more c : aframe_ok a -> 20 <= zlen (c_outbuf c) < M31 -> (forall b, a = ABody b -> zlen b + 8 <= zlen (c_outbuf c)) ->
  cuts (ser_frame ch a) (amqp_send_frame_inner N E (c_frame ch a) more amqp_time_infinite) c.
Proof.
  intros Ha Hb Hbody ev.
  assert (0 < zlen (ser_frame ch a)) as Hlen.
  { unfold ser_frame. rewrite FrameFacts.zlen_wire. match goal with |- 0 < ?x + _ => assert (0 <= x) by apply zlen_nonneg; lia | |- 0 < _ + ?x => assert (0 <= x) by apply zlen_nonneg; lia end. }
  assert (wp (amqp_send_frame_inner N E (c_frame ch a) more amqp_time_infinite) c ev
    (fun r c' _ l => (r <= 0 /\ prefix (out_bytes l) (ser_frame ch a) /\ (r = AMQP_STATUS_OK -> out_bytes l = ser_frame ch a)) /\
       (aframe_representable a = false \/ zlen (ser_frame ch a) > zlen (c_outbuf c) -> out_bytes l = [])) (fun _ _ l => prefix (out_bytes l) (ser_frame ch a))) as H.
  { pose proof (C33_frame_reaches_the_wire N E ch a more amqp_time_infinite c ev Ha Hb Hbody (Z.le_refl _)) as H. unfold wp.
    destruct (amqp_send_frame_inner N E (c_frame ch a) more amqp_time_infinite c ev); tauto. }
  pose proof (wp_split _ _ _ _ _ _ _ (room_send_frame N E (c_frame ch a) more amqp_time_infinite c ev) (hb_send_frame (c_frame ch a) more amqp_time_infinite c ev (Z.le_refl _))) as H2.
  pose proof (short_send_frame N E (c_frame ch a) more amqp_time_infinite c ev) as H3.
  eapply wp_conseq; [apply (wp_split _ _ _ _ _ _ _ H (wp_split _ _ _ _ _ _ _ H2 H3))| |]; cbv beta; [|tauto]. intros r c' ev' l [[K1 K0] [[K2 K3] K4]]. split; [tauto|]. split; [exact K3|].
  destruct (C10_frame_bytes ch a (c_outbuf c) Ha Hb Hbody) as (st & buf' & enc & Hf & _ & Hcase).
  destruct Hcase as [(C1 & C2 & _)|(C1 & C2)].
  - subst. eapply K4; [exact Hf|exact Hlen].
  - intros _ _ _ _. rewrite K0 by exact C2. exact Hlen.
Qed.
Lemma sends_neg W r c : r < 0 -> 0 < zlen W -> cuts W (ret r) c.
Proof.
  intros H HW ev. apply wp_ret. split; [|split; [reflexivity|intros _ _ _ _; exact HW]].
  split; [lia|]. split; [apply prefix_nil|]. split; [unfold AMQP_STATUS_OK; lia|split; reflexivity].
Qed.
Lemma sends_quiet W m1 (k : Z -> M Z) c : (forall ev, wp m1 c ev (fun r c' _ l => r <= 0 /\ no_output l /\ room c c' l /\ c_hb c' = c_hb c) (fun _ _ l => no_output l)) ->
  (forall r c', zlen (c_outbuf c') = zlen (c_outbuf c) -> frame_max c' = frame_max c -> r <= 0 -> cuts W (k r) c') -> cuts W (bind m1 k) c.
Proof.
  intros H1 H2 ev. apply wp_bind. eapply wp_conseq; [apply H1| |]; cbv beta; [|intros s c' l H; rewrite (no_output_out _ H); apply prefix_nil].
  intros r c1 ev1 l1 (A1 & A2 & (A3 & A4) & A5). eapply wp_conseq; [apply (H2 r c1 A3 A4 A1)| |]; cbv beta.
  - intros r2 c2 ev2 l2 ((B1 & B2 & B3 & B4 & B5) & B6 & B7). split; [|split; [congruence|]].
    + rewrite out_bytes_app, (no_output_out _ A2). cbn [app]. split; [exact B1|]. split; [exact B2|]. split; [exact B3|]. split; congruence.
    + intros Hh Hs N1 N2. apply sane_app in Hs. rewrite <- A5 in Hh. rewrite out_bytes_app, (no_output_out _ A2). apply B7; tauto.
  - intros s c2 l2 B2. rewrite out_bytes_app, (no_output_out _ A2). exact B2.
Qed.
Lemma past_res t c ev : wp (time_has_past t) c ev (fun r _ _ _ => r <= 0) (fun _ _ _ => True).
Proof.
  unfold time_has_past. assert (forall now, amqp_time_has_past now t <= 0) as H.
  { intros now. unfold amqp_time_has_past. repeat match goal with |- context [if ?b then _ else _] => destruct b end; cbv; discriminate. }
  destruct (_ =? _); [apply wp_ret, H|]. apply wp_bind. eapply wp_conseq; [apply (silent_clock c ev)| |auto]. intros. apply wp_ret, H.
Qed.
Lemma pieces_step u n b : 0 < u -> (length b <= n)%nat -> b <> [] -> cut n u b = firstn (Z.to_nat u) b :: cut n u (skipn (Z.to_nat u) b).
Proof.
  intros Hu. revert b. assert (forall n b, (length b <= n)%nat -> cut (S n) u b = cut n u b) as Hm.
  { clear n. induction n as [|n IH]; intros [|x b] Hb; try reflexivity; [cbn in Hb; lia|].
    change (cut (S (S n)) u (x :: b)) with (firstn (Z.to_nat u) (x :: b) :: cut (S n) u (skipn (Z.to_nat u) (x :: b))). rewrite IH; [reflexivity|]. rewrite skipn_length. cbn [length] in *. lia. }
  intros b Hb Hn. destruct n as [|n]; destruct b as [|x b]; try contradiction; [cbn in Hb; lia|]. rewrite (Hm n (skipn (Z.to_nat u) (x :: b))); [reflexivity|]. rewrite skipn_length. cbn [length] in *. lia.
Qed.
Lemma sends_body ch body u n : 12 <= u -> zlen body < M63 -> (length body <= n)%nat -> forall fuel off c, u + 8 <= zlen (c_outbuf c) < M31 -> 0 <= off <= zlen body ->
  cuts (ser (map (fun b => (ch, ABody b)) (cut n u (skipn (Z.to_nat off) body)))) (publish_body N E fuel ch body u off) c.
Proof.
  intros Hu Hb Hn. induction fuel as [|fuel IH]; intros off c Hc Ho; cbn [publish_body].
  { intros ev. apply wp_halt. apply prefix_nil. }
  destruct (Z.ltb_spec off (zlen body)) as [Hlt|Hge]; cbn [negb].
  2:{ rewrite skipn_all2 by (unfold zlen in *; lia). destruct n; apply sends_ret. }
  cbv zeta. assert (sub_size (zlen body) off = zlen body - off) as -> by (unfold sub_size; apply Z.mod_small; lia).
  destruct (Z.eqb_spec (zlen body - off) 0); [lia|].
  set (rest := skipn (Z.to_nat off) body). assert (zlen rest = zlen body - off) as Hr by (unfold rest, zlen in *; rewrite skipn_length; lia).
  set (len := if u <=? zlen body - off then u else zlen body - off).
  assert (slice body off len = Some (firstn (Z.to_nat u) rest)) as Hs.
  { unfold slice. assert (0 <= len <= zlen body - off) by (unfold len; destruct (Z.leb_spec u (zlen body - off)); lia).
    destruct (Z.leb_spec 0 off); [|lia]. destruct (Z.leb_spec 0 len); [|lia]. destruct (Z.leb_spec (off + len) (zlen body)); [|lia]. cbn [andb]. f_equal. fold rest.
    unfold len. destruct (Z.leb_spec u (zlen body - off)); [reflexivity|]. rewrite !firstn_all2; [reflexivity| |]; unfold zlen in *; lia. }
  rewrite Hs. cbn [need]. assert (length rest <= n)%nat as Hrn by (unfold zlen in *; lia).
  assert (rest <> []) as Hne by (intros K; rewrite K in Hr; change (zlen []) with 0 in Hr; lia).
  rewrite (pieces_step u n rest) by (try assumption; lia). cbn [map]. 
  assert (forall ca l, ser (ca :: l) = ser_frame (fst ca) (snd ca) ++ ser l) as Hser by reflexivity. rewrite Hser. cbn [fst snd].
  assert (len <= u /\ zlen (firstn (Z.to_nat u) rest) <= u) as [Hl1 Hl2] by (split; [unfold len; destruct (Z.leb_spec u (zlen body - off)); lia|unfold zlen; rewrite firstn_length; lia]).
  intros ev. apply wp_ret_bind. apply (sends_seq _ _ _ _ _ (sends_frame ch (ABody (firstn (Z.to_nat u) rest)) _ c I ltac:(lia) ltac:(intros b0 K; injection K as <-; lia))).
  intros c' Hc' _.
  assert (add_size off len = off + len) as -> by (unfold add_size, len; destruct (Z.leb_spec u (zlen body - off)); apply Z.mod_small; lia).
  assert (skipn (Z.to_nat u) rest = skipn (Z.to_nat (off + len)) body) as ->.
  { unfold rest. rewrite skipn_skipn'. unfold len. destruct (Z.leb_spec u (zlen body - off)); [f_equal; lia|]. rewrite !skipn_all2; [reflexivity| |]; unfold zlen in *; lia. }
  apply IH; [lia|unfold len; destruct (Z.leb_spec u (zlen body - off)); lia].
Qed.
Lemma header_ok p body a : props_fine p -> content_header p body a -> zlen body < M63 -> aframe_ok a /\ forall b, a <> ABody b.
Proof.
  intros Hp Ha Hb. pose proof (zlen_nonneg body). destruct p as [p|]; cbn [props_fine content_header] in *.
  - destruct Hp as (pl & H1 & H2 & H3). destruct Ha as (pl' & -> & H4). rewrite H2 in H4. injection H4 as <-. split; [|discriminate]. repeat split; auto; lia.
  - subst a. split; [|discriminate]. repeat split; auto; try lia. constructor.
Qed.
Lemma publish_method_ok ex rk ma im : zlen ex < M63 -> zlen rk < M63 -> - M31 <= ma < M31 -> - M31 <= im < M31 -> aframe_ok (publish_method ex rk ma im).
Proof.
  intros He Hk Hma Him. split; [apply cat_in; reflexivity|]. unfold well_typed. repeat (constructor; [split; [reflexivity|cbn; assumption || lia]|]). constructor.
Qed.
Lemma message_wire_pos ch m a fm body : 0 < zlen (message_wire ch m a fm body).
Proof.
  unfold message_wire, ser. cbn [map concat fst snd flat_map]. rewrite zlen_app. unfold ser_frame at 1. rewrite FrameFacts.zlen_wire. 
  match goal with |- 0 < ?x + _ + ?y => assert (0 <= x) by apply zlen_nonneg; assert (0 <= y) by apply zlen_nonneg; lia end.
Qed.
Lemma publish_cuts ch ex rk ma im p body a c : zlen ex < M63 -> zlen rk < M63 -> - M31 <= ma < M31 -> - M31 <= im < M31 -> props_fine p -> zlen body < M63 ->
  roomy c -> zlen (c_outbuf c) < M31 -> content_header p body a ->
  cuts (message_wire ch (publish_method ex rk ma im) a (frame_max c) body) (amqp_basic_publish N E ch ex rk ma im p body) c.
Proof.
  intros He Hk Hma Him Hp Hb [HR1 HR2] Ho Ha. unfold amqp_basic_publish. change (HEADER_SIZE + FOOTER_SIZE) with 8.
  assert (u64 (frame_max c - 8) = frame_max c - 8) as Hu by (unfold u64; apply Z.mod_small; lia). 
  intros ev. wstep. cbv zeta. rewrite Hu. revert ev.
  match goal with |- forall ev, wp ?m _ _ _ _ => change (cuts (message_wire ch (publish_method ex rk ma im) a (frame_max c) body) m c) end.
  assert (0 < zlen (message_wire ch (publish_method ex rk ma im) a (frame_max c) body)) as HW by apply message_wire_pos.
  apply sends_quiet. { intros ev. eapply wp_conseq; [apply (wp_split _ _ _ _ _ _ _ (silent_time_past (c_next_recv c) c ev) (past_res (c_next_recv c) c ev))| |]; cbv beta.
    - intros r c' ev' l [[-> Hq] Hr]. split; [exact Hr|]. split; [apply quiet_output, Hq|split; [split; reflexivity|reflexivity]].
    - intros s c' l [[-> [Hq _]] _]. apply quiet_output, Hq. }
  intros r c1 R1 R2 Hr. destruct (Z.eqb_spec r AMQP_STATUS_TIMER_FAILURE) as [->|_]; [apply sends_neg; [reflexivity|exact HW]|].
  apply sends_quiet. { intros ev. destruct (_ =? _); [|apply wp_ret; split; [unfold AMQP_STATUS_OK; lia|split; [constructor|split; [split; reflexivity|reflexivity]]]].
    eapply wp_conseq; [apply (wp_split _ _ _ _ _ _ _ (NetOrder.try_recv_ok N E c1 ev) (room_try_recv N E c1 ev))| |]; cbv beta; [|tauto]. intros r0 c0 ev0 l0 [(G1 & _ & _ & _ & G2 & (_ & _ & G3 & _) & _) G4]. auto. }
  intros r2 c2 R3 R4 Hr2. destruct (Z.eqb_spec r2 AMQP_STATUS_TIMEOUT) as [->|_]; [apply sends_neg; [reflexivity|exact HW]|].
  destruct (Z.eqb_spec r2 AMQP_STATUS_OK) as [->|Hn]; cbn [negb]; [|apply sends_neg; [unfold AMQP_STATUS_OK in Hn; lia|exact HW]].
  unfold message_wire. 
  assert (forall ca l, ser (ca :: l) = ser_frame (fst ca) (snd ca) ++ ser l) as Hser by reflexivity. rewrite !Hser. cbn [fst snd].
  apply sends_seq.
  { unfold amqp_send_method_inner. change (mkFrame AMQP_FRAME_METHOD ch (PMethod BASIC_PUBLISH _) 0) with (c_frame ch (publish_method ex rk ma im)).
    apply sends_frame; [apply publish_method_ok; assumption|lia|discriminate]. }
  intros c3 R5 R6. destruct (header_ok p body a Hp Ha Hb) as [Ha1 Ha2].
  apply sends_seq.
  { assert (mkFrame AMQP_FRAME_HEADER ch (PHeader AMQP_BASIC_CLASS (zlen body) (match p with Some p => p | None => mkProps 0 [] end) []) 0 = c_frame ch a) as ->.
    { destruct p as [[fl ms]|]; cbn [content_header] in Ha; [destruct Ha as (pl & -> & _)|subst a]; reflexivity. }
    apply sends_frame; [exact Ha1|lia|]. intros b K. destruct (Ha2 b K). }
  intros c4 R7 R8. unfold pieces. 
  pose proof (sends_body ch body (frame_max c - 8) (length body) ltac:(lia) Hb (Nat.le_refl _) N 0 c4 ltac:(lia) ltac:(pose proof (zlen_nonneg body); lia)) as H.
  exact H.
Qed.
Lemma publish_ok ch ex rk ma im p body a c : zlen ex < M63 -> zlen rk < M63 -> - M31 <= ma < M31 -> - M31 <= im < M31 -> props_fine p -> zlen body < M63 ->
  roomy c -> zlen (c_outbuf c) < M31 -> content_header p body a ->
  sends (message_wire ch (publish_method ex rk ma im) a (frame_max c) body) (amqp_basic_publish N E ch ex rk ma im p body) c.
Proof. intros. apply cuts_sends, publish_cuts; assumption. Qed.
End Publish.

(** ** C40, C53 *)
(** Every call on a connection whose limits are sane ([roomy], see C41): what it
    hands to the socket is a prefix of the three parts of the message, in order, and
    nothing else; all of it if the call returns AMQP_STATUS_OK, a negative status is
    returned otherwise. *)
Theorem C40_publish :
  forall (N : nat) (E : nat -> aenv) (ch : Z) (exchange routing_key : bytes) (mandatory immediate : Z) (p : option props)
         (body : bytes) (header : aframe) (c : conn) (ev : list event),
    arguments_ok (Publish ch exchange routing_key mandatory immediate p body) ->
    roomy c -> zlen (c_outbuf c) < M31 -> content_header p body header ->
    let W := message_wire ch (publish_method exchange routing_key mandatory immediate) header (frame_max c) body in
    match amqp_basic_publish N E ch exchange routing_key mandatory immediate p body c ev with
    | Done r c' _ l => (r = AMQP_STATUS_OK /\ out_bytes l = W) \/ (r < 0 /\ prefix (out_bytes l) W)
    | Halt _ _ l => prefix (out_bytes l) W
    end.
Proof.
  intros N E ch ex rk ma im p body h c ev (A1 & A2 & A3 & A4 & A5 & A6) Hr Hb Hh W.
  pose proof (publish_ok N E ch ex rk ma im p body h c A1 A2 A3 A4 A5 A6 Hr Hb Hh ev) as H. unfold wp in H. fold W in H.
  destruct (amqp_basic_publish N E ch ex rk ma im p body c ev) as [r c' ev' l|s c' l]; [|exact H]. destruct H as (H1 & H2 & H3 & _).
  destruct (Z.eq_dec r AMQP_STATUS_OK) as [K|K]; [left; auto|right]. split; [unfold AMQP_STATUS_OK in K; lia|exact H2].
Qed.
(** The caller learns about it: if the socket was not given all bytes, the status is
    negative. *)
Theorem C53_incomplete_is_reported :
  forall (N : nat) (E : nat -> aenv) (ch : Z) (exchange routing_key : bytes) (mandatory immediate : Z) (p : option props)
         (body : bytes) (header : aframe) (c c' : conn) (ev ev' : list event) (r : Z) (l : list obs),
    arguments_ok (Publish ch exchange routing_key mandatory immediate p body) ->
    roomy c -> zlen (c_outbuf c) < M31 -> content_header p body header ->
    amqp_basic_publish N E ch exchange routing_key mandatory immediate p body c ev = Done r c' ev' l ->
    out_bytes l <> message_wire ch (publish_method exchange routing_key mandatory immediate) header (frame_max c) body ->
    r < 0.
Proof.
  intros N E ch ex rk ma im p body h c c' ev ev' r l Ha Hr Hb Hh Hrun Hne.
  pose proof (C40_publish N E ch ex rk ma im p body h c ev Ha Hr Hb Hh) as H. cbv zeta in H. rewrite Hrun in H. destruct H as [[_ H]|[H _]]; [contradiction|exact H].
Qed.
(** If the method cannot be sent (a name longer than 255 bytes, or longer than the
    send buffer), the status is negative and nothing is sent; if the content header
    cannot be sent (a string or table in the properties does not fit), the status is
    negative and no part of the content is sent. *)
Definition cannot_be_sent (ch : Z) (a : aframe) (c : conn) : Prop := aframe_representable a = false \/ zlen (ser_frame ch a) > zlen (c_outbuf c).
Section Refuse.
Context (N : nat) (E : nat -> aenv).
Lemma sends_refused ch a more c : aframe_ok a -> 20 <= zlen (c_outbuf c) < M31 -> (forall b, a = ABody b -> zlen b + 8 <= zlen (c_outbuf c)) -> cannot_be_sent ch a c ->
  forall ev, wp (amqp_send_frame_inner N E (c_frame ch a) more amqp_time_infinite) c ev (fun r c' _ l => r < 0 /\ out_bytes l = []) (fun _ _ l => prefix (out_bytes l) (ser_frame ch a)).
Proof.
  intros Ha Hb Hbody Hc ev. pose proof (C33_frame_reaches_the_wire N E ch a more amqp_time_infinite c ev Ha Hb Hbody (Z.le_refl _)) as H. unfold wp.
  destruct (amqp_send_frame_inner N E (c_frame ch a) more amqp_time_infinite c ev); [|exact H]. destruct H as (_ & _ & _ & _ & H). destruct (H Hc) as (H1 & H2 & _). auto.
Qed.
(** the call goes as far as [W] and then fails *)
Definition fails_after (W : bytes) (m : M Z) (c : conn) : Prop := forall ev,
  wp m c ev (fun r c' _ l => r < 0 /\ prefix (out_bytes l) W) (fun _ _ _ => True).
Lemma fails_neg W r c : r < 0 -> fails_after W (ret r) c.
Proof. intros H ev. apply wp_ret. split; [exact H|apply prefix_nil]. Qed.
Lemma fails_seq W1 W2 m1 (k : M Z) c : sends W1 m1 c ->
  (forall c', zlen (c_outbuf c') = zlen (c_outbuf c) -> frame_max c' = frame_max c -> fails_after W2 k c') ->
  fails_after (W1 ++ W2) (bind m1 (fun r => if r <? 0 then ret r else k)) c.
Proof.
  intros H1 H2 ev. apply wp_bind. eapply wp_conseq; [apply H1| |auto]; cbv beta. 
  intros r c1 ev1 l1 (A1 & A2 & A3 & A4 & A5). destruct (Z.ltb_spec r 0).
  - apply wp_ret. rewrite app_nil_r. split; [lia|]. apply prefix_more, A2.
  - assert (r = AMQP_STATUS_OK) as Hr by (unfold AMQP_STATUS_OK; lia). specialize (A3 Hr).
    eapply wp_conseq; [apply (H2 c1 A4 A5)| |auto]; cbv beta. intros r2 c2 ev2 l2 (B1 & B2). rewrite out_bytes_app, A3. split; [exact B1|]. apply prefix_app_r, B2.
Qed.
Lemma fails_now m1 (k : M Z) c : (forall ev, wp m1 c ev (fun r c' _ l => r < 0 /\ out_bytes l = []) (fun _ _ _ => True)) ->
  fails_after [] (bind m1 (fun r => if r <? 0 then ret r else k)) c.
Proof.
  intros H ev. apply wp_bind. eapply wp_conseq; [apply H| |auto]. cbv beta. intros r c1 ev1 l1 [H1 H2]. destruct (Z.ltb_spec r 0); [|lia]. apply wp_ret. rewrite app_nil_r, H2. split; [lia|apply prefix_nil].
Qed.
Lemma fails_quiet W m1 (k : Z -> M Z) c : (forall ev, wp m1 c ev (fun r c' _ l => r <= 0 /\ no_output l /\ room c c' l) (fun _ _ l => no_output l)) ->
  (forall r c', zlen (c_outbuf c') = zlen (c_outbuf c) -> frame_max c' = frame_max c -> r <= 0 -> fails_after W (k r) c') -> fails_after W (bind m1 k) c.
Proof.
  intros H1 H2 ev. apply wp_bind. eapply wp_conseq; [apply H1| |auto]; cbv beta. 
  intros r c1 ev1 l1 (A1 & A2 & A3 & A4). eapply wp_conseq; [apply (H2 r c1 A3 A4 A1)| |auto]; cbv beta.
  intros r2 c2 ev2 l2 (B1 & B2). rewrite out_bytes_app, (no_output_out _ A2). auto.
Qed.
Lemma publish_refused ch ex rk ma im p body a c : zlen ex < M63 -> zlen rk < M63 -> - M31 <= ma < M31 -> - M31 <= im < M31 -> props_fine p -> zlen body < M63 ->
  roomy c -> zlen (c_outbuf c) < M31 -> content_header p body a ->
  (cannot_be_sent ch (publish_method ex rk ma im) c -> fails_after [] (amqp_basic_publish N E ch ex rk ma im p body) c) /\
  (cannot_be_sent ch a c -> fails_after (ser_frame ch (publish_method ex rk ma im)) (amqp_basic_publish N E ch ex rk ma im p body) c).
Proof.
  intros He Hk Hma Him Hp Hb [HR1 HR2] Ho Ha.
  assert (forall W,
    (forall c2, zlen (c_outbuf c2) = zlen (c_outbuf c) -> frame_max c2 = frame_max c -> fails_after W
      (bind (amqp_send_frame_inner N E (c_frame ch (publish_method ex rk ma im)) true amqp_time_infinite) (fun res => if res <? 0 then ret res else
        bind (amqp_send_frame_inner N E (c_frame ch a) (0 <? zlen body) amqp_time_infinite) (fun res => if res <? 0 then ret res else
          publish_body N E N ch body (u64 (frame_max c - 8)) 0))) c2) ->
    fails_after W (amqp_basic_publish N E ch ex rk ma im p body) c) as Hstart.
  { intros W HW ev. unfold amqp_basic_publish. change (HEADER_SIZE + FOOTER_SIZE) with 8. wstep. cbv zeta. revert ev.
    match goal with |- forall ev, wp ?m _ _ _ _ => change (fails_after W m c) end.
    apply fails_quiet. { intros ev. eapply wp_conseq; [apply (wp_split _ _ _ _ _ _ _ (silent_time_past (c_next_recv c) c ev) (past_res (c_next_recv c) c ev))| |]; cbv beta.
      - intros r c' ev' l [[-> Hq] Hr]. split; [exact Hr|]. split; [apply quiet_output, Hq|split; reflexivity].
      - intros s c' l [[-> [Hq _]] _]. apply quiet_output, Hq. }
    intros r c1 R1 R2 Hr. destruct (Z.eqb_spec r AMQP_STATUS_TIMER_FAILURE) as [->|_]; [apply fails_neg; reflexivity|].
    apply fails_quiet. { intros ev. destruct (_ =? _); [|apply wp_ret; split; [unfold AMQP_STATUS_OK; lia|split; [constructor|split; reflexivity]]].
      eapply wp_conseq; [apply (wp_split _ _ _ _ _ _ _ (try_recv_ok N E c1 ev) (room_try_recv N E c1 ev))| |]; cbv beta; tauto. }
    intros r2 c2 R3 R4 Hr2. destruct (Z.eqb_spec r2 AMQP_STATUS_TIMEOUT) as [->|_]; [apply fails_neg; reflexivity|].
    destruct (Z.eqb_spec r2 AMQP_STATUS_OK) as [->|Hn]; cbn [negb]; [|apply fails_neg; unfold AMQP_STATUS_OK in Hn; lia].
    assert (mkFrame AMQP_FRAME_HEADER ch (PHeader AMQP_BASIC_CLASS (zlen body) (match p with Some p => p | None => mkProps 0 [] end) []) 0 = c_frame ch a) as ->.
    { destruct p as [[fl ms]|]; cbn [content_header] in Ha; [destruct Ha as (pl & -> & _)|subst a]; reflexivity. }
    apply (HW c2); congruence. }
  destruct (header_ok p body a Hp Ha Hb) as [Ha1 Ha2].
  assert (aframe_ok (publish_method ex rk ma im)) as Hm by (apply publish_method_ok; assumption).
  split; intros Hc; apply Hstart; intros c2 R1 R2.
  - apply fails_now. intros ev. eapply wp_conseq; [apply sends_refused; [exact Hm|lia|discriminate|]| |]; cbv beta; auto. unfold cannot_be_sent in *. rewrite R1. exact Hc.
  - rewrite <- (app_nil_r (ser_frame ch (publish_method ex rk ma im))). apply fails_seq; [apply cuts_sends; apply (sends_frame N E ch (publish_method ex rk ma im)); [exact Hm|lia|discriminate]|].
    intros c3 R3 R4. apply fails_now. intros ev. eapply wp_conseq; [apply sends_refused; [exact Ha1|lia|intros b K; destruct (Ha2 b K)|]| |]; cbv beta; auto. unfold cannot_be_sent in *. rewrite R3, R1. exact Hc.
Qed.
End Refuse.
Theorem C53_refused :
  forall (N : nat) (E : nat -> aenv) (ch : Z) (exchange routing_key : bytes) (mandatory immediate : Z) (p : option props)
         (body : bytes) (header : aframe) (c c' : conn) (ev ev' : list event) (r : Z) (l : list obs),
    arguments_ok (Publish ch exchange routing_key mandatory immediate p body) ->
    roomy c -> zlen (c_outbuf c) < M31 -> content_header p body header ->
    amqp_basic_publish N E ch exchange routing_key mandatory immediate p body c ev = Done r c' ev' l ->
    (cannot_be_sent ch (publish_method exchange routing_key mandatory immediate) c -> r < 0 /\ out_bytes l = []) /\
    (cannot_be_sent ch header c -> r < 0 /\ prefix (out_bytes l) (ser_frame ch (publish_method exchange routing_key mandatory immediate))).
Proof.
  intros N E ch ex rk ma im p body h c c' ev ev' r l (A1 & A2 & A3 & A4 & A5 & A6) Hr Hb Hh Hrun.
  destruct (publish_refused N E ch ex rk ma im p body h c A1 A2 A3 A4 A5 A6 Hr Hb Hh) as [H1 H2]. split; intros Hc.
  - specialize (H1 Hc ev). unfold wp in H1. rewrite Hrun in H1. destruct H1 as [H1 [x Hx]]. split; [exact H1|]. destruct (out_bytes l); [reflexivity|discriminate].
  - specialize (H2 Hc ev). unfold wp in H2. rewrite Hrun in H2. exact H2.
Qed.

(** A connection with a small frame limit: a body of 70 bytes goes out in three
    frames, through a slow socket; and then through a socket that fails. *)
Definition small_conn : conn := set_in (set_outbuf (new_connection 5) (repeat x00 40)) (mkIn IDLE 40 (repeat x00 8) IHdr 0 7 (fun _ => 0%nat) 0).
Definition body_70 : bytes := repeat x61 70.
Definition a_props : props := mkProps 4096 [("delivery_mode", VInt 2)]%string.
Definition a_content : aframe := AContent 70 4096 [("delivery_mode", VInt 2)]%string [(("delivery_mode", Octet), VInt 2)]%string.
Example C40_case :
  arguments_ok (Publish 1 [x65] [x6b] 1 0 (Some a_props) body_70) /\
  roomy small_conn /\ content_header (Some a_props) body_70 a_content /\
  map zlen (pieces (frame_max small_conn) body_70) = [32; 32; 6] /\
  match amqp_basic_publish 100 plain_env 1 [x65] [x6b] 1 0 (Some a_props) body_70 small_conn
    [EvSend (SOk 5); EvSend SAgain; EvPoll PReady; EvSend (SOk 99); EvSend (SOk 99); EvSend (SOk 99); EvSend (SOk 99); EvSend (SOk 99)] with
  | Done r _ [] l => r = AMQP_STATUS_OK /\ out_bytes l = message_wire 1 (publish_method [x65] [x6b] 1 0) a_content 40 body_70 /\ zlen (out_bytes l) = 136
  | _ => False
  end /\
  match amqp_basic_publish 100 plain_env 1 [x65] [x6b] 1 0 (Some a_props) body_70 small_conn
    [EvSend (SOk 99); EvSend (SOk 99); EvSend (SOk 99); EvSend SErr] with
  | Done r _ [] l => r < 0 /\ zlen (out_bytes l) = 82
  | _ => False
  end.
Proof.
  split. { split; [reflexivity|]. split; [reflexivity|]. split; [lia|]. split; [lia|]. split; [|reflexivity]. exists [(("delivery_mode", Octet), VInt 2)]%string. split; [cbn; lia|]. split; [reflexivity|]. repeat constructor; cbn; lia. }
  split; [unfold roomy; change (frame_max small_conn) with 40; change (c_outbuf small_conn) with (repeat x00 40); change (zlen (repeat x00 40)) with 40; lia|].
  split; [eexists; split; reflexivity|]. split; [reflexivity|]. split; vm_compute; repeat split.
Qed.
(** An exchange name of 256 bytes. *)
Example C53_case : cannot_be_sent 1 (publish_method (repeat x65 256) [x6b] 1 0) small_conn.
Proof. left. vm_compute. reflexivity. Qed.

Print Assumptions C40_pieces.
Print Assumptions C40_publish.
Print Assumptions C53_incomplete_is_reported.
Print Assumptions C53_refused.
