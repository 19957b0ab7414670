(** What one call puts on the wire (for C72). *)
From Coq Require Import String ZArith List Bool Lia.
From Verif Require Import Base BaseFacts Codec TableModel TableSpec TableOps FramingStmt FramingGen FramingModel MethodSpec
  Frame FrameSpec Time Sasl Net NetApi NetSpec NetFacts NetSend NetRecv NetWalk NetAcct NetOrder NetWait NetRpc NetRoom NetWell NetTyped NetSpeak
  CallSpec Prop_Frame Prop_Send Prop_Rpc Prop_Calls Prop_Safe Prop_Publish SpeakSpec.
Import ListNotations.
Local Open Scope string_scope.
Local Open Scope list_scope.
Local Open Scope Z_scope.

Lemma sent_app F w F' w' : sent F w -> sent F' w' -> sent (F ++ F') (w ++ w').
Proof. intros H H'. induction H; cbn [app]; [exact H'| |]; rewrite <- app_assoc; constructor; assumption. Qed.
Lemma sent_beats hb : whole_beats hb -> sent [] hb.
Proof. intros [n ->]. induction n; cbn [repeat concat]; [constructor|constructor; assumption]. Qed.
Lemma sent_one b : sent [b] b.
Proof. rewrite <- (app_nil_r b) at 2. constructor. constructor. Qed.
Lemma sent_all F : sent F (concat F).
Proof. induction F; cbn [concat]; constructor; assumption. Qed.
Lemma part_nil F : part F [].
Proof. exists (concat F). split; [apply sent_all|apply prefix_nil]. Qed.
Lemma sent_part_of F w : sent F w -> part F w.
Proof. intros H. exists w. split; [exact H|apply prefix_refl]. Qed.
Lemma part_prefix F w : prefix w (concat F) -> part F w.
Proof. intros H. exists (concat F). split; [apply sent_all|exact H]. Qed.
Lemma part_after F w F' w' : sent F w -> part F' w' -> part (F ++ F') (w ++ w').
Proof. intros H (z & Hz & [y ->]). exists (w ++ w' ++ y). split; [apply sent_app; assumption|]. exists y. rewrite <- app_assoc. reflexivity. Qed.
Lemma part_beats w : beats w -> part [] w.
Proof. intros (n & p & -> & Hp). change (@nil bytes) with (@nil bytes ++ []). apply part_after; [apply sent_beats; exists n; reflexivity|].
  exists heartbeat_wire. split; [|exact Hp]. rewrite <- (app_nil_r heartbeat_wire). constructor. constructor. Qed.

Section Wire.
Context (N : nat) (E : nat -> aenv) (near : Z -> conn -> Prop) (since : Z -> list obs -> Prop) (last : Z -> list obs -> Z) (X : Z -> Prop).
Hypothesis window_app : forall T a b, since T (a ++ b) -> since T a /\ since (last T a) b.
Hypothesis last_app : forall T a b, last T (a ++ b) = last (last T a) b.
Hypothesis near_later : forall T l c, near T c -> since T l -> near (last T l) c.
Hypothesis near_fields : forall T c c', c_hb c' = c_hb c -> c_next_recv c' = c_next_recv c -> zlen (c_sbuf c') <= zlen (c_sbuf c) -> near T c -> near T c'.
Hypothesis near_recv : forall t c, sat_at (NR near since last) (recv_with_timeout N N t) c.
Hypothesis near_beat : forall c, sat_at (NR near since last) (amqp_send_frame N E heartbeat_frame) c.
Hypothesis beat_status : forall c ev, wp (amqp_send_frame N E heartbeat_frame) c ev (fun r _ _ l => forall T, near T c -> since T l -> X r -> r = AMQP_STATUS_OK) (fun _ _ _ => True).

Definition tells {A} (F : list bytes) (fine : A -> conn -> Prop) (m : M A) (c : conn) : Prop := forall ev,
  wp m c ev (fun o c' _ l => part F (out_bytes l) /\ (forall T, near T c -> since T l -> fine o c' -> sent F (out_bytes l))) (fun _ _ l => part F (out_bytes l)).
Lemma tells_map {A B} F (fine : A -> conn -> Prop) (fine' : B -> conn -> Prop) m (g : A -> B) c :
  tells F fine m c -> (forall a c', fine' (g a) c' -> fine a c') -> tells F fine' (bind m (fun a => ret (g a))) c.
Proof.
  intros H K ev. apply wp_bind. eapply wp_conseq; [apply H| |auto]; cbv beta. intros a c1 ev1 l1 [H1 H2]. apply wp_ret. rewrite app_nil_r.
  split; [exact H1|]. intros T Hn Hw Hf. eapply H2; eauto.
Qed.
Lemma tells_hum {A B} (go ok : A -> Prop) (fine : B -> conn -> Prop) m (g : A -> B) c : hum near since last go ok m c ->
  (forall a c', fine (g a) c' -> ok a) -> tells [] fine (bind m (fun a => ret (g a))) c.
Proof.
  intros H K. apply tells_map with (fine := fun a _ => ok a); [|exact K]. intros ev. eapply wp_conseq; [apply H| |]; cbv beta.
  - intros a c' ev' l (H1 & _ & H3). split; [apply part_beats, H1|]. intros T Hn Hw Hf. apply sent_beats. apply (H3 T); assumption.
  - intros s c' l H1. apply part_beats, H1.
Qed.
Lemma tells_hum_k {A B} (go ok : A -> Prop) (fine : B -> conn -> Prop) m (g : A -> B) k c : hum near since last go ok m c ->
  (forall a, k a = ret (g a)) -> (forall a c', fine (g a) c' -> ok a) -> tells [] fine (bind m k) c.
Proof.
  intros H Hk K ev. apply wp_bind. eapply wp_conseq; [apply H| |]; cbv beta.
  - intros a c' ev' l (H1 & _ & H3). rewrite Hk. apply wp_ret. rewrite app_nil_r. split; [apply part_beats, H1|]. intros T Hn Hw Hf. apply sent_beats. apply (H3 T); try assumption. eapply K, Hf.
  - intros s c' l H1. apply part_beats, H1.
Qed.
Lemma tells_quiet {A} F (fine : A -> conn -> Prop) m c : F = [] -> (forall ev, wp m c ev (fun _ _ _ l => out_bytes l = []) (fun _ _ l => out_bytes l = [])) -> tells F fine m c.
Proof.
  intros -> H ev. eapply wp_conseq; [apply H| |]; cbv beta.
  - intros a c' ev' l ->. split; [apply part_nil|intros; constructor].
  - intros s c' l ->. apply part_nil.
Qed.

Lemma part_single w b : prefix w b -> part [b] w.
Proof. intros H. apply part_prefix. cbn [concat]. rewrite app_nil_r. exact H. Qed.
Lemma tells_frame ch x more d c : aframe_ok x -> 20 <= zlen (c_outbuf c) < M31 -> (forall b, x = ABody b -> zlen b + 8 <= zlen (c_outbuf c)) -> d <= UINT64_MAX ->
  tells (single (zlen (c_outbuf c)) ch x) (fun st _ => st = AMQP_STATUS_OK \/ single (zlen (c_outbuf c)) ch x = []) (amqp_send_frame_inner N E (c_frame ch x) more d) c.
Proof.
  intros Hx Hb Hbody Hd ev. pose proof (C33_frame_reaches_the_wire N E ch x more d c ev Hx Hb Hbody Hd) as H. unfold wp.
  destruct (C10_frame_bytes ch x (c_outbuf c) Hx Hb Hbody) as (st & buf' & enc & Hf & _ & Hcase).
  unfold single. destruct (fits _ _ _) eqn:Hfit.
  - destruct (amqp_send_frame_inner _ _ _ _ _ _ _) as [r c' ev' l|s c' l].
    + destruct H as (H1 & H2 & _). split; [apply part_single, H1|]. intros _ _ _ [Hr|Hr]; [rewrite (H2 Hr); apply sent_one|discriminate Hr].
    + apply part_single, H.
  - assert (aframe_representable x = false \/ zlen (ser_frame ch x) > zlen (c_outbuf c)) as Hu.
    { apply andb_false_iff in Hfit. destruct Hfit as [G|G]; [left; exact G|right; apply Z.leb_gt in G; lia]. }
    assert (out_bytes_nil : match amqp_send_frame_inner N E (c_frame ch x) more d c ev with Done r _ _ l => out_bytes l = [] | Halt _ _ l => out_bytes l = [] end).
    { pose proof (send_frame_ok N E (c_frame ch x) more d c ev Hd) as K. unfold wp in K.
      destruct (amqp_send_frame_inner _ _ _ _ _ _ _) as [r c' ev' l|s c' l]; [apply H, Hu|].
      destruct K as [(_ & _ & _ & ->)|(buf & enc' & Hf' & Hp)]; [reflexivity|]. rewrite Hf in Hf'. injection Hf' as -> <- <-.
      destruct Hcase as [(_ & _ & G1 & G2 & _)|(G & _)]; [destruct Hu; [congruence|lia]|discriminate G]. }
    destruct (amqp_send_frame_inner _ _ _ _ _ _ _) as [r c' ev' l|s c' l]; rewrite out_bytes_nil; [split; [apply part_nil|intros; constructor]|apply part_nil].
Qed.
Lemma tells_rpc ch c i fs ids m conn : In (c, i, fs) catalogue -> well_typed fs m -> 20 <= zlen (c_outbuf conn) < M31 ->
  tells (single (zlen (c_outbuf conn)) ch (AMethod c i fs m)) (fun r _ => fine_reply r \/ single (zlen (c_outbuf conn)) ch (AMethod c i fs m) = [])
    (amqp_simple_rpc N E ch (method_id c i) ids m) conn.
Proof.
  intros Hc Hm Hb ev.
  destruct (C10_frame_bytes ch (AMethod c i fs m) (c_outbuf conn) (conj Hc Hm) Hb ltac:(discriminate)) as (st & buf' & enc' & Hf & _ & Hcase).
  change (c_frame ch (AMethod c i fs m)) with (method_frame ch (method_id c i) m) in Hf.
  assert (forall l, request_sent ch (method_id c i) m conn l -> part (single (zlen (c_outbuf conn)) ch (AMethod c i fs m)) (out_bytes l) /\
    (single (zlen (c_outbuf conn)) ch (AMethod c i fs m) = [] -> out_bytes l = [])) as HP.
  { intros l [->|(buf & enc & Hf' & H)]; [split; [apply part_nil|reflexivity]|]. rewrite Hf in Hf'. injection Hf' as -> <- <-.
    destruct Hcase as [(_ & -> & G1 & G2 & _)|(G & _)]; [|discriminate G].
    assert (single (zlen (c_outbuf conn)) ch (AMethod c i fs m) = [ser_frame ch (AMethod c i fs m)]) as ->.
    { unfold single, fits. rewrite G1. apply Z.leb_le in G2. rewrite G2. reflexivity. }
    split; [|discriminate]. destruct H as [H|(hb & Hh & ->)]; [apply part_single, H|].
    change [ser_frame ch (AMethod c i fs m)] with ([ser_frame ch (AMethod c i fs m)] ++ []). apply part_after; [apply sent_one|apply part_beats, Hh]. }
  assert (zlen (c_outbuf conn) < M31) as Hb' by lia.
  eapply wp_conseq; [apply (wp_split _ _ _ _ _ _ _ (simple_rpc_sends N E ch (method_id c i) ids m conn ev) (simple_rpc_ok N E ch (method_id c i) ids m conn ev Hb'))| |]; cbv beta.
  - intros r c' ev' l [Hs Ho]. destruct (HP l Hs) as [HP1 HP2]. split; [exact HP1|]. intros _ _ _ [Hr|Hr].
    + assert (is_reply r = true) as Hir by (destruct r; [destruct Hr|reflexivity|destruct Hr|reflexivity]).
      destruct (rpc_sends _ _ _ _ _ _ _ _ Ho Hir) as (buf & enc & hb & G1 & G2 & G3). rewrite Hf in G1. injection G1 as -> <- <-.
      destruct Hcase as [(_ & -> & K1 & K2 & _)|(G & _)]; [|discriminate G]. rewrite G3.
      unfold single, fits. rewrite K1. apply Z.leb_le in K2. rewrite K2. cbn [andb].
      change [ser_frame ch (AMethod c i fs m)] with ([ser_frame ch (AMethod c i fs m)] ++ []). apply sent_app; [apply sent_one|apply sent_beats, G2].
    + rewrite (HP2 Hr), Hr. constructor.
  - intros s c' l [Hs _]. apply HP, Hs.
Qed.
Lemma tells_send_method ch c i fs m conn : In (c, i, fs) catalogue -> well_typed fs m -> 20 <= zlen (c_outbuf conn) < M31 ->
  tells (single (zlen (c_outbuf conn)) ch (AMethod c i fs m)) (fun st _ => st = AMQP_STATUS_OK \/ single (zlen (c_outbuf conn)) ch (AMethod c i fs m) = [])
    (amqp_send_method N E ch (method_id c i) m) conn.
Proof.
  intros Hc Hm Hb. unfold amqp_send_method, amqp_send_method_inner.
  change (mkFrame AMQP_FRAME_METHOD ch (PMethod (method_id c i) m) 0) with (c_frame ch (AMethod c i fs m)).
  apply tells_frame; [split; assumption|exact Hb|discriminate|apply Z.le_refl].
Qed.
Lemma tells_recent {A} F (fine : A -> conn -> Prop) (m : M rpc_reply_t) (g : rpc_reply_t -> A) c :
  tells F (fun r _ => fine_reply r \/ F = []) m c -> (forall r c', c_recent c' = r -> fine (g r) c' -> fine_reply r \/ F = []) ->
  tells F fine (bind m (fun r => bind (upd (fun c => set_recent c r)) (fun _ => ret (g r)))) c.
Proof.
  intros H K ev. apply wp_bind. eapply wp_conseq; [apply H| |auto]; cbv beta. intros r c1 ev1 l1 [H1 H2].
  apply wp_upd_bind, wp_ret. rewrite !app_nil_r. split; [exact H1|]. intros T Hn Hw Hf. apply (H2 T); try assumption. eapply K; [|exact Hf]. reflexivity.
Qed.

Lemma close_request_typed code : 0 <= code <= 65535 ->
  well_typed [("reply_code", Short); ("reply_text", ShortStr); ("class_id", Short); ("method_id", Short)] (close_request code).
Proof.
  intros Hr. unfold close_request, well_typed. constructor; [split; [reflexivity|cbn; lia]|]. constructor; [split; [reflexivity|]|].
  - cbn [snd dom_val]. assert (forall f z, zlen (digits f z) <= Z.of_nat f) as G.
    { induction f as [|f IHf]; intros z; cbn [digits]; [change (zlen (@nil byte)) with 0; lia|]. rewrite zlen_app. change (zlen [byte_of_Z (48 + z mod 10)]) with 1.
      destruct (z <? 10); [change (zlen (@nil byte)) with 0; lia|]. specialize (IHf (z / 10)). lia. }
    specialize (G 5%nat code). lia.
  - constructor; [split; [reflexivity|cbn; lia]|]. constructor; [split; [reflexivity|cbn; lia]|]. constructor.
Qed.
Lemma ser_concat l : ser l = concat (map (fun p => ser_frame (fst p) (snd p)) l).
Proof. induction l as [|[ch x] l IH]; [reflexivity|]. cbn [map concat fst snd]. rewrite <- IH. reflexivity. Qed.
Lemma content_exists p body : props_fine p -> exists h, content_header p body h.
Proof.
  destruct p as [p|]; cbn [props_fine content_header]; [|eexists; reflexivity]. intros (pl & _ & H & _). eexists. exists pl. split; [reflexivity|exact H].
Qed.
Lemma mute_tells {A} F (fine : A -> conn -> Prop) P m c : F = [] -> mute near since last P m c -> tells F fine m c.
Proof. intros HF H. apply tells_quiet; [exact HF|]. intros ev. eapply wp_conseq; [apply H| |]; cbv beta; [intros ? ? ? ? (H1 & _); exact H1|auto]. Qed.

Lemma tells_exec a c : keeps_limits a -> arguments_ok a -> roomy c -> zlen (c_outbuf c) < M31 ->
  exists F, asks (frame_max c) (zlen (c_outbuf c)) a F /\ tells F (fun o c' => in_step X F a (o, c_recent c')) (exec N E a) c.
Proof.
  intros Hk Ha Hr Hb. assert (20 <= zlen (c_outbuf c) < M31) as Hbb by (destruct Hr; lia).
  assert (AK : forall i fs m ch, In (60, i, fs) catalogue -> well_typed fs m ->
    exists F, F = single (zlen (c_outbuf c)) ch (AMethod 60 i fs m) /\
      tells F (fun st _ => st = AMQP_STATUS_OK \/ F = []) (amqp_send_method N E ch (method_id 60 i) m) c).
  { intros i fs m ch H1 H2. eexists. split; [reflexivity|]. apply tells_send_method; assumption. }
  destruct a; cbn [keeps_limits arguments_ok asks exec] in *; try contradiction.
  - (* SendHeader *)
    eexists. split; [reflexivity|]. eapply tells_map; [|intros st c'; cbn [in_step fst]; exact (fun K => K)].
    intros ev. pose proof (C34_send_header N c ev) as H. unfold wp. destruct (amqp_send_header N c ev) as [r c' ev' l|s c' l].
    + destruct H as (_ & H1 & H2). split; [apply part_single, H1|]. intros _ _ _ [->|K]; [|discriminate K].
      destruct H2 as [(_ & ->)|H2]; [apply sent_one|unfold AMQP_STATUS_OK in H2; lia].
    + apply part_single, H.
  - (* SendFrame *)
    destruct Ha as (ch & x & -> & Hx & Hbody). eexists. split; [exists ch, x; auto|].
    eapply tells_map; [apply tells_frame; [exact Hx|exact Hbb|intros b K; destruct (Hbody b K)|apply Z.le_refl]|]. intros st c'. cbn [in_step fst]. exact (fun K => K).
  - (* SendMethod *)
    destruct Ha as (c0 & i & fs & Hin & -> & Hw). eexists. split; [exists c0, i, fs; auto|].
    eapply tells_map; [apply tells_send_method; eassumption|]. intros st c'. cbn [in_step fst]. exact (fun K => K).
  - (* WaitFrame *)
    eexists. split; [reflexivity|]. eapply (tells_hum_k got (gotX X)) with (g := fun p => OutFrame (fst p) (snd p)); [apply hum_noblock; assumption|intros [? ?]; reflexivity|].
    intros [r f] c'. cbn [in_step fst snd]. exact (fun K => K).
  - (* WaitMethod *)
    eexists. split; [reflexivity|]. eapply (tells_hum_k got (gotX X)) with (g := fun p => OutMethod (fst p) (fst (snd p)) (snd (snd p)));
      [unfold amqp_simple_wait_method, simple_wait_method_inner; apply hum_method_list; assumption|intros [? [? ?]]; reflexivity|].
    intros [r f] c'. cbn [in_step fst snd]. exact (fun K => K).
  - (* Rpc *)
    destruct Ha as (c0 & i & fs & Hin & -> & Hw). eexists. split; [exists c0, i, fs; auto|].
    eapply tells_map; [apply tells_rpc; eassumption|]. intros r c'. cbn [in_step fst]. exact (fun K => K).
  - (* Call *)
    destruct Ha as [Hw Hg]. destruct (call_request w args Hw Hg) as (c0 & i & c' & i' & fs & m & H1 & H2 & H3 & H4 & H5 & H6 & H7 & H8).
    exists (single (zlen (c_outbuf c)) channel (AMethod c0 i fs m)). split; [exists c0, i, (c', i'), fs, m; auto|].
    eapply (tells_map _ (fun o c' => in_step X (single (zlen (c_outbuf c)) channel (AMethod c0 i fs m)) (Call w channel args) (OutDecoded o, c_recent c'))); [|auto].
    unfold amqp_call. rewrite H8, H5, H6. unfold amqp_simple_rpc_decoded.
    eapply tells_recent with (g := fun r => match r with RNormal _ m => Some m | _ => None end); [apply tells_rpc; eassumption|].
    intros r c1 Hc1. cbn [in_step fst snd]. rewrite Hc1. exact (fun K => K).
  - (* ChannelClose *)
    unfold amqp_channel_close. destruct (Z.ltb_spec code 0) as [L1|L1].
    { exists []. split; [destruct (Z.leb_spec 0 code); [lia|reflexivity]|]. cbn [orb]. eapply mute_tells; [reflexivity|].
      eapply mute_bind with (P := fun _ => True); [exact window_app|exact last_app|apply (mute_ret near since last near_later); exact I|]. intros. apply (mute_ret near since last near_later (fun _ => True)). exact I. }
    destruct (Z.ltb_spec 65535 code) as [L2|L2]; cbn [orb].
    { exists []. split; [destruct (Z.leb_spec 0 code), (Z.leb_spec code 65535); try lia; reflexivity|]. eapply mute_tells; [reflexivity|].
      eapply mute_bind with (P := fun _ => True); [exact window_app|exact last_app|apply (mute_ret near since last near_later); exact I|]. intros. apply (mute_ret near since last near_later (fun _ => True)). exact I. }
    exists (single (zlen (c_outbuf c)) channel (close_method 20 40 code (digits 5 code))). split.
    { destruct (Z.leb_spec 0 code), (Z.leb_spec code 65535); try lia. cbn [andb]. exists (digits 5 code). split; [apply digits_ok; change (10 ^ Z.of_nat 5) with 100000; lia|reflexivity]. }
    eapply tells_map; [apply (tells_rpc channel 20 40 _ _ (close_request code)); [apply cat_in; reflexivity|apply close_request_typed; lia|exact Hbb]|].
    intros r c'. cbn [in_step fst]. exact (fun K => K).
  - (* ConnectionClose *)
    unfold amqp_connection_close. destruct (Z.ltb_spec code 0) as [L1|L1].
    { exists []. split; [destruct (Z.leb_spec 0 code); [lia|reflexivity]|]. cbn [orb]. eapply mute_tells; [reflexivity|].
      eapply mute_bind with (P := fun _ => True); [exact window_app|exact last_app|apply (mute_ret near since last near_later); exact I|]. intros. apply (mute_ret near since last near_later (fun _ => True)). exact I. }
    destruct (Z.ltb_spec 65535 code) as [L2|L2]; cbn [orb].
    { exists []. split; [destruct (Z.leb_spec 0 code), (Z.leb_spec code 65535); try lia; reflexivity|]. eapply mute_tells; [reflexivity|].
      eapply mute_bind with (P := fun _ => True); [exact window_app|exact last_app|apply (mute_ret near since last near_later); exact I|]. intros. apply (mute_ret near since last near_later (fun _ => True)). exact I. }
    exists (single (zlen (c_outbuf c)) 0 (close_method 10 50 code (digits 5 code))). split.
    { destruct (Z.leb_spec 0 code), (Z.leb_spec code 65535); try lia. cbn [andb]. exists (digits 5 code). split; [apply digits_ok; change (10 ^ Z.of_nat 5) with 100000; lia|reflexivity]. }
    eapply tells_map; [apply (tells_rpc 0 10 50 _ _ (close_request code)); [apply cat_in; reflexivity|apply close_request_typed; lia|exact Hbb]|].
    intros r c'. cbn [in_step fst]. exact (fun K => K).
  - (* Publish *)
    destruct Ha as (A1 & A2 & A3 & A4 & A5 & A6). destruct (content_exists _ body A5) as [h Hh]. eexists. split; [exists h; split; [exact Hh|reflexivity]|].
    eapply tells_map; [|intros st c'; cbn [in_step fst]; exact (fun K => K)].
    match goal with |- tells ?F _ _ _ => assert (HF : concat F = message_wire channel (publish_method exchange routing_key mandatory immediate) h (frame_max c) body) end.
    { unfold message_wire. rewrite ser_concat. cbn [map fst snd]. rewrite map_map. reflexivity. }
    intros ev. eapply wp_conseq; [apply (publish_ok N E channel _ _ _ _ _ body h c A1 A2 A3 A4 A5 A6 Hr Hb Hh ev)| |]; cbv beta.
    + intros r c' ev' l (_ & H2 & H3 & _). split; [apply part_prefix; rewrite HF; exact H2|]. intros _ _ _ [K|K]; [|discriminate K].
      rewrite (H3 K), <- HF. apply sent_all.
    + intros s c' l H2. apply part_prefix. rewrite HF. exact H2.
  - (* Ack *)
    destruct (AK 80 [("delivery_tag", Longlong); ("multiple", Bit)] [("delivery_tag", VInt tag); ("multiple", VBool multiple)] channel) as (F & HF & HT);
      [apply cat_in; reflexivity|unfold well_typed; repeat (constructor; [split; [reflexivity|cbn [snd dom_val]; lia]|]); constructor|].
    exists F. split; [exact HF|]. eapply tells_map; [exact HT|]. intros st c'. cbn [in_step fst]. exact (fun K => K).
  - (* Nack *)
    destruct (AK 120 [("delivery_tag", Longlong); ("multiple", Bit); ("requeue", Bit)] [("delivery_tag", VInt tag); ("multiple", VBool multiple); ("requeue", VBool requeue)] channel) as (F & HF & HT);
      [apply cat_in; reflexivity|unfold well_typed; repeat (constructor; [split; [reflexivity|cbn [snd dom_val]; lia]|]); constructor|].
    exists F. split; [exact HF|]. eapply tells_map; [exact HT|]. intros st c'. cbn [in_step fst]. exact (fun K => K).
  - (* Reject *)
    destruct (AK 90 [("delivery_tag", Longlong); ("requeue", Bit)] [("delivery_tag", VInt tag); ("requeue", VBool requeue)] channel) as (F & HF & HT);
      [apply cat_in; reflexivity|unfold well_typed; repeat (constructor; [split; [reflexivity|cbn [snd dom_val]; lia]|]); constructor|].
    exists F. split; [exact HF|]. eapply tells_map; [exact HT|]. intros st c'. cbn [in_step fst]. exact (fun K => K).
  - (* BasicGet *)
    eexists. split; [reflexivity|]. match goal with |- tells ?F ?fine _ _ => eapply (tells_map F (fun r c' => fine (OutReply r) c')); [|auto] end.
    unfold amqp_basic_get. eapply tells_recent with (g := fun r => r).
    + apply (tells_rpc channel 60 70); [apply cat_in; reflexivity|unfold well_typed; repeat (constructor; [split; [reflexivity|cbn [snd dom_val]; lia]|]); constructor|exact Hbb].
    + intros r c1 Hc1. cbn [in_step fst snd]. exact (fun K => K).
  - (* ReadMessage *)
    eexists. split; [reflexivity|]. eapply (tells_hum_k never (fineX X)) with (g := fun p => OutMessage (fst p) (snd p)); [apply hum_read; assumption|intros [? ?]; reflexivity|].
    intros [r f] c'. cbn [in_step fst snd]. unfold fineX, fine_wait. cbn [fst]. exact (fun K => K).
  - (* ConsumeMessage *)
    eexists. split; [reflexivity|]. eapply (tells_hum_k never (fineX X)) with (g := fun p => OutEnvelope (fst p) (snd p)); [apply hum_consume_message; assumption|intros [? ?]; reflexivity|].
    intros [r f] c'. cbn [in_step fst snd]. unfold fineX, fine_wait. cbn [fst]. exact (fun K => K).
  - (* ConfirmWait *)
    eexists. split; [reflexivity|]. eapply (tells_hum_k never (fineX X)) with (g := fun p => OutConfirm (fst p) (snd p)); [apply hum_confirm; assumption|intros [? ?]; reflexivity|].
    intros [r f] c'. cbn [in_step fst snd]. unfold fineX, fine_wait. cbn [fst]. exact (fun K => K).
  - exists []. split; [reflexivity|]. apply tells_quiet; [reflexivity|]. intros ev. apply wp_bind. unfold amqp_release_buffers. apply wp_get_bind. destruct (i_state _); try (apply wp_halt; reflexivity).
    destruct (negb _); [apply wp_halt; reflexivity|apply wp_upd, wp_ret; reflexivity].
  - exists []. split; [reflexivity|]. apply tells_quiet; [reflexivity|]. intros ev. apply wp_bind. unfold amqp_maybe_release_buffers. apply wp_get_bind. destruct (amqp_release_buffers_ok c); [|apply wp_ret, wp_ret; reflexivity].
    unfold amqp_release_buffers. apply wp_get_bind. destruct (i_state _); try (apply wp_halt; reflexivity).
    destruct (negb _); [apply wp_halt; reflexivity|apply wp_upd, wp_ret; reflexivity].
  - exists []. split; [reflexivity|]. eapply mute_tells; [reflexivity|]. eapply mute_bind with (P := fun _ => True); [exact window_app|exact last_app| |].
    + eapply mute_conseq; [apply mute_release_on; assumption|auto].
    + intros. apply (mute_ret near since last near_later (fun _ => True)). exact I.
  - exists []. split; [reflexivity|]. apply tells_quiet; [reflexivity|]. intros ev. reflexivity.
  - exists []. split; [reflexivity|]. apply tells_quiet; [reflexivity|]. intros ev. reflexivity.
Qed.

Hypothesis near_exec : forall a c, keeps_limits a -> sat_at (NR near since last) (exec N E a) c.
(** a whole history, and one more call *)
Lemma tells_all calls : forall c, Forall keeps_limits calls -> Forall arguments_ok calls -> roomy c -> zlen (c_outbuf c) < M31 ->
  forall ev os c' ev' l, exec_told N E calls c ev = Done os c' ev' l ->
  exists Fs, Forall2 (asks (frame_max c) (zlen (c_outbuf c))) calls Fs /\ room c c' l /\
    (forall T, near T c -> since T l -> near (last T l) c' /\ (all_in_step X Fs calls os -> sent (concat Fs) (out_bytes l))).
Proof.
  induction calls as [|a calls IH]; intros c Hk Ha Hr Hb ev os c' ev' l Hrun; cbn [exec_told] in Hrun.
  - injection Hrun as <- <- <- <-. exists []. split; [constructor|]. split; [split; reflexivity|]. intros T Hn Hw. split; [apply near_later; assumption|]. intros _. constructor.
  - pose proof (Forall_inv Hk) as Hka. pose proof (Forall_inv Ha) as Haa.
    destruct (tells_exec a c Hka Haa Hr Hb) as (F & HF & HT). specialize (HT ev).
    pose proof (room_exec N E a c Hka ev) as HR. pose proof (near_exec a c Hka ev) as HN.
    unfold wp in *. unfold bind at 1 in Hrun. destruct (exec N E a c ev) as [o c1 ev1 l1|s c1 l1]; [|discriminate Hrun].
    unfold bind, get in Hrun. cbn [app] in Hrun.
    destruct (exec_told N E calls c1 ev1) as [os2 c2 ev2 l2|s c2 l2] eqn:E2; [|discriminate Hrun]. cbn [ret] in Hrun. unfold ret in Hrun. cbn [app] in Hrun.
    assert (os = (o, c_recent c1) :: os2 /\ c' = c2 /\ l = l1 ++ l2) as (-> & -> & ->) by (rewrite app_nil_r in Hrun; injection Hrun; auto).
    destruct HR as [R1 R2].
    destruct (IH c1 (Forall_inv_tail Hk) (Forall_inv_tail Ha)) with (ev := ev1) (os := os2) (c' := c2) (ev' := ev2) (l := l2) as (Fs & G1 & [G2 G3] & G4);
      [unfold roomy in *; rewrite R1, R2; exact Hr|lia|exact E2|].
    rewrite R1, R2 in G1. exists (F :: Fs). split; [constructor; assumption|]. split; [split; congruence|].
    intros T Hn Hw. apply window_app in Hw. destruct Hw as [W1 W2]. rewrite last_app. pose proof (HN T Hn W1) as Hn1. destruct (G4 _ Hn1 W2) as [Hn2 G5]. split; [exact Hn2|].
    cbn [all_in_step]. intros [HI1 HI2]. cbn [concat]. rewrite out_bytes_app.
    apply sent_app; [eapply HT; eassumption|apply G5, HI2].
Qed.
End Wire.
