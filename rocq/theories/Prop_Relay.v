(** C43: what is published is what is consumed. *)
From Coq Require Import String ZArith List Bool Lia.
From Verif Require Import Base BaseFacts Codec TableModel TableSpec TableOps FramingStmt FramingGen FramingModel MethodSpec
  Frame FrameSpec Time Sasl Net NetApi NetSpec NetFacts NetSend NetRecv NetWalk NetAcct NetOrder NetWait NetOff NetCalls EncStatus NetRpc NetOffAll NetChan NetTyped NetRx NetWell Queue
  Prop_Frame Prop_Send Prop_Release Prop_Rpc Prop_Queue Prop_Consume Prop_Receive Prop_Safe Prop_Message Prop_Publish.
Import ListNotations.
Local Open Scope Z_scope.

(** ** Vocabulary *)
(** the method basic.deliver (60, 60) *)
Definition deliver_method (ctag : bytes) (dtag redelivered : Z) (ex rk : bytes) : aframe :=
  AMethod 60 60 [("consumer_tag", ShortStr); ("delivery_tag", Longlong); ("redelivered", Bit); ("exchange", ShortStr); ("routing_key", ShortStr)]%string
    (deliver_args ctag dtag redelivered ex rk).
(** The stream [fs] of a broker that relays a message on channel [ch]: the first
    frame that is no heartbeat is the method; the next frames on this channel are the
    content header and body frames with the fragments; anything may come between them
    on other channels, and anything after them. *)
Definition relays (ch : Z) (method header : aframe) (fragments : list bytes) (fs : list (Z * aframe)) : Prop :=
  exists rest more,
    filter carries_data fs = (ch, method) :: rest /\
    filter (fun ca => fst ca =? ch) rest = (ch, header) :: map (fun b => (ch, ABody b)) fragments ++ more.
(** the properties the receiver gets for a content header *)
Definition received_content (a : aframe) : props :=
  match a with AContent _ flags _ pl => mkProps (wire_flags flags) (received_props pl) | _ => mkProps 0 [] end.

(** ** Proof *)
Lemma received_chan f ca : received f ca -> f_chan f = fst ca.
Proof. intros [gen ->]. reflexivity. Qed.
Lemma received_kind f ca : received f ca -> f_type f = type_of (snd ca).
Proof. intros [gen ->]. reflexivity. Qed.
Lemma received_filter ch fs cas : Forall2 received fs cas ->
  Forall2 received (filter (fun f => f_chan f =? ch) fs) (filter (fun ca => fst ca =? ch) cas).
Proof.
  induction 1 as [|f ca fs cas H _ IH]; [constructor|]. cbn [filter]. rewrite (received_chan _ _ H). destruct (_ =? _); [constructor; assumption|exact IH].
Qed.
Lemma on_cons ch f fs : f_chan f = ch -> f_type f <> 8 -> on ch (f :: fs) = f :: on ch fs.
Proof.
  intros Hc Ht. unfold on, no_hb, is_heartbeat. cbn [filter]. destruct (Z.eqb_spec (f_type f) 8); [contradiction|]. cbn [negb filter]. rewrite Hc, Z.eqb_refl. reflexivity.
Qed.
Lemma prefix_filter {A} p (a b : list A) : filter p (a ++ b) = filter p a ++ filter p b.
Proof. apply filter_app. Qed.

(** the frames received are those of the beginning of the list *)
Definition got (fs : list frame) (cas : list (Z * aframe)) : Prop := exists n, Forall2 received fs (firstn n cas).
Lemma got_cons f fs cas : got (f :: fs) cas -> exists ca cas', cas = ca :: cas' /\ received f ca /\ got fs cas'.
Proof. intros [[|n] H]; [inversion H|]. destruct cas as [|ca cas]; [inversion H|]. cbn [firstn] in H. inversion H; subst. exists ca, cas. split; [reflexivity|]. split; [assumption|]. exists n. assumption. Qed.
Lemma body_relayed ch size k fs r bs : body_outcome ch size k fs r bs -> forall frags more q,
  got (on ch fs ++ q) (map (fun b => (ch, ABody b)) frags ++ more) -> k + zlen (concat frags) = size ->
  (r = RNormal 0 [] /\ concat bs = concat frags) \/ exists st, st < 0 /\ r = RLibrary st.
Proof.
  induction 1 as [|k f b fs r bs Hk Hf Hz _ IH|k f id args Hk Hf|k f Hk|k f b Hk|k st Hk Hst]; intros frags more q HG HE.
  - left. split; [reflexivity|]. assert (concat frags = []) as -> by (apply length_zero_iff_nil; unfold zlen in HE; lia). reflexivity.
  - destruct frags as [|b' frags]; [change (zlen (concat [])) with 0 in HE; lia|]. destruct Hf as (F1 & F2 & F3). rewrite (on_cons ch f fs F2) in HG by lia. cbn [app map] in HG.
    destruct (got_cons _ _ _ HG) as (ca & cas & Hc & [gen Hr] & HG'). injection Hc as <- <-. rewrite Hr in F3. cbn in F3. injection F3 as ->.
    cbn [concat] in HE. rewrite zlen_app in HE. destruct (IH frags more q HG' ltac:(lia)) as [[-> IH1]|IH1]; [left|right; exact IH1]. split; [reflexivity|]. cbn [concat]. rewrite IH1. reflexivity.
  - exfalso. destruct frags as [|b' frags]; [change (zlen (concat [])) with 0 in HE; lia|]. destruct Hf as (F1 & F2 & _). rewrite (on_cons ch f [] F1) in HG by lia. cbn [app map] in HG.
    destruct (got_cons _ _ _ HG) as (ca & cas & Hc & [gen Hr] & HG'). injection Hc as <- <-. rewrite Hr in F2. discriminate.
  - right. exists AMQP_STATUS_BAD_AMQP_DATA. split; [unfold AMQP_STATUS_BAD_AMQP_DATA; lia|reflexivity].
  - right. exists AMQP_STATUS_BAD_AMQP_DATA. split; [unfold AMQP_STATUS_BAD_AMQP_DATA; lia|reflexivity].
  - right. eauto.
Qed.
Lemma message_relayed ch pb taken r m : message_outcome ch pb taken r m -> forall size flags ms pl frags more q,
  let header := AContent size flags ms pl in
  got (on ch taken ++ q) ((ch, header) :: map (fun b => (ch, ABody b)) frags ++ more) -> zlen (concat frags) = size ->
  (r = RNormal 0 [] /\ m = Some (mkMsg (received_content header) (concat frags))) \/ (m = None /\ exists st, st < 0 /\ r = RLibrary st).
Proof.
  intros H size flags ms pl frags more q header. destruct H as [h sz p fs r bs Hh Hs Hb|f id args Hf|f|st Hst|h sz p st Hh Hst]; intros HG HE.
  - destruct Hh as (F1 & F2 & cls & enc & F3). rewrite (on_cons ch h fs F2) in HG by lia. cbn [app] in HG. destruct (got_cons _ _ _ HG) as (ca & cas & Hc & [gen Hr] & HG').
    injection Hc as <- <-. rewrite Hr in F3. cbn in F3. injection F3 as _ -> <- _. destruct (body_relayed _ _ _ _ _ _ Hb frags more q HG' HE) as [[-> E1]|(st & E1 & ->)].
    + left. split; [reflexivity|]. cbn [if_normal]. rewrite E1. reflexivity.
    + right. split; [reflexivity|]. eauto.
  - exfalso. destruct Hf as (F1 & F2 & _). rewrite (on_cons ch f [] F1) in HG by lia. destruct (got_cons _ _ _ HG) as (ca & cas & Hc & [gen Hr] & HG').
    injection Hc as <- <-. rewrite Hr in F2. discriminate.
  - right. split; [reflexivity|]. eexists. split; [|reflexivity]. reflexivity.
  - right. split; [reflexivity|]. eauto.
  - right. split; [reflexivity|]. exists st. split; [|reflexivity]. destruct Hst as [->| ->]; reflexivity.
Qed.
Lemma received_basic f ca : received f ca -> basic_content f.
Proof. intros [gen ->]. unfold basic_content, received_frame. destruct ca as [ch []]; cbn; try lia. Qed.

(** ** C43 *)
(** The consumer, for every segmentation and interleaving: on a connection without
    heartbeats (or when no unread bytes are overwritten, see C35) and with nothing
    pending, the call returns exactly the message, or fails. *)
Theorem C43_consumed :
  forall (N : nat) (E : nat -> aenv) (timeout : option timeval) (c c' : conn) (ev ev' : list event) (l : list obs)
         (r : rpc_reply_t) (e : option envelope) (fs : list (Z * aframe))
         (ch : Z) (ctag : bytes) (dtag redelivered : Z) (ex rk : bytes) (flags : Z) (ms : mstruct) (pl : list (string * dom * mval)) (fragments : list bytes),
    let body := concat fragments in
    let header := AContent (zlen body) flags ms pl in
    off c \/ no_lost l -> c_queue c = [] -> idle (c_in c) -> c_sbuf c = [] -> 0 <= frame_max c < M30 -> zlen (c_outbuf c) < M31 -> never_fails E ->
    redelivered = 0 \/ redelivered = 1 ->
    Forall (good_frame (frame_max c)) fs -> relays ch (deliver_method ctag dtag redelivered ex rk) header fragments fs ->
    amqp_consume_message N E timeout c ev = Done (r, e) c' ev' l ->
    prefix (in_bytes l) (ser fs) -> no_oom_obs l ->
    (r = RNormal 0 [] /\ e = Some (mkEnv ch ctag dtag redelivered ex rk (mkMsg (received_content header) body))) \/
    (e = None /\ exists st, st < 0 /\ r = RLibrary st).
Proof.
  intros N E t c c' ev ev' l r e fs ch ct dt rd ex rk flags ms pl frags body header Hoff Hq Hi Hs Hf Hb HE Hrd HG (rest & more & R1 & R2) Hrun HP Ho.
  assert (exec N E (ConsumeMessage t) c ev = Done (OutEnvelope r e) c' ev' l) as Hx. { cbn [exec]. unfold bind. rewrite Hrun. cbn [ret]. rewrite app_nil_r. reflexivity. }
  pose proof (of_exec_all N E [ConsumeMessage t] c ltac:(repeat constructor) ev) as O2. cbn [exec_all] in O2.
  assert (no_lost l) as NL. { destruct Hoff as [Hoff|NL]; [|exact NL]. specialize (O2 Hoff). unfold wp, bind at 1 in O2. rewrite Hx in O2. cbn [ret bind] in O2. destruct O2 as (_ & O2 & _). rewrite ?app_nil_r in O2. exact O2. } clear O2.
  pose proof (well_exec N E (ConsumeMessage t) c I ev) as W. unfold wp in W. rewrite Hx in W.
  destruct (W (frame_max c) [] fs HE (idle_pos E _ Hi Hf)) as (a & fs1 & fs2 & -> & _ & _ & _ & F & _); auto.
  { rewrite Hs. exact SBUF_nil. }
  { rewrite Hs. exact HP. }
  assert (Forall basic_content (frames l)) as HB. { clear -F. induction F; constructor; [eapply received_basic; eassumption|assumption]. }
  destruct (session_content N E [] (ConsumeMessage t) c c c' ev ev ev' [] _ [] l ltac:(constructor) I Hi Hq Hf Hb eq_refl Hx HB) as (S1 & S2 & S3).
  pose proof (C48_consume_message N E t c c' ev ev' l r e S1 S2 S3 Hrun Ho NL) as HC.
  apply received_no_hb in F. rewrite filter_app in R1.
  destruct HC as [f ct' dt' rd' ex' rk' rst l1 l2 taken r m -> Hn Hcar HM Hon|f rst Hn Hno Hag|st Hst HQ].
  2:{ right. split; [reflexivity|]. eexists; split; [|reflexivity]; reflexivity. }
  2:{ right. split; [reflexivity|]. eauto. }
  unfold next_frame, queued in Hn. rewrite Hq in Hn. destruct Hn as [[Hn _]|(_ & Ht & pre & Hp & Hr)]; [discriminate|].
  apply no_lost_app in NL. destruct NL as [NL1 NL2]. destruct (Hr NL1) as [Hpre ->]. rewrite frames_app, Hp, <- app_assoc, !no_hb_app, Hpre in F. cbn [app] in F.
  assert (no_hb [f] = [f]) as Hf1. { unfold no_hb, is_heartbeat. cbn [filter]. destruct (Z.eqb_spec (f_type f) 8); [contradiction|reflexivity]. } rewrite Hf1 in F. cbn [app] in F.
  destruct (filter carries_data fs1) as [|ca cas]; [inversion F|]. inversion F as [|? ? ? ? [gen Hrf] F2]; subst. cbn [app] in R1. injection R1 as -> R1.
  cbn [fst snd] in *. destruct Hcar as (_ & Hpay & _). cbn in Hpay. injection Hpay as <- <- <- <- <-. cbn [received_frame f_chan] in *.
  apply (received_filter ch) in F2. fold (on ch (frames l2)) in F2. cbn [app] in Hon.
  assert (got (on ch (frames l2)) ((ch, header) :: map (fun b => (ch, ABody b)) frags ++ more)) as HGot.
  { rewrite <- R2, <- R1, filter_app. exists (length (filter (fun ca => fst ca =? ch) cas)). rewrite firstn_app, Nat.sub_diag, firstn_all, firstn_O, app_nil_r. exact F2. }
  rewrite Hon in HGot. destruct (message_relayed _ _ _ _ _ HM (zlen body) flags ms pl frags more _ HGot eq_refl) as [[-> ->]|[-> HR]].
  - left. split; [reflexivity|]. destruct Hrd as [->| ->]; reflexivity.
  - right. split; [reflexivity|exact HR].
Qed.

(** End to end: when publishing succeeds, the bytes sent are the method, the content
    header and the body cut into frames (each frame limit of the publisher); if a
    broker relays header and body, cut into any fragments, after a basic.deliver,
    the consumer gets the body, the flagged properties and the tag, exchange and key
    of the delivery. *)
Theorem C43_published_is_consumed :
  forall (N1 N2 : nat) (E1 E2 : nat -> aenv)
         (ch1 : Z) (exchange routing_key : bytes) (mandatory immediate : Z) (p : option props) (body : bytes) (header : aframe)
         (c1 c1' : conn) (ev1 ev1' : list event) (l1 : list obs)
         (timeout : option timeval) (c2 c2' : conn) (ev2 ev2' : list event) (l2 : list obs) (r : rpc_reply_t) (e : option envelope) (fs : list (Z * aframe))
         (ch2 : Z) (ctag : bytes) (dtag redelivered : Z) (ex rk : bytes) (fragments : list bytes),
    (* publisher *)
    arguments_ok (Publish ch1 exchange routing_key mandatory immediate p body) -> roomy c1 -> zlen (c_outbuf c1) < M31 ->
    content_header p body header ->
    amqp_basic_publish N1 E1 ch1 exchange routing_key mandatory immediate p body c1 ev1 = Done AMQP_STATUS_OK c1' ev1' l1 ->
    (* broker *)
    redelivered = 0 \/ redelivered = 1 ->
    concat fragments = concat (pieces (frame_max c1) body) ->
    Forall (good_frame (frame_max c2)) fs -> relays ch2 (deliver_method ctag dtag redelivered ex rk) header fragments fs ->
    (* consumer *)
    off c2 \/ no_lost l2 -> c_queue c2 = [] -> idle (c_in c2) -> c_sbuf c2 = [] -> 0 <= frame_max c2 < M30 -> zlen (c_outbuf c2) < M31 -> never_fails E2 ->
    amqp_consume_message N2 E2 timeout c2 ev2 = Done (r, e) c2' ev2' l2 ->
    prefix (in_bytes l2) (ser fs) -> no_oom_obs l2 ->
    out_bytes l1 = ser ((ch1, publish_method exchange routing_key mandatory immediate) :: (ch1, header) ::
                        map (fun b => (ch1, ABody b)) (pieces (frame_max c1) body)) /\
    ((r = RNormal 0 [] /\ e = Some (mkEnv ch2 ctag dtag redelivered ex rk (mkMsg (received_content header) body))) \/
     (e = None /\ exists st, st < 0 /\ r = RLibrary st)).
Proof.
  intros N1 N2 E1 E2 ch1 exc rkc ma im p body h c1 c1' ev1 ev1' l1 t c2 c2' ev2 ev2' l2 r e fs ch2 ct dt rd ex rk frags
    Ha Hr Hb Hh Hrun1 Hrd HF HG HR Hoff Hq Hi Hs Hf Hb2 HE Hrun2 HP Ho.
  assert (8 < frame_max c1) as H8 by (unfold roomy in Hr; lia).
  assert (concat frags = body) as HFB by (rewrite HF; apply (C40_pieces (frame_max c1) body H8)).
  split.
  - pose proof (C40_publish N1 E1 ch1 exc rkc ma im p body h c1 ev1 Ha Hr Hb Hh) as H. cbv zeta in H. rewrite Hrun1 in H. destruct H as [[_ H]|[H _]]; [exact H|unfold AMQP_STATUS_OK in H; lia].
  - subst body. destruct p as [p|]; unfold content_header in Hh.
    + destruct Hh as (pl & -> & Hpl). eapply C43_consumed; eassumption.
    + subst h. eapply C43_consumed; eassumption.
Qed.

(** A run of both sides. *)
Definition relay_stream : list (Z * aframe) :=
  [(0, AHeartbeat); (2, deliver_method [x63] 9 1 [x65] [x6b]); (3, sample_ack); (2, a_content); (0, AHeartbeat);
   (2, ABody (firstn 50 body_70)); (3, ABody []); (2, ABody []); (2, ABody (skipn 50 body_70)); (2, sample_ack)].
Example C43_case :
  relays 2 (deliver_method [x63] 9 1 [x65] [x6b]) a_content [firstn 50 body_70; []; skipn 50 body_70] relay_stream /\
  Forall (good_frame (frame_max ready)) relay_stream /\
  off ready /\ idle (c_in ready) /\ 0 <= frame_max ready < M30 /\
  match amqp_consume_message 100 plain_env None ready
    [EvRecv (ROk (firstn 50 (ser relay_stream))); EvAlloc true; EvRecv RIntr; EvRecv (ROk (skipn 50 (ser relay_stream))); EvAlloc true; EvClone (fun _ => false); EvAlloc true; EvAlloc true] with
  | Done p c' _ l =>
      p = (RNormal 0 [], Some (mkEnv 2 [x63] 9 1 [x65] [x6b] (mkMsg (mkProps 4096 [("delivery_mode", VInt 2)]%string) body_70))) /\
      no_oom_obs l /\ in_bytes l = ser relay_stream
  | Halt s _ l => False
  end.
Proof.
  split. { exists (tl (filter carries_data relay_stream)), [(2, sample_ack)]. split; reflexivity. }
  destruct C10_case as (G1 & G2 & G3 & _). change (frame_max ready) with 4096. split.
  { assert (forall c b, 0 <= c < 65536 -> zlen (ser_frame c (ABody b)) <= 4096 -> good_frame 4096 (c, ABody b)) as GB by (intros; split; [assumption|]; split; [exact I|]; split; [reflexivity|]; split; [exact I|assumption]).
    assert (good_frame 4096 (0, AHeartbeat)) as GH by (split; [cbn; lia|]; split; [exact I|]; split; [reflexivity|]; split; [exact I|vm_compute; discriminate]).
    assert (forall c, 0 <= c < 65536 -> zlen (ser_frame c sample_ack) <= 4096 -> good_frame 4096 (c, sample_ack)) as GA by (intros; split; [assumption|]; split; [exact G1|]; split; [exact G2|]; split; [exact G3|assumption]).
    assert (good_frame 4096 (2, deliver_method [x63] 9 1 [x65] [x6b])) as GD.
    { split; [cbn; lia|]. split; [split; [cbn; tauto|repeat constructor; cbn; try lia]|]. split; [reflexivity|]. split; [repeat constructor|vm_compute; discriminate]. }
    assert (good_frame 4096 (2, a_content)) as GC.
    { split; [cbn; lia|]. split; [split; [lia|split; [lia|split; [reflexivity|repeat constructor; cbn; lia]]]|]. split; [reflexivity|]. split; [repeat constructor|vm_compute; discriminate]. }
    unfold relay_stream. repeat (apply Forall_cons; [first [exact GH|exact GD|exact GC|apply GA; [lia|vm_compute; discriminate]|apply GB; [lia|vm_compute; discriminate]]|]). constructor. }
  split; [repeat split|]. split; [repeat split|]. split; [lia|].
  vm_compute. split; [reflexivity|]. split; [repeat constructor|reflexivity].
Qed.

Print Assumptions C43_consumed.
Print Assumptions C43_published_is_consumed.
