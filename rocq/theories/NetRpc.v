(** Complete specifications of the waiting calls and of RPCs. *)
From Coq Require Import String ZArith List Bool Lia.
From Verif Require Import Base BaseFacts Codec TableModel TableSpec TableOps FramingStmt FramingGen FramingModel MethodSpec
  Frame FrameSpec Time Sasl Net NetApi NetSpec NetFacts NetSend NetRecv NetWalk NetAcct NetOrder NetWait NetOff NetCalls EncStatus.
Import ListNotations.
Local Open Scope Z_scope.

(** deadlines *)
Definition deadline_ok (p : Z * option Z) : Prop :=
  fst p <= 0 /\ fst p <> AMQP_STATUS_TIMEOUT /\ (snd p = None -> fst p <> AMQP_STATUS_OK) /\ (forall d, snd p = Some d -> d <= amqp_time_infinite).
Lemma u64_le_inf x : u64 x <= amqp_time_infinite.
Proof. unfold u64, amqp_time_infinite, UINT64_MAX. pose proof (Z.mod_pos_bound x M64 ltac:(lia)). lia. Qed.
Lemma from_now_res t c ev : wp (time_from_now t) c ev (fun p _ _ _ => deadline_ok p /\ (t = None -> p = (AMQP_STATUS_OK, Some amqp_time_infinite))) (fun _ _ _ => True).
Proof.
  unfold time_from_now. destruct t as [tv|].
  2:{ apply wp_ret. split; [|reflexivity]. split; [cbv; discriminate|]. split; [discriminate|]. split; [discriminate|]. intros d H. injection H as <-. lia. }
  destruct (_ || _) eqn:Hb.
  - apply wp_ret. unfold amqp_time_from_now. rewrite Hb. split; [|discriminate]. repeat split; try discriminate; cbv; discriminate.
  - apply wp_bind. eapply wp_conseq; [apply (clock_res c ev (fun _ => True)); auto| |auto]. cbv beta. intros now c1 ev1 l1 _. apply wp_ret.
    split; [|discriminate]. unfold amqp_time_from_now. rewrite Hb. destruct (now =? 0); [repeat split; try discriminate; cbv; discriminate|].
    cbv zeta. match goal with |- context [Some (u64 ?x)] => generalize (u64_le_inf x); generalize (u64 x) end.
    intros t Ht. match goal with |- context [if ?b then _ else _] => destruct b end; unfold deadline_ok; cbn [fst snd].
    + split; [cbv; discriminate|]. split; [discriminate|]. split; [discriminate|]. intros d H. inversion H. subst. exact Ht.
    + split; [cbv; discriminate|]. split; [discriminate|]. split; [discriminate|]. intros d H. inversion H. subst. exact Ht.
Qed.
Lemma from_now_ok t c ev :
  wp (time_from_now t) c ev (fun p c' _ l => c' = c /\ quiet l /\ deadline_ok p /\ (t = None -> p = (AMQP_STATUS_OK, Some amqp_time_infinite)))
     (fun s c' l => c' = c /\ quiet l /\ s <> UB /\ s <> Abort).
Proof. apply wp_and_silent; [apply silent_time_from_now|apply from_now_res]. Qed.

Lemma tv_until_res d c ev : wp (time_tv_until d) c ev (fun p _ _ _ => fst p <= 0 /\ (snd p = None -> fst p <> AMQP_STATUS_OK)) (fun _ _ _ => True).
Proof.
  unfold time_tv_until. destruct (_ || _) eqn:Hb.
  - apply wp_ret. unfold amqp_time_tv_until. destruct (Z.eqb UINT64_MAX d); [split; [cbv; discriminate|discriminate]|].
    rewrite orb_false_l in Hb. rewrite Hb. split; [cbv; discriminate|discriminate].
  - apply wp_bind. eapply wp_conseq; [apply (clock_res c ev (fun _ => True)); auto| |auto]. cbv beta. intros now c1 ev1 l1 _. apply wp_ret.
    unfold amqp_time_tv_until. apply orb_false_iff in Hb. destruct Hb as [-> ->].
    destruct (now =? 0); cbn [fst snd]; [split; [cbv; discriminate|intros _; discriminate]|].
    destruct (d <=? now); cbn [fst snd]; (split; [cbv; discriminate|discriminate]).
Qed.
Lemma tv_until_ok d c ev :
  wp (time_tv_until d) c ev (fun p c' _ l => c' = c /\ quiet l /\ fst p <= 0 /\ (snd p = None -> fst p <> AMQP_STATUS_OK))
     (fun s c' l => c' = c /\ quiet l /\ s <> UB /\ s <> Abort).
Proof. apply wp_and_silent; [apply silent_time_tv|apply tv_until_res]. Qed.

(** amqp_simple_wait_frame_noblock *)
Record nexted (r : Z) (f : frame) (c c' : conn) (l : list obs) : Prop := mkNexted {
  nx_res : r <= 0;
  nx_took : no_oom_obs l -> no_lost l -> no_hb (opt (okf r f) ++ queued c') = no_hb (queued c ++ frames l);
  nx_head : r = AMQP_STATUS_OK -> forall e q, c_queue c = e :: q -> f = fst e /\ c' = set_queue c q /\ quiet l;
  nx_new : r = AMQP_STATUS_OK -> c_queue c = [] -> exists pre, frames l = pre ++ [f];
  nx_first : r = AMQP_STATUS_OK -> c_queue c = [] -> no_lost l -> c_queue c' = [] /\ exists hbs, no_hb hbs = [] /\ frames l = hbs ++ [f];
  nx_err : r <> AMQP_STATUS_OK -> no_oom_obs l -> no_hb (queued c ++ frames l) = no_hb (queued c');
  nx_acct : no_oom_obs l -> forall p, filter p (no_hb (queued c ++ frames l)) = [] -> filter p (no_hb (queued c')) = [];
  nx_type : r = AMQP_STATUS_OK -> c_queue c = [] -> f_type f <> 0 /\ f_type f <> 8;
  nx_beats : beats (out_bytes l);
  nx_keep : keepw c c' }.

Lemma quiet_facts l : quiet l -> idle_log l /\ out_bytes l = [] /\ no_oom_obs l.
Proof. intros H. split; [apply idle_quiet, H|]. split; [apply no_output_out, quiet_output, H|apply no_oom_quiet, H]. Qed.

Lemma waited_quiet_front skip r f c c' l1 l : quiet l1 -> waited skip r f c c' l -> waited skip r f c c' (l1 ++ l).
Proof.
  intros Hq W. destruct (quiet_facts _ Hq) as ((I1 & I2 & I3 & I4) & Io & Im). destruct W as [F1 F2 F3 F4 F9 F5 F6 F7 F8].
  split; auto; rewrite ?out_bytes_app, ?Io; cbn [app]; auto.
  - intros Ho. apply no_oom_obs_app in Ho. rewrite frames_app, I2. cbn. apply F2; tauto.
  - intros Hr Hl. apply no_lost_app in Hl. rewrite frames_app, I2. cbn. apply F3; tauto.
  - intros Hr Hs Hne Hl. apply no_lost_app in Hl. apply (F4 Hr Hs Hne). tauto.
  - intros Hr. rewrite frames_app, I2. auto.
Qed.

Section Rpc.
Context (N : nat) (E : nat -> aenv).

Lemma nexted_err r c l f : r < 0 -> quiet l -> nexted r f c c l.
Proof.
  intros Hr Hq. assert (r <> AMQP_STATUS_OK) by (unfold AMQP_STATUS_OK; lia).
  destruct (quiet_facts _ Hq) as ((I1 & I2 & I3 & I4) & Io & Im).
  split; try contradiction; try lia.
  - intros _ _. rewrite okf_not, I2, app_nil_r by assumption. reflexivity.
  - intros _ _. rewrite I2, app_nil_r. reflexivity.
  - rewrite I2, app_nil_r. auto.
  - rewrite Io. apply whole_beats_beats, whole_nil.
  - apply keepw_refl.
Qed.

Lemma noblock_ok t c ev : qalive c ->
  wp (amqp_simple_wait_frame_noblock N E t) c ev
    (fun p c' _ l => nexted (fst p) (snd p) c c' l)
    (fun s c' l => beats (out_bytes l)).
Proof.
  intros Hq0. unfold amqp_simple_wait_frame_noblock. apply wp_bind. eapply wp_conseq; [apply from_now_ok| |]; cbv beta.
  2:{ intros s c' l (-> & Hq & _). destruct (quiet_facts _ Hq) as (_ & -> & _). apply whole_beats_beats, whole_nil. }
  intros [r d] c1 ev1 l1 (-> & Hq & (D1 & _ & D2 & D3) & _). cbn [fst snd] in *. destruct (quiet_facts _ Hq) as ((I1 & I2 & I3 & I4) & Io & Im).
  destruct d as [d|].
  2:{ apply wp_ret. rewrite app_nil_r. cbn [fst snd]. apply nexted_err; [|exact Hq]. specialize (D2 eq_refl). unfold AMQP_STATUS_OK in D2. lia. }
  destruct (Z.eqb_spec r AMQP_STATUS_OK) as [->|Hr]; cbn [negb].
  2:{ apply wp_ret. rewrite app_nil_r. cbn [fst snd]. apply nexted_err; [unfold AMQP_STATUS_OK in *; lia|exact Hq]. }
  wstep. destruct (c_queue c) as [|e q] eqn:Hqu.
  - eapply wp_conseq; [apply wait_inner_ok| |]; cbv beta.
    2:{ intros s c' l H. rewrite out_bytes_app, Io. exact H. }
    intros [r f] c' ev' l W. cbn [fst snd] in *. apply (waited_quiet_front _ _ _ _ _ l1) in W; [|exact Hq].
    assert (queued c = []) as Hqd by (unfold queued; rewrite Hqu; reflexivity).
    pose proof (wt_took _ _ _ _ _ _ W) as Ht. unfold took in Ht. destruct W as [F1 F2 F3 F4 F9 F5 F6 F7 F8]. split; auto.
    + intros Hoom Hl. destruct (Z.eq_dec r AMQP_STATUS_OK) as [->|Hr].
      * destruct (F3 eq_refl Hl (or_introl eq_refl)) as (G1 & hbs & G2 & G3). unfold okf. rewrite Z.eqb_refl. unfold queued. rewrite G1, Hqu, G3. cbn.
        rewrite no_hb_app, G2. reflexivity.
      * rewrite (Ht Hoom), okf_not by assumption. cbn. rewrite app_nil_r. reflexivity.
    + intros Hr e q. rewrite Hqu. discriminate.
    + intros Hr _ Hl. destruct (F3 Hr Hl (or_introl eq_refl)) as (G1 & hbs & G2 & G3). rewrite G1, Hqu. split; [reflexivity|]. exists hbs. auto.
    + intros Hr Hoom. rewrite (Ht Hoom), okf_not by assumption. cbn. rewrite app_nil_r. reflexivity.
    + intros Hoom p Hp. rewrite (Ht Hoom), no_hb_app, filter_app in Hp. apply app_eq_nil in Hp. apply Hp.
  - unfold qalive in Hq0. rewrite Hqu in Hq0. cbn in Hq0. apply andb_true_iff in Hq0. destruct Hq0 as [-> _]. cbn [negb]. wstep. apply wp_ret. rewrite app_nil_r. cbn [fst snd].
    split.
    + lia.
    + intros _ _. rewrite I2, app_nil_r. unfold queued. cbn [c_queue set_queue]. rewrite Hqu. reflexivity.
    + intros _ e' q' H. rewrite Hqu in H. injection H as <- <-. auto.
    + intros _ H. rewrite Hqu in H. discriminate.
    + intros _ H. rewrite Hqu in H. discriminate.
    + contradiction.
    + intros _ p. rewrite I2, app_nil_r. unfold queued. cbn [c_queue set_queue]. rewrite Hqu. cbn [map]. unfold no_hb. cbn [filter].
      destruct (negb _); [cbn [filter]; destruct (p _); [discriminate|auto]|auto].
    + intros _ H. rewrite Hqu in H. discriminate.
    + rewrite Io. apply whole_beats_beats, whole_nil.
    + unfold keepw. auto 10.
Qed.

(** amqp_simple_rpc *)
Definition method_frame (ch id : Z) (m : mstruct) : frame := mkFrame AMQP_FRAME_METHOD ch (PMethod id m) 0.
Definition reply_of (ids : list Z) (f : frame) : rpc_reply_t :=
  match f_pay f with
  | PMethod id m => if existsb (Z.eqb id) ids then RNormal id m else RServer id m
  | _ => RNone
  end.
Inductive rpc_outcome (ch id : Z) (ids : list Z) (m : mstruct) (r : rpc_reply_t) (c c' : conn) (l : list obs) : Prop :=
| rpc_not_sent st : st < 0 -> r = RLibrary st -> c' = c -> quiet l -> st <> AMQP_STATUS_TIMEOUT -> rpc_outcome ch id ids m r c c' l
| rpc_send_failed st l0 l1 : st < 0 -> r = RLibrary st -> st <> AMQP_STATUS_TIMEOUT -> quiet l0 -> l = l0 ++ l1 ->
    sent_f (method_frame ch id m) amqp_time_infinite st c c' l1 -> rpc_outcome ch id ids m r c c' l
| rpc_waited st c1 l0 l1 l2 o : st = AMQP_STATUS_OK -> quiet l0 -> l = l0 ++ l1 ++ l2 ->
    sent_f (method_frame ch id m) amqp_time_infinite st c c1 l1 -> gathered (concerns_rpc ch ids) o c1 c' l2 ->
    match o with
    | Some f => r = reply_of ids f
    | None => exists st, st < 0 /\ r = RLibrary st /\ (st = AMQP_STATUS_TIMEOUT -> c_fd c' = -1 \/ In (OClose false) l2)
    end -> rpc_outcome ch id ids m r c c' l.


Lemma sent_f_res f d r c c' l : zlen (c_outbuf c) < M31 -> sent_f f d r c c' l -> r <= 0 /\ (r = AMQP_STATUS_TIMEOUT -> d <> amqp_time_infinite).
Proof.
  intros Hb (st & buf & enc & c1 & Hf & -> & _ & [(Hst & -> & _)|(-> & H)]).
  - apply frame_to_bytes_status in Hf; [|exact Hb]. destruct Hf as [->|Hf]; [contradiction|]. apply enc_err_neg in Hf. split; [lia|]. tauto.
  - split; apply H.
Qed.

Lemma simple_rpc_inner_ok ch id ids m d c ev l0 : zlen (c_outbuf c) < M31 -> quiet l0 ->
  wp (simple_rpc_inner N E ch id ids m d) c ev
    (fun r c' _ l => rpc_outcome ch id ids m r c c' (l0 ++ l))
    (fun s c' l => True).
Proof.
  intros Hb Hq0. unfold simple_rpc_inner. apply wp_bind. eapply wp_conseq; [apply send_frame_ok; lia| |auto]. cbv beta.
  intros r c1 ev1 l1 Hs. destruct (sent_f_res _ _ _ _ _ _ Hb Hs) as [Hr Ht].
  destruct (Z.ltb_spec r 0).
  - apply wp_ret. rewrite app_nil_r. eapply rpc_send_failed; [exact H|reflexivity| |exact Hq0|reflexivity|exact Hs].
    intros ->. apply (Ht eq_refl). reflexivity.
  - eapply wp_conseq; [apply rpc_wait_ok| |auto]. cbv beta. intros r2 c2 ev2 l2 (o & G & Hm).
    eapply (rpc_waited _ _ _ _ _ _ _ _ r c1 l0 l1 l2 o); [unfold AMQP_STATUS_OK; lia|exact Hq0|reflexivity|exact Hs|exact G|].
    destruct o as [f|]; [|exact Hm]. destruct Hm as (i & mm & H1 & _ & ->). unfold reply_of. rewrite H1. reflexivity.
Qed.
Lemma simple_rpc_ok ch id ids m c ev : zlen (c_outbuf c) < M31 ->
  wp (amqp_simple_rpc N E ch id ids m) c ev
    (fun r c' _ l => rpc_outcome ch id ids m r c c' l) (fun s c' l => True).
Proof.
  intros Hb. unfold amqp_simple_rpc. wstep. apply wp_bind. eapply wp_conseq; [apply from_now_ok| |]; cbv beta; [|auto].
  intros [r d] c1 ev1 l1 (-> & Hq & (D1 & D0 & D2 & D3) & _). cbn [fst snd] in *.
  assert (r <> AMQP_STATUS_OK -> rpc_outcome ch id ids m (RLibrary r) c c l1) as Herr.
  { intros Hr. eapply (rpc_not_sent _ _ _ _ _ _ _ _ r); auto. unfold AMQP_STATUS_OK in Hr. lia. }
  destruct d as [d|]; [|apply wp_ret; rewrite app_nil_r; auto].
  destruct (Z.eqb_spec r AMQP_STATUS_OK) as [->|Hr]; cbn [negb]; [|apply wp_ret; rewrite app_nil_r; auto].
  apply simple_rpc_inner_ok; assumption.
Qed.

(** what follows for the caller *)
Lemma rpc_normal ch id ids m r c c' l rid rm : rpc_outcome ch id ids m r c c' l -> r = RNormal rid rm ->
  In rid ids /\ exists pre f, frames l = pre ++ [f] /\ (f_chan f = ch \/ (f_chan f = 0 /\ rid = CONNECTION_CLOSE)) /\ f_type f = AMQP_FRAME_METHOD /\ f_pay f = PMethod rid rm.
Proof.
  intros [st ? -> |st ? ? ? -> |st c1 l0 l1 l2 o Hst Hq -> Hs G Hm] Hr; try discriminate.
  destruct o as [f|]; [|destruct Hm as (? & ? & -> & _); discriminate].
  destruct (ga_hit _ _ _ _ _ G f eq_refl) as [Hp _]. destruct (ga_last _ _ _ _ _ G f eq_refl) as [pre Hpre].
  unfold reply_of in Hm. rewrite Hr in Hm. unfold concerns_rpc, method_of in Hp. apply andb_true_iff in Hp. destruct Hp as [Ht Hp]. apply Z.eqb_eq in Ht.
  destruct (f_pay f) as [|i mm| | |] eqn:Hpay; try discriminate. destruct (existsb (Z.eqb i) ids) eqn:Hi; [|discriminate]. injection Hm as <- <-.
  apply existsb_exists in Hi. destruct Hi as (x & Hx & He). apply Z.eqb_eq in He. subst x. split; [exact Hx|].
  exists (frames l0 ++ frames l1 ++ pre), f. rewrite !frames_app, Hpre, <- !app_assoc. split; [reflexivity|]. split; [|auto].
  apply orb_true_iff in Hp. destruct Hp as [Hp|Hp]; apply andb_true_iff in Hp; destruct Hp as [Hp Hp2]; apply Z.eqb_eq in Hp; [auto|].
  apply Z.eqb_eq in Hp2. auto.
Qed.

Lemma rpc_server ch id ids m r c c' l rid rm : rpc_outcome ch id ids m r c c' l -> r = RServer rid rm ->
  exists pre f, frames l = pre ++ [f] /\ f_type f = AMQP_FRAME_METHOD /\ f_pay f = PMethod rid rm /\
    ((f_chan f = ch /\ rid = CHANNEL_CLOSE) \/ (f_chan f = 0 /\ rid = CONNECTION_CLOSE)).
Proof.
  intros [st ? -> |st ? ? ? -> |st c1 l0 l1 l2 o Hst Hq -> Hs G Hm] Hr; try discriminate.
  destruct o as [f|]; [|destruct Hm as (? & ? & -> & _); discriminate].
  destruct (ga_hit _ _ _ _ _ G f eq_refl) as [Hp _]. destruct (ga_last _ _ _ _ _ G f eq_refl) as [pre Hpre].
  unfold reply_of in Hm. rewrite Hr in Hm. unfold concerns_rpc, method_of in Hp. apply andb_true_iff in Hp. destruct Hp as [Ht Hp]. apply Z.eqb_eq in Ht.
  destruct (f_pay f) as [|i mm| | |] eqn:Hpay; try discriminate. destruct (existsb (Z.eqb i) ids) eqn:Hi; [discriminate|]. injection Hm as <- <-.
  exists (frames l0 ++ frames l1 ++ pre), f. rewrite !frames_app, Hpre, <- !app_assoc. split; [reflexivity|]. split; [exact Ht|]. split; [exact Hpay|].
  unfold amqp_id_in_reply_list in Hp. rewrite Hi in Hp. rewrite orb_false_l in Hp.
  apply orb_true_iff in Hp. destruct Hp as [Hp|Hp]; apply andb_true_iff in Hp; destruct Hp as [Hp Hp2]; apply Z.eqb_eq in Hp, Hp2; auto.
Qed.
Definition is_reply (r : rpc_reply_t) : bool := match r with RNormal _ _ | RServer _ _ => true | _ => false end.
(** everything else that was decoded has been appended to the queue, in order *)
Lemma rpc_keeps ch id ids m r c c' l : rpc_outcome ch id ids m r c c' l -> no_oom_obs l ->
  exists o, (r = RNone -> False) /\ (match o with Some f => is_reply r = true /\ r = reply_of ids f /\ f_type f <> 8 | None => is_reply r = false end) /\
    exists others, no_hb (frames l) = others ++ opt o /\ no_hb (queued c') = no_hb (queued c) ++ others.
Proof.
  intros [st ? -> -> Hq _|st l0 l1 ? -> _ Hq -> Hs|st c1 l0 l1 l2 o Hst Hq -> Hs G Hm] Hoom.
  - exists None. split; [discriminate|]. split; [reflexivity|]. exists []. destruct (quiet_facts _ Hq) as ((_ & Hz & _) & _). rewrite Hz. split; [reflexivity|symmetry; apply app_nil_r].
  - exists None. split; [discriminate|]. split; [reflexivity|]. exists (no_hb (frames (l0 ++ l1))). cbn. rewrite app_nil_r. split; [reflexivity|].
    apply sent_f_facts in Hs. destruct Hs as (Ha & _). apply no_oom_obs_app in Hoom. rewrite (Ha (proj2 Hoom)), frames_app, !no_hb_app.
    destruct (quiet_facts _ Hq) as ((_ & -> & _) & _). reflexivity.
  - apply no_oom_obs_app in Hoom. destruct Hoom as [_ Hoom]. apply no_oom_obs_app in Hoom. destruct Hoom as [Ho1 Ho2].
    apply sent_f_facts in Hs. destruct Hs as (Ha & _). specialize (Ha Ho1). pose proof (ga_took _ _ _ _ _ G Ho2) as Ht.
    destruct (quiet_facts _ Hq) as ((_ & Hq0 & _) & _). rewrite !frames_app, Hq0. cbn [app].
    exists o. destruct o as [f|].
    + destruct (ga_hit _ _ _ _ _ G f eq_refl) as (Hp & _ & Ht8). destruct (ga_last _ _ _ _ _ G f eq_refl) as [pre Hpre].
      assert (is_reply r = true) as Hir.
      { subst r. unfold concerns_rpc, method_of, reply_of in *. destruct (f_pay f); try (rewrite andb_false_r in Hp; discriminate). destruct (existsb _ _); reflexivity. }
      split; [intros ->; discriminate|]. split; [auto|].
      exists (no_hb (frames l1) ++ no_hb pre). rewrite Hpre, !no_hb_app, (no_hb_one f Ht8). cbn [opt]. split; [rewrite <- app_assoc; reflexivity|].
      rewrite Hpre, Ha, !no_hb_app, (no_hb_one f Ht8), app_assoc in Ht. cbn [opt] in Ht. rewrite (no_hb_one f Ht8) in Ht. apply app_inj_tail in Ht. destruct Ht as [Ht _]. rewrite <- Ht, <- !app_assoc. reflexivity.
    + destruct Hm as (st' & H1 & -> & _). split; [discriminate|]. split; [reflexivity|]. cbn [opt] in *. rewrite app_nil_r in Ht.
      exists (no_hb (frames l1) ++ no_hb (frames l2)). rewrite no_hb_app, app_nil_r. split; [reflexivity|]. rewrite <- Ht, Ha, !no_hb_app, <- !app_assoc. reflexivity.
Qed.
Lemma rpc_timeout ch id ids m r c c' l : rpc_outcome ch id ids m r c c' l -> r = RLibrary AMQP_STATUS_TIMEOUT ->
  c_fd c' = -1 \/ In (OClose false) l.
Proof.
  intros [st ? -> -> Hq Hn|st l0 l1 ? -> Hn Hq -> Hs|st c1 l0 l1 l2 o Hst Hq -> Hs G Hm] Hr.
  - injection Hr as ->. contradiction.
  - injection Hr as ->. contradiction.
  - destruct o as [f|].
    + subst r. unfold reply_of in Hr. destruct (f_pay f); try discriminate. destruct (existsb _ _); discriminate.
    + destruct Hm as (st' & H1 & -> & H3). injection Hr as ->. destruct (H3 eq_refl); [auto|]. right. apply in_or_app; right; apply in_or_app; auto.
Qed.
(** what goes out: the request, then possibly heartbeats *)
Lemma rpc_sends ch id ids m r c c' l : rpc_outcome ch id ids m r c c' l -> is_reply r = true ->
  exists buf enc hb, amqp_frame_to_bytes (method_frame ch id m) (c_outbuf c) = FRet AMQP_STATUS_OK buf enc /\ whole_beats hb /\ out_bytes l = enc ++ hb.
Proof.
  intros [st ? -> -> Hq Hn|st l0 l1 ? -> Hn Hq -> Hs|st c1 l0 l1 l2 o Hst Hq -> Hs G Hm] Hr; try discriminate.
  destruct o as [f|]; [|destruct Hm as (? & ? & -> & _); discriminate].
  destruct Hs as (st' & buf & enc & c0 & Hf & -> & _ & [(H1 & -> & _)|(-> & Hs)]); [congruence|].
  exists buf, enc, (out_bytes l2). split; [exact Hf|]. split; [apply (ga_whole _ _ _ _ _ G); discriminate|].
  rewrite !out_bytes_app, (sf_all _ _ _ _ _ _ Hs Hst). destruct (quiet_facts _ Hq) as (_ & -> & _). reflexivity.
Qed.
(** what goes out in any case, also if the run stops: a part of the request, or
    all of it and then heartbeats *)
Definition sent_part (out req : bytes) : Prop := prefix out req \/ exists hb, beats hb /\ out = req ++ hb.
Definition request_sent (ch id : Z) (m : mstruct) (c : conn) (l : list obs) : Prop :=
  out_bytes l = [] \/
  exists buf enc, amqp_frame_to_bytes (method_frame ch id m) (c_outbuf c) = FRet AMQP_STATUS_OK buf enc /\ sent_part (out_bytes l) enc.
Lemma request_quiet ch id m c l1 l : quiet l1 -> request_sent ch id m c l -> request_sent ch id m c (l1 ++ l).
Proof. intros Hq. unfold request_sent. rewrite out_bytes_app. destruct (quiet_facts _ Hq) as (_ & -> & _). auto. Qed.
Lemma simple_rpc_inner_sends ch id ids m d c ev :
  wp (simple_rpc_inner N E ch id ids m d) c ev
    (fun r c' _ l => request_sent ch id m c l) (fun s c' l => request_sent ch id m c l).
Proof.
  unfold simple_rpc_inner. apply wp_bind. eapply wp_conseq; [apply send_frame_ok; lia| |]; cbv beta.
  2:{ intros s c' l [(_ & _ & _ & ->)|(buf & enc & Hf & Hp)]; [left; reflexivity|]. right. exists buf, enc. split; [exact Hf|]. left; exact Hp. }
  intros r c1 ev1 l1 (st & buf & enc & c0 & Hf & -> & _ & Hcase).
  destruct Hcase as [(Hst & -> & -> & ->)|(-> & Hs)].
  - destruct (Z.ltb_spec st 0); [apply wp_ret; left; reflexivity|].
    exfalso. unfold AMQP_STATUS_OK in Hst. revert Hf. unfold amqp_frame_to_bytes, method_frame. cbn [f_type f_chan f_pay].
    change (AMQP_FRAME_METHOD =? AMQP_FRAME_BODY) with false. change (AMQP_FRAME_METHOD =? AMQP_FRAME_METHOD) with true. cbv iota.
    destruct (e_at _ _ _ _) as [m1|]; [|discriminate]. destruct (e_at _ _ m1 _) as [m2|]; [|discriminate]. destruct (e_at _ _ m2 _) as [m3|]; [|discriminate].
    destruct (encode_sub _ _ _) as [[rr mm]|]; [|discriminate]. destruct (Z.ltb_spec rr 0); [intros G; inversion G; subst; lia|].
    unfold frame_finish. destruct (e_at _ _ _ _) as [m4|]; [|discriminate]. destruct (e_at _ _ m4 _) as [m5|]; [|discriminate]. cbv zeta.
    destruct (slice _ _ _); [|discriminate]. intros G; inversion G; subst. apply Hst. reflexivity.
  - destruct (Z.ltb_spec r 0).
    + apply wp_ret. rewrite app_nil_r. right. exists buf, enc. split; [exact Hf|]. left; apply Hs.
    + assert (out_bytes l1 = enc) as Ho by (apply (sf_all _ _ _ _ _ _ Hs); pose proof (sf_res _ _ _ _ _ _ Hs); unfold AMQP_STATUS_OK; lia).
      eapply wp_conseq; [apply rpc_wait_ok| |]; cbv beta.
      * intros r2 c2 ev2 l2 (o & G & _). right. exists buf, enc. split; [exact Hf|]. right. exists (out_bytes l2). split; [apply G|]. rewrite out_bytes_app, Ho. reflexivity.
      * intros s c2 l2 G. right. exists buf, enc. split; [exact Hf|]. right. exists (out_bytes l2). split; [apply G|]. rewrite out_bytes_app, Ho. reflexivity.
Qed.
Lemma simple_rpc_sends ch id ids m c ev :
  wp (amqp_simple_rpc N E ch id ids m) c ev
    (fun r c' _ l => request_sent ch id m c l) (fun s c' l => request_sent ch id m c l).
Proof.
  unfold amqp_simple_rpc. wstep. apply wp_bind. eapply wp_conseq; [apply from_now_ok| |]; cbv beta.
  2:{ intros s c' l (_ & Hq & _). left. apply (quiet_facts _ Hq). }
  intros [r d] c1 ev1 l1 (-> & Hq & _).
  assert (request_sent ch id m c l1) as H0 by (left; apply (quiet_facts _ Hq)).
  destruct d as [d|]; [|apply wp_ret; rewrite app_nil_r; exact H0]. destruct (negb _); [apply wp_ret; rewrite app_nil_r; exact H0|].
  eapply wp_conseq; [apply simple_rpc_inner_sends| |]; cbv beta; intros; apply request_quiet; assumption.
Qed.
End Rpc.
