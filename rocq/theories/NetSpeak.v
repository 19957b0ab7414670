(** Waiting puts nothing but whole heartbeats on the wire, unless it fails. *)
From Coq Require Import String ZArith List Bool Lia.
From Verif Require Import Base BaseFacts Codec TableModel TableSpec TableOps FramingStmt FramingGen FramingModel MethodSpec
  Frame FrameSpec Time Sasl Net NetApi NetSpec NetFacts NetSend NetRecv NetWalk NetAcct NetOrder NetWait.
Import ListNotations.
Local Open Scope Z_scope.

Lemma zlen_skipn_le {A} n (l : list A) : zlen (skipn n l) <= zlen l.
Proof. unfold zlen. rewrite skipn_length. lia. Qed.
Section Hum.
(** [near T c]: what is assumed of the connection at time [T]; [since T l]: of the clock
    readings in [l]; [last T l]: the time after them *)
Context (N : nat) (E : nat -> aenv) (near : Z -> conn -> Prop) (since : Z -> list obs -> Prop) (last : Z -> list obs -> Z) (X : Z -> Prop).
Hypothesis window_app : forall T a b, since T (a ++ b) -> since T a /\ since (last T a) b.
Hypothesis last_app : forall T a b, last T (a ++ b) = last (last T a) b.
Hypothesis near_later : forall T l c, near T c -> since T l -> near (last T l) c.
Hypothesis near_fields : forall T c c', c_hb c' = c_hb c -> c_next_recv c' = c_next_recv c -> zlen (c_sbuf c') <= zlen (c_sbuf c) -> near T c -> near T c'.
Definition NR (c c' : conn) (l : list obs) : Prop := forall T, near T c -> since T l -> near (last T l) c'.
Hypothesis near_recv : forall t c, sat_at NR (recv_with_timeout N N t) c.
Hypothesis near_beat : forall c, sat_at NR (amqp_send_frame N E heartbeat_frame) c.
Hypothesis beat_status : forall c ev, wp (amqp_send_frame N E heartbeat_frame) c ev (fun r _ _ l => forall T, near T c -> since T l -> X r -> r = AMQP_STATUS_OK) (fun _ _ _ => True).

Definition hum {A} (go ok : A -> Prop) (m : M A) (c : conn) : Prop := forall ev,
  wp m c ev (fun a c' _ l => beats (out_bytes l) /\ (go a -> whole_beats (out_bytes l)) /\ (forall T, near T c -> since T l -> near (last T l) c' /\ (ok a -> whole_beats (out_bytes l))))
            (fun _ _ l => beats (out_bytes l)).
Definition mute {A} (P : A -> Prop) (m : M A) (c : conn) : Prop := forall ev,
  wp m c ev (fun a c' _ l => out_bytes l = [] /\ P a /\ NR c c' l) (fun _ _ l => out_bytes l = []).
Definition any {A} (_ : A) : Prop := True.

Lemma mute_conseq {A} (P Q : A -> Prop) m c : mute P m c -> (forall a, P a -> Q a) -> mute Q m c.
Proof. intros H K ev. eapply wp_conseq; [apply H| |auto]. cbv beta. intros a c' ev' l (H1 & H2 & H3). auto. Qed.
Lemma mute_ret {A} (P : A -> Prop) a c : P a -> mute P (ret a) c.
Proof. intros H ev. apply wp_ret. split; [reflexivity|]. split; [exact H|]. intros T Hn Hw. apply near_later; assumption. Qed.
Lemma mute_halt {A} (P : A -> Prop) s c : mute P (halt s) c.
Proof. intros ev. apply wp_halt. reflexivity. Qed.
Lemma mute_bind {A B} (P : A -> Prop) (Q : B -> Prop) m k c : mute P m c -> (forall a c', P a -> mute Q (k a) c') -> mute Q (bind m k) c.
Proof.
  intros H1 H2 ev. apply wp_bind. eapply wp_conseq; [apply H1| |auto]; cbv beta. intros a c1 ev1 l1 (A1 & A2 & A3).
  eapply wp_conseq; [apply (H2 a c1 A2)| |]; cbv beta.
  - intros b c2 ev2 l2 (B1 & B2 & B3). split; [rewrite out_bytes_app, A1; exact B1|]. split; [exact B2|]. intros T Hn Hw. apply window_app in Hw. destruct Hw. rewrite last_app. auto.
  - intros s c2 l2 K. rewrite out_bytes_app, A1. exact K.
Qed.
Lemma mute_get_bind {B} (Q : B -> Prop) k c : mute Q (k c) c -> mute Q (bind get k) c.
Proof. intros H ev. apply wp_get_bind, H. Qed.
Lemma mute_upd f c : c_hb (f c) = c_hb c -> c_next_recv (f c) = c_next_recv c -> zlen (c_sbuf (f c)) <= zlen (c_sbuf c) -> mute any (upd f) c.
Proof. intros H1 H2 H3 ev. apply wp_upd. split; [reflexivity|]. split; [exact I|]. intros T Hn Hw. apply near_later; [|exact Hw]. eapply near_fields; eassumption. Qed.
Lemma mute_silent {A} (m : M A) c : silent m -> mute any m c.
Proof.
  intros H ev. eapply wp_conseq; [apply H| |]; cbv beta.
  - intros a c' ev' l [-> Hq]. split; [apply no_output_out, quiet_output, Hq|]. split; [exact I|]. intros T Hn Hw. apply near_later; assumption.
  - intros s c' l (-> & Hq & _). apply no_output_out, quiet_output, Hq.
Qed.
Lemma hum_mute {A} (go ok : A -> Prop) P m c : mute P m c -> hum go ok m c.
Proof.
  intros H ev. eapply wp_conseq; [apply H| |]; cbv beta.
  - intros a c' ev' l (H1 & _ & H3). rewrite H1. split; [apply whole_beats_beats, whole_nil|]. split; [intros _; apply whole_nil|]. intros T Hn Hw. split; [auto|intros _; apply whole_nil].
  - intros s c' l H1. rewrite H1. apply whole_beats_beats, whole_nil.
Qed.
Lemma hum_ret {A} (go ok : A -> Prop) a c : hum go ok (ret a) c.
Proof. apply (hum_mute _ _ any), mute_ret. exact I. Qed.
Lemma hum_halt {A} (go ok : A -> Prop) s c : hum go ok (halt s) c.
Proof. apply (hum_mute _ _ any), mute_halt. Qed.
Lemma hum_get_bind {B} (go ok : B -> Prop) k c : hum go ok (k c) c -> hum go ok (bind get k) c.
Proof. intros H ev. apply wp_get_bind, H. Qed.
(** a silent part in front *)
Lemma hum_after {A B} (P : A -> Prop) (go ok : B -> Prop) m k c : mute P m c -> (forall a c', P a -> hum go ok (k a) c') -> hum go ok (bind m k) c.
Proof.
  intros H1 H2 ev. apply wp_bind. eapply wp_conseq; [apply H1| |]; cbv beta; [|intros s c' l H; rewrite H; apply whole_beats_beats, whole_nil].
  intros a c1 ev1 l1 (A1 & A2 & A3). pose proof A1 as A0.
  eapply wp_conseq; [apply (H2 a c1 A2)| |]; cbv beta.
  - intros b c2 ev2 l2 (B1 & B2 & B3). rewrite out_bytes_app, A0. split; [exact B1|]. split; [exact B2|]. intros T Hn Hw. apply window_app in Hw. destruct Hw. rewrite last_app. auto.
  - intros s c2 l2 K0. rewrite out_bytes_app, A0. exact K0.
Qed.
(** one wait after the other *)
Lemma hum_bind {A B} (go1 ok1 : A -> Prop) (go ok : B -> Prop) m k c : hum go1 ok1 m c ->
  (forall a c', go1 a -> hum go ok (k a) c') ->
  (forall a c', go1 a \/ mute (fun b => ~ go b /\ (ok b -> ok1 a)) (k a) c') -> hum go ok (bind m k) c.
Proof.
  intros H1 H2 H3 ev. apply wp_bind. eapply wp_conseq; [apply H1| |auto]; cbv beta. intros a c1 ev1 l1 (A1 & A2 & A3).
  destruct (H3 a c1) as [Hg|Hm].
  - specialize (A2 Hg). eapply wp_conseq; [apply (H2 a c1 Hg)| |]; cbv beta.
    + intros b c2 ev2 l2 (B1 & B2 & B3). rewrite out_bytes_app. split; [apply beats_app; auto|]. split; [intros K; apply whole_app; auto|].
      intros T Hn Hw. apply window_app in Hw. destruct Hw as [W1 W2]. rewrite last_app. destruct (A3 T Hn W1) as [Hn1 _]. destruct (B3 _ Hn1 W2) as [Hn2 K2]. split; [exact Hn2|]. intros K; apply whole_app; auto.
    + intros s c2 l2 K0. rewrite out_bytes_app. apply beats_app; auto.
  - eapply wp_conseq; [apply Hm| |]; cbv beta.
    + intros b c2 ev2 l2 (B1 & [B2 B4] & B3). rewrite out_bytes_app, B1, app_nil_r. split; [exact A1|]. split; [contradiction|].
      intros T Hn Hw. apply window_app in Hw. destruct Hw as [W1 W2]. rewrite last_app. destruct (A3 T Hn W1) as [Hn1 K1]. split; [auto|]. intros K; auto.
    + intros s c2 l2 K0. rewrite out_bytes_app, K0, app_nil_r. exact A1.
Qed.

Lemma mute_consume c : mute any (consume_one_frame E) c.
Proof.
  intros ev. unfold wp, consume_one_frame. destruct (amqp_handle_input E (c_in c) (c_sbuf c)) as [res f s| |]; try reflexivity.
  destruct (_ <? _).
  - split; [reflexivity|]. split; [exact I|]. intros T Hn Hw. apply near_later; [|exact Hw]. eapply near_fields; [| | |exact Hn]; try reflexivity; try (apply Z.le_refl); try apply zlen_skipn_le.
  - split; [destruct (_ =? _); reflexivity|]. split; [exact I|]. intros T Hn Hw. apply near_later; [|exact Hw]. eapply near_fields; [| | |exact Hn]; try reflexivity; try (apply Z.le_refl); try apply zlen_skipn_le.
Qed.
Lemma mute_release_on ch c : mute any (amqp_maybe_release_buffers_on_channel ch) c.
Proof.
  intros ev. eapply wp_conseq; [apply release_on_ok| |]; cbv beta.
  - intros a c' ev' l (_ & Hc & ->). split; [reflexivity|]. split; [exact I|]. intros T Hn Hw. apply near_later; [|exact Hw]. destruct Hc as [->|[g ->]]; [exact Hn|]. eapply near_fields; [| | |exact Hn]; try reflexivity; try (apply Z.le_refl); try apply zlen_skipn_le.
  - intros s c' l (_ & -> & _). reflexivity.
Qed.
Lemma mute_close c : mute any amqp_socket_close c.
Proof.
  intros ev. eapply wp_conseq; [apply socket_close_ok| |]; cbv beta.
  - intros a c' ev' l (Ho & _ & _ & _ & Hc). split; [apply no_output_out, Ho|]. split; [exact I|]. intros T Hn Hw. apply near_later; [|exact Hw]. destruct Hc as [[-> _]|[-> _]]; [exact Hn|]. eapply near_fields; [| | |exact Hn]; try reflexivity; try (apply Z.le_refl); try apply zlen_skipn_le.
  - intros s c' l (_ & -> & _). reflexivity.
Qed.
Lemma mute_recv t c : mute any (recv_with_timeout N N t) c.
Proof.
  intros ev. eapply wp_conseq; [apply (wp_split _ _ _ _ _ _ _ (recv_with_timeout_ok N N t c ev) (near_recv t c ev))| |]; cbv beta.
  - intros r c' ev' l [[_ H] Hn]. split; [|split; [exact I|exact Hn]]. destruct H as [(_ & H & _)|(H & _)]; [apply dry_facts in H|apply recvd_facts in H]; tauto.
  - intros s c' l [[[(_ & H)|H] _] _]; [apply dry_facts in H|apply recvd_facts in H]; tauto.
Qed.

(** the heartbeat *)
Lemma hum_beat c : hum (fun r => r = AMQP_STATUS_OK) X (amqp_send_frame N E heartbeat_frame) c.
Proof.
  intros ev. eapply wp_conseq; [apply (wp_split _ _ _ _ _ _ _ (send_frame_ok N E heartbeat_frame false amqp_time_infinite c ev ltac:(cbv; discriminate)) (wp_split _ _ _ _ _ _ _ (near_beat c ev) (beat_status c ev)))| |]; cbv beta.
  - intros r2 c2 ev2 l2 [Hs [Hn Hb]].
    destruct Hs as (st & buf & enc & c1 & Hf & -> & _ & Hs). apply heartbeat_bytes in Hf. destruct Hf as [-> ->].
    destruct Hs as [(Hst & _)|(_ & Hs)]; [contradiction|]. destruct Hs as [F1 F2 F3 F4 F5 F6 F7 F8 F9 F10].
    split; [apply beats_prefix, F3|]. assert (r2 = AMQP_STATUS_OK -> whole_beats (out_bytes l2)) as K by (intros G; rewrite (F4 G); apply whole_one).
    split; [exact K|]. intros T H1 H2. split; [apply Hn; assumption|]. intros HX. apply K, (Hb T); assumption.
  - intros s c2 l2 [[(_ & _ & _ & ->)|(buf & enc & Hf & Hp)] _]; [apply whole_beats_beats, whole_nil|].
    apply heartbeat_bytes in Hf. destruct Hf as [_ ->]. apply beats_prefix, Hp.
Qed.
Definition got {A} (p : Z * A) : Prop := fst p = AMQP_STATUS_OK.
Definition gotX {A} (p : Z * A) : Prop := X (fst p).
Lemma hum_wait_loop fuel : forall skip d c, hum got gotX (wait_frame_loop N E fuel skip d) c.
Proof.
  induction fuel as [|fuel IH]; intros skip d c; cbn [wait_frame_loop]; [apply hum_halt|].
  apply hum_get_bind. destruct (_ && _).
  - eapply hum_after; [apply mute_consume|]. intros [r f] c1 _. destruct (negb _); [apply hum_ret|]. destruct (_ =? _).
    + eapply hum_after; [apply mute_release_on|intros _ c2 _; apply IH].
    + destruct (negb _); [apply hum_ret|apply IH].
  - eapply hum_after; [apply mute_silent, silent_time_past|]. intros r c1 _. destruct (_ =? _); [apply hum_ret|].
    eapply (hum_bind (fun r => r = AMQP_STATUS_OK) X).
    + destruct (_ =? _); [apply hum_beat|apply hum_ret].
    + intros r2 c2 ->. change (AMQP_STATUS_OK =? AMQP_STATUS_OK) with true. cbn [negb]. cbv iota. apply hum_get_bind. cbv zeta.
      eapply hum_after; [apply mute_recv|]. intros r3 c3 _. destruct (_ =? _).
      * apply hum_get_bind. destruct (amqp_time_equal _ _); [eapply hum_after; [apply mute_close|intros; apply hum_ret]|].
        destruct (amqp_time_equal _ _); [apply hum_ret|]. destruct (amqp_time_equal _ _); [apply IH|apply hum_halt].
      * destruct (negb _); [apply hum_ret|apply IH].
    + intros r2 c2. destruct (Z.eqb_spec r2 AMQP_STATUS_OK) as [->|Hn]; [left; reflexivity|]. right. cbn [negb]. cbv iota. apply mute_ret. split; [exact Hn|auto].
Qed.
Lemma hum_wait d c : hum got gotX (wait_frame_inner N E d) c.
Proof. apply hum_wait_loop. Qed.
Lemma mute_create f c : mute any (create_link f) c.
Proof.
  unfold create_link. eapply (mute_bind any).
  - intros ev. unfold wp, sys_alloc. destruct ev as [|[] ev]; try reflexivity. split; [reflexivity|]. split; [exact I|]. intros T Hn Hw. apply near_later; assumption.
  - intros ok c1 _. apply mute_get_bind, mute_ret. exact I.
Qed.
Lemma mute_queue_frame f c : mute any (amqp_queue_frame f) c.
Proof.
  unfold amqp_queue_frame. eapply mute_bind; [apply mute_create|]. intros [e|] c1 _; [|apply mute_ret; exact I].
  eapply mute_bind; [apply mute_upd; try reflexivity; apply Z.le_refl|]. intros. apply mute_ret. exact I.
Qed.
Lemma mute_put_back f c : mute any (amqp_put_back_frame f) c.
Proof.
  unfold amqp_put_back_frame. eapply mute_bind; [apply mute_create|]. intros [e|] c1 _; [|apply mute_ret; exact I].
  eapply mute_bind; [apply mute_upd; try reflexivity; apply Z.le_refl|]. intros. apply mute_ret. exact I.
Qed.
(** after a wait: stop if it failed *)
Lemma hum_then {A B} (go ok : B -> Prop) (m : M (Z * A)) (fail k : Z * A -> M B) c : hum got gotX m c ->
  (forall p c', got p -> hum go ok (k p) c') ->
  (forall p c', ~ got p -> mute (fun b => ~ go b /\ (ok b -> gotX p)) (fail p) c') ->
  hum go ok (bind m (fun p => if negb (fst p =? AMQP_STATUS_OK) then fail p else k p)) c.
Proof.
  intros H1 H2 H3. eapply hum_bind; [exact H1| |].
  - intros p c' Hp. rewrite Hp. cbn [negb]. apply H2, Hp.
  - intros p c'. unfold got. destruct (Z.eqb_spec (fst p) AMQP_STATUS_OK) as [Hp|Hp]; [left; exact Hp|right]. cbn [negb]. apply H3, Hp.
Qed.
Lemma hum_on_channel_loop fuel : forall ch c, hum got gotX (wait_on_channel_loop N E fuel ch) c.
Proof.
  induction fuel as [|fuel IH]; intros ch c; cbn [wait_on_channel_loop]; [apply hum_halt|].
  eapply hum_bind; [apply hum_wait| |].
  - intros [r f] c1 Hr. unfold got in Hr. cbn [fst] in Hr. subst r. change (AMQP_STATUS_OK =? AMQP_STATUS_OK) with true. cbn [negb]. cbv iota.
    destruct (_ =? _); [apply hum_ret|]. eapply hum_after; [apply mute_queue_frame|]. intros r c2 _. destruct (negb _); [apply hum_ret|apply IH].
  - intros [r f] c1. unfold got. cbn [fst]. destruct (Z.eqb_spec r AMQP_STATUS_OK) as [->|Hr]; [left; reflexivity|right]. cbn [negb]. cbv iota. apply mute_ret. split; [exact Hr|auto].
Qed.
Lemma hum_on_channel ch c : hum got gotX (amqp_simple_wait_frame_on_channel N E ch) c.
Proof.
  unfold amqp_simple_wait_frame_on_channel. apply hum_get_bind. destruct (find_on_channel _ _ _) as [[[f q]|]|]; [|apply hum_on_channel_loop|apply hum_halt].
  eapply hum_after; [apply mute_upd; try reflexivity; apply Z.le_refl|]. intros. apply hum_ret.
Qed.
Lemma hum_noblock t c : hum got gotX (amqp_simple_wait_frame_noblock N E t) c.
Proof.
  unfold amqp_simple_wait_frame_noblock. eapply hum_after; [apply mute_silent, silent_time_from_now|]. intros [r d] c1 _.
  destruct d as [d|]; [|apply hum_ret]. destruct (negb _); [apply hum_ret|]. apply hum_get_bind. destruct (c_queue c1) as [|e q]; [apply hum_wait|].
  destruct (negb _); [apply hum_halt|]. eapply hum_after; [apply mute_upd; try reflexivity; apply Z.le_refl|]. intros. apply hum_ret.
Qed.
Lemma mute_need {A} (o : option A) c : mute any (need o) c.
Proof. destruct o; [apply mute_ret; exact I|apply mute_halt]. Qed.
Lemma hum_method_list ch ids d c : hum got gotX (amqp_simple_wait_method_list N E ch ids d) c.
Proof.
  unfold amqp_simple_wait_method_list. eapply hum_after; [apply mute_silent, silent_time_tv|]. intros [r tv] c1 _. destruct tv as [tv|]; [|apply hum_ret].
  destruct (negb _); [apply hum_ret|]. eapply hum_bind; [apply hum_noblock| |].
  - intros [r2 f] c2 _. destruct (negb _); [apply hum_ret|]. destruct (_ || _); [apply hum_ret|]. eapply hum_after; [apply mute_need|]. intros [id m] c3 _. destruct (negb _); apply hum_ret.
  - intros [r2 f] c2. unfold got. cbn [fst]. destruct (Z.eqb_spec r2 AMQP_STATUS_OK) as [->|Hr]; [left; reflexivity|right]. cbn [negb]. cbv iota. apply mute_ret. split; [exact Hr|auto].
Qed.
Definition never {A} (_ : A) : Prop := False.
Definition fineX {A} (p : rpc_reply_t * A) : Prop := match fst p with RNormal _ _ | RServer _ _ => True | RLibrary st => X st | RNone => False end.
Lemma hum_read_body fuel : forall ch b o c, hum never fineX (read_body N E fuel ch b o) c.
Proof.
  induction fuel as [|fuel IH]; intros ch b o c; cbn [read_body]; [apply hum_halt|]. destruct (negb _); [apply hum_ret|].
  eapply hum_bind; [apply hum_on_channel| |].
  - intros [r f] c1 _. destruct (negb _); [apply hum_ret|]. destruct (negb _); [destruct (is_close f) as [[id m]|]; apply hum_ret|]. destruct (f_pay f); try apply hum_halt.
    destruct (_ <? _); [apply hum_ret|]. eapply hum_after; [apply mute_need|]. intros b' c2 _. apply IH.
  - intros [r f] c1. unfold got. cbn [fst]. destruct (Z.eqb_spec r AMQP_STATUS_OK) as [->|Hr]; [left; reflexivity|right]. cbn [negb]. cbv iota. apply mute_ret. split; [exact (fun K => K)|auto].
Qed.
Lemma mute_clone c : mute any sys_clone c.
Proof. intros ev. unfold wp, sys_clone. destruct ev as [|[] ev]; try reflexivity. split; [reflexivity|]. split; [exact I|]. intros T Hn Hw. apply near_later; assumption. Qed.
Lemma mute_alloc c : mute any sys_alloc c.
Proof. intros ev. unfold wp, sys_alloc. destruct ev as [|[] ev]; try reflexivity. split; [reflexivity|]. split; [exact I|]. intros T Hn Hw. apply near_later; assumption. Qed.
Lemma mute_malloc n c : mute any (sys_malloc n) c.
Proof. unfold sys_malloc. eapply mute_bind; [apply mute_alloc|]. intros. apply mute_ret. exact I. Qed.
Lemma hum_read ch c : hum never fineX (amqp_read_message N E ch) c.
Proof.
  unfold amqp_read_message. eapply hum_bind; [apply hum_on_channel| |].
  - intros [r f] c1 _. destruct (negb _); [apply hum_ret|]. destruct (negb _).
    { destruct (is_close f) as [[id m]|]; [apply hum_ret|]. eapply hum_after; [apply mute_put_back|]. intros. apply hum_ret. }
    destruct (f_pay f); try apply hum_halt. eapply hum_after; [apply mute_clone|]. intros oom c2 _. eapply hum_after; [apply mute_need|]. intros [e|p'] c3 _; [apply hum_ret|].
    eapply (hum_after (@any bool)). { destruct (_ =? _); [apply mute_ret; exact I|apply mute_malloc]. } intros ok c4 _. destruct (negb _); [apply hum_ret|].
    eapply hum_bind; [apply hum_read_body| |].
    + intros [r' b'] c5 [].
    + intros [r' b'] c5. right. apply mute_ret. split; [exact (fun K => K)|auto].
  - intros [r f] c1. unfold got. cbn [fst]. destruct (Z.eqb_spec r AMQP_STATUS_OK) as [->|Hr]; [left; reflexivity|right]. cbn [negb]. cbv iota. apply mute_ret. split; [exact (fun K => K)|auto].
Qed.
Lemma hum_consume_message t c : hum never fineX (amqp_consume_message N E t) c.
Proof.
  unfold amqp_consume_message. eapply hum_bind; [apply hum_noblock| |].
  - intros [r f] c1 _. destruct (negb _); [apply hum_ret|].
    assert (hum never fineX (amqp_put_back_frame f;; ret (RLibrary AMQP_STATUS_UNEXPECTED_STATE, @None envelope)) c1) as Hp by (eapply hum_after; [apply mute_put_back|intros; apply hum_ret]).
    destruct (if f_type f =? AMQP_FRAME_METHOD then method_of f else None) as [[id m]|]; [|exact Hp]. destruct (_ =? _); [|exact Hp].
    do 5 (eapply hum_after; [apply mute_need|]; let c := fresh "c" in intros ? c _).
    eapply hum_after; [apply mute_alloc|]. intros ok c7 _. destruct (negb _); [apply hum_ret|].
    eapply hum_bind; [apply hum_read| |].
    + intros [r' b'] c8 [].
    + intros [r' b'] c8. right. apply mute_ret. split; [exact (fun K => K)|auto].
  - intros [r f] c1. unfold got. cbn [fst]. destruct (Z.eqb_spec r AMQP_STATUS_OK) as [->|Hr]; [left; reflexivity|right]. cbn [negb]. cbv iota. apply mute_ret. split; [exact (fun K => K)|auto].
Qed.
Lemma hum_confirm t c : hum never fineX (amqp_publisher_confirm_wait N E t) c.
Proof.
  unfold amqp_publisher_confirm_wait. eapply hum_bind; [apply hum_noblock| |].
  - intros [r f] c1 _. destruct (negb _); [apply hum_ret|].
    assert (hum never fineX (amqp_put_back_frame f;; ret (RLibrary AMQP_STATUS_UNEXPECTED_STATE, @None (Z * Z * mstruct))) c1) as Hp by (eapply hum_after; [apply mute_put_back|intros; apply hum_ret]).
    destruct (if f_type f =? AMQP_FRAME_METHOD then method_of f else None) as [[id m]|]; [|exact Hp]. destruct (_ || _); [apply hum_ret|exact Hp].
  - intros [r f] c1. unfold got. cbn [fst]. destruct (Z.eqb_spec r AMQP_STATUS_OK) as [->|Hr]; [left; reflexivity|right]. cbn [negb]. cbv iota. apply mute_ret. split; [exact (fun K => K)|auto].
Qed.
End Hum.
