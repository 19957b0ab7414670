(** Accounting: every decoded frame is delivered or queued, in order, and the
    data of queued frames is never recycled. *)
From Coq Require Import String ZArith List Bool Lia.
From Verif Require Import Base BaseFacts Codec TableModel TableSpec TableOps FramingStmt FramingGen FramingModel MethodSpec
  Frame FrameSpec Time Sasl Net NetApi NetSpec NetFacts NetSend NetRecv NetWalk.
Import ListNotations.
Local Open Scope Z_scope.

Definition falive (g : Z -> nat) (f : frame) : Prop :=
  match f_pay f with
  | PMethod _ _ | PHeader _ _ _ _ | PBody _ => f_gen f = g (f_chan f)
  | _ => True
  end.
Definition qalive (c : conn) : Prop := forallb (entry_alive (gens c)) (c_queue c) = true.

Lemma entry_alive_iff g e : entry_alive g e = true <-> snd e = g (f_chan (fst e)) /\ falive g (fst e).
Proof.
  unfold entry_alive, falive. rewrite andb_true_iff, Nat.eqb_eq.
  destruct (f_pay (fst e)); rewrite ?Nat.eqb_eq; tauto.
Qed.

(** *** what amqp_handle_input leaves alone *)
Lemma consume_data_gens s d n s' r : consume_data s d = Some (n, s', r) -> i_gens s' = i_gens s /\ i_frame_max s' = i_frame_max s /\ i_state s' = i_state s.
Proof.
  unfold consume_data. destruct (i_buf s) as [|ch g bs|]; try discriminate.
  - destruct (write _ _ _); [|discriminate]. intros H; inversion H; auto.
  - destruct (Nat.eqb _ _); [|discriminate]. destruct (write _ _ _); [|discriminate]. intros H; inversion H; auto.
Qed.
Definition hkeeps (s : inst) (r : hres) : Prop :=
  match r with HRet _ f s' => i_gens s' = i_gens s /\ i_frame_max s' = i_frame_max s /\ falive (i_gens s) f | _ => True end.
Lemma decoded_keeps {A} s (r : dres A) err ok : (forall st, hkeeps s (err st)) -> (forall a, hkeeps s (ok a)) -> hkeeps s (decoded r err ok).
Proof. destruct r; cbn; auto. Qed.
Ltac hk := repeat (first [ progress cbv zeta | match goal with
  | |- hkeeps _ (match ?x with Some _ => _ | None => _ end) => lazymatch x with consume_data _ _ => fail | _ => destruct x end
  | |- hkeeps _ (if ?b then _ else _) => destruct b
  | |- hkeeps _ (decoded _ _ _) => apply decoded_keeps; intros
  | |- hkeeps _ (match ?l with [] => _ | _ :: _ => _ end) => destruct l
  | |- hkeeps _ HUB => exact I
  | |- hkeeps _ HAbort => exact I
  | |- hkeeps _ (HRet _ _ _) => repeat split
  end ]).
Lemma handle_body_keeps E n s : hkeeps s (handle_body E n s).
Proof. unfold handle_body. hk. Qed.
Lemma hkeeps_eq s s' r : i_gens s' = i_gens s -> i_frame_max s' = i_frame_max s -> hkeeps s' r -> hkeeps s r.
Proof. intros H1 H2. unfold hkeeps. destruct r; auto. rewrite H1, H2. auto. Qed.
Lemma handle_header_keeps E n s d : hkeeps s (handle_header E n s d).
Proof.
  unfold handle_header. hk.
  destruct (consume_data _ d) as [[[k s'] r]|] eqn:Hc; [|exact I].
  apply consume_data_gens in Hc. destruct Hc as (H1 & H2 & _). cbn in H1, H2.
  apply (hkeeps_eq _ s' _ H1 H2). cbv zeta. destruct (_ <? _); [repeat split|apply handle_body_keeps].
Qed.
Lemma handle_input_keeps E s d : hkeeps s (amqp_handle_input E s d).
Proof.
  unfold amqp_handle_input. destruct (_ =? _); [repeat split|]. cbv zeta.
  set (s0 := match i_state s with IDLE => _ | _ => _ end).
  assert (i_gens s0 = i_gens s /\ i_frame_max s0 = i_frame_max s) as [G1 G2] by (unfold s0; destruct (i_state s); auto).
  destruct (consume_data s0 d) as [[[n s'] r]|] eqn:Hc; [|exact I].
  apply consume_data_gens in Hc. destruct Hc as (H1 & H2 & _).
  apply (hkeeps_eq _ s'); try congruence. destruct (_ <? _); [repeat split|].
  destruct (i_state s'); [exact I| |apply handle_header_keeps|apply handle_body_keeps].
  hk. apply handle_header_keeps.
Qed.

Section Acct.
Context (N : nat) (E : nat -> aenv).

Lemma consume_ok c ev :
  wp (consume_one_frame E) c ev
    (fun p c' ev' l => ev' = ev /\ gens c' = gens c /\ frame_max c' = frame_max c /\ c_queue c' = c_queue c /\ falive (gens c) (snd p) /\ no_oom_obs l /\ no_lost l /\ no_output l /\
       in_bytes l = [] /\ c_fd c' = c_fd c /\ c_hb c' = c_hb c /\ c_chmax c' = c_chmax c /\ c_outbuf c' = c_outbuf c /\ c_next_send c' = c_next_send c /\ c_next_recv c' = c_next_recv c /\
       fst p <= 0 /\
       ((fst p < 0 /\ frames l = [] /\ l = [OBad (fst p)] /\ c_sbuf c' = c_sbuf c)
        \/ (fst p = AMQP_STATUS_OK /\ no_bad l /\ l = (if f_type (snd p) =? 0 then [] else [OFrame (snd p)]) /\ frames l = if f_type (snd p) =? 0 then [] else [snd p])))
    (fun s c' l => c' = c /\ l = [] /\ (s = UB \/ s = Abort)).
Proof.
  unfold wp, consume_one_frame. pose proof (handle_input_keeps E (c_in c) (c_sbuf c)) as H.
  destruct (amqp_handle_input E (c_in c) (c_sbuf c)) as [res f s| |]; [|auto|auto].
  cbn in H. destruct H as (H1 & H2 & H3). destruct (Z.ltb_spec res 0).
  - cbn [fst snd]. split; [reflexivity|]. split; [exact H1|]. split; [exact H2|]. split; [reflexivity|]. split; [exact H3|].
    split; [repeat constructor|]. split; [repeat constructor|]. split; [repeat constructor|].
    do 7 (split; [reflexivity|]). split; [lia|]. left. auto.
  - cbn [fst snd]. split; [reflexivity|]. split; [exact H1|]. split; [exact H2|]. split; [reflexivity|]. split; [exact H3|].
    do 3 (split; [destruct (_ =? _); repeat constructor|]). split; [destruct (_ =? _); reflexivity|].
    do 6 (split; [reflexivity|]). split; [unfold AMQP_STATUS_OK; lia|]. right.
    split; [reflexivity|]. destruct (_ =? _); (split; [repeat constructor|split; reflexivity]).
Qed.

Lemma create_link_ok f c ev :
  wp (create_link f) c ev
    (fun o c' _ l => c' = c /\ idle_log l /\ no_output l /\
       (o = Some (f, gens c (f_chan f)) \/ (o = None /\ ~ no_oom_obs l)))
    (fun s c' l => c' = c /\ idle_log l /\ no_output l /\ s = Blocked).
Proof.
  unfold create_link. apply wp_bind. unfold wp at 1, sys_alloc.
  destruct ev as [|[] ev]; try (split; [reflexivity|split; [apply idle_log_nil|split; [constructor|reflexivity]]]).
  wstep. apply wp_ret. split; [reflexivity|]. split; [rewrite app_nil_r; apply idle_one; discriminate|]. split; [repeat constructor|].
  destruct ok; [left; reflexivity|right; split; [reflexivity|]]. intros H; inversion H; discriminate.
Qed.


(** *** the data of queued frames stays *)
Definition al_at {A} (m : M A) (Q : A -> conn -> Prop) (c : conn) : Prop :=
  forall ev, qalive c -> wp m c ev (fun a c' _ _ => qalive c' /\ Q a c') (fun s c' _ => qalive c').
Definition al {A} (m : M A) (Q : A -> conn -> Prop) : Prop := forall c, al_at m Q c.
Definition any {A} (a : A) (c : conn) : Prop := True.
Definition fresh_ok (p : Z * frame) (c : conn) : Prop := fst p = AMQP_STATUS_OK -> falive (gens c) (snd p).

Lemma al_bind {A B} (m : M A) (k : A -> M B) P Q c :
  al_at m P c -> (forall a c', P a c' -> al_at (k a) Q c') -> al_at (bind m k) Q c.
Proof.
  intros Hm Hk ev Hc. apply wp_bind. eapply wp_conseq; [apply Hm, Hc| |auto].
  cbv beta. intros a c1 ev1 l1 [H1 H2]. eapply wp_conseq; [apply Hk; [exact H2|exact H1]|auto|auto].
Qed.
Lemma al_get_bind {B} (k : conn -> M B) Q c : al_at (k c) Q c -> al_at (bind get k) Q c.
Proof. intros H ev Hc. apply wp_get_bind, H, Hc. Qed.
Lemma al_ret {A} (a : A) (Q : A -> conn -> Prop) c : Q a c -> al_at (ret a) Q c.
Proof. intros H ev Hc. apply wp_ret. auto. Qed.
Lemma al_halt {A} s (Q : A -> conn -> Prop) c : al_at (halt s) Q c.
Proof. intros ev Hc. apply wp_halt. auto. Qed.
Lemma al_upd f (Q : unit -> conn -> Prop) c : (qalive c -> qalive (f c) /\ Q tt (f c)) -> al_at (upd f) Q c.
Proof. intros H ev Hc. apply wp_upd. auto. Qed.
Lemma al_weak {A} (m : M A) (P Q : A -> conn -> Prop) c : al_at m P c -> (forall a c', P a c' -> Q a c') -> al_at m Q c.
Proof. intros H H1 ev Hc. eapply wp_conseq; [apply H, Hc|cbv beta; intros a c' ? ? [? ?]; auto|auto]. Qed.
Lemma al_need {A} (o : option A) c : al_at (need o) any c.
Proof. destruct o; [apply al_ret; exact I|apply al_halt]. Qed.

(** a step that keeps pools and queue *)
Definition keepq (c c' : conn) (_ : list obs) : Prop := gens c' = gens c /\ c_queue c' = c_queue c.
Lemma comp_keepq : comp keepq.
Proof. split; [split; auto|]. intros c c1 c2 l1 l2 [] []. split; congruence. Qed.
Lemma keepq_neutral c c' l : same c c' -> idle_log l -> keepq c c' l.
Proof. intros (H1 & _ & H2 & _) _. split; [unfold gens; rewrite H1; reflexivity|exact H2]. Qed.
Lemma keepq_recvd c c' l : recvd c c' l -> keepq c c' l.
Proof. intros H. apply recvd_facts in H. decompose [and] H. split; [unfold gens; congruence|assumption]. Qed.
Lemma keepq_alive c c' l : keepq c c' l -> qalive c -> qalive c'.
Proof. intros [H1 H2]. unfold qalive. rewrite H1, H2. auto. Qed.
Lemma al_keepq {A} (m : M A) c : sat_at keepq m c -> al_at m (fun _ c' => gens c' = gens c /\ c_queue c' = c_queue c) c.
Proof.
  intros H ev Hc. eapply wp_conseq; [apply H| |]; cbv beta.
  - intros a c' ev' l K. split; [eapply keepq_alive; eauto|exact K].
  - intros s c' l K. eapply keepq_alive; eauto.
Qed.
Lemma al_keep {A} (m : M A) c : sat_at keepq m c -> al_at m any c.
Proof. intros H. eapply al_weak; [apply al_keepq, H|intros; exact I]. Qed.
Lemma al_upd_same f c : same c (f c) -> al_at (upd f) any c.
Proof. intros H. apply al_keep, (walk_upd_same _ keepq_neutral _ _ H). Qed.
Lemma al_silent {A} (m : M A) c : silent m -> al_at m any c.
Proof. intros H. apply al_keep, (walk_silent _ keepq_neutral _ _ H). Qed.

Lemma al_consume c : al_at (consume_one_frame E) fresh_ok c.
Proof.
  intros ev Hc. eapply wp_conseq; [apply consume_ok| |]; cbv beta.
  - intros p c' ev' l (_ & G & _ & Q & Fa & _). split; [unfold qalive; rewrite G, Q; exact Hc|].
    intros _. rewrite G. exact Fa.
  - intros s c' l (-> & _). exact Hc.
Qed.
Lemma qalive_append c f : qalive c -> falive (gens c) f -> qalive (set_queue c (c_queue c ++ [(f, gens c (f_chan f))])).
Proof.
  unfold qalive. intros H1 H2. cbn. rewrite forallb_app. unfold gens in *. cbn. rewrite H1. cbn.
  rewrite (proj2 (entry_alive_iff _ _)); auto.
Qed.
Lemma qalive_cons c f : qalive c -> falive (gens c) f -> qalive (set_queue c ((f, gens c (f_chan f)) :: c_queue c)).
Proof.
  unfold qalive. intros H1 H2. cbn. unfold gens in *. cbn. rewrite H1.
  rewrite (proj2 (entry_alive_iff _ _)); auto.
Qed.
Definition link_ok (o : option (frame * nat)) (c : conn) : Prop :=
  match o with Some e => entry_alive (gens c) e = true | None => True end.
Lemma al_create f c : falive (gens c) f -> al_at (create_link f) link_ok c.
Proof.
  intros Hf ev Hc. eapply wp_conseq; [apply create_link_ok| |]; cbv beta.
  - intros o c' ev' l (-> & _ & _ & [->|[-> _]]); (split; [exact Hc|]); cbn; [|exact I]. apply entry_alive_iff. auto.
  - intros s c' l (-> & _). exact Hc.
Qed.
Lemma al_append e c : entry_alive (gens c) e = true -> al_at (append_entry e) any c.
Proof.
  intros He. apply al_upd. intros Hc. split; [|exact I]. unfold qalive in *. cbn. rewrite forallb_app.
  unfold gens in *. cbn. rewrite Hc, He. reflexivity.
Qed.
Lemma al_queue_frame f c : falive (gens c) f -> al_at (amqp_queue_frame f) any c.
Proof.
  intros Hf. unfold amqp_queue_frame. eapply al_bind; [apply al_create, Hf|]. intros [e|] c' He; [|apply al_ret; exact I].
  eapply al_bind; [apply al_append, He|intros; apply al_ret; exact I].
Qed.
Lemma al_put_back f c : falive (gens c) f -> al_at (amqp_put_back_frame f) any c.
Proof.
  intros Hf. unfold amqp_put_back_frame. eapply al_bind; [apply al_create, Hf|]. intros [e|] c' He; [|apply al_ret; exact I].
  eapply al_bind; [|intros; apply al_ret; exact I]. apply (al_upd _ any). intros Hc. split; [|exact I].
  unfold link_ok in He. unfold qalive, gens in *. cbn in *. rewrite He. exact Hc.
Qed.

Lemma al_drain fuel : forall c, al_at (try_recv_drain E fuel) any c.
Proof.
  induction fuel as [|fuel IH]; intros c; cbn [try_recv_drain]; [apply al_halt|].
  apply al_get_bind. destruct (negb _); [apply al_ret; exact I|].
  eapply al_bind; [apply al_consume|]. intros [r f] c1 Hf. unfold fresh_ok in Hf; cbn [fst snd] in Hf.
  destruct (Z.eqb_spec r AMQP_STATUS_OK) as [Hr|]; cbn [negb]; [|apply al_ret; exact I].
  destruct (negb _); [|apply IH]. eapply al_bind; [apply al_create, Hf, Hr|].
  intros [e|] c2 He; [|apply al_ret; exact I]. eapply al_bind; [apply al_append, He|]. intros; apply IH.
Qed.
Lemma al_recv fuel t c : al_at (recv_with_timeout N fuel t) any c.
Proof. apply al_keep, (walk_recv N _ keepq_neutral keepq_recvd). Qed.
Lemma al_try_recv c : al_at (amqp_try_recv N E) any c.
Proof.
  unfold amqp_try_recv. eapply al_bind; [apply al_drain|]. intros r c1 _. destruct (negb _); [apply al_ret; exact I|].
  eapply al_bind; [apply al_silent, silent_time_from_now|]. intros [r2 [t|]] c2 _; [|apply al_ret; exact I].
  destruct (_ =? _); [apply al_recv|apply al_ret; exact I].
Qed.
Lemma al_send_loop fuel : forall enc more d c, al_at (send_frame_loop N E fuel enc more d) any c.
Proof.
  induction fuel as [|fuel IH]; intros enc more d c; cbn [send_frame_loop]; [apply al_halt|].
  apply al_get_bind. cbv zeta. eapply al_bind; [apply al_keep, (walk_try_send N _ comp_keepq keepq_neutral)|]. intros r c1 _.
  destruct (_ <? _); [apply al_ret; exact I|]. destruct (negb _).
  - destruct (amqp_time_equal _ _); [apply al_ret; exact I|]. eapply al_bind; [apply al_try_recv|]. intros r2 c2 _.
    destruct (_ =? _); [apply al_ret; exact I|]. destruct (negb _); [apply al_ret; exact I|apply IH].
  - apply al_keep, (walk_next_send _ comp_keepq keepq_neutral).
Qed.
Lemma al_send f more d c : al_at (amqp_send_frame_inner N E f more d) any c.
Proof.
  unfold amqp_send_frame_inner. apply al_get_bind. destruct (amqp_frame_to_bytes _ _); [|apply al_halt].
  eapply al_bind; [apply al_upd_same; repeat split|]. intros _ c1 _. destruct (negb _); [apply al_ret; exact I|apply al_send_loop].
Qed.
Lemma al_release_on ch c : al_at (amqp_maybe_release_buffers_on_channel ch) any c.
Proof.
  unfold amqp_maybe_release_buffers_on_channel. apply al_get_bind. destruct (i_state _); try (apply al_ret; exact I).
  destruct (negb _); [apply al_halt|]. destruct (existsb _ _) eqn:He; [apply al_ret; exact I|].
  apply al_upd. intros Hc. split; [|exact I]. unfold qalive in *. cbn -[gens]. unfold gens at 1. cbn.
  rewrite forallb_forall in *. intros e Hin. specialize (Hc e Hin).
  assert (on_channel ch e = false) as Hch.
  { destruct (on_channel ch e) eqn:Ho; [|reflexivity]. rewrite <- He. symmetry. apply existsb_exists. eauto. }
  unfold on_channel in Hch. apply Z.eqb_neq in Hch. apply entry_alive_iff in Hc. apply entry_alive_iff. unfold falive in *.
  destruct (Z.eqb_spec (f_chan (fst e)) ch) as [|]; [congruence|exact Hc].
Qed.
Lemma al_release c : al_at amqp_release_buffers any c.
Proof.
  unfold amqp_release_buffers. apply al_get_bind. destruct (i_state _); try apply al_halt.
  destruct (negb _); [apply al_halt|].
  apply al_upd. intros Hc. split; [|exact I]. unfold qalive in *. cbn -[gens]. unfold gens at 1. cbn.
  rewrite forallb_forall in *. intros e Hin. specialize (Hc e Hin).
  assert (existsb (on_channel (f_chan (fst e))) (c_queue c) = true) as Hex.
  { apply existsb_exists. exists e. split; [exact Hin|]. apply Z.eqb_refl. }
  apply entry_alive_iff in Hc. apply entry_alive_iff. unfold falive in *. rewrite Hex. exact Hc.
Qed.
Lemma al_maybe_release c : al_at amqp_maybe_release_buffers any c.
Proof. unfold amqp_maybe_release_buffers. apply al_get_bind. destruct (amqp_release_buffers_ok _); [apply al_release|apply al_ret; exact I]. Qed.

Lemma fresh_err r f c : r <> AMQP_STATUS_OK -> fresh_ok (r, f) c.
Proof. intros H H1. contradiction. Qed.
Lemma fresh_none r c : fresh_ok (r, no_frame) c.
Proof. intros _. exact I. Qed.
Lemma al_wait_loop fuel : forall skip d c, al_at (wait_frame_loop N E fuel skip d) fresh_ok c.
Proof.
  induction fuel as [|fuel IH]; intros skip d c; cbn [wait_frame_loop]; [apply al_halt|].
  apply al_get_bind. destruct (_ && _).
  - eapply al_bind; [apply al_consume|]. intros [r f] c1 Hf.
    destruct (Z.eqb_spec r AMQP_STATUS_OK) as [->|]; cbn [negb]; [|apply al_ret, fresh_err; assumption].
    destruct (_ =? _).
    + eapply al_bind; [apply al_release_on|]. intros; apply IH.
    + destruct (negb _); [apply al_ret; exact Hf|apply IH].
  - eapply al_bind; [apply al_silent, silent_time_past|]. intros r c1 _. destruct (_ =? _); [apply al_ret, fresh_none|].
    eapply (al_bind _ _ any); [destruct (_ =? _); [apply al_send|apply al_ret; exact I]|]. intros r2 c2 _.
    destruct (negb _); [apply al_ret, fresh_none|]. apply al_get_bind. cbv zeta.
    eapply al_bind; [apply al_recv|]. intros r3 c3 _. destruct (_ =? _).
    + apply al_get_bind. destruct (amqp_time_equal _ _).
      * eapply al_bind; [apply al_keep, (walk_close _ comp_keepq keepq_neutral)|intros; apply al_ret, fresh_none].
      * destruct (amqp_time_equal _ _); [apply al_ret, fresh_none|]. destruct (amqp_time_equal _ _); [apply IH|apply al_halt].
    + destruct (negb _); [apply al_ret, fresh_none|apply IH].
Qed.
Lemma al_wait d c : al_at (wait_frame_inner N E d) fresh_ok c.
Proof. apply al_wait_loop. Qed.
Lemma al_on_channel_loop fuel : forall ch c, al_at (wait_on_channel_loop N E fuel ch) fresh_ok c.
Proof.
  induction fuel as [|fuel IH]; intros ch c; cbn [wait_on_channel_loop]; [apply al_halt|].
  eapply al_bind; [apply al_wait|]. intros [r f] c1 Hf.
  destruct (Z.eqb_spec r AMQP_STATUS_OK) as [->|]; cbn [negb]; [|apply al_ret, fresh_err; assumption].
  destruct (_ =? _); [apply al_ret; exact Hf|].
  eapply al_bind; [apply al_queue_frame, Hf; reflexivity|]. intros r2 c2 _.
  destruct (Z.eqb_spec r2 AMQP_STATUS_OK) as [->|]; cbn [negb]; [apply IH|apply al_ret, fresh_err; assumption].
Qed.
Lemma find_alive g ch q f q' : find_on_channel g ch q = Some (Some (f, q')) ->
  falive g f /\ f_chan f = ch /\ forallb (entry_alive g) q' = true \/ ~ forallb (entry_alive g) q = true.
Proof.
  induction q as [|e q IH]; cbn; [discriminate|].
  destruct (entry_alive g e) eqn:He; [|discriminate]. cbn. destruct (on_channel ch e) eqn:Ho.
  - intros H; injection H as <- <-. apply entry_alive_iff in He. unfold on_channel in Ho. apply Z.eqb_eq in Ho.
    destruct (forallb _ q) eqn:Hq; [left; intuition auto|right; discriminate].
  - exact IH.
Qed.
Lemma al_on_channel ch c : al_at (amqp_simple_wait_frame_on_channel N E ch) fresh_ok c.
Proof.
  unfold amqp_simple_wait_frame_on_channel. apply al_get_bind.
  destruct (find_on_channel _ _ _) as [[[f q]|]|] eqn:Hf; [|apply al_on_channel_loop|apply al_halt].
  intros ev Hc. apply find_alive in Hf. destruct Hf as [(H1 & H2 & H3)|Hf]; [|contradiction].
  wstep. apply wp_ret. split; [exact H3|intros _; exact H1].
Qed.
Lemma al_noblock t c : al_at (amqp_simple_wait_frame_noblock N E t) fresh_ok c.
Proof.
  unfold amqp_simple_wait_frame_noblock. eapply al_bind; [apply al_silent, silent_time_from_now|]. intros [r [d|]] c1 _; [|apply al_ret, fresh_none].
  destruct (negb _); [apply al_ret, fresh_none|]. apply al_get_bind. destruct (c_queue c1) as [|e q] eqn:Hq; [apply al_wait|].
  intros ev Hc. assert (entry_alive (gens c1) e = true /\ forallb (entry_alive (gens c1)) q = true) as [He Hq'].
  { unfold qalive in Hc. rewrite Hq in Hc. cbn in Hc. apply andb_true_iff in Hc. exact Hc. }
  rewrite He. cbn [negb]. wstep. apply wp_ret. split; [exact Hq'|]. intros _. apply entry_alive_iff in He. apply He.
Qed.
Lemma al_method_list ch ids d c : al_at (amqp_simple_wait_method_list N E ch ids d) any c.
Proof.
  unfold amqp_simple_wait_method_list. eapply al_bind; [apply al_silent, silent_time_tv|]. intros [r [tv|]] c1 _; [|apply al_ret; exact I].
  destruct (negb _); [apply al_ret; exact I|]. eapply al_bind; [apply al_noblock|]. intros [r2 f] c2 _.
  destruct (negb _); [apply al_ret; exact I|]. destruct (_ || _); [apply al_ret; exact I|].
  eapply al_bind; [apply al_need|]. intros [id m] c3 _. destruct (negb _); apply al_ret; exact I.
Qed.
Lemma al_rpc_wait fuel : forall ch ids d c, al_at (rpc_wait N E fuel ch ids d) any c.
Proof.
  induction fuel as [|fuel IH]; intros ch ids d c; cbn [rpc_wait]; [apply al_halt|].
  eapply al_bind; [apply al_wait|]. intros [r f] c1 Hf.
  destruct (Z.eqb_spec r AMQP_STATUS_OK) as [->|]; cbn [negb].
  - destruct (negb _).
    + eapply al_bind; [apply al_create, Hf; reflexivity|]. intros [e|] c2 He; [|apply al_ret; exact I].
      eapply al_bind; [apply al_append, He|intros; apply IH].
    + eapply al_bind; [apply al_need|]. intros [id m] c3 _. apply al_ret; exact I.
  - eapply (al_bind _ _ any); [destruct (_ =? _); [apply al_keep, (walk_close _ comp_keepq keepq_neutral)|apply al_ret; exact I]|].
    intros; apply al_ret; exact I.
Qed.
Lemma al_rpc_inner ch id ids m d c : al_at (simple_rpc_inner N E ch id ids m d) any c.
Proof.
  unfold simple_rpc_inner. eapply al_bind; [apply al_send|]. intros r c1 _. destruct (_ <? _); [apply al_ret; exact I|apply al_rpc_wait].
Qed.
Lemma al_rpc ch id ids m c : al_at (amqp_simple_rpc N E ch id ids m) any c.
Proof.
  unfold amqp_simple_rpc. apply al_get_bind. eapply al_bind; [apply al_silent, silent_time_from_now|]. intros [r [d|]] c1 _; [|apply al_ret; exact I].
  destruct (negb _); [apply al_ret; exact I|apply al_rpc_inner].
Qed.
Lemma al_rpc_decoded ch id r m c : al_at (amqp_simple_rpc_decoded N E ch id r m) any c.
Proof.
  unfold amqp_simple_rpc_decoded. eapply al_bind; [apply al_rpc|]. intros r2 c1 _.
  eapply al_bind; [apply al_upd_same; repeat split|intros; apply al_ret; exact I].
Qed.
Lemma al_publish_body fuel : forall ch b u o c, al_at (publish_body N E fuel ch b u o) any c.
Proof.
  induction fuel as [|fuel IH]; intros ch b u o c; cbn [publish_body]; [apply al_halt|].
  destruct (negb _); [apply al_ret; exact I|]. cbv zeta. destruct (_ =? _); [apply al_ret; exact I|].
  eapply al_bind; [apply al_need|]. intros fr c1 _. eapply al_bind; [apply al_send|]. intros r c2 _.
  destruct (_ <? _); [apply al_ret; exact I|apply IH].
Qed.
Lemma al_publish ch x k ma im p b c : al_at (amqp_basic_publish N E ch x k ma im p b) any c.
Proof.
  unfold amqp_basic_publish. apply al_get_bind. cbv zeta. eapply al_bind; [apply al_silent, silent_time_past|]. intros r c1 _.
  destruct (_ =? _); [apply al_ret; exact I|].
  eapply (al_bind _ _ any); [destruct (_ =? _); [apply al_try_recv|apply al_ret; exact I]|]. intros r2 c2 _.
  destruct (_ =? _); [apply al_ret; exact I|]. destruct (negb _); [apply al_ret; exact I|].
  eapply al_bind; [apply al_send|]. intros r3 c3 _. destruct (_ <? _); [apply al_ret; exact I|].
  eapply al_bind; [apply al_send|]. intros r4 c4 _. destruct (_ <? _); [apply al_ret; exact I|apply al_publish_body].
Qed.
Lemma al_read_body fuel : forall ch b o c, al_at (read_body N E fuel ch b o) any c.
Proof.
  induction fuel as [|fuel IH]; intros ch b o c; cbn [read_body]; [apply al_halt|].
  destruct (negb _); [apply al_ret; exact I|]. eapply al_bind; [apply al_on_channel|]. intros [r f] c1 _.
  destruct (negb _); [apply al_ret; exact I|]. destruct (negb _); [destruct (is_close f) as [[]|]; apply al_ret; exact I|].
  destruct (f_pay f); try apply al_halt. destruct (_ <? _); [apply al_ret; exact I|].
  eapply al_bind; [apply al_need|]. intros b2 c2 _. apply IH.
Qed.
Lemma al_alloc c : al_at sys_alloc any c.
Proof. apply al_keep, (walk_alloc _ comp_keepq keepq_neutral). Qed.
Lemma al_clone c : al_at sys_clone any c.
Proof. apply al_keep, (walk_clone _ comp_keepq). Qed.
Lemma al_malloc n c : al_at (sys_malloc n) any c.
Proof. unfold sys_malloc. eapply al_bind; [apply al_alloc|intros; apply al_ret; exact I]. Qed.
Lemma al_read ch c : al_at (amqp_read_message N E ch) any c.
Proof.
  unfold amqp_read_message. eapply al_bind; [apply al_on_channel|]. intros [r f] c1 Hf.
  destruct (Z.eqb_spec r AMQP_STATUS_OK) as [->|]; cbn [negb]; [|apply al_ret; exact I].
  destruct (negb _).
  - destruct (is_close f) as [[]|]; [apply al_ret; exact I|]. eapply al_bind; [apply al_put_back, Hf; reflexivity|intros; apply al_ret; exact I].
  - destruct (f_pay f); try apply al_halt. eapply al_bind; [apply al_clone|]. intros oom c2 _.
    eapply al_bind; [apply al_need|]. intros [e|p] c3 _; [apply al_ret; exact I|].
    eapply (al_bind _ _ any); [destruct (_ =? _); [apply al_ret; exact I|apply al_malloc]|]. intros ok c4 _.
    destruct (negb _); [apply al_ret; exact I|]. eapply al_bind; [apply al_read_body|]. intros [r2 b] c5 _. apply al_ret; exact I.
Qed.
Lemma al_consume_message t c : al_at (amqp_consume_message N E t) any c.
Proof.
  unfold amqp_consume_message. eapply al_bind; [apply al_noblock|]. intros [r f] c1 Hf.
  destruct (Z.eqb_spec r AMQP_STATUS_OK) as [->|]; cbn [negb]; [|apply al_ret; exact I].
  assert (al_at (bind (amqp_put_back_frame f) (fun _ => ret (RLibrary AMQP_STATUS_UNEXPECTED_STATE, @None envelope))) any c1) as Hpb
    by (eapply al_bind; [apply al_put_back, Hf; reflexivity|intros; apply al_ret; exact I]).
  match goal with |- al_at (match ?x with Some _ => _ | None => _ end) _ _ => destruct x as [[id m]|] end; [|exact Hpb]. destruct (_ =? _); [|exact Hpb].
  do 5 (eapply al_bind; [apply al_need|]; intros ? ? _). eapply al_bind; [apply al_alloc|]. intros ok c2 _.
  destruct (negb _); [apply al_ret; exact I|]. eapply al_bind; [apply al_read|]. intros [r2 msg] c3 _. apply al_ret; exact I.
Qed.
Lemma al_confirm t c : al_at (amqp_publisher_confirm_wait N E t) any c.
Proof.
  unfold amqp_publisher_confirm_wait. eapply al_bind; [apply al_noblock|]. intros [r f] c1 Hf.
  destruct (Z.eqb_spec r AMQP_STATUS_OK) as [->|]; cbn [negb]; [|apply al_ret; exact I].
  assert (al_at (bind (amqp_put_back_frame f) (fun _ => ret (RLibrary AMQP_STATUS_UNEXPECTED_STATE, @None (Z * Z * mstruct)))) any c1) as Hpb
    by (eapply al_bind; [apply al_put_back, Hf; reflexivity|intros; apply al_ret; exact I]).
  match goal with |- al_at (match ?x with Some _ => _ | None => _ end) _ _ => destruct x as [[id m]|] end; [|exact Hpb]. destruct (_ || _); [apply al_ret; exact I|exact Hpb].
Qed.
Lemma al_tune cm fm hb c : al_at (amqp_tune_connection cm fm hb) any c.
Proof.
  unfold amqp_tune_connection. apply al_get_bind. destruct (i_state _); try apply al_halt.
  eapply (al_bind _ _ any); [apply al_upd; intros H; split; [exact H|exact I]|]. intros _ c1 _.
  eapply al_bind; [apply al_keep, (walk_next_send _ comp_keepq keepq_neutral)|]. intros r c2 _. destruct (negb _); [apply al_ret; exact I|].
  eapply al_bind; [apply al_keep, (walk_next_recv _ comp_keepq keepq_neutral)|]. intros r2 c3 _. destruct (negb _); [apply al_ret; exact I|].
  eapply al_bind; [apply al_alloc|]. intros ok c4 _.
  destruct ok; (eapply (al_bind _ _ any); [apply al_upd_same; try destruct (_ =? _); repeat split|intros; apply al_ret; exact I]).
Qed.
Lemma al_header d c : al_at (send_header_inner N d) any c.
Proof. apply al_keep, (walk_send_header N _ comp_keepq keepq_neutral). Qed.
Lemma al_login_error r c : al_at (login_error r) any c.
Proof. unfold login_error. eapply al_bind; [apply al_keep, (walk_close _ comp_keepq keepq_neutral)|intros; apply al_ret; exact I]. Qed.
Lemma al_login_open vh d c : al_at (login_open N E vh d) any c.
Proof.
  unfold login_open. eapply al_bind; [apply al_rpc_inner|]. intros r c1 _. destruct r; try (apply al_ret; exact I).
  eapply al_bind; [apply al_maybe_release|intros; apply al_ret; exact I].
Qed.
Lemma al_login_tune vh cm fm hb d c : al_at (login_tune N E vh cm fm hb d) any c.
Proof.
  unfold login_tune. eapply al_bind; [apply al_release|]. intros _ c0 _. eapply al_bind; [apply al_method_list|]. intros [r [id m]] c1 _.
  destruct (negb _); [apply al_login_error|]. destruct (_ =? _); [apply al_ret; exact I|].
  do 3 (eapply al_bind; [apply al_need|]; intros ? ? _). cbv zeta. eapply al_bind; [apply al_tune|]. intros r2 c2 _.
  destruct (_ <? _); [apply al_login_error|]. eapply al_bind; [apply al_send|]. intros r3 c3 _. destruct (_ <? _); [apply al_login_error|].
  eapply al_bind; [apply al_release|]. intros; apply al_login_open.
Qed.
Lemma al_login pf vh cm fm hb cp t cr c : al_at (amqp_login_inner N E pf vh cm fm hb cp t cr) any c.
Proof.
  unfold amqp_login_inner. do 3 (match goal with |- al_at (if ?b then _ else _) _ _ => destruct b end; [apply al_ret; exact I|]).
  eapply al_bind; [apply al_silent, silent_time_from_now|]. intros [r [d|]] c1 _; [|apply al_login_error].
  destruct (negb _); [apply al_login_error|]. eapply al_bind; [apply al_header|]. intros r2 c2 _. destruct (negb _); [apply al_login_error|].
  eapply al_bind; [apply al_method_list|]. intros [r3 [id m]] c3 _. destruct (negb _); [apply al_login_error|].
  do 2 (eapply al_bind; [apply al_need|]; intros ? ? _). destruct (_ || _); [apply al_login_error|].
  eapply al_bind; [apply al_need|]; intros ? ? _. eapply al_bind; [apply al_clone|]; intros oom ? _.
  destruct (fst _) as [e|tt']; [apply al_login_error|]. eapply al_bind; [apply al_upd_same; repeat split|]; intros ? ? _.
  eapply al_bind; [apply al_need|]; intros mechs ? _. destruct (sasl_mechanism_in_list _ _) as [[]| |]; try apply al_halt; [|apply al_login_error].
  eapply al_bind; [apply al_alloc|]; intros ok ? _. destruct (sasl_response _ _); [|apply al_login_error|apply al_halt].
  eapply al_bind; [apply al_clone|]; intros oom2 ? _. eapply al_bind; [apply al_need|]; intros merged ? _.
  destruct (fst merged); [apply al_login_error|]. eapply al_bind; [apply al_upd_same; repeat split|]; intros ? ? _.
  eapply al_bind; [apply al_send|]; intros r5 ? _. destruct (_ <? _); [apply al_login_error|apply al_login_tune].
Qed.

Lemma al_exec a c : al_at (exec N E a) any c.
Proof.
  assert (forall (A : Type) (m : M A) (k : A -> M outcome_t) c, al_at m any c -> (forall (a : A) c', al_at (k a) any c') -> al_at (bind m k) any c) as B
    by (intros; eapply al_bind; [eassumption|auto]).
  assert (forall (A : Type) (a : A) c, al_at (ret a) any c) as Rt by (intros; apply al_ret; exact I).
  destruct a; cbn [exec]; try (apply B; [|intros; try match goal with |- al_at (match ?x with _ => _ end) _ _ => destruct x; try match goal with |- al_at (match ?x with _ => _ end) _ _ => destruct x end end; apply Rt]).
  - apply al_header.
  - apply al_send.
  - apply al_send.
  - eapply al_weak; [apply al_noblock|intros; exact I].
  - apply al_method_list.
  - apply al_rpc.
  - unfold amqp_call. destruct (build_request _ _ _); [apply al_rpc_decoded|apply al_halt].
  - unfold amqp_channel_close. destruct (_ || _); [apply Rt|apply al_rpc].
  - unfold amqp_connection_close. destruct (_ || _); [apply Rt|apply al_rpc].
  - apply al_publish.
  - apply al_send.
  - apply al_send.
  - apply al_send.
  - unfold amqp_basic_get. eapply al_bind; [apply al_rpc|]. intros r c1 _. eapply al_bind; [apply al_upd_same; repeat split|intros; apply Rt].
  - apply al_read.
  - apply al_consume_message.
  - apply al_confirm.
  - apply al_release.
  - apply al_maybe_release.
  - apply al_release_on.
  - apply al_tune.
  - apply al_get_bind. cbv zeta. apply B; [apply al_upd_same; repeat split|intros; apply Rt].
  - apply al_get_bind. cbv zeta. apply B; [apply al_upd_same; repeat split|intros; apply Rt].
  - unfold amqp_login_with_properties. apply al_get_bind. apply al_login.
Qed.
Lemma al_exec_all l : forall c, al_at (exec_all N E l) any c.
Proof.
  induction l as [|a l IH]; intros c; cbn [exec_all]; [apply al_ret; exact I|].
  eapply al_bind; [apply al_exec|]. intros o c1 _. eapply al_bind; [apply IH|]. intros os c2 _. apply al_ret; exact I.
Qed.
End Acct.
