(** C61: when a call reports AMQP_STATUS_TIMEOUT. *)
From Coq Require Import String ZArith List Bool Lia.
From Verif Require Import Base BaseFacts Codec TableModel TableSpec TableDec TableOps FramingStmt FramingGen FramingModel MethodSpec
  Frame FrameSpec Time Sasl Net NetApi NetSpec NetFacts NetSend NetRecv NetWalk NetAcct NetOrder NetWait NetOff NetCalls EncStatus NetRpc
  TimeoutSpec HeartbeatSpec NetWatch NetVerdict NetPunctual.
From Verif Require Prop_TableOps.
Import ListNotations.
Local Open Scope Z_scope.

Section TimeUp.
Context (N : nat) (E : nat -> aenv) (T : Z) (HT : 0 < T).
Notation TMO := AMQP_STATUS_TIMEOUT.
Notation crun := (crun T).
Definition closing (l : list obs) : Prop := Forall (fun o => match o with OClose _ => True | _ => False end) l.
Definition up (w : clockwork) (l : list obs) : Prop :=
  crun l w = Forgiven \/ exists l0 t write ms cl, l = l0 ++ [OClock t; OPoll write ms PTimeout] ++ cl /\ T < t + (ms + 1) * 1000000 /\ closing cl.
Lemma up_of w l : timed_out T T w l -> up w l.
Proof. intros [H|[H|(l0 & t & wr & ms & -> & H)]]; [left; exact H|lia|]. right. exists l0, t, wr, ms, []. split; [reflexivity|]. split; [exact H|constructor]. Qed.
Lemma up_app w a b : up (crun a w) b -> up w (a ++ b).
Proof. intros [H|(l0 & t & wr & ms & cl & -> & H)]; [left; rewrite crun_app; exact H|]. right. exists (a ++ l0), t, wr, ms, cl. rewrite <- app_assoc. split; [reflexivity|exact H]. Qed.
Lemma up_closing w l cl : up w l -> closing cl -> up w (l ++ cl).
Proof.
  intros [H|(l0 & t & wr & ms & c0 & -> & H & C)] Hc; [left; rewrite crun_app, H; apply forgiven|]. right. exists l0, t, wr, ms, (c0 ++ cl). rewrite <- !app_assoc. split; [reflexivity|]. split; [exact H|]. apply Forall_app; auto.
Qed.
Lemma heartbeat_in_time c ev : wp (amqp_send_frame N E heartbeat_frame) c ev (fun r _ _ _ => r <> TMO) (fun _ _ _ => True).
Proof.
  unfold amqp_send_frame. eapply wp_conseq; [apply (send_frame_ok N E heartbeat_frame false amqp_time_infinite c ev (Z.le_refl _))| |auto]; cbv beta.
  intros r c' ev' l (st & buf & enc & c1 & Hf & _ & _ & [(H & _)|(-> & H)]) ->.
  - apply heartbeat_bytes in Hf. destruct Hf as [Hf _]. contradiction.
  - apply (sf_timeout _ _ _ _ _ _ H eq_refl). reflexivity.
Qed.
(** [d] is the deadline of the call, or there is none *)
Definition verdict (d : Z) (w : clockwork) (r : Z) (l : list obs) : Prop := r = TMO -> no_bad l -> d = T /\ up w l.
Lemma verdict_app d w a b r : verdict d (crun a w) r b -> verdict d w r (a ++ b).
Proof. intros H X Y. rewrite no_bad_app in Y. destruct (H X (proj2 Y)) as [-> K]. split; [reflexivity|]. apply up_app, K. Qed.
Lemma wait_time_up d : d = T \/ d = amqp_time_infinite -> forall fuel skip c w ev, (d = T -> good T w) ->
  wp (wait_frame_loop N E fuel skip d) c ev (fun p _ _ l => (d = T -> good T (crun l w)) /\ verdict d w (fst p) l) (fun _ _ _ => True).
Proof.
  intros Hd. 
  assert (forall (B : Type) (m : M B) c w ev, (d = T -> good T w) -> pu T m c -> wp m c ev (fun _ _ _ l => d = T -> good T (crun l w)) (fun _ _ _ => True)) as P.
  { intros B m c w ev G Hm. destruct (Z.eq_dec d T) as [->|Hne]; [|unfold wp; destruct (m c ev); [intros X; contradiction|exact I]]. eapply wp_conseq; [apply (Hm w ev (G eq_refl))| |auto]; cbv beta. auto. }
  induction fuel as [|fuel IH]; intros skip c w ev G; cbn [wait_frame_loop]; [apply wp_halt; exact I|]. wstep.
  assert (forall skip c1 ev1 l1, (d = T -> good T (crun l1 w)) -> wp (wait_frame_loop N E fuel skip d) c1 ev1 (fun p _ _ l => (d = T -> good T (crun (l1 ++ l) w)) /\ verdict d w (fst p) (l1 ++ l)) (fun _ _ _ => True)) as W.
  { intros skip1 c1 ev1 l1 G1. eapply wp_conseq; [apply (IH skip1 c1 _ ev1 G1)| |auto]; cbv beta. intros p c2 ev2 l2 [G2 V]. rewrite crun_app. split; [exact G2|]. apply verdict_app, V. }
  destruct (_ && _).
  - apply wp_bind. eapply wp_conseq; [eapply wp_split; [apply (P _ _ c w ev G), pu_consume|apply consume_ok]| |auto]; cbv beta.
    intros [r f] c1 ev1 l1 (F1 & _&_&_&_&_&_&_&_&_&_&_&_&_&_&_&_&H). cbn [fst snd] in H.
    destruct H as [(H1 & _ & H2 & _)|(-> & _)].
    { destruct (negb _) eqn:Hn; [|exfalso; apply negb_false_iff, Z.eqb_eq in Hn; unfold AMQP_STATUS_OK in Hn; lia]. apply wp_ret. rewrite app_nil_r. split; [exact F1|]. rewrite H2. intros _ X. inversion X. contradiction. }
    change (negb (AMQP_STATUS_OK =? AMQP_STATUS_OK)) with false. cbv iota. destruct (_ =? _).
    + apply wp_bind. eapply wp_conseq; [apply (P _ _ c1 _ ev1 F1), pu_release_on| |auto]; cbv beta. intros _ c2 ev2 l2 F2. rewrite <- crun_app in F2.
      eapply wp_conseq; [apply (W false c2 ev2 (l1 ++ l2) F2)| |auto]; cbv beta. intros. rewrite app_assoc. assumption.
    + destruct (negb _); [apply wp_ret; rewrite app_nil_r; split; [exact F1|discriminate]|]. apply W, F1.
  - apply wp_bind. eapply wp_conseq; [apply (P _ _ c w ev G), pu_past| |auto]; cbv beta. intros r1 c1 ev1 l1 F1.
    destruct (Z.eqb_spec r1 AMQP_STATUS_TIMER_FAILURE) as [->|_]; [apply wp_ret; rewrite app_nil_r; split; [exact F1|discriminate]|].
    apply wp_bind.
    apply (wp_conseq _ _ _ (fun r c' _ l => (d = T -> good T (crun (l1 ++ l) w)) /\ r <> TMO) _ (fun _ _ _ => True) _); [| |auto].
    { destruct (_ =? _); [|apply wp_ret; rewrite app_nil_r; split; [exact F1|discriminate]].
      eapply wp_conseq; [eapply wp_split; [apply (P _ _ c1 _ ev1 F1), pu_send_frame'|apply heartbeat_in_time]| |auto]; cbv beta. intros. rewrite crun_app. exact H. }
    cbv beta. intros r2 c2 ev2 l2 (F2 & S2). destruct (Z.eqb_spec r2 AMQP_STATUS_OK) as [->|Hne]; cbn [negb].
    2:{ apply wp_ret. cbn [fst]. rewrite app_nil_r. split; [exact F2|]. intros X. contradiction. }
    wstep. cbv zeta. set (D := amqp_time_first d _).
    apply wp_bind. 
    apply (wp_conseq _ _ _ (fun r c' _ l => (d = T -> good T (crun ((l1 ++ l2) ++ l) w)) /\ (r = TMO -> D = d -> d = T /\ timed_out T T w ((l1 ++ l2) ++ l))) _ (fun _ _ _ => True) _); [| |auto].
    { destruct Hd as [->| ->].
      - assert (soon T D (crun (l1 ++ l2) w)) as S by (apply soon_le, first_le_l). eapply wp_conseq; [apply (recv_punctual N E T D N c2 _ ev2 (F2 eq_refl) S)| |auto]; cbv beta.
        intros r3 c3 ev3 l3 [G3 R3]. rewrite crun_app. split; [auto|]. intros X Y. split; [reflexivity|]. rewrite Y in R3. destruct (R3 X) as [_ R4]. apply timed_out_app, R4.
      - destruct (Z.eq_dec amqp_time_infinite T) as [HE|HE].
        + assert (soon T D (crun (l1 ++ l2) w)) as S by (apply soon_le; rewrite <- HE; apply first_le_l). eapply wp_conseq; [apply (recv_punctual N E T D N c2 _ ev2 (F2 HE) S)| |auto]; cbv beta.
          intros r3 c3 ev3 l3 [G3 R3]. rewrite crun_app. split; [auto|]. intros X Y. split; [exact HE|]. rewrite Y, HE in R3. destruct (R3 X) as [_ R4]. apply timed_out_app, R4.
        + eapply wp_conseq; [apply recv_with_timeout_ok| |auto]; cbv beta. intros r3 c3 ev3 l3 [_ H3]. split; [intros; contradiction|]. intros X Y. exfalso.
          destruct H3 as [(_ & _ & _ & H3)|(_ & H3 & _)]; [apply (H3 X); exact Y|contradiction]. }
    cbv beta. intros r3 c3 ev3 l3 (F3 & R3). rewrite <- app_assoc in F3, R3. destruct (Z.eqb_spec r3 TMO) as [->|Ht].
    + wstep. destruct (amqp_time_equal _ _).
      { apply wp_bind. assert (d = T -> good T (crun (l1 ++ l2 ++ l3) w)) as F4 by exact F3. eapply wp_conseq; [apply (P _ _ c3 _ ev3 F4), pu_close| |auto]; cbv beta. intros x c4 ev4 l4 G4. apply wp_ret. cbn [fst]. rewrite app_nil_r. rewrite <- crun_app in G4. rewrite <- !app_assoc in G4. split; [exact G4|discriminate]. }
      unfold amqp_time_equal. destruct (Z.eqb_spec D d) as [HD|HD]; [apply wp_ret; cbn [fst]; rewrite app_nil_r; split; [exact F3|]; intros _ _; destruct (R3 eq_refl HD) as [R4 R5]; split; [exact R4|apply up_of, R5]|].
      destruct (_ =? _); [|apply wp_halt; exact I]. eapply wp_conseq; [apply (W true c3 ev3 (l1 ++ l2 ++ l3) F3)| |auto]; cbv beta. intros. rewrite <- !app_assoc in *. assumption.
    + destruct (Z.eqb_spec r3 AMQP_STATUS_OK) as [->|]; cbn [negb].
      * eapply wp_conseq; [apply (W false c3 ev3 (l1 ++ l2 ++ l3) F3)| |auto]; cbv beta. intros. rewrite <- !app_assoc in *. assumption.
      * apply wp_ret. cbn [fst]. rewrite app_nil_r. split; [exact F3|]. intros X. contradiction.
Qed.
Lemma close_closing c ev : wp amqp_socket_close c ev (fun _ _ _ l => closing l) (fun _ _ _ => True).
Proof.
  unfold amqp_socket_close. wstep. destruct (_ =? -1); [apply wp_ret; constructor|]. apply wp_bind. unfold wp at 1, sys_close. destruct ev as [|[] ev]; try exact I.
  destruct (negb ok); [|wstep]; apply wp_ret; repeat constructor.
Qed.
Definition rverdict (w : clockwork) (r : rpc_reply_t) (l : list obs) : Prop := r = RLibrary TMO -> no_bad l -> up w l.
Lemma rverdict_app w a b r : rverdict (crun a w) r b -> rverdict w r (a ++ b).
Proof. intros H X Y. rewrite no_bad_app in Y. apply up_app, H; [exact X|apply Y]. Qed.
Lemma rpc_wait_time_up : forall fuel ch ids c w ev, good T w ->
  wp (rpc_wait N E fuel ch ids T) c ev (fun r _ _ l => rverdict w r l) (fun _ _ _ => True).
Proof.
  induction fuel as [|fuel IH]; intros ch ids c w ev G; cbn [rpc_wait]; [apply wp_halt; exact I|].
  apply wp_bind. eapply wp_conseq; [apply (wait_time_up T (or_introl eq_refl) N false c w ev (fun _ => G))| |auto]; cbv beta.
  intros [st f] c1 ev1 l1 [G1 V]. specialize (G1 eq_refl). cbn [fst] in V. destruct (Z.eqb_spec st AMQP_STATUS_OK) as [->|Hst]; cbn [negb].
  - destruct (negb _).
    + apply wp_bind. eapply wp_conseq; [apply (pu_create_link T f c1 _ ev1 G1)| |auto]; cbv beta. intros o c2 ev2 l2 G2. destruct o as [e|]; [|apply wp_ret; discriminate].
      unfold append_entry. wstep. eapply wp_conseq; [apply (IH ch ids _ _ ev2 G2)| |auto]; cbv beta. intros r c3 ev3 l3 K. apply rverdict_app, rverdict_app, K.
    + apply wp_bind. unfold need. destruct (method_of f) as [[id m]|]; [|apply wp_halt; exact I]. apply wp_ret. apply wp_ret. destruct (amqp_id_in_reply_list _ _); discriminate.
  - destruct (Z.eqb_spec st TMO) as [->|Ht].
    + apply wp_bind. eapply wp_conseq; [apply close_closing| |auto]; cbv beta. intros x c2 ev2 l2 C. apply wp_ret. rewrite app_nil_r. intros _ Y. rewrite no_bad_app in Y. apply up_closing; [|exact C]. apply V; [reflexivity|apply Y].
    + apply wp_bind. apply wp_ret. apply wp_ret. intros X. congruence.
Qed.
Lemma rpc_inner_time_up ch id ids m c w ev : zlen (c_outbuf c) < M31 -> good T w ->
  wp (simple_rpc_inner N E ch id ids m T) c ev (fun r _ _ l => rverdict w r l) (fun _ _ _ => True).
Proof.
  intros Hb G. unfold simple_rpc_inner. apply wp_bind. eapply wp_conseq; [eapply wp_split; [apply (pu_send_method N E T ch id m c w ev G)|apply (send_frame_ok N E _ false amqp_time_infinite c ev (Z.le_refl _))]| |auto]; cbv beta.
  intros r c1 ev1 l1 [G1 Hs]. destruct (sent_f_res N E _ _ _ _ _ _ Hb Hs) as [Hr Ht]. destruct (Z.ltb_spec r 0).
  - apply wp_ret. intros X. exfalso. apply Ht; [congruence|reflexivity].
  - eapply wp_conseq; [apply (rpc_wait_time_up N ch ids c1 _ ev1 G1)| |auto]; cbv beta. intros. apply rverdict_app. assumption.
Qed.
End TimeUp.

(** reading the content of a message never reports AMQP_STATUS_TIMEOUT *)
Section Read.
Context (N : nat) (E : nat -> aenv).
Notation TMO := AMQP_STATUS_TIMEOUT.
Lemma wait_forever c ev : wp (wait_frame_inner N E amqp_time_infinite) c ev (fun p _ _ l => fst p = TMO -> ~ no_bad l) (fun _ _ _ => True).
Proof.
  unfold wait_frame_inner. eapply wp_conseq; [apply (wait_time_up N E 1 ltac:(lia) amqp_time_infinite (or_intror eq_refl) N false c Forgiven ev (fun _ => I))| |auto]; cbv beta.
  intros p c' ev' l [_ V] X Y. destruct (V X Y) as [H _]. discriminate.
Qed.
Lemma queue_status f c ev : wp (amqp_queue_frame f) c ev (fun r _ _ _ => r <> TMO) (fun _ _ _ => True).
Proof. unfold amqp_queue_frame. apply wp_bind. unfold wp at 1. destruct (create_link f c ev) as [o c1 ev1 l1|]; [|exact I]. destruct o; [unfold append_entry; wstep|]; apply wp_ret; discriminate. Qed.
Lemma on_channel_forever ch c ev : wp (amqp_simple_wait_frame_on_channel N E ch) c ev (fun p _ _ l => fst p = TMO -> ~ no_bad l) (fun _ _ _ => True).
Proof.
  unfold amqp_simple_wait_frame_on_channel. wstep. destruct (find_on_channel _ _ _) as [[[f q]|]|]; [wstep; apply wp_ret; discriminate| |apply wp_halt; exact I].
  generalize N at 2 as fuel. intros fuel. revert c ev. induction fuel as [|fuel IH]; intros c ev; cbn [wait_on_channel_loop]; [apply wp_halt; exact I|].
  apply wp_bind. eapply wp_conseq; [apply wait_forever| |auto]; cbv beta. intros [r f] c1 ev1 l1 V. cbn [fst] in V. destruct (Z.eqb_spec r AMQP_STATUS_OK) as [->|Hr]; cbn [negb].
  - destruct (_ =? _); [apply wp_ret; discriminate|]. apply wp_bind. eapply wp_conseq; [apply queue_status| |auto]; cbv beta. intros r2 c2 ev2 l2 V2.
    destruct (negb _); [apply wp_ret; cbn [fst]; contradiction|]. eapply wp_conseq; [apply IH| |auto]; cbv beta. intros p c3 ev3 l3 K X Y. rewrite !no_bad_app in Y. apply (K X), Y.
  - apply wp_ret. cbn [fst]. rewrite app_nil_r. exact V.
Qed.
Definition not_late (r : rpc_reply_t) (l : list obs) : Prop := r = RLibrary TMO -> ~ no_bad l.
Lemma not_late_app a b r : not_late r b -> not_late r (a ++ b).
Proof. intros H X Y. rewrite no_bad_app in Y. apply (H X), Y. Qed.
Lemma read_body_forever ch : forall fuel body k c ev, wp (read_body N E fuel ch body k) c ev (fun p _ _ l => not_late (fst p) l) (fun _ _ _ => True).
Proof.
  induction fuel as [|fuel IH]; intros body k c ev; cbn [read_body]; [apply wp_halt; exact I|]. destruct (negb _); [apply wp_ret; discriminate|].
  apply wp_bind. eapply wp_conseq; [apply on_channel_forever| |auto]; cbv beta. intros [r f] c1 ev1 l1 V. cbn [fst] in V.
  destruct (Z.eqb_spec r AMQP_STATUS_OK) as [->|Hr]; cbn [negb]; [|apply wp_ret; cbn [fst]; rewrite app_nil_r; intros X; apply V; congruence].
  destruct (negb _); [destruct (is_close f) as [[i m]|]; apply wp_ret; discriminate|]. destruct (f_pay f); try (apply wp_halt; exact I).
  destruct (_ <? _); [apply wp_ret; discriminate|]. apply wp_bind. unfold need. destruct (write _ _ _); [|apply wp_halt; exact I]. apply wp_ret.
  eapply wp_conseq; [apply IH| |auto]; cbv beta. intros. apply not_late_app. assumption.
Qed.
Lemma clone_status oom l : forall fl m n e, clone_members oom l fl m n = Some (inl e) -> e <> TMO.
Proof.
  induction l as [|[k st] l IH]; intros fl m n e; cbn [clone_members]; [discriminate|]. destruct (_ =? 0); [apply IH|]. destruct (lookup _ _) as [v|]; [|discriminate].
  assert (forall e', fst (clone_value oom v n) = inl e' -> e' <> TMO) as H.
  { intros e'. unfold clone_value. destruct v; try discriminate.
    - destruct (_ =? 0); [discriminate|]. destruct (oom n); [|discriminate]. intros H. injection H as <-. discriminate.
    - pose proof (Prop_TableOps.clone_table_ok oom t n) as H. unfold Prop_TableOps.clone_ok in H. destruct (amqp_table_clone oom t n) as [[x|t'] n']; cbn [fst] in *; [|discriminate].
      intros Y. injection Y as <-. destruct H as [(-> & _)|(-> & _)]; discriminate. }
  destruct (clone_value oom v n) as [[x|v'] n']; cbn [fst] in H; [intros Y; injection Y as <-; apply H; reflexivity|].
  destruct (clone_members oom l fl m n') as [[y|y]|] eqn:Hc; intros Y; try discriminate. injection Y as <-. eapply IH; exact Hc.
Qed.
Lemma read_forever ch c ev : wp (amqp_read_message N E ch) c ev (fun p _ _ l => not_late (fst p) l) (fun _ _ _ => True).
Proof.
  unfold amqp_read_message. apply wp_bind. eapply wp_conseq; [apply on_channel_forever| |auto]; cbv beta. intros [r f] c1 ev1 l1 V. cbn [fst] in V.
  destruct (Z.eqb_spec r AMQP_STATUS_OK) as [->|Hr]; cbn [negb]; [|apply wp_ret; cbn [fst]; rewrite app_nil_r; intros X; apply V; congruence].
  destruct (negb _). { destruct (is_close f) as [[i m]|]; [apply wp_ret; discriminate|]. apply wp_bind. unfold wp at 1. destruct (amqp_put_back_frame f c1 ev1); [apply wp_ret; discriminate|exact I]. }
  destruct (f_pay f); try (apply wp_halt; exact I). apply wp_bind. unfold wp at 1. destruct (sys_clone c1 ev1) as [oom c2 ev2 l2|]; [|exact I].
  apply wp_bind. unfold need, amqp_basic_properties_clone. destruct (clone_members oom dec_props_basic _ _ 0) as [[e|m]|] eqn:Hc; [| |apply wp_halt; exact I]; apply wp_ret.
  - apply clone_status in Hc. apply wp_ret. intros X. cbn [fst] in X. congruence.
  - apply wp_bind. unfold wp at 1. destruct ((if _ =? 0 then ret true else sys_malloc _) c2 ev2) as [ok c3 ev3 l3|]; [|exact I]. destruct (negb ok); [apply wp_ret; discriminate|].
    apply wp_bind. eapply wp_conseq; [apply read_body_forever| |auto]; cbv beta. intros [r2 body] c4 ev4 l4 K. apply wp_ret. cbn [fst] in *. rewrite app_nil_r. repeat (first [exact K|apply not_late_app]).
Qed.
End Read.
