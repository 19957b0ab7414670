(** Proofs for C70, continued: the calls. *)
From Coq Require Import String ZArith List Bool Lia.
From Verif Require Import Base BaseFacts Codec TableModel TableSpec TableOps FramingStmt FramingGen FramingModel MethodSpec
  Frame FrameSpec FrameProofs FrameStream FrameFacts FrameInit FrameNew Time Sasl Net NetApi NetSpec NetFacts NetSend NetRecv NetWalk NetAcct NetOrder NetWait NetRx NetWell EncStatus CalmSpec Prop_Frame NetCalm.
Import ListNotations.
Local Open Scope Z_scope.

Ltac ok0 := change (AMQP_STATUS_OK =? AMQP_STATUS_OK) with true; cbn [negb]; cbv iota.

Section CalmApi.
Context (N : nat) (E : nat -> aenv) (HE : never_fails E) (fm ob : Z) (tail : bytes).
Notation calmly := (calmly E fm ob tail).

Lemma blames_neg r : blames_caller r -> r < 0.
Proof. intros [->|[->|[->|[->| ->]]]]; reflexivity. Qed.

Lemma calmly_ret_bind {A B} (a : A) (k : A -> M B) t fs c (Q : B -> Z -> list (Z * aframe) -> conn -> Prop) : calmly (k a) t fs c Q -> calmly (bind (ret a) k) t fs c Q.
Proof. intros H ev HH. apply wp_ret_bind, H, HH. Qed.
Lemma calmly_need {A B} (o : option A) (k : A -> M B) t fs c (Q : B -> Z -> list (Z * aframe) -> conn -> Prop) :
  (forall a, o = Some a -> calmly (k a) t fs c Q) -> calmly (bind (need o) k) t fs c Q.
Proof. intros H. destruct o as [a|]; [apply calmly_ret_bind, H; reflexivity|intros ev HH; exact I]. Qed.

(** ** The queue *)
Lemma calm_create_link f t fs c : modest f -> calmly (create_link f) t fs c (fun o t' fs' c' => fs' = fs /\ c' = c /\ exists e, o = Some e /\ modest (fst e)).
Proof.
  intros Hm. unfold create_link. eapply calmly_bind; [apply calm_alloc|]. cbv beta. intros ok t1 fs1 c1 T1 (-> & -> & ->).
  apply calmly_get_bind. intros _ _ _. apply calmly_ret. split; [reflexivity|]. split; [reflexivity|]. eexists. split; [reflexivity|exact Hm].
Qed.
Lemma calm_append e t fs c : modest (fst e) -> calmly (append_entry e) t fs c (fun _ t' fs' c' => fs' = fs /\ c_sbuf c' = c_sbuf c).
Proof. intros Hm. unfold append_entry. apply calmly_queue; [|auto]. intros Hq. apply Forall_app. split; [exact Hq|]. repeat constructor; exact Hm. Qed.
Lemma calm_queue_frame f t fs c : modest f -> calmly (amqp_queue_frame f) t fs c (fun r t' fs' c' => r = AMQP_STATUS_OK /\ fs' = fs).
Proof.
  intros Hm. unfold amqp_queue_frame. eapply calmly_bind; [apply calm_create_link, Hm|]. cbv beta. intros o t1 fs1 c1 T1 (-> & -> & e & -> & He).
  eapply calmly_bind; [apply calm_append, He|]. cbv beta. intros _ t2 fs2 c2 T2 (-> & _). apply calmly_ret. auto.
Qed.
Lemma calm_put_back f t fs c : modest f -> calmly (amqp_put_back_frame f) t fs c (fun r t' fs' c' => r = AMQP_STATUS_OK /\ fs' = fs).
Proof.
  intros Hm. unfold amqp_put_back_frame. eapply calmly_bind; [apply calm_create_link, Hm|]. cbv beta. intros o t1 fs1 c1 T1 (-> & -> & e & -> & He).
  eapply (calmly_bind _ _ _ _ _ _ _ _ _ (fun _ _ fs' _ => fs' = fs)); [apply calmly_queue; [|auto]; intros Hq; constructor; [exact He|exact Hq]|].
  intros _ t2 fs2 c2 T2 ->. apply calmly_ret. auto.
Qed.
(** the lemmas below that use [HT0] are for a server all of whose frames are known *)
Context (HT0 : forall fs, enough tail fs).
Lemma calm_drain fuel : forall t fs c, calmly (try_recv_drain E fuel) t fs c (fun r t' fs' c' => r = AMQP_STATUS_OK /\ c_sbuf c' = []).
Proof.
  induction fuel as [|fuel IH]; intros t fs c; cbn [try_recv_drain]; [apply calmly_halt|]. apply calmly_get_bind. intros _ _ _.
  destruct (amqp_data_in_buffer c) eqn:DB; cbn [negb].
  - intros ev HH. pose proof HH as (_ & _ & _ & _ & HM & _). revert ev HH.
    eapply calmly_bind; [apply calm_consume; [exact HE|apply enough_one, HT0]|]. cbv beta. intros [r f] t1 fs1 c1 T1 (Hr & Q1 & Hf). cbn [fst snd] in *. subst r. ok0.
    destruct (Z.eqb_spec (f_type f) 0) as [T0|T0]; cbn [negb]; [apply IH|].
    destruct Hf as [(K & _)|(_ & ca & -> & Hrec)]; [contradiction|]. assert (modest f) as Hm by (eapply received_modest; [exact Hrec|inversion HM; assumption]).
    eapply calmly_bind; [apply calm_create_link, Hm|]. cbv beta. intros o t2 fs2 c2 T2 (-> & -> & e & -> & He).
    eapply calmly_bind; [apply calm_append, He|]. cbv beta. intros _ t3 fs3 c3 T3 (-> & _). apply IH.
  - apply calmly_ret. split; [reflexivity|]. unfold amqp_data_in_buffer in DB; destruct (c_sbuf c); [reflexivity|discriminate].
Qed.
Lemma calm_try_recv t fs c : calmly (amqp_try_recv N E) t fs c (fun r t' fs' c' => r = AMQP_STATUS_OK).
Proof.
  unfold amqp_try_recv. eapply calmly_bind; [apply calm_drain|]. cbv beta. intros r t1 fs1 c1 T1 (-> & S1). ok0.
  eapply calmly_bind; [apply calm_from_now; cbn; lia|]. cbv beta. intros p t2 fs2 c2 T2 (d & -> & Hd & -> & ->). ok0.
  eapply calmly_conseq; [apply calm_recv; assumption|]. cbv beta. intros ? ? ? ? _ (-> & _). reflexivity.
Qed.

(** ** Waiting *)
Lemma calm_wait_channel_loop fuel ch : forall t fs c, calmly (wait_on_channel_loop N E fuel ch) t fs c (fun p t' fs' c' => fst p = AMQP_STATUS_OK /\ modest (snd p) /\ f_type (snd p) <> 0).
Proof.
  induction fuel as [|fuel IH]; intros t fs c; cbn [wait_on_channel_loop]; [apply calmly_halt|].
  eapply calmly_bind; [apply calm_wait; [exact HE|apply inf_modest|apply HT0]|]. cbv beta. intros [r f] t1 fs1 c1 T1 (Hr & _ & _ & Hm & Ht). cbn [fst snd] in *. subst r. ok0.
  destruct (ch =? f_chan f); [apply calmly_ret; auto|].
  eapply calmly_bind; [apply calm_queue_frame, Hm|]. cbv beta. intros r t2 fs2 c2 T2 (-> & ->). ok0. apply IH.
Qed.
Lemma find_modest g ch q : Forall (fun e : frame * nat => modest (fst e)) q -> forall f q', find_on_channel g ch q = Some (Some (f, q')) -> modest f /\ Forall (fun e => modest (fst e)) q'.
Proof.
  induction 1 as [|e q He Hq IH]; intros f q'; cbn [find_on_channel]; [discriminate|]. destruct (negb _); [discriminate|]. destruct (on_channel ch e); [|apply IH].
  intros K. injection K as <- <-. auto.
Qed.
Lemma calm_wait_channel ch t fs c : calmly (amqp_simple_wait_frame_on_channel N E ch) t fs c (fun p t' fs' c' => fst p = AMQP_STATUS_OK /\ modest (snd p)).
Proof.
  unfold amqp_simple_wait_frame_on_channel. apply calmly_get_bind. intros _ _ Hq. destruct (find_on_channel _ _ _) as [[[f q]|]|] eqn:F; [| |apply calmly_halt].
  - destruct (find_modest _ _ _ Hq _ _ F) as [Hm Hq'].
    eapply (calmly_bind _ _ _ _ _ _ _ _ _ (fun _ _ _ _ => True)); [apply (calmly_queue E fm ob tail t fs c (fun _ => q)); auto|]. intros _ t1 fs1 c1 T1 _. apply calmly_ret. auto.
  - eapply calmly_conseq; [apply calm_wait_channel_loop|]. cbv beta. intros ? ? ? ? _ (? & ? & _). auto.
Qed.
(** the queue is empty: the frame returned is the next one received *)
Lemma calm_noblock tv t fs c : modest_timeout tv -> enough tail fs ->
  calmly (amqp_simple_wait_frame_noblock N E tv) t fs c (fun p t' fs' c' => fst p = AMQP_STATUS_OK /\ modest (snd p) /\
    (c_queue c = [] -> c_queue c' = [] /\ takes fs fs' (snd p)) /\ (c_queue c = [] \/ exists e q, c_queue c = e :: q /\ snd p = fst e)).
Proof.
  intros Htv Hen. unfold amqp_simple_wait_frame_noblock. eapply calmly_bind; [apply calm_from_now, Htv|]. cbv beta. intros p t1 fs1 c1 T1 (d & -> & Hd & -> & ->). ok0.
  apply calmly_get_bind. intros _ _ Hq. destruct (c_queue c) as [|e q] eqn:Q.
  - eapply calmly_conseq; [apply calm_wait; [exact HE|exact Hd|exact Hen]|]. cbv beta. intros p t2 fs2 c2 T2 (P1 & P2 & P3 & P4 & P5). rewrite Q in P2. auto.
  - destruct (negb _); [apply calmly_halt|]. inversion Hq as [|? ? He Hq']; subst.
    eapply (calmly_bind _ _ _ _ _ _ _ _ _ (fun _ _ _ _ => True)); [apply (calmly_queue E fm ob tail t1 fs c (fun _ => q)); auto|]. intros _ t2 fs2 c2 T2 _. apply calmly_ret.
    split; [reflexivity|]. split; [exact He|]. split; [discriminate|]. right. exists e, q. auto.
Qed.
Lemma calm_wait_method_list ch ids d t fs c : modest_deadline t d -> enough tail fs ->
  calmly (amqp_simple_wait_method_list N E ch ids d) t fs c (fun p t' fs' c' =>
    (fst p = AMQP_STATUS_OK \/ fst p = AMQP_STATUS_WRONG_METHOD) /\
    (c_queue c = [] -> c_queue c' = [] /\ exists f, takes fs fs' f /\
       (f_type f = AMQP_FRAME_METHOD -> f_chan f = ch -> forall id m, method_of f = Some (id, m) -> In id ids -> p = (AMQP_STATUS_OK, (id, m))))).
Proof.
  intros Hd Hen. unfold amqp_simple_wait_method_list. eapply calmly_bind; [apply calm_tv_until, Hd|]. cbv beta. intros p t1 fs1 c1 T1 (tv & -> & Htv & -> & ->). ok0.
  eapply calmly_bind; [apply calm_noblock; [exact Htv|exact Hen]|]. cbv beta. intros [r f] t2 fs2 c2 T2 (Hr & Hm & Hq & _). cbn [fst snd] in *. subst r. ok0.
  destruct (negb (AMQP_FRAME_METHOD =? f_type f) || negb (ch =? f_chan f)) eqn:B.
  - apply calmly_ret. split; [right; reflexivity|]. intros K. destruct (Hq K) as [Q2 HT]. split; [exact Q2|]. exists f. split; [exact HT|].
    intros K1 K2. rewrite K1, K2, !Z.eqb_refl in B. discriminate.
  - apply calmly_need. intros [id m] MF. destruct (amqp_id_in_reply_list id ids) eqn:IL; cbn [negb]; apply calmly_ret.
    + split; [left; reflexivity|]. intros K. destruct (Hq K) as [Q2 HT]. split; [exact Q2|]. exists f. split; [exact HT|]. intros _ _ id' m' MF' _. congruence.
    + split; [right; reflexivity|]. intros K. destruct (Hq K) as [Q2 HT]. split; [exact Q2|]. exists f. split; [exact HT|]. intros _ _ id' m' MF' HI.
      assert (id' = id) as -> by congruence.
      exfalso. unfold amqp_id_in_reply_list in IL. assert (existsb (Z.eqb id) ids = true) as K1 by (apply existsb_exists; exists id; split; [exact HI|apply Z.eqb_refl]). congruence.
Qed.

(** ** RPC *)
Lemma concerns_close ch ids f : concerns_rpc ch ids f = true -> exists id m, method_of f = Some (id, m).
Proof. unfold concerns_rpc. destruct (method_of f) as [[id m]|]; [eauto|]. rewrite andb_false_r. discriminate. Qed.
Lemma takes_next fs fs' f ca rest : takes fs fs' f -> next_is fs ca rest -> received f ca /\ fs' = rest.
Proof.
  intros (h1 & c1 & -> & B1 & N1 & R1) (h2 & E2 & B2 & N2). revert h2 E2 B2. induction h1 as [|x h1 IH]; intros [|y h2] E2 B2; cbn [app] in E2; injection E2 as -> E2.
  - subst. auto.
  - inversion B2; contradiction.
  - inversion B1; contradiction.
  - inversion B1; inversion B2; subst. eapply IH; eauto.
Qed.
Lemma calm_rpc_wait fuel ch ids d : forall t fs c, modest_deadline t d ->
  calmly (rpc_wait N E fuel ch ids d) t fs c (fun r t' fs' c' => no_error (fun _ => False) r /\
    (forall ca rest id m, next_is fs ca rest -> (forall f, received f ca -> concerns_rpc ch ids f = true /\ method_of f = Some (id, m)) -> In id ids -> r = RNormal id m /\ fs' = rest /\ c_queue c' = c_queue c)).
Proof.
  induction fuel as [|fuel IH]; intros t fs c Hd; cbn [rpc_wait]; [apply calmly_halt|].
  eapply calmly_bind; [apply calm_wait; [exact HE|exact Hd|apply HT0]|]. cbv beta. intros [r f] t1 fs1 c1 T1 (Hr & Q1 & HT & Hm & Ht). cbn [fst snd] in *. subst r. ok0.
  destruct (concerns_rpc ch ids f) eqn:C; cbn [negb].
  - apply calmly_need. intros [id m] MF. apply calmly_ret. split; [destruct (amqp_id_in_reply_list id ids); exact I|].
    intros ca rest id' m' Hn Hf Hin. destruct (takes_next _ _ _ _ _ HT Hn) as [Hrec ->]. destruct (Hf f Hrec) as [_ MF']. assert (id' = id /\ m' = m) as [-> ->] by (split; congruence).
    assert (amqp_id_in_reply_list id ids = true) as ->. { apply existsb_exists. exists id. split; [exact Hin|apply Z.eqb_refl]. }
    auto.
  - eapply calmly_bind; [apply calm_create_link, Hm|]. cbv beta. intros o t2 fs2 c2 T2 (-> & -> & e & -> & He).
    eapply calmly_bind; [apply calm_append, He|]. cbv beta. intros _ t3 fs3 c3 T3 (-> & _).
    eapply calmly_conseq; [apply IH; eapply modest_later; [|exact Hd]; lia|]. cbv beta. intros r t4 fs4 c4 T4 (K & _). split; [exact K|].
    intros ca rest id' m' Hn Hf Hin. destruct (takes_next _ _ _ _ _ HT Hn) as [Hrec _]. destruct (Hf f Hrec) as [K1 _]. congruence.
Qed.
Lemma calm_send_method ch id m more d t fs c : modest_deadline t d ->
  calmly (amqp_send_method_inner N E ch id m more d) t fs c (fun r t' fs' c' => encodes (mkFrame AMQP_FRAME_METHOD ch (PMethod id m) 0) (c_outbuf c) r /\ (r = AMQP_STATUS_OK \/ blames_caller r) /\ fs' = fs /\ c_sbuf c' = c_sbuf c /\ c_queue c' = c_queue c).
Proof. intros Hd. apply calm_send_frame_inner, Hd. Qed.
Lemma no_error_imp (P P' : Z -> Prop) r : no_error P r -> (forall st, P st -> P' st) -> no_error P' r.
Proof. destruct r; cbn; auto. Qed.
Lemma calm_rpc_inner ch id ids m d t fs c : modest_deadline t d ->
  calmly (simple_rpc_inner N E ch id ids m d) t fs c (fun r t' fs' c' => no_error blames_caller r /\
    (encodes (mkFrame AMQP_FRAME_METHOD ch (PMethod id m) 0) (c_outbuf c) AMQP_STATUS_OK -> no_error (fun _ => False) r /\
      (forall ca rest id' m', next_is fs ca rest -> (forall f, received f ca -> concerns_rpc ch ids f = true /\ method_of f = Some (id', m')) -> In id' ids -> r = RNormal id' m' /\ fs' = rest /\ c_queue c' = c_queue c))).
Proof.
  intros Hd. unfold simple_rpc_inner, amqp_send_method. eapply calmly_bind; [apply calm_send_method, inf_modest|]. cbv beta. intros r t1 fs1 c1 T1 (He & Hr & -> & _ & Q1).
  destruct Hr as [->|Hr].
  - change (AMQP_STATUS_OK <? 0) with false. cbv iota. eapply calmly_conseq; [apply calm_rpc_wait; eapply modest_later; eassumption|]. cbv beta. intros r2 t2 fs2 c2 T2 [K1 K2].
    split; [eapply no_error_imp; [exact K1|intros ? []]|]. intros _. split; [exact K1|]. rewrite <- Q1. exact K2.
  - pose proof (blames_neg _ Hr) as Hn. destruct (Z.ltb_spec r 0); [|lia]. apply calmly_ret. split; [exact Hr|]. intros He2. destruct He as (b1 & e1 & He1). destruct He2 as (b2 & e2 & He2).
    rewrite He1 in He2. assert (r = AMQP_STATUS_OK) as -> by congruence. discriminate Hn.
Qed.
Lemma calm_rpc ch id ids m t fs c :
  calmly (amqp_simple_rpc N E ch id ids m) t fs c (fun r t' fs' c' => no_error blames_caller r /\
    (encodes (mkFrame AMQP_FRAME_METHOD ch (PMethod id m) 0) (c_outbuf c) AMQP_STATUS_OK -> no_error (fun _ => False) r)).
Proof.
  unfold amqp_simple_rpc. apply calmly_get_bind. intros _ (_ & _ & _ & _ & U5 & _) _. eapply calmly_bind; [apply calm_from_now, U5|]. cbv beta. intros p t1 fs1 c1 T1 (d & -> & Hd & -> & ->). ok0.
  eapply calmly_conseq; [apply calm_rpc_inner, Hd|]. cbv beta. intros r t2 fs2 c2 T2 [K1 K2]. split; [exact K1|]. intros He. apply K2, He.
Qed.

(** ** Publishing *)
Lemma calm_publish_body fuel ch body u : forall off t fs c, calmly (publish_body N E fuel ch body u off) t fs c (fun r t' fs' c' => r = AMQP_STATUS_OK \/ blames_caller r).
Proof.
  induction fuel as [|fuel IH]; intros off t fs c; cbn [publish_body]; [apply calmly_halt|]. destruct (negb _); [apply calmly_ret; auto|]. cbv zeta. destruct (_ =? 0); [apply calmly_ret; auto|].
  apply calmly_need. intros frag Hf. eapply calmly_bind; [apply calm_send_frame_inner, inf_modest|]. cbv beta. intros r t1 fs1 c1 T1 (_ & [->|Hr] & _).
  - change (AMQP_STATUS_OK <? 0) with false. cbv iota. apply IH.
  - pose proof (blames_neg _ Hr) as Hn. destruct (Z.ltb_spec r 0); [|lia]. apply calmly_ret. auto.
Qed.
Lemma calm_publish ch ex rk ma im p body t fs c : calmly (amqp_basic_publish N E ch ex rk ma im p body) t fs c (fun r t' fs' c' => r = AMQP_STATUS_OK \/ blames_caller r).
Proof.
  unfold amqp_basic_publish. apply calmly_get_bind. intros _ _ _. cbv zeta. eapply calmly_bind; [apply calm_has_past|]. cbv beta. intros r t1 fs1 c1 T1 (Hr & -> & ->).
  assert (r =? AMQP_STATUS_TIMER_FAILURE = false) as -> by (destruct Hr as [->| ->]; reflexivity).
  eapply (calmly_bind _ _ _ _ _ _ _ _ _ (fun r _ _ _ => r = AMQP_STATUS_OK)).
  { destruct Hr as [->| ->]; cbv iota.
    - change (AMQP_STATUS_OK =? AMQP_STATUS_TIMEOUT) with false. cbv iota. apply calmly_ret. reflexivity.
    - change (AMQP_STATUS_TIMEOUT =? AMQP_STATUS_TIMEOUT) with true. cbv iota. apply calm_try_recv. }
  intros r2 t2 fs2 c2 T2 ->. change (AMQP_STATUS_OK =? AMQP_STATUS_TIMEOUT) with false. ok0.
  eapply calmly_bind; [apply calm_send_method, inf_modest|]. cbv beta. intros r3 t3 fs3 c3 T3 (_ & [->|H3] & _).
  2:{ pose proof (blames_neg _ H3) as Hn. destruct (Z.ltb_spec r3 0); [|lia]. apply calmly_ret. auto. }
  change (AMQP_STATUS_OK <? 0) with false. cbv iota.
  eapply calmly_bind; [apply calm_send_frame_inner, inf_modest|]. cbv beta. intros r4 t4 fs4 c4 T4 (_ & [->|H4] & _).
  2:{ pose proof (blames_neg _ H4) as Hn. destruct (Z.ltb_spec r4 0); [|lia]. apply calmly_ret. auto. }
  change (AMQP_STATUS_OK <? 0) with false. cbv iota. apply calm_publish_body.
Qed.

(** ** Consuming *)
Lemma clone_value_fine oom v n : (forall i, oom i = false) -> (forall t, v = VTable t -> cloneable_table t = true) -> exists n', clone_value oom v n = (inr v, n').
Proof.
  intros Ho Hc. unfold clone_value. destruct v as [z|b|t|z]; try (eexists; reflexivity).
  - destruct (zlen b =? 0) eqn:H0; [apply Prop_TableOps.zlen_0 in H0; subst; eexists; reflexivity|]. rewrite Ho. eexists; reflexivity.
  - pose proof (Prop_TableOps.C22_clone oom t n Ho) as H. rewrite (Hc t eq_refl) in H. destruct (amqp_table_clone oom t n) as [r n']. cbn [fst] in H. subst r. eexists; reflexivity.
Qed.
Lemma clone_fine oom fl m : (forall i, oom i = false) -> (forall name t, In (name, VTable t) m -> cloneable_table t = true) ->
  forall l n e, clone_members oom l fl m n <> Some (inl e).
Proof.
  intros Ho Hc. induction l as [|[k st] l IH]; intros n e; cbn [clone_members]; [discriminate|]. destruct (_ =? 0); [apply IH|].
  destruct (lookup (stmt_field st) m) as [v|] eqn:L; [|discriminate].
  destruct (clone_value_fine oom v n Ho) as [n' ->]. { intros t ->. apply (Hc (stmt_field st)). clear -L. induction m as [|[g w] m IH]; cbn in L; [discriminate|]. destruct (String.eqb_spec (stmt_field st) g) as [->|]; [injection L as ->; left; reflexivity|right; auto]. }
  specialize (IH n'). destruct (clone_members oom l fl m n') as [[e'|r]|]; try discriminate. intros K. apply (IH e'). reflexivity.
Qed.
Lemma calm_read_body fuel ch : forall body off t fs c, calmly (read_body N E fuel ch body off) t fs c (fun p t' fs' c' => no_error blames_server (fst p)).
Proof.
  induction fuel as [|fuel IH]; intros body off t fs c; cbn [read_body]; [apply calmly_halt|]. destruct (negb _); [apply calmly_ret; exact I|].
  eapply calmly_bind; [apply calm_wait_channel|]. cbv beta. intros [r f] t1 fs1 c1 T1 (Hr & Hm). cbn [fst snd] in *. subst r. ok0.
  destruct (negb _). { destruct (is_close f) as [[id m]|]; apply calmly_ret; cbn; [exact I|right; reflexivity]. }
  destruct (f_pay f); try apply calmly_halt. destruct (_ <? _); [apply calmly_ret; right; reflexivity|]. apply calmly_need. intros b' _. apply IH.
Qed.
Lemma calm_read ch t fs c : calmly (amqp_read_message N E ch) t fs c (fun p t' fs' c' => no_error blames_server (fst p)).
Proof.
  unfold amqp_read_message. eapply calmly_bind; [apply calm_wait_channel|]. cbv beta. intros [r f] t1 fs1 c1 T1 (Hr & Hm). cbn [fst snd] in *. subst r. ok0.
  destruct (negb _).
  { destruct (is_close f) as [[id m]|]; [apply calmly_ret; exact I|]. eapply calmly_bind; [apply calm_put_back, Hm|]. cbv beta. intros r t2 fs2 c2 T2 (-> & ->). apply calmly_ret. left; reflexivity. }
  unfold modest in Hm. destruct (f_pay f) as [| |cls n p raw| |] eqn:FP; try apply calmly_halt. destruct Hm as [Hn Hc].
  eapply calmly_bind; [apply calm_clone|]. cbv beta. intros oom t2 fs2 c2 T2 (Ho & -> & ->). apply calmly_need. intros [e|p'] CL.
  { exfalso. unfold amqp_basic_properties_clone in CL. pose proof (clone_fine oom (pflags p) (pfields p) Ho Hc dec_props_basic 0%nat) as K. destruct (clone_members _ _ _ _ _) as [[e'|q]|]; try discriminate. apply (K e'). reflexivity. }
  eapply (calmly_bind _ _ _ _ _ _ _ _ _ (fun ok _ _ _ => ok = true)).
  { destruct (n =? 0); [apply calmly_ret; reflexivity|]. unfold sys_malloc. eapply calmly_bind; [apply calm_alloc|]. cbv beta. intros ok t3 fs3 c3 T3 (-> & _). apply calmly_ret. cbn [andb]. apply Z.ltb_lt. exact Hn. }
  intros ok t3 fs3 c3 T3 ->. cbn [negb]. eapply calmly_bind; [apply calm_read_body|]. cbv beta. intros [r b] t4 fs4 c4 T4 Hr. apply calmly_ret. exact Hr.
Qed.
Lemma calm_consume_message tv t fs c : modest_timeout tv -> calmly (amqp_consume_message N E tv) t fs c (fun p t' fs' c' => no_error blames_server (fst p)).
Proof.
  intros Htv. unfold amqp_consume_message. eapply calmly_bind; [apply calm_noblock; [exact Htv|apply HT0]|]. cbv beta. intros [r f] t1 fs1 c1 T1 (Hr & Hm & _). cbn [fst snd] in *. subst r. ok0.
  destruct (if f_type f =? AMQP_FRAME_METHOD then method_of f else None) as [[id m]|].
  - destruct (id =? BASIC_DELIVER).
    + apply calmly_need; intros ? _. apply calmly_need; intros ? _. apply calmly_need; intros ? _. apply calmly_need; intros ? _. apply calmly_need; intros ? _.
      eapply calmly_bind; [apply calm_alloc|]. cbv beta. intros ok t2 fs2 c2 T2 (-> & -> & ->). cbn [negb].
      eapply calmly_bind; [apply calm_read|]. cbv beta. intros [r msg] t3 fs3 c3 T3 Hr. apply calmly_ret. exact Hr.
    + eapply calmly_bind; [apply calm_put_back, Hm|]. cbv beta. intros r t2 fs2 c2 T2 (-> & ->). apply calmly_ret. left; reflexivity.
  - eapply calmly_bind; [apply calm_put_back, Hm|]. cbv beta. intros r t2 fs2 c2 T2 (-> & ->). apply calmly_ret. left; reflexivity.
Qed.
Lemma calm_confirm tv t fs c : modest_timeout tv -> calmly (amqp_publisher_confirm_wait N E tv) t fs c (fun p t' fs' c' => no_error (fun st => st = AMQP_STATUS_UNEXPECTED_STATE) (fst p)).
Proof.
  intros Htv. unfold amqp_publisher_confirm_wait. eapply calmly_bind; [apply calm_noblock; [exact Htv|apply HT0]|]. cbv beta. intros [r f] t1 fs1 c1 T1 (Hr & Hm & _). cbn [fst snd] in *. subst r. ok0.
  destruct (if f_type f =? AMQP_FRAME_METHOD then method_of f else None) as [[id m]|].
  - destruct (_ || _); [apply calmly_ret; exact I|]. eapply calmly_bind; [apply calm_put_back, Hm|]. cbv beta. intros r t2 fs2 c2 T2 (-> & ->). apply calmly_ret. reflexivity.
  - eapply calmly_bind; [apply calm_put_back, Hm|]. cbv beta. intros r t2 fs2 c2 T2 (-> & ->). apply calmly_ret. reflexivity.
Qed.
End CalmApi.
