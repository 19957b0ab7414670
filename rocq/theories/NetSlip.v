(** C61 for amqp_login: its waits compute the time left and add it to the clock again. *)
From Coq Require Import String ZArith List Bool Lia.
From Verif Require Import Base BaseFacts Codec TableModel TableSpec TableDec TableOps FramingStmt FramingGen FramingModel MethodSpec
  Frame FrameSpec Time Sasl Net NetApi NetSpec NetFacts NetSend NetRecv NetWalk NetAcct NetOrder NetWait TimeoutSpec HeartbeatSpec NetWatch NetVerdict NetPunctual.
Import ListNotations.
Local Open Scope Z_scope.

Section Slip.
Context (N : nat) (E : nat -> aenv) (T : Z).
Notation crun := (crun T).
Notation good := (good T).
Notation soon := (soon T).
Notation pu := (pu T).
Lemma soon_run d l : forall w, soon d w -> soon d (crun l w).
Proof.
  induction l as [|o l IH]; intros w H; [exact H|]. cbn [NetPunctual.crun fold_left]. apply IH. destruct w as [now jr b| |]; try exact I.
  destruct o; try exact H.
  - cbn [clock_step]. destruct (Z.ltb_spec now0 now); cbn [orb]; [exact I|]. destruct (_ <=? _); [exact I|]. cbn [NetPunctual.soon] in *. lia.
  - cbn [clock_step]. destruct (_ || _); [exact H|]. destruct (_ || _); [exact H|exact I].
Qed.
(** punctual if [d] is soon *)
Definition pus {A} (d : Z) (m : M A) (c : conn) : Prop := forall w ev, good w -> soon d w ->
  wp m c ev (fun _ _ _ l => good (crun l w)) (fun _ _ l => crun l w <> Overslept).
Lemma pus_pu {A} d (m : M A) c : pu m c -> pus d m c.
Proof. intros H w ev G _. apply H, G. Qed.
Lemma pus_bind {A B} d (m : M A) (k : A -> M B) c : pus d m c -> (forall a c', pus d (k a) c') -> pus d (bind m k) c.
Proof.
  intros Hm Hk w ev G S. apply wp_bind. eapply wp_conseq; [apply (Hm w ev G S)| |auto]; cbv beta. intros a c1 ev1 l1 G1.
  eapply wp_conseq; [apply (Hk a c1 _ ev1 G1 (soon_run _ _ _ S))| |]; cbv beta; intros; rewrite crun_app; assumption.
Qed.
Lemma pus_get_bind {B} d (k : conn -> M B) c : pus d (k c) c -> pus d (bind get k) c.
Proof. intros H w ev G S. apply wp_get_bind. apply H; assumption. Qed.
Lemma pus_recv d D c : D <= d -> pus d (recv_with_timeout N N D) c.
Proof.
  intros H w ev G S. assert (soon D w) as S' by (destruct w; try exact I; cbn [NetPunctual.soon] in *; lia).
  eapply wp_conseq; [apply (recv_punctual N E T D N c w ev G S')| |]; cbv beta; intros; [apply H0|exact H0].
Qed.
Lemma pus_wait_loop d : forall fuel skip c, pus d (wait_frame_loop N E fuel skip d) c.
Proof.
  induction fuel as [|fuel IH]; intros; cbn [wait_frame_loop]; [apply pus_pu, pu_halt|]. apply pus_get_bind.
  assert (forall A (a : A) c, pus d (ret a) c) as R by (intros; apply pus_pu, pu_ret).
  destruct (_ && _).
  { apply pus_bind; [apply pus_pu, pu_consume|]. intros [r f] c1. destruct (negb _); [apply R|]. destruct (_ =? _); [apply pus_bind; [apply pus_pu, pu_release_on|intros; apply IH]|]. destruct (negb _); [apply R|apply IH]. }
  apply pus_bind; [apply pus_pu, pu_past|]. intros r1 c1. destruct (_ =? _); [apply R|]. apply pus_bind; [destruct (_ =? _); [apply pus_pu, pu_send_frame'|apply R]|]. intros r2 c2. destruct (negb _); [apply R|]. apply pus_get_bind. cbv zeta.
  apply pus_bind; [apply pus_recv, first_le_l|]. intros r3 c3. destruct (_ =? _).
  - apply pus_get_bind. destruct (amqp_time_equal _ _); [apply pus_bind; [apply pus_pu, pu_close|intros; apply R]|]. destruct (amqp_time_equal _ _); [apply R|]. match goal with |- pus _ (if ?b then _ else _) _ => destruct b end; [apply IH|apply pus_pu, pu_halt].
  - destruct (negb _); [apply R|apply IH].
Qed.

Lemma hiccup_l s a b : hiccup s a -> hiccup s (a ++ b).
Proof. intros (x & t1 & t2 & y & -> & H). exists x, t1, t2, (y ++ b). rewrite <- app_assoc. split; [reflexivity|exact H]. Qed.
Lemma hiccup_r s a b : hiccup s b -> hiccup s (a ++ b).
Proof. intros (x & t1 & t2 & y & -> & H). exists (a ++ x), t1, t2, y. rewrite <- app_assoc. split; [reflexivity|exact H]. Qed.
Context (slip : Z) (Hslip : 0 <= slip).
Definition pg {A} (m : M A) (c : conn) : Prop := forall w ev, good w ->
  wp m c ev (fun _ _ _ l => hiccup slip l \/ good (crun l w)) (fun _ _ l => hiccup slip l \/ crun l w <> Overslept).
Lemma pg_pu {A} (m : M A) c : pu m c -> pg m c.
Proof. intros H w ev G. eapply wp_conseq; [apply (H w ev G)| |]; cbv beta; auto. Qed.
Lemma wp_hiccup {A} (m : M A) c ev l0 (Q : A -> conn -> list event -> list obs -> Prop) (R : stop -> conn -> list obs -> Prop) : hiccup slip l0 -> (forall a c' ev' l, hiccup slip (l0 ++ l) -> Q a c' ev' l) -> (forall s c' l, hiccup slip (l0 ++ l) -> R s c' l) -> wp m c ev Q R.
Proof. intros H HQ HR. unfold wp. destruct (m c ev); [apply HQ|apply HR]; apply hiccup_l, H. Qed.
Lemma pg_bind {A B} (m : M A) (k : A -> M B) c : pg m c -> (forall a c', pg (k a) c') -> pg (bind m k) c.
Proof.
  intros Hm Hk w ev G. apply wp_bind. eapply wp_conseq; [apply (Hm w ev G)| |auto]; cbv beta. intros a c1 ev1 l1 [H1|G1].
  - apply (wp_hiccup _ _ _ l1); [exact H1| |]; auto.
  - eapply wp_conseq; [apply (Hk a c1 _ ev1 G1)| |]; cbv beta; intros; rewrite crun_app; (destruct H; [left; apply hiccup_r|right]; assumption).
Qed.
Lemma pg_get_bind {B} (k : conn -> M B) c : pg (k c) c -> pg (bind get k) c.
Proof. intros H w ev G. apply wp_get_bind. apply H; assumption. Qed.
(** *** Waiting for the time left *)
Lemma left_over t d : 0 < t -> t < d -> d <= t + 2147483647 * 1000000 -> d <> UINT64_MAX ->
  exists tv, amqp_time_tv_until t d = (AMQP_STATUS_OK, Some (Some tv)) /\ reasonable tv /\ d - t - 1000 < nanoseconds tv <= d - t.
Proof.
  intros H1 H2 H3 H4. unfold amqp_time_tv_until. destruct (Z.eqb_spec UINT64_MAX d); [lia|]. destruct (Z.eqb_spec 0 d); [lia|]. destruct (Z.eqb_spec t 0); [lia|]. destruct (Z.leb_spec d t); [lia|].
  cbv zeta. unfold u64. rewrite (Z.mod_small (d - t)) by lia. change AMQP_NS_PER_S with 1000000000. change AMQP_NS_PER_US with 1000.
  set (x := d - t) in *. assert (0 < x <= 2147483647 * 1000000) as Hx by lia. clearbody x.
  pose proof (Z.div_mod x 1000000000 ltac:(lia)) as D1. pose proof (Z.mod_pos_bound x 1000000000 ltac:(lia)) as D2. set (s := x / 1000000000) in *. set (r := x mod 1000000000) in *. clearbody s r.
  pose proof (Z.div_mod r 1000 ltac:(lia)) as D3. pose proof (Z.mod_pos_bound r 1000 ltac:(lia)) as D4. set (u := r / 1000) in *. set (v := r mod 1000) in *. clearbody u v.
  eexists. split; [reflexivity|].
  assert (signed M32 s = s) as ->. { unfold signed. rewrite Z.mod_small by lia. change (M32 / 2) with M31. destruct (Z.ltb_spec s M31); lia. }
  assert (signed M32 u = u) as ->. { unfold signed. rewrite Z.mod_small by lia. change (M32 / 2) with M31. destruct (Z.ltb_spec u M31); lia. }
  unfold reasonable, nanoseconds. cbn [tv_sec tv_usec]. lia.
Qed.
(** a wait whose deadline [d'] is computed anew, in a state with [d'] soon or forgiven *)
Lemma forgiven_any {A} (m : M A) c ev : wp m c ev (fun _ _ _ l => good (crun l Forgiven)) (fun _ _ l => crun l Forgiven <> Overslept).
Proof. unfold wp. destruct (m c ev); rewrite forgiven; [exact I|discriminate]. Qed.
Lemma from_now_good tv c ev w : reasonable tv -> good w ->
  wp (time_from_now (Some tv)) c ev (fun p c' _ l => c' = c /\ exists t, l = [OClock t] /\ good (crun l w) /\ (fst p = AMQP_STATUS_OK -> snd p = Some (t + nanoseconds tv))) (fun _ _ l => l = []).
Proof.
  intros (H1 & H2 & H3) G. unfold time_from_now. destruct (Z.ltb_spec (tv_sec tv) 0); [lia|]. destruct (Z.ltb_spec (tv_usec tv) 0); [lia|]. cbn [orb].
  apply wp_bind. unfold wp, sys_clock. destruct ev as [|[] ev]; try reflexivity. cbn [ret app]. pose proof (Z.mod_pos_bound now M64 ltac:(lia)) as Hn. fold (u64 now) in Hn. set (t := u64 now) in *. clearbody t.
  split; [reflexivity|]. exists t. split; [reflexivity|]. split; [apply good_clock, G|].
  unfold amqp_time_from_now. destruct (Z.ltb_spec (tv_sec tv) 0); [lia|]. destruct (Z.ltb_spec (tv_usec tv) 0); [lia|]. cbn [orb]. cbv zeta.
  unfold nanoseconds in *. change AMQP_NS_PER_S with 1000000000. change AMQP_NS_PER_US with 1000.
  assert (u64 (u64 (u64 (tv_sec tv) * 1000000000) + u64 (u64 (tv_usec tv) * 1000)) = tv_sec tv * 1000000000 + tv_usec tv * 1000) as ->.
  { unfold u64. rewrite (Z.mod_small (tv_sec tv)) by lia. rewrite (Z.mod_small (tv_usec tv)) by lia. rewrite (Z.mod_small (tv_sec tv * 1000000000)) by lia. rewrite (Z.mod_small (tv_usec tv * 1000)) by lia. apply Z.mod_small. lia. }
  set (ns := tv_sec tv * 1000000000 + tv_usec tv * 1000) in *. assert (0 <= ns) by lia. clearbody ns.
  destruct (Z.eqb_spec t 0); [discriminate|]. destruct (Z.lt_ge_cases (t + ns) M64) as [Hlt|Hge].
  - assert (u64 (t + ns) = t + ns) as -> by (unfold u64; apply Z.mod_small; lia). destruct (_ || _); cbn [fst snd]; [discriminate|]. intros _. reflexivity.
  - assert (u64 (t + ns) = t + ns - M64) as ->. { unfold u64. rewrite <- (Z.mod_small (t + ns - M64) M64) by lia. replace (t + ns) with (t + ns - M64 + 1 * M64) at 1 by lia. apply Z.mod_add. lia. }
    assert (t + ns - M64 < t) as Hl by lia. apply Z.ltb_lt in Hl. rewrite Hl. cbn [orb fst snd]. discriminate.
Qed.
Definition starts (P : Z -> Prop) (l : list obs) : Prop := exists t l', l = OClock t :: l' /\ P t.
Lemma noblock_slip (P : Z -> Prop) tv c w ev : reasonable tv -> good w ->
  (forall t, P t \/ soon (t + nanoseconds tv) (crun [OClock t] w)) ->
  wp (amqp_simple_wait_frame_noblock N E (Some tv)) c ev (fun _ _ _ l => starts P l \/ good (crun l w)) (fun _ _ l => starts P l \/ crun l w <> Overslept).
Proof.
  intros Hr G HP. unfold amqp_simple_wait_frame_noblock. apply wp_bind. eapply wp_conseq; [apply (from_now_good tv c ev w Hr G)| |]; cbv beta.
  2:{ intros s c' l ->. right. apply good_late with (T := T). exact G. }
  intros [r d] c1 ev1 l1 (-> & t & -> & G1 & Hd). cbn [fst snd] in Hd. destruct (HP t) as [Pt|S].
  { assert (forall l, starts P ([OClock t] ++ l)) as Q by (intros l; exists t, l; auto). match goal with |- wp ?m _ _ _ _ => unfold wp; destruct (m c ev1) end; left; apply Q. }
  assert (forall A (m : M A) c ev, pus (t + nanoseconds tv) m c -> wp m c ev (fun _ _ _ l => starts P ([OClock t] ++ l) \/ good (crun ([OClock t] ++ l) w)) (fun _ _ l => starts P ([OClock t] ++ l) \/ crun ([OClock t] ++ l) w <> Overslept)) as K.
  { intros A m c0 ev0 Hm. eapply wp_conseq; [apply (Hm _ ev0 G1 S)| |]; cbv beta; intros; right; rewrite crun_app; assumption. }
  destruct d as [d|]; [|apply K, pus_pu, pu_ret]. destruct (Z.eqb_spec r AMQP_STATUS_OK) as [->|]; cbn [negb]; [|apply K, pus_pu, pu_ret].
  specialize (Hd eq_refl). injection Hd as ->. apply K. apply pus_get_bind. destruct (c_queue c); [apply pus_wait_loop|]. destruct (negb _); [apply pus_pu, pu_halt|]. apply pus_pu. apply pu_bind; [apply pu_upd|intros; apply pu_ret].
Qed.
Lemma pg_wait_list ch ids d c : 0 < d < UINT64_MAX -> d + slip <= T -> pg (amqp_simple_wait_method_list N E ch ids d) c.
Proof.
  intros Hd Hs w ev G. unfold amqp_simple_wait_method_list. apply wp_bind. unfold time_tv_until.
  destruct (Z.eqb_spec UINT64_MAX d); [lia|]. destruct (Z.eqb_spec 0 d); [lia|]. cbn [orb]. apply wp_bind. unfold wp at 1, sys_clock.
  destruct ev as [|[] ev]; try (right; apply good_late with (T := T); exact G). apply wp_ret. cbn [app]. pose proof (Z.mod_pos_bound now M64 ltac:(lia)) as Hn. fold (u64 now) in Hn. set (t1 := u64 now) in *. clearbody t1.
  pose proof (good_clock T w t1 G) as G1. set (w1 := crun [OClock t1] w) in *.
  assert (forall A (m : M A) c ev, pg m c -> wp m c ev (fun _ _ _ l => hiccup slip (OClock t1 :: l) \/ good (crun (OClock t1 :: l) w)) (fun _ _ l => hiccup slip (OClock t1 :: l) \/ crun (OClock t1 :: l) w <> Overslept)) as K.
  { intros A m c0 ev0 Hm. eapply wp_conseq; [apply (Hm w1 ev0 G1)| |]; cbv beta; intros; (destruct H as [H|H]; [left; apply (hiccup_r _ [OClock t1]), H|right; exact H]). }
  assert (forall A (m : M A) c ev, w1 = Forgiven -> wp m c ev (fun _ _ _ l => hiccup slip (OClock t1 :: l) \/ good (crun (OClock t1 :: l) w)) (fun _ _ l => hiccup slip (OClock t1 :: l) \/ crun (OClock t1 :: l) w <> Overslept)) as KF.
  { intros A m c0 ev0 HF. eapply wp_conseq; [apply forgiven_any| |]; cbv beta; intros; right; change (OClock t1 :: l) with ([OClock t1] ++ l); rewrite crun_app; fold w1; rewrite HF; assumption. }
  assert (forall x : Z * frame, forall c, pg (let '(res, f) := x in if negb (res =? AMQP_STATUS_OK) then ret (res, (0, [])) else if negb (AMQP_FRAME_METHOD =? f_type f) || negb (ch =? f_chan f) then ret (AMQP_STATUS_WRONG_METHOD, (0, [])) else
     bind (need (method_of f)) (fun '(id, m) => if negb (amqp_id_in_reply_list id ids) then ret (AMQP_STATUS_WRONG_METHOD, (0, [])) else ret (AMQP_STATUS_OK, (id, m)))) c) as Rest.
  { intros [res f] c0. apply pg_pu. destruct (negb _); [apply pu_ret|]. destruct (_ || _); [apply pu_ret|]. apply pu_bind; [unfold need; destruct (method_of f); [apply pu_ret|apply pu_halt]|]. intros [id m] c1. destruct (negb _); apply pu_ret. }
  destruct (w1) as [n1 jr b| |] eqn:Hw1; [|apply KF; reflexivity|contradiction].
  assert (n1 = t1 /\ t1 < 2 ^ 63) as [-> Ht1].
  { unfold w1 in Hw1. cbn [NetPunctual.crun fold_left] in Hw1. destruct w as [nn j0 b0| |]; try discriminate. cbn [clock_step] in Hw1. destruct (_ <? _); [discriminate|]. destruct (Z.leb_spec (2 ^ 63) t1); [discriminate|]. injection Hw1. auto. }
  unfold NetPunctual.good in G1.
  assert (forall tv, reasonable tv -> (forall t, t1 <= t -> slip < t - t1 \/ t + nanoseconds tv <= T \/ nanoseconds tv <= 0) ->
    wp (bind (amqp_simple_wait_frame_noblock N E (Some tv)) (fun '(res, f) => if negb (res =? AMQP_STATUS_OK) then ret (res, (0, [])) else if negb (AMQP_FRAME_METHOD =? f_type f) || negb (ch =? f_chan f) then ret (AMQP_STATUS_WRONG_METHOD, (0, [])) else
     bind (need (method_of f)) (fun '(id, m) => if negb (amqp_id_in_reply_list id ids) then ret (AMQP_STATUS_WRONG_METHOD, (0, [])) else ret (AMQP_STATUS_OK, (id, m))))) c ev
      (fun _ _ _ l => hiccup slip (OClock t1 :: l) \/ good (crun (OClock t1 :: l) w)) (fun _ _ l => hiccup slip (OClock t1 :: l) \/ crun (OClock t1 :: l) w <> Overslept)) as Body.
  { intros tv Hr Ht. apply wp_bind. eapply wp_conseq; [apply (noblock_slip (fun t => slip < t - t1) tv c w1 ev Hr); [rewrite Hw1; exact G1|]| |]; cbv beta.
    - intros t. rewrite Hw1. cbn [NetPunctual.crun fold_left clock_step]. destruct (Z.ltb_spec t t1); [right; exact I|]. cbn [orb]. destruct (_ <=? _); [right; exact I|]. cbn [NetPunctual.soon]. destruct (Ht t) as [X|X]; [lia|left; exact X|right; lia].
    - intros x c2 ev2 l2 [(t2 & l' & -> & H2)|G2].
      + apply (wp_hiccup _ _ _ (OClock t1 :: OClock t2 :: l')); [exists [], t1, t2, l'; auto| |]; intros; left; assumption.
      + assert (good (crun (OClock t1 :: l2) w)) as G3 by exact G2. eapply wp_conseq; [apply (Rest x c2 _ ev2 G3)| |]; cbv beta; intros; (destruct H as [H|H]; [left; apply (hiccup_r _ (OClock t1 :: l2)), H|right; rewrite app_comm_cons, crun_app; exact H]).
    - intros s c2 l2 [(t2 & l' & -> & H2)|G2]; [left; exists [], t1, t2, l'; auto|right; exact G2]. }
  destruct (Z.eq_dec t1 0) as [Z0|Z0].
  { assert (amqp_time_tv_until t1 d = (AMQP_STATUS_TIMER_FAILURE, None)) as ->. { unfold amqp_time_tv_until. destruct (Z.eqb_spec UINT64_MAX d); [lia|]. destruct (Z.eqb_spec 0 d); [lia|]. rewrite Z0. reflexivity. } apply K, pg_pu, pu_ret. }
  destruct (Z.le_gt_cases d t1) as [Hle|Hgt].
  - assert (amqp_time_tv_until t1 d = (AMQP_STATUS_OK, Some (Some (mkTv 0 0)))) as ->. { unfold amqp_time_tv_until. destruct (Z.eqb_spec UINT64_MAX d); [lia|]. destruct (Z.eqb_spec 0 d); [lia|]. destruct (Z.eqb_spec t1 0); [lia|]. destruct (Z.leb_spec d t1); [reflexivity|lia]. }
    cbv iota. change (negb (AMQP_STATUS_OK =? AMQP_STATUS_OK)) with false. cbv iota. apply Body; [unfold reasonable, nanoseconds; cbn [tv_sec tv_usec]; lia|]. intros t Ht. right; right. unfold nanoseconds; cbn [tv_sec tv_usec]; lia.
  - destruct (left_over t1 d ltac:(lia) Hgt ltac:(lia) ltac:(lia)) as (tv & -> & Hr & Hns). change (negb (AMQP_STATUS_OK =? AMQP_STATUS_OK)) with false. cbv iota. apply Body; [exact Hr|]. intros t Ht. destruct (Z_lt_ge_dec slip (t - t1)); [left; assumption|right; left; lia].
Qed.
Lemma pg_ret {A} (a : A) c : pg (ret a) c.
Proof. apply pg_pu, pu_ret. Qed.
Lemma pg_halt {A} s c : @pg A (halt s) c.
Proof. apply pg_pu, pu_halt. Qed.
Lemma pg_need {A} (o : option A) c : pg (need o) c.
Proof. unfold need. destruct o; [apply pg_ret|apply pg_halt]. Qed.
Lemma pg_error r c : pg (login_error r) c.
Proof. apply pg_pu. unfold login_error. apply pu_bind; [apply pu_close|intros; apply pu_ret]. Qed.
Lemma pg_send ch id m more d c : pg (amqp_send_method_inner N E ch id m more d) c.
Proof. apply pg_pu, pu_send_frame. Qed.
Lemma pg_release c : pg amqp_release_buffers c.
Proof. apply pg_pu. unfold amqp_release_buffers. apply pu_get_bind. destruct (i_state _); try apply pu_halt. destruct (negb _); [apply pu_halt|apply pu_upd]. Qed.
Lemma pg_maybe_release c : pg amqp_maybe_release_buffers c.
Proof. unfold amqp_maybe_release_buffers. apply pg_get_bind. destruct (amqp_release_buffers_ok _); [apply pg_release|apply pg_ret]. Qed.
Lemma pg_tune cm fm hb c : pg (amqp_tune_connection cm fm hb) c.
Proof.
  apply pg_pu. unfold amqp_tune_connection. apply pu_get_bind. destruct (i_state _); try apply pu_halt. apply pu_bind; [apply pu_upd|intros]. apply pu_bind; [apply pu_next_send|intros]. destruct (negb _); [apply pu_ret|].
  apply pu_bind; [apply pu_next_recv|intros]. destruct (negb _); [apply pu_ret|]. apply pu_bind; [apply pu_alloc|intros ok c4]. destruct ok; (apply pu_bind; [apply pu_upd|intros; apply pu_ret]).
Qed.
Lemma pg_header d c : pg (send_header_inner N d) c.
Proof. apply pg_pu. unfold send_header_inner. apply pu_bind; [apply pu_try_send|]. intros. destruct (_ =? _); apply pu_ret. Qed.
Lemma pg_open vh d c : d <= T -> pg (login_open N E vh d) c.
Proof.
  intros Hd. unfold login_open. apply pg_bind; [apply pg_pu, pu_rpc_inner, Hd|]. intros r c1. destruct r; try apply pg_ret. apply pg_bind; [apply pg_maybe_release|intros; apply pg_ret].
Qed.
Lemma pg_login_tune vh cm fm hb d c : 0 < d < UINT64_MAX -> d + slip <= T -> pg (login_tune N E vh cm fm hb d) c.
Proof.
  intros Hd Hs. unfold login_tune. apply pg_bind; [apply pg_release|intros _ c1]. apply pg_bind; [apply pg_wait_list; assumption|]. intros [r [id m]] c2. destruct (negb _); [apply pg_error|]. destruct (_ =? _); [apply pg_ret|].
  do 3 (apply pg_bind; [apply pg_need|intros]). cbv zeta. apply pg_bind; [apply pg_tune|intros]. destruct (_ <? 0); [apply pg_error|]. apply pg_bind; [apply pg_send|intros]. destruct (_ <? 0); [apply pg_error|].
  apply pg_bind; [apply pg_release|intros]. apply pg_open. lia.
Qed.
Definition login_rest (platform : string) (vhost : bytes) (channel_max fm heartbeat : Z) (client_properties : option table) (cr : credentials) (p : Z * option Z) : M rpc_reply_t :=
  let '(res, deadline) := p in
  match deadline with
    | None => login_error res
    | Some deadline =>
      if negb (res =? AMQP_STATUS_OK) then login_error res
      else
        bind (send_header_inner N deadline) (fun res =>
        if negb (res =? AMQP_STATUS_OK) then login_error res
        else
          bind (simple_wait_method_inner N E 0 CONNECTION_START deadline) (fun '(res, (_, m)) =>
          if negb (res =? AMQP_STATUS_OK) then login_error res
          else
            bind (need (get_int "version_major" m)) (fun version_major =>
            bind (need (get_int "version_minor" m)) (fun version_minor =>
            if negb (version_major =? 0) || negb (version_minor =? 9) then login_error AMQP_STATUS_INCOMPATIBLE_AMQP_VERSION
            else
              bind (need (get_table "server_properties" m)) (fun server_properties =>
              bind sys_clone (fun oom =>
              match fst (amqp_table_clone oom server_properties 0) with
              | inl e => login_error e
              | inr t =>
                bind (upd (fun c => set_sprops c t)) (fun _ =>
                bind (need (get_bytes "mechanisms" m)) (fun mechanisms =>
                match sasl_mechanism_in_list mechanisms (cred_method cr) with
                | SUB => halt UB
                | SFuel => halt Fuel
                | SRes false => login_error AMQP_STATUS_BROKER_UNSUPPORTED_SASL_METHOD
                | SRes true =>
                  bind sys_alloc (fun ok =>
                  match sasl_response (negb ok) cr with
                  | RUB => halt UB
                  | RNull => login_error AMQP_STATUS_NO_MEMORY
                  | RBytes response =>
                    bind sys_clone (fun oom =>
                    bind (need (amqp_merge_capabilities oom (default_properties platform) client_properties 0)) (fun merged =>
                    match fst merged with
                    | inl e => login_error e
                    | inr props =>
                      bind (upd (fun c => set_cprops c (props, gens c 0))) (fun _ =>
                      bind (amqp_send_method_inner N E 0 CONNECTION_START_OK
                               [("client_properties", VTable props); ("mechanism", VBytes (sasl_method_name (cred_method cr)));
                                ("response", VBytes response); ("locale", VBytes (lit "en_US"))]%string false deadline) (fun res =>
                      if res <? 0 then login_error res
                      else login_tune N E vhost channel_max fm heartbeat deadline))
                    end))
                  end)
                end))
              end))))))
    end.
Lemma pg_login pf vh cm fm hb props cr r d c : (r = AMQP_STATUS_OK -> exists D, d = Some D /\ 0 < D < UINT64_MAX /\ D + slip <= T) -> pg (login_rest pf vh cm fm hb props cr (r, d)) c.
Proof.
  intros Hd. unfold login_rest. destruct d as [d|]; [|apply pg_error]. destruct (Z.eqb_spec r AMQP_STATUS_OK) as [->|]; cbn [negb]; [|apply pg_error].
  destruct (Hd eq_refl) as (D & HD & H1 & H2). injection HD as ->.
  apply pg_bind; [apply pg_header|intros]. destruct (negb _); [apply pg_error|]. apply pg_bind; [apply pg_wait_list; assumption|]. intros [r1 [id m]] c1. destruct (negb _); [apply pg_error|].
  do 2 (apply pg_bind; [apply pg_need|intros]). destruct (_ || _); [apply pg_error|]. apply pg_bind; [apply pg_need|intros]. apply pg_bind; [apply pg_pu, pu_clone|intros]. destruct (fst (amqp_table_clone _ _ _)); [apply pg_error|].
  apply pg_bind; [apply pg_pu, pu_upd|intros]. apply pg_bind; [apply pg_need|intros]. destruct (sasl_mechanism_in_list _ _) as [[]| |]; try apply pg_halt; [|apply pg_error].
  apply pg_bind; [apply pg_pu, pu_alloc|intros]. destruct (sasl_response _ _); try apply pg_halt; try apply pg_error.
  apply pg_bind; [apply pg_pu, pu_clone|intros]. apply pg_bind; [apply pg_need|intros]. destruct (fst _); [apply pg_error|]. apply pg_bind; [apply pg_pu, pu_upd|intros]. apply pg_bind; [apply pg_send|intros]. destruct (_ <? 0); [apply pg_error|]. apply pg_login_tune; assumption.
Qed.
End Slip.
Lemma login_split N E pf vh cm fm hb props tmo cr : 
  amqp_login_inner N E pf vh cm fm hb props tmo cr =
  if (cm <? 0) || (65535 <? cm) then ret (RLibrary AMQP_STATUS_INVALID_PARAMETER)
  else if fm <? 0 then ret (RLibrary AMQP_STATUS_INVALID_PARAMETER)
  else if (hb <? 0) || (65535 <? hb) then ret (RLibrary AMQP_STATUS_INVALID_PARAMETER)
  else bind (time_from_now tmo) (login_rest N E pf vh cm fm hb props cr).
Proof. reflexivity. Qed.
