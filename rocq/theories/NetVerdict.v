(** C44: when waiting ends with AMQP_STATUS_HEARTBEAT_TIMEOUT. *)
From Coq Require Import String ZArith List Bool Lia.
From Verif Require Import Base BaseFacts Codec TableModel TableSpec TableDec TableOps FramingStmt FramingGen FramingModel MethodSpec
  Frame FrameSpec Time Sasl Net NetApi NetSpec NetFacts NetSend NetRecv NetWalk NetAcct NetOrder NetWait HeartbeatSpec NetWatch.
Import ListNotations.
Local Open Scope Z_scope.

Section Verdict.
Context (N : nat) (E : nat -> aenv) (hb : Z) (Hhb : 0 < hb <= 1000000).
Notation HBT := AMQP_STATUS_HEARTBEAT_TIMEOUT.
Notation run := (run hb).
Notation fine := (fine hb).
Lemma run_app a b w : run (a ++ b) w = run b (run a w).
Proof. apply fold_left_app. Qed.
Lemma excused l : run l Excused = Excused.
Proof. unfold NetWatch.run. induction l as [|o l IH]; [reflexivity|]. cbn [fold_left watch_step]. destruct o; exact IH. Qed.
Lemma excused_app a b w : run a w = Excused -> run (a ++ b) w = Excused.
Proof. intros H. rewrite run_app, H. apply excused. Qed.
(** there was no room to write *)
Definition stuck (l : list obs) : Prop := (exists l0 ms l1, l = l0 ++ [OPoll true ms PTimeout] ++ l1) \/ (exists more, In (OSend more []) l).
Lemma stuck_l a b : stuck a -> stuck (a ++ b).
Proof. intros [(l0 & ms & l1 & ->)|(m & H)]; [left|right; exists m; apply in_or_app; auto]. exists l0, ms, (l1 ++ b). rewrite <- !app_assoc. reflexivity. Qed.
Lemma stuck_r a b : stuck b -> stuck (a ++ b).
Proof. intros [(l0 & ms & l1 & ->)|(m & H)]; [left|right; exists m; apply in_or_app; auto]. exists (a ++ l0), ms, l1. rewrite <- !app_assoc. reflexivity. Qed.

Lemma do_poll_says r d c w ev : fine w c -> due d w -> r <> HBT -> r <> AMQP_STATUS_TIMEOUT -> r <= 0 ->
  wp (do_poll N r d) c ev (fun r' c' _ l => (c' = c /\ fine (run l w) c /\ due d (run l w)) /\ (r' = HBT -> run l w = Excused) /\ (r' = AMQP_STATUS_TIMEOUT -> r <> NEEDREAD -> run l w = Excused \/ stuck l) /\ (0 <= r' -> r' = AMQP_STATUS_OK \/ run l w = Excused)) (fun _ _ l => run l w <> Late).
Proof.
  intros F D H1 H2 H4. unfold do_poll. wstep. destruct (_ =? -1); [apply wp_ret; split; [auto|]; unfold AMQP_STATUS_SOCKET_CLOSED, AMQP_STATUS_OK; repeat split; try discriminate; lia|]. destruct (Z.eqb_spec r NEEDREAD).
  { eapply wp_conseq; [apply (poll_full hb Hhb false d c N w ev F D)| |auto]; cbv beta. intros r' c' ev' l (G & S). split; [exact G|]. unfold poll_says in S.
  split; [intros ->; destruct S as [S|[S|[(S & _)|[S|S]]]]; try discriminate; auto|]. split; [intros; contradiction|intros X; destruct S as [S|[S|[(S & _)|[S|S]]]]; auto; unfold AMQP_STATUS_SOCKET_ERROR, AMQP_STATUS_TIMEOUT, AMQP_STATUS_TIMER_FAILURE in *; lia]. }
  destruct (Z.eqb_spec r NEEDWRITE); [|apply wp_ret; split; [auto|]; split; [intros ->; contradiction|split; [intros ->; contradiction|]]; intros; left; unfold AMQP_STATUS_OK; lia].
  eapply wp_conseq; [apply (poll_full hb Hhb true d c N w ev F D)| |auto]; cbv beta. intros r' c' ev' l (G & S). split; [exact G|]. unfold poll_says in S.
  split; [intros ->; destruct S as [S|[S|[(S & _)|[S|S]]]]; try discriminate; auto|]. split; [|intros X; destruct S as [S|[S|[(S & _)|[S|S]]]]; auto; unfold AMQP_STATUS_SOCKET_ERROR, AMQP_STATUS_TIMEOUT, AMQP_STATUS_TIMER_FAILURE in *; lia].
  intros -> _; destruct S as [S|[S|[(S & l0 & ms & ->)|[S|S]]]]; try discriminate; auto. right. left. exists l0, ms, []. rewrite app_nil_r. reflexivity.
Qed.
Lemma sends more c : forall fuel buf ev, wp (tcp_send_loop fuel more buf) c ev (fun r _ _ l => r <= zlen buf /\ (0 <= r \/ failed_send r) /\ (r = NEEDREAD -> stuck l)) (fun _ _ _ => True).
Proof.
  induction fuel as [|fuel IH]; intros buf ev; cbn [tcp_send_loop]; [apply wp_halt; exact I|]. apply wp_bind. unfold wp at 1, sys_send. pose proof (zlen_nonneg buf). unfold failed_send. destruct ev as [|[|[]| | | | |] ev]; try exact I; first [apply IH|apply wp_ret; split; [unfold NEEDWRITE, NEEDREAD, AMQP_STATUS_SOCKET_ERROR, AMQP_STATUS_CONNECTION_CLOSED, AMQP_STATUS_SSL_ERROR; lia|]; split; [first [left; lia|tauto]|]]; try discriminate; [unfold NEEDREAD; lia|].
  intros _. right. exists more. left. reflexivity.
Qed.
Lemma try_send_says more d c : forall fuel len left w ev, fine w c -> due d w -> zlen left <= len ->
  wp (try_send_loop N fuel len left d more) c ev (fun r c' _ l => (c' = c /\ fine (run l w) c) /\ (r = HBT -> run l w = Excused) /\ (0 <= r -> r = len \/ run l w = Excused \/ stuck l)) (fun _ _ l => run l w <> Late).
Proof.
  induction fuel as [|fuel IH]; intros len left w ev F D Hl; cbn [try_send_loop]; [apply wp_halt; eapply fine_late; exact F|].
  assert (wp (amqp_socket_send N more left) c ev (fun r _ _ l => r <= zlen left /\ (0 <= r \/ failed_send r \/ r = AMQP_STATUS_SOCKET_CLOSED) /\ (r = NEEDREAD -> stuck l)) (fun _ _ _ => True)) as S0.
  { unfold amqp_socket_send. wstep. pose proof (zlen_nonneg left). destruct (_ =? -1); [apply wp_ret; split; [unfold AMQP_STATUS_SOCKET_CLOSED; lia|]; split; [auto|discriminate]|]. eapply wp_conseq; [apply sends| |auto]; cbv beta. intros; tauto. }
  apply wp_bind. eapply wp_conseq; [eapply wp_split; [apply (wp_fine_plain hb _ c ev w d F D (plain_socket_send N more left c ev))|exact S0]| |intros; cbv beta in *; tauto]; cbv beta.
  intros r c1 ev1 l1 ((-> & F1 & D1) & Hr1 & Hr & Hnr).
  assert (forall left', zlen left' <= len -> wp (try_send_loop N fuel len left' d more) c ev1 (fun r c2 _ l2 => (c2 = c /\ fine (run (l1 ++ l2) w) c) /\ (r = HBT -> run (l1 ++ l2) w = Excused) /\ (0 <= r -> r = len \/ run (l1 ++ l2) w = Excused \/ stuck (l1 ++ l2))) (fun _ _ l2 => run (l1 ++ l2) w <> Late)) as W.
  { intros left' Hl'. eapply wp_conseq; [apply (IH len left' _ ev1 F1 D1 Hl')| |]; cbv beta; intros; rewrite run_app; [|assumption]. destruct H as ((-> & G1) & G2 & G3). split; [auto|]. split; [exact G2|]. intros X. destruct (G3 X) as [?|[?|?]]; auto. right; right. apply stuck_r. assumption. }
  destruct (Z.ltb_spec 0 r). { cbv zeta. destruct (_ =? 0); [apply wp_ret; rewrite app_nil_r; split; [auto|]; split; [intros ->; exfalso; unfold zlen, AMQP_STATUS_HEARTBEAT_TIMEOUT in *; lia|auto]|]. apply W. unfold zlen in *. rewrite skipn_length. lia. }
  assert (r <> HBT /\ r <> AMQP_STATUS_TIMEOUT) as (R1 & R2). { destruct Hr as [Hr|[Hr| ->]]; [assert (r = 0) as -> by lia; split; discriminate|apply failed_send_neg in Hr; tauto|split; discriminate]. }
  apply wp_bind. eapply wp_conseq; [apply (do_poll_says r d c _ ev1 F1 D1 R1 R2 ltac:(lia))| |]; cbv beta; [|intros; rewrite run_app; assumption].
  intros r2 c2 ev2 l2 ((-> & F2 & D2) & S1 & S2 & S3). destruct (Z.eqb_spec r2 AMQP_STATUS_OK).
  - eapply wp_conseq; [apply (IH len left _ ev2 F2 D2 Hl)| |]; cbv beta; intros; rewrite app_assoc, !run_app; [|assumption]. destruct H0 as ((-> & G1) & G2 & G3). split; [auto|]. split; [exact G2|]. intros X. destruct (G3 X) as [?|[?|?]]; auto. right; right. apply stuck_r. assumption.
  - destruct (Z.eqb_spec r2 AMQP_STATUS_TIMEOUT); apply wp_ret; rewrite app_nil_r, run_app.
    + split; [auto|]. split; [intros X; exfalso; unfold AMQP_STATUS_HEARTBEAT_TIMEOUT in *; lia|]. intros _. destruct (Z.eq_dec r NEEDREAD) as [X|X]; [right; right; apply stuck_l, Hnr, X|]. destruct (S2 e X) as [?|?]; auto. right; right. apply stuck_r. assumption.
    + split; [auto|]. split; [exact S1|]. intros X. destruct (S3 X); [contradiction|auto].
Qed.

Lemma recvs c : forall fuel len ev, wp (tcp_recv_loop fuel len) c ev (fun p _ _ _ => 0 <= fst p \/ failed_send (fst p)) (fun _ _ _ => True).
Proof.
  induction fuel as [|fuel IH]; intros len ev; cbn [tcp_recv_loop]; [apply wp_halt; exact I|]. apply wp_bind. unfold wp at 1, sys_recv. unfold failed_send. destruct ev as [|[| |[bs| | | | |]| | | |] ev]; try exact I; try (apply wp_ret; cbn [fst]; tauto); [|apply IH].
  destruct (firstn _ _) as [|x y]; apply wp_ret; cbn [fst]; [tauto|]. left. apply zlen_nonneg.
Qed.
Lemma updates c ev : wp update_next_recv c ev (fun r _ _ _ => r <> HBT /\ r <> AMQP_STATUS_TIMEOUT) (fun _ _ _ => True).
Proof.
  assert (forall k t, fst (amqp_time_s_from_now k t) <> HBT /\ fst (amqp_time_s_from_now k t) <> AMQP_STATUS_TIMEOUT) as V.
  { intros k t. unfold amqp_time_s_from_now. repeat match goal with |- context [if ?b then _ else _] => destruct b end; split; discriminate. }
  unfold update_next_recv. wstep. apply wp_bind. unfold time_s_from_now. destruct (_ <=? _).
  - apply wp_ret. specialize (V 0 (amqp_heartbeat_recv c)). destruct (amqp_time_s_from_now _ _). wstep. apply wp_ret. exact V.
  - apply wp_bind. unfold wp at 1, sys_clock. destruct ev as [|[] ev]; try exact I. apply wp_ret. specialize (V (u64 now) (amqp_heartbeat_recv c)). destruct (amqp_time_s_from_now _ _). wstep. apply wp_ret. exact V.
Qed.
Definition read_says (w : watch) (c : conn) (r : Z) (c' : conn) (l : list obs) : Prop :=
  (r = HBT -> run l w = Excused) /\
  (r = AMQP_STATUS_TIMEOUT -> c' = c /\ c_fd c <> -1 /\ (run l w = Excused \/ exists l0 write ms, l = l0 ++ [OPoll write ms PTimeout])).
Lemma recv_says d c : forall fuel w ev, fine w c -> due d w -> wp (recv_with_timeout N fuel d) c ev (fun r c' _ l => read_says w c r c' l) (fun _ _ _ => True).
Proof.
  induction fuel as [|fuel IH]; intros w ev F D; cbn [recv_with_timeout]; [apply wp_halt; exact I|].
  assert (forall r ev1 l1, fine (run l1 w) c -> due d (run l1 w) -> failed_send (fst r) \/ fst r = AMQP_STATUS_SOCKET_CLOSED ->
    wp ((fun x : Z * bytes => let '(res, bs) := x in if res <? 0 then (c <- get;; if c_fd c =? -1 then ret AMQP_STATUS_CONNECTION_CLOSED else if (res =? NEEDREAD) || (res =? NEEDWRITE) then (res <- amqp_poll N (res =? NEEDWRITE) d;; (if res =? AMQP_STATUS_OK then recv_with_timeout N fuel d else ret res)) else ret res) else (store_received bs;; update_next_recv)) r) c ev1
      (fun r c2 _ l2 => read_says w c r c2 (l1 ++ l2)) (fun _ _ l2 => True)) as W.
  { intros [r bs] ev1 l1 F1 D1 Hr. cbn [fst] in Hr. destruct (Z.ltb_spec r 0) as [_|Hneg]; [|exfalso; destruct Hr as [Hr| ->]; [apply failed_send_neg in Hr; lia|apply Hneg; reflexivity]].
    wstep. destruct (Z.eqb_spec (c_fd c) (-1)) as [_|Hfd]; [apply wp_ret; split; discriminate|].
    destruct ((r =? NEEDREAD) || (r =? NEEDWRITE)); [|apply wp_ret; split; intros ->; exfalso; (destruct Hr as [Hr|Hr]; [apply failed_send_neg in Hr; tauto|discriminate Hr])].
    set (wr := r =? NEEDWRITE).
    apply wp_bind. eapply wp_conseq; [apply (poll_full hb Hhb wr d c N _ ev1 F1 D1)| |]; cbv beta; [|auto].
    intros r2 c2 ev2 l2 ((-> & F2 & D2) & S). destruct (Z.eqb_spec r2 AMQP_STATUS_OK) as [->|Hne].
    - eapply wp_conseq; [apply (IH _ ev2 F2 D2)| |]; cbv beta; [|auto]. intros r3 c3 ev3 l3 (G1 & G2). unfold read_says. rewrite app_assoc, !run_app. split; [exact G1|]. intros X. destruct (G2 X) as (-> & _ & [G|(l0 & wr' & ms & ->)]); (split; [reflexivity|split; [exact Hfd|]]); [auto|]. right. exists ((l1 ++ l2) ++ l0), wr', ms. rewrite !app_assoc. reflexivity.
    - apply wp_ret. unfold read_says. rewrite app_nil_r, run_app. unfold poll_says in S. split; intros ->.
      + destruct S as [S|[S|[(S & _)|[S|S]]]]; try discriminate; auto.
      + split; [reflexivity|]. split; [exact Hfd|]. destruct S as [S|[S|[(S & l0 & ms & ->)|[S|S]]]]; try discriminate; auto. right. exists (l1 ++ l0), wr, ms. rewrite !app_assoc. reflexivity. }
  apply wp_bind. unfold amqp_socket_recv. wstep. destruct (_ =? -1). { wstep. apply (W (AMQP_STATUS_SOCKET_CLOSED, []) ev []); [exact F|exact D|auto]. }
  eapply wp_conseq; [eapply wp_split; [apply (recv_fine hb c N _ w ev d F D)|apply recvs]| |auto]; cbv beta.
  intros r c1 ev1 l1 ([-> [(F1 & D1 & _ & Hr)|(bs & Hne & -> & ->)]] & V); [apply W; [assumption|assumption|destruct V as [V|V]; [lia|tauto]]|].
  destruct (Z.ltb_spec (zlen bs) 0); [pose proof (zlen_nonneg bs); lia|].
  assert (wp (store_received bs;; update_next_recv) c ev1 (fun r _ _ _ => r <> HBT /\ r <> AMQP_STATUS_TIMEOUT) (fun _ _ _ => True)) as U.
  { unfold store_received. apply wp_bind. wstep. apply wp_bind. destruct (c_sbuf c); [apply wp_ret|apply wp_note]; apply wp_upd; apply updates. }
  eapply wp_conseq; [exact U| |auto]; cbv beta. intros r c2 ev2 l2 [U1 U2]. split; intros; contradiction.
Qed.
Lemma drain_says fuel : forall c ev, wp (try_recv_drain E fuel) c ev (fun r _ _ l => no_bad l -> r = AMQP_STATUS_OK \/ r = AMQP_STATUS_NO_MEMORY) (fun _ _ _ => True).
Proof.
  induction fuel as [|fuel IH]; intros c ev; cbn [try_recv_drain]; [apply wp_halt; exact I|]. wstep. destruct (negb _); [apply wp_ret; auto|].
  apply wp_bind. eapply wp_conseq; [apply consume_ok| |auto]; cbv beta. intros [r f] c1 ev1 l1 (_&_&_&_&_&_&_&_&_&_&_&_&_&_&_&_&H). cbn [fst snd] in H.
  destruct H as [(H1 & _ & H2 & _)|(-> & _)].
  { destruct (negb _) eqn:Hn; [|exfalso; apply negb_false_iff, Z.eqb_eq in Hn; unfold AMQP_STATUS_OK in Hn; lia]. apply wp_ret. rewrite app_nil_r, H2. intros X. inversion X. contradiction. }
  change (negb (AMQP_STATUS_OK =? AMQP_STATUS_OK)) with false. cbv iota. destruct (negb _).
  - apply wp_bind. eapply wp_conseq; [apply create_link_ok| |auto]; cbv beta. intros o c2 ev2 l2 (-> & _). destruct o; [|apply wp_ret; auto].
    unfold append_entry. wstep. eapply wp_conseq; [apply IH| |auto]; cbv beta. intros r c3 ev3 l3 K X. apply K. rewrite !no_bad_app in X. tauto.
  - eapply wp_conseq; [apply IH| |auto]; cbv beta. intros r c3 ev3 l3 K X. apply K. rewrite !no_bad_app in X. tauto.
Qed.
Lemma try_recv_says c w ev : fine w c -> wp (amqp_try_recv N E) c ev (fun r c' _ l => fine (run l w) c' /\ (no_bad l -> r = HBT -> run l w = Excused)) (fun _ _ l => run l w <> Late).
Proof.
  intros F. eapply wp_conseq; [eapply wp_split; [apply (tr_try_recv N E hb Hhb c w ev F)|]|intros a c' ev' l H; cbv beta in H; exact H|intros; cbv beta in *; tauto].
  apply (wp_conseq _ _ _ (fun r c' _ l => no_bad l -> r = HBT -> run l w = Excused) _ (fun _ _ _ => True) (fun _ _ _ => True)); [|auto|auto].
  unfold amqp_try_recv. apply wp_bind. eapply wp_conseq; [eapply wp_split; [apply (tr_drain E hb N c w ev F)|apply drain_says]| |auto]; cbv beta.
  intros r c1 ev1 l1 (F1 & R1). destruct (Z.eqb_spec r AMQP_STATUS_OK) as [->|Hne]; cbn [negb]; [|apply wp_ret; rewrite app_nil_r; intros X ->; destruct (R1 X); discriminate].
  apply wp_bind. unfold time_from_now. change ((tv_sec (mkTv 0 0) <? 0) || (tv_usec (mkTv 0 0) <? 0)) with false. cbv iota.
  apply wp_bind. unfold wp at 1, sys_clock. destruct ev1 as [|[] ev1]; try exact I. apply wp_ret.
  pose proof (fine_clock hb (run l1 w) c1 (u64 now) F1) as F2. pose proof (Z.mod_pos_bound now M64 ltac:(lia)) as Hn. fold (u64 now) in Hn. set (t := u64 now) in *.
  unfold amqp_time_from_now. change ((tv_sec (mkTv 0 0) <? 0) || (tv_usec (mkTv 0 0) <? 0)) with false. cbv iota zeta.
  change (u64 (u64 (u64 (tv_sec (mkTv 0 0)) * AMQP_NS_PER_S) + u64 (u64 (tv_usec (mkTv 0 0)) * AMQP_NS_PER_US))) with 0. rewrite Z.add_0_r.
  destruct (Z.eqb_spec t 0) as [Z0|Z0]; [apply wp_ret; intros _ X; discriminate|]. assert (u64 t = t) as -> by (unfold u64; apply Z.mod_small; lia).
  destruct (_ || _); [apply wp_ret; intros _ X; discriminate|]. change (AMQP_STATUS_OK =? AMQP_STATUS_OK) with true. cbv iota.
  assert (due t (run [OClock t] (run l1 w))) as D.
  { destruct (run l1 w) as [R L jr g| |]; try exact I. cbn [NetWatch.run fold_left watch_step]. destruct (_ || _); [exact I|]. cbn [due]. lia. }
  eapply wp_conseq; [apply (recv_says t c1 N _ ev1 F2 D)| |auto]; cbv beta; intros r c2 ev2 l2 (G & _) _ X. rewrite !run_app. apply G, X.
Qed.
Lemma send_loop_says fuel : forall enc more d c w ev, fine w c ->
  wp (send_frame_loop N E fuel enc more d) c ev (fun r c' _ l => fine (run l w) c' /\ (no_bad l -> r = HBT -> run l w = Excused \/ stuck l)) (fun _ _ l => run l w <> Late).
Proof.
  induction fuel as [|fuel IH]; intros enc more d c w ev F; cbn [send_frame_loop]; [apply wp_halt; eapply fine_late; exact F|]. wstep. cbv zeta.
  apply wp_bind. eapply wp_conseq; [apply (try_send_says more _ c N (zlen enc) enc w ev F)| |auto]; cbv beta; [eapply fine_due; [exact F|apply first_le]|lia|].
  intros r c1 ev1 l1 ((-> & F1) & S1 & S2). destruct (Z.ltb_spec r 0); [apply wp_ret; rewrite app_nil_r; split; [exact F1|]; auto|].
  destruct (Z.eqb_spec (zlen enc) r) as [He|He]; cbn [negb].
  - assert (wp update_next_send c ev1 (fun r _ _ _ => r <> HBT) (fun _ _ _ => True)) as U.
    { assert (forall k t, fst (amqp_time_s_from_now k t) <> HBT) as V.
      { intros k t. unfold amqp_time_s_from_now. repeat match goal with |- context [if ?b then _ else _] => destruct b end; discriminate. }
      unfold update_next_send. wstep. apply wp_bind. unfold time_s_from_now. destruct (_ <=? _).
      - apply wp_ret. specialize (V 0 (amqp_heartbeat_send c)). destruct (amqp_time_s_from_now _ _). wstep. apply wp_ret. exact V.
      - apply wp_bind. unfold wp at 1, sys_clock. destruct ev1 as [|[] ev1]; try exact I. apply wp_ret. specialize (V (u64 now) (amqp_heartbeat_send c)). destruct (amqp_time_s_from_now _ _). wstep. apply wp_ret. exact V. }
    eapply wp_conseq; [eapply wp_split; [apply (tr_next_send hb c _ ev1 F1)|exact U]| |]; cbv beta.
    + intros r2 c2 ev2 l2 (G1 & G2). rewrite run_app. split; [exact G1|]. intros; contradiction.
    + intros s0 c2 l2 (G1 & _). rewrite run_app. exact G1.
  - destruct (S2 ltac:(lia)) as [S3|S3]; [congruence|].
    destruct (amqp_time_equal _ _); [apply wp_ret; rewrite app_nil_r; split; [exact F1|discriminate]|].
    apply wp_bind. eapply wp_conseq; [apply (try_recv_says c _ ev1 F1)| |]; cbv beta; [|intros; rewrite run_app; assumption].
    intros r2 c2 ev2 l2 (F2 & R2). rewrite <- run_app in *.
    assert (run (l1 ++ l2) w = Excused \/ stuck (l1 ++ l2)) as S4 by (destruct S3 as [S3|S3]; [left; apply excused_app, S3|right; apply stuck_l, S3]).
    destruct (_ =? _); [apply wp_ret; rewrite app_nil_r; split; [exact F2|auto]|]. destruct (negb _); [apply wp_ret; rewrite app_nil_r; split; [exact F2|auto]|].
    eapply wp_conseq; [apply (IH _ more d c2 _ ev2 F2)| |]; cbv beta; intros; rewrite app_assoc, run_app; [|assumption]. destruct H0 as [G1 G2]. split; [exact G1|]. intros _ _. destruct S4 as [->|S4]; [left; apply excused|right; apply stuck_l, S4].
Qed.
(** the socket was closed right after a poll for input timed out *)
Definition closed_after (c' : conn) (l : list obs) : Prop := exists l0 write ms ok, l = l0 ++ [OPoll write ms PTimeout; OClose ok] /\ (ok = true -> c_fd c' = -1).
Lemma closed_r c' a b : closed_after c' b -> closed_after c' (a ++ b).
Proof. intros (l0 & wr & ms & ok & -> & H). exists (a ++ l0), wr, ms, ok. rewrite app_assoc. auto. Qed.
Lemma closes c ev : c_fd c <> -1 -> wp amqp_socket_close c ev (fun _ c' _ l => exists ok, l = [OClose ok] /\ (ok = true -> c_fd c' = -1)) (fun _ _ _ => True).
Proof.
  intros H. unfold amqp_socket_close. wstep. destruct (Z.eqb_spec (c_fd c) (-1)); [contradiction|]. apply wp_bind. unfold wp at 1, sys_close. destruct ev as [|[] ev]; try exact I.
  destruct ok; cbn [negb]; [wstep|]; apply wp_ret; cbn [app]; eexists; (split; [reflexivity|]); [reflexivity|discriminate].
Qed.
Definition verdict (w : watch) (r : Z) (c' : conn) (l : list obs) : Prop := no_bad l -> r = HBT -> run l w = Excused \/ stuck l \/ closed_after c' l.
Lemma wait_says T : forall fuel skip c w ev, fine w c ->
  wp (wait_frame_loop N E fuel skip T) c ev (fun p c' _ l => verdict w (fst p) c' l) (fun _ _ _ => True).
Proof.
  assert (forall l1 w c p l2, verdict (run l1 w) p c l2 -> verdict w p c (l1 ++ l2)) as J.
  { intros l1 w c p l2 H X Y. rewrite no_bad_app in X. destruct (H (proj2 X) Y) as [K|[K|K]]; [left; rewrite run_app; exact K|right; left; apply stuck_r, K|right; right; apply closed_r, K]. }
  induction fuel as [|fuel IH]; intros skip c w ev F; cbn [wait_frame_loop]; [apply wp_halt; exact I|]. wstep. destruct (_ && _).
  - apply wp_bind. eapply wp_conseq; [eapply wp_split; [apply (tr_consume E hb c w ev F)|apply consume_ok]| |auto]; cbv beta.
    intros [r f] c1 ev1 l1 (F1 & _&_&_&_&_&_&_&_&_&_&_&_&_&_&_&_&H). cbn [fst snd] in H.
    destruct H as [(H1 & _ & H2 & _)|(-> & _)].
    { destruct (negb _) eqn:Hn; [|exfalso; apply negb_false_iff, Z.eqb_eq in Hn; unfold AMQP_STATUS_OK in Hn; lia]. apply wp_ret. rewrite app_nil_r, H2. intros X. inversion X. contradiction. }
    change (negb (AMQP_STATUS_OK =? AMQP_STATUS_OK)) with false. cbv iota. destruct (_ =? _).
    + apply wp_bind. eapply wp_conseq; [apply (tr_release_on hb 0 c1 _ ev1 F1)| |auto]; cbv beta. intros _ c2 ev2 l2 F2.
      eapply wp_conseq; [apply (IH false c2 _ ev2 F2)| |auto]; cbv beta. intros; apply J, J; assumption.
    + destruct (negb _); [apply wp_ret; rewrite app_nil_r; intros _ X; discriminate|]. eapply wp_conseq; [apply (IH false c1 _ ev1 F1)| |auto]; cbv beta. intros; apply J; assumption.
  - apply wp_bind. eapply wp_conseq; [apply (tr_past hb _ c w ev F)| |auto]; cbv beta. intros r1 c1 ev1 l1 F1.
    destruct (Z.eqb_spec r1 AMQP_STATUS_TIMER_FAILURE) as [->|_]; [apply wp_ret; rewrite app_nil_r; intros _ X; discriminate|].
    apply wp_bind.
    apply (wp_conseq _ _ _ (fun r c' _ l => fine (run l (run l1 w)) c' /\ (no_bad l -> r = HBT -> run l (run l1 w) = Excused \/ stuck l)) _ (fun _ _ _ => True) _); [| |auto].
    { destruct (_ =? _); [|apply wp_ret; split; [exact F1|discriminate]]. unfold amqp_send_frame, amqp_send_frame_inner. wstep. destruct (amqp_frame_to_bytes _ _) as [st buf enc|] eqn:Hf; [|apply wp_halt; exact I].
      apply heartbeat_bytes in Hf. destruct Hf as [-> ->]. wstep. change (negb (AMQP_STATUS_OK =? AMQP_STATUS_OK)) with false. cbv iota.
      eapply wp_conseq; [apply send_loop_says; exact F1| |auto]; cbv beta. auto. }
    cbv beta. intros r2 c2 ev2 l2 (F2 & S2). destruct (Z.eqb_spec r2 AMQP_STATUS_OK) as [->|Hne]; cbn [negb].
    2:{ apply wp_ret. cbn [fst]. rewrite app_nil_r. intros X Y. rewrite no_bad_app in X. destruct (S2 (proj2 X) Y) as [K|K]; [left; rewrite run_app; exact K|right; left; apply stuck_r, K]. }
    wstep. cbv zeta. set (D := amqp_time_first T _). rewrite <- run_app in F2.
    assert (due D (run (l1 ++ l2) w)) as DU by (eapply fine_due; [exact F2|]; etransitivity; [apply first_le|apply first_le_l]).
    apply wp_bind. eapply wp_conseq; [eapply wp_split; [apply (trd_recv N hb Hhb D c2 N _ ev2 F2 DU)|apply (recv_says D c2 N _ ev2 F2 DU)]| |auto]; cbv beta.
    intros r3 c3 ev3 l3 (F3 & R1 & R2). destruct (Z.eqb_spec r3 AMQP_STATUS_TIMEOUT).
    + wstep. destruct (R2 e) as (-> & Hfd & R3). destruct (amqp_time_equal _ _).
      { apply wp_bind. eapply wp_conseq; [apply (closes c2 ev3 Hfd)| |auto]; cbv beta. intros x c4 ev4 l4 (ok & -> & Hok). apply wp_ret. cbn [fst]. rewrite app_nil_r. intros _ _.
        destruct R3 as [R3|(l0 & wr & ms & ->)]; [left; rewrite <- run_app in R3; rewrite app_assoc, app_assoc; apply excused_app, R3|]. right; right. exists (l1 ++ l2 ++ l0), wr, ms, ok. split; [rewrite <- !app_assoc; reflexivity|exact Hok]. }
      destruct (amqp_time_equal _ _); [apply wp_ret; intros _ X; discriminate|]. destruct (amqp_time_equal _ _); [|apply wp_halt; exact I].
      eapply wp_conseq; [apply (IH true c2 _ ev3 F3)| |auto]; cbv beta. intros; rewrite <- run_app in H; do 2 rewrite app_assoc; apply J; rewrite <- ?app_assoc in *; exact H.
    + destruct (Z.eqb_spec r3 AMQP_STATUS_OK) as [->|]; cbn [negb].
      * eapply wp_conseq; [apply (IH false c3 _ ev3 F3)| |auto]; cbv beta. intros; rewrite <- run_app in H; do 2 rewrite app_assoc; apply J; rewrite <- ?app_assoc in *; exact H.
      * apply wp_ret. cbn [fst]. rewrite app_nil_r. intros _ X. left. rewrite app_assoc, run_app. apply R1, X.
Qed.
End Verdict.
