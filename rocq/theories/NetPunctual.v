(** C61: no poll for the peer waits past the deadline of the call. *)
From Coq Require Import String ZArith List Bool Lia.
From Verif Require Import Base BaseFacts Codec TableModel TableSpec TableDec TableOps FramingStmt FramingGen FramingModel MethodSpec
  Frame FrameSpec Time Sasl Net NetApi NetSpec NetFacts NetSend NetRecv NetWalk NetAcct NetOrder NetWait TimeoutSpec HeartbeatSpec NetWatch NetVerdict.
Import ListNotations.
Local Open Scope Z_scope.

Section Punctual.
Context (N : nat) (E : nat -> aenv) (T : Z).
Definition crun := fold_left (clock_step T).
Lemma crun_app a b w : crun (a ++ b) w = crun b (crun a w).
Proof. apply fold_left_app. Qed.
Notation reach := (2147483647 * 1000000).
Definition good (w : clockwork) : Prop :=
  match w with OnTime now _ _ => 0 <= now < 2 ^ 63 /\ T <= now + reach | Forgiven => True | Overslept => False end.
Lemma good_late w : good w -> w <> Overslept.
Proof. intros H ->. exact H. Qed.
(** a computation that keeps the deadline *)
Definition pu {A} (m : M A) (c : conn) : Prop := forall w ev, good w ->
  wp m c ev (fun _ _ _ l => good (crun l w)) (fun _ _ l => crun l w <> Overslept).
Lemma pu_ret {A} (a : A) c : pu (ret a) c.
Proof. intros w ev H. apply wp_ret. exact H. Qed.
Lemma pu_halt {A} s c : @pu A (halt s) c.
Proof. intros w ev H. apply wp_halt. apply good_late. exact H. Qed.
Lemma pu_bind {A B} (m : M A) (k : A -> M B) c : pu m c -> (forall a c', pu (k a) c') -> pu (bind m k) c.
Proof.
  intros Hm Hk w ev H. apply wp_bind. eapply wp_conseq; [apply (Hm w ev H)| |auto]; cbv beta. intros a c1 ev1 l1 H1.
  eapply wp_conseq; [apply (Hk a c1 _ ev1 H1)| |]; cbv beta; intros; rewrite crun_app; assumption.
Qed.
Lemma pu_get_bind {B} (k : conn -> M B) c : pu (k c) c -> pu (bind get k) c.
Proof. intros H w ev Hw. apply wp_get_bind. apply H; assumption. Qed.
Lemma pu_upd f c : pu (upd f) c.
Proof. intros w ev H. apply wp_upd. exact H. Qed.
Definition calm (o : obs) : Prop := match o with OClock _ | OPoll _ _ _ => False | _ => True end.
Lemma good_calm l : forall w, Forall calm l -> good w -> good (crun l w).
Proof.
  induction l as [|o l IH]; intros w Hl H; [exact H|]. inversion Hl as [|? ? H1 H2]; subst. cbn [crun fold_left]. apply IH; [exact H2|].
  destruct w; [|exact H|exact H]. destruct o; try contradiction; exact H.
Qed.
Lemma pu_calm {A} (m : M A) c : (forall ev, wp m c ev (fun _ c' _ l => Forall calm l) (fun _ _ l => Forall calm l)) -> pu m c.
Proof.
  intros H w ev Hw. eapply wp_conseq; [apply H| |]; cbv beta.
  - intros. apply good_calm; assumption.
  - intros. apply good_late, good_calm; assumption.
Qed.
Lemma good_clock w t : good w -> good (crun [OClock t] w).
Proof.
  intros H. cbn [crun fold_left]. destruct w as [now jr b| |]; [|exact I|exact H]. cbn [clock_step].
  destruct (Z.ltb_spec t now); cbn [orb]; [exact I|]. destruct (Z.leb_spec (2 ^ 63) t); [exact I|]. unfold good in *. lia.
Qed.
Lemma pu_clock c : pu sys_clock c.
Proof. intros w ev H. unfold wp, sys_clock. destruct ev as [|[] ev]; try (apply good_late; exact H). apply good_clock. exact H. Qed.
Lemma pu_silent_clock {A} (b : bool) (x : A) (f : Z -> A) c : pu (if b then ret x else (now <- sys_clock;; ret (f now))) c.
Proof. destruct b; [apply pu_ret|]. apply pu_bind; [apply pu_clock|intros; apply pu_ret]. Qed.
Lemma pu_tv t c : pu (time_tv_until t) c.
Proof. apply pu_silent_clock. Qed.
Lemma pu_past t c : pu (time_has_past t) c.
Proof. apply pu_silent_clock. Qed.
Lemma pu_alloc c : pu sys_alloc c.
Proof. apply pu_calm. intros ev. unfold wp, sys_alloc. destruct ev as [|[] ev]; repeat constructor. Qed.
Lemma pu_clone c : pu sys_clone c.
Proof. apply pu_calm. intros ev. unfold wp, sys_clone. destruct ev as [|[] ev]; repeat constructor. Qed.
Lemma pu_sclose c : pu sys_close c.
Proof. apply pu_calm. intros ev. unfold wp, sys_close. destruct ev as [|[] ev]; repeat constructor. Qed.
Lemma pu_close c : pu amqp_socket_close c.
Proof. unfold amqp_socket_close. apply pu_get_bind. destruct (_ =? _); [apply pu_ret|]. apply pu_bind; [apply pu_sclose|]. intros ok c1. destruct (negb ok); [apply pu_ret|]. apply pu_bind; [apply pu_upd|intros; apply pu_ret]. Qed.
Lemma pu_consume c : pu (consume_one_frame E) c.
Proof.
  apply pu_calm. intros ev. unfold wp, consume_one_frame. destruct (amqp_handle_input _ _ _) as [res f s| |]; try constructor.
  destruct (_ <? _); [repeat constructor|]. destruct (_ =? _); repeat constructor.
Qed.
Lemma pu_next_send c : pu update_next_send c.
Proof.
  unfold update_next_send. apply pu_get_bind. apply pu_bind; [apply pu_silent_clock|]. intros [r t] c1. apply pu_bind; [apply pu_upd|intros; apply pu_ret].
Qed.
Lemma pu_next_recv c : pu update_next_recv c.
Proof.
  unfold update_next_recv. apply pu_get_bind. apply pu_bind; [apply pu_silent_clock|]. intros [r t] c1. apply pu_bind; [apply pu_upd|intros; apply pu_ret].
Qed.

(** the deadline [d] of a poll is not after [T], or it is in the past *)
Definition soon (d : Z) (w : clockwork) : Prop := match w with OnTime now _ _ => d <= T \/ d <= now | _ => True end.
Lemma soon_clock d t w : soon d w -> soon d (crun [OClock t] w).
Proof.
  intros G. cbn [crun fold_left]. destruct w as [now jr b| |]; try exact I. cbn [clock_step].
  destruct (Z.ltb_spec t now); cbn [orb]; [exact I|]. destruct (Z.leb_spec (2 ^ 63) t); [exact I|]. cbn [soon] in *. lia.
Qed.
Lemma soon_calm d l : forall w, Forall calm l -> soon d w -> soon d (crun l w).
Proof.
  induction l as [|o l IH]; intros w Hl H; [exact H|]. inversion Hl; subst. cbn [crun fold_left]. apply IH; [assumption|]. destruct w; [|exact I|exact I]. destruct o; try contradiction; exact H.
Qed.
Lemma soon_le d w : d <= T -> soon d w.
Proof. intros H. destruct w; try exact I. left. exact H. Qed.
Lemma ms_in_reach d t : 0 < t -> t < d -> d <= t + reach -> d <> UINT64_MAX ->
  0 <= amqp_time_ms_until t d /\ t + amqp_time_ms_until t d * 1000000 <= d < t + (amqp_time_ms_until t d + 1) * 1000000.
Proof.
  intros H1 H2 H3 H4. unfold amqp_time_ms_until. destruct (Z.eqb_spec UINT64_MAX d); [lia|]. destruct (Z.eqb_spec 0 d); [lia|]. destruct (Z.eqb_spec t 0); [lia|]. destruct (Z.leb_spec d t); [lia|].
  unfold u64. rewrite (Z.mod_small (d - t)) by lia. change AMQP_NS_PER_MS with 1000000.
  pose proof (Z.div_pos (d - t) 1000000 ltac:(lia) ltac:(lia)). pose proof (Z.mul_div_le (d - t) 1000000 ltac:(lia)). pose proof (Z.mul_succ_div_gt (d - t) 1000000 ltac:(lia)).
  assert ((d - t) / 1000000 <= 2147483647) by (apply Z.div_le_upper_bound; lia).
  unfold signed. rewrite Z.mod_small by lia. change (M32 / 2) with M31. destruct (Z.ltb_spec ((d - t) / 1000000) M31); lia.
Qed.
(** why [amqp_poll] returned [r] *)
Definition timed_out (d : Z) (w : clockwork) (l : list obs) : Prop :=
  crun l w = Forgiven \/ d = 0 \/ exists l0 t write ms, l = l0 ++ [OClock t; OPoll write ms PTimeout] /\ d < t + (ms + 1) * 1000000.
Definition says (d : Z) (w : clockwork) (r : Z) (l : list obs) : Prop :=
  r = AMQP_STATUS_OK \/ r = AMQP_STATUS_SOCKET_ERROR \/ (r = AMQP_STATUS_TIMEOUT /\ timed_out d w l) \/ r = AMQP_STATUS_TIMER_FAILURE \/ crun l w = Forgiven.
Lemma forgiven l : crun l Forgiven = Forgiven.
Proof. unfold crun. induction l; [reflexivity|assumption]. Qed.
Lemma timed_out_app d w a b : timed_out d (crun a w) b -> timed_out d w (a ++ b).
Proof.
  intros [H|[H|(l0 & t & wr & ms & -> & H)]]; [left; rewrite crun_app; exact H|right; left; exact H|right; right]. exists (a ++ l0), t, wr, ms. rewrite <- app_assoc. auto.
Qed.
Lemma poll_punctual write d c : forall fuel w ev, good w -> soon d w ->
  wp (amqp_poll fuel write d) c ev (fun r c' _ l => (c' = c /\ good (crun l w) /\ soon d (crun l w)) /\ says d w r l) (fun _ _ l => crun l w <> Overslept).
Proof.
  induction fuel as [|fuel IH]; intros w ev Hw Hd; cbn [amqp_poll]; [apply wp_halt; apply good_late; exact Hw|].
  apply wp_bind.
  assert (wp (time_ms_until d) c ev (fun ms c1 _ l => c1 = c /\ good (crun l w) /\ soon d (crun l w) /\ (d = 0 \/ crun l w = Forgiven \/ exists t, l = [OClock t] /\ (ms = AMQP_STATUS_TIMER_FAILURE \/ d < t + (ms + 1) * 1000000)) /\
     match crun l w with OnTime now jr _ => ms = 0 \/ ms = AMQP_STATUS_TIMER_FAILURE \/ (jr = true /\ 0 <= ms /\ now + ms * 1000000 <= T) | _ => True end) (fun _ _ l => crun l w <> Overslept)) as W.
  { unfold time_ms_until. destruct (_ || _) eqn:Hc.
    - apply wp_ret. split; [reflexivity|]. split; [exact Hw|]. split; [exact Hd|]. cbn [crun fold_left]. destruct w as [now jr b| |]; [|auto|contradiction].
      unfold good in Hw. cbn [soon] in Hd. apply orb_prop in Hc. destruct Hc as [Hc|Hc]; apply Z.eqb_eq in Hc; [exfalso; unfold UINT64_MAX in Hc; lia|]. subst d. auto.
    - apply orb_false_elim in Hc. destruct Hc as [Hc1 Hc2]. apply Z.eqb_neq in Hc1, Hc2. apply wp_bind. unfold wp, sys_clock. destruct ev as [|[] ev]; try (apply good_late; exact Hw). cbn [ret app].
      pose proof (good_clock w (u64 now) Hw) as F. pose proof (soon_clock d (u64 now) w Hd) as D. split; [reflexivity|]. split; [exact F|]. split; [exact D|].
      destruct (crun [OClock (u64 now)] w) as [L jr b| |] eqn:Hr; [|auto|contradiction].
      destruct w as [L0 jr0 b0| |]; try discriminate. cbn [crun fold_left clock_step] in Hr. destruct (_ || _); [discriminate|]. injection Hr as HL Hjr _. subst L jr.
      unfold good in F. cbn [soon] in D. destruct (Z.eq_dec (u64 now) 0) as [Z0|Z0].
      + assert (amqp_time_ms_until (u64 now) d = AMQP_STATUS_TIMER_FAILURE) as ->. { unfold amqp_time_ms_until. destruct (Z.eqb_spec UINT64_MAX d); [lia|]. destruct (Z.eqb_spec 0 d); [lia|]. rewrite Z0. reflexivity. }
        split; [right; right; exists (u64 now); auto|auto].
      + destruct (Z.le_gt_cases d (u64 now)) as [Hle|Hgt].
        * assert (amqp_time_ms_until (u64 now) d = 0) as ->. { unfold amqp_time_ms_until. destruct (Z.eqb_spec UINT64_MAX d); [lia|]. destruct (Z.eqb_spec 0 d); [lia|]. destruct (Z.eqb_spec (u64 now) 0); [lia|]. destruct (Z.leb_spec d (u64 now)); [reflexivity|lia]. }
          split; [right; right; exists (u64 now); split; [reflexivity|right; lia]|auto].
        * pose proof (ms_in_reach d (u64 now) ltac:(lia) Hgt ltac:(lia) ltac:(lia)). split; [right; right; exists (u64 now); split; [reflexivity|right; lia]|]. right; right. split; [reflexivity|]. lia. }
  eapply wp_conseq; [exact W| |auto]; cbv beta. clear W. intros ms c1 ev1 l1 (-> & F & D & X & M).
  destruct (Z.ltb_spec ms (-1)); [apply wp_ret; rewrite app_nil_r; split; [auto|]; unfold says; destruct (crun l1 w); [destruct M as [M|[M|M]]; [lia|auto 6|lia]|auto 6|contradiction]|].
  apply wp_bind.
  assert (forall res, good (crun [OPoll write ms res] (crun l1 w)) /\ soon d (crun [OPoll write ms res] (crun l1 w))) as P.
  { intros res. destruct (crun l1 w) as [L jr b| |] eqn:Hr; [|split; exact I|contradiction]. cbn [crun fold_left clock_step].
    destruct (write || b); [split; [exact F|exact D]|].
    assert ((ms =? 0) || (jr && (0 <=? ms) && (L + ms * 1000000 <=? T)) = true) as ->.
    { destruct M as [->|[M|(-> & M1 & M2)]]; [reflexivity|unfold AMQP_STATUS_TIMER_FAILURE in *; lia|]. apply Z.leb_le in M1, M2. rewrite M1, M2. apply orb_true_r. }
    split; [exact F|exact D]. }
  unfold wp at 1, sys_poll. pose proof (good_late _ F) as NL. destruct ev1 as [|e ev2]; [rewrite app_nil_r; exact NL|].
  destruct e as [| | |[]| | |]; try (rewrite app_nil_r; exact NL).
  - apply wp_ret. rewrite app_nil_r. rewrite crun_app. destruct (P PReady). split; [auto|left; reflexivity].
  - destruct (_ <? _); [rewrite app_nil_r; exact NL|]. apply wp_ret. rewrite app_nil_r. rewrite crun_app. destruct (P PTimeout). split; [auto|]. right; right; left. split; [reflexivity|].
    unfold timed_out. rewrite crun_app. destruct X as [X|[X|(t & -> & X)]]; [auto|left; rewrite X; reflexivity|]. right; right. exists [], t, write, ms. split; [reflexivity|]. destruct X as [->|X]; [exfalso; unfold AMQP_STATUS_TIMER_FAILURE in *; lia|exact X].
  - destruct (P PIntr) as [P1 P2]. eapply wp_conseq; [apply (IH _ ev2 P1 P2)| |]; cbv beta.
    + intros r c2 ev3 l3 ((-> & G1 & G2) & G3). rewrite app_assoc, !crun_app. split; [auto|]. unfold says in *. rewrite !crun_app. destruct G3 as [G3|[G3|[(G3 & G4)|[G3|G3]]]]; auto 6.
      right; right; left. split; [exact G3|]. apply timed_out_app. rewrite crun_app. exact G4.
    + intros s c2 l3 G. rewrite app_assoc, !crun_app. exact G.
  - apply wp_ret. rewrite app_nil_r. rewrite crun_app. destruct (P PErr). split; [auto|]. right; left. reflexivity.
Qed.
(** polls that are a part of sending *)
Definition stuck (w : clockwork) : Prop := match w with OnTime _ _ b => b = true | _ => True end.
Lemma pu_poll_send write d : forall fuel c w ev, good w -> (write = false -> stuck w) ->
  wp (amqp_poll fuel write d) c ev (fun _ _ _ l => good (crun l w)) (fun _ _ l => crun l w <> Overslept).
Proof.
  induction fuel as [|fuel IH]; intros c w ev G S; cbn [amqp_poll]; [apply wp_halt, good_late, G|]. apply wp_bind.
  assert (wp (time_ms_until d) c ev (fun _ _ _ l => good (crun l w) /\ (write = false -> stuck (crun l w))) (fun _ _ l => crun l w <> Overslept)) as W.
  { unfold time_ms_until. destruct (_ || _); [apply wp_ret; auto|]. apply wp_bind. unfold wp, sys_clock. destruct ev as [|[] ev]; try (apply good_late; exact G). cbn [ret app].
    split; [apply good_clock, G|]. intros Hw. specialize (S Hw). cbn [crun fold_left]. destruct w as [n jr b| |]; try exact I. cbn [clock_step]. destruct (_ || _); [exact I|exact S]. }
  eapply wp_conseq; [exact W| |auto]; cbv beta. intros ms c1 ev1 l1 [G1 S1]. destruct (_ <? _); [apply wp_ret; rewrite app_nil_r; exact G1|].
  assert (forall res, good (crun [OPoll write ms res] (crun l1 w)) /\ (res = PIntr -> write = false -> stuck (crun [OPoll write ms res] (crun l1 w)))) as P.
  { intros res. destruct (crun l1 w) as [n jr b| |]; [|split; [exact I|intros; exact I]|contradiction]. cbn [crun fold_left clock_step].
    assert (write || b = true) as Hwb by (destruct write; [reflexivity|exact (S1 eq_refl)]). rewrite Hwb. split; [exact G1|]. intros -> Hw. subst write. cbn [orb] in Hwb. subst b. reflexivity. }
  apply wp_bind. unfold wp at 1, sys_poll. pose proof (good_late _ G1) as NL. destruct ev1 as [|e ev2]; [rewrite app_nil_r; exact NL|].
  destruct e as [| | |[]| | |]; try (rewrite app_nil_r; exact NL).
  - apply wp_ret. rewrite app_nil_r, crun_app. apply P.
  - destruct (_ <? _); [rewrite app_nil_r; exact NL|]. apply wp_ret. rewrite app_nil_r, crun_app. apply P.
  - destruct (P PIntr) as [P1 P2]. eapply wp_conseq; [apply (IH c1 _ ev2 P1 (P2 eq_refl))| |]; cbv beta; intros; rewrite app_assoc, !crun_app; assumption.
  - apply wp_ret. rewrite app_nil_r, crun_app. apply P.
Qed.
Lemma socket_send_punctual more buf c w ev : good w ->
  wp (amqp_socket_send N more buf) c ev (fun r _ _ l => good (crun l w) /\ (r = NEEDREAD -> stuck (crun l w))) (fun _ _ l => crun l w <> Overslept).
Proof.
  intros G. unfold amqp_socket_send. wstep. destruct (_ =? _); [apply wp_ret; split; [exact G|discriminate]|].
  generalize N. intros fuel. revert ev. induction fuel as [|fuel IH]; intros ev; cbn [tcp_send_loop]; [apply wp_halt, good_late, G|].
  apply wp_bind. unfold wp at 1, sys_send. pose proof (good_late _ G) as NL.
  assert (forall bs, good (crun [OSend more bs] w)) as K by (intros bs; cbn [crun fold_left]; destruct w; exact G).
  destruct ev as [|[|[]| | | | |] ev]; try exact NL; try (apply wp_ret; cbn [app]; split; [first [apply K|exact G]|discriminate]).
  - apply wp_ret. cbn [app]. split; [apply K|]. unfold NEEDREAD. lia.
  - eapply wp_conseq; [apply IH| |]; cbv beta; intros; assumption.
  - apply wp_ret. cbn [app]. split; [apply K|]. intros _. cbn [crun fold_left]. destruct w; try exact I. reflexivity.
Qed.
Lemma pu_do_poll r d c w ev : good w -> (r = NEEDREAD -> stuck w) -> wp (do_poll N r d) c ev (fun _ _ _ l => good (crun l w)) (fun _ _ l => crun l w <> Overslept).
Proof.
  intros G S. unfold do_poll. wstep. destruct (_ =? -1); [apply wp_ret; exact G|]. destruct (Z.eqb_spec r NEEDREAD); [apply pu_poll_send; auto|].
  destruct (_ =? NEEDWRITE); [apply pu_poll_send; [exact G|discriminate]|apply wp_ret; exact G].
Qed.
Lemma pu_try_send more d : forall fuel len left c, pu (try_send_loop N fuel len left d more) c.
Proof.
  induction fuel as [|fuel IH]; intros len left c w ev G; cbn [try_send_loop]; [apply wp_halt, good_late, G|].
  apply wp_bind. eapply wp_conseq; [apply (socket_send_punctual more left c w ev G)| |auto]; cbv beta. intros r c1 ev1 l1 [G1 S1].
  assert (forall left' c2 ev2 l2, good (crun l2 (crun l1 w)) -> wp (try_send_loop N fuel len left' d more) c2 ev2 (fun _ _ _ l3 => good (crun (l1 ++ l2 ++ l3) w)) (fun _ _ l3 => crun (l1 ++ l2 ++ l3) w <> Overslept)) as W.
  { intros left' c2 ev2 l2 G2. eapply wp_conseq; [apply (IH len left' c2 _ ev2 G2)| |]; cbv beta; intros; rewrite !crun_app; assumption. }
  destruct (_ <? _). { cbv zeta. destruct (_ =? _); [apply wp_ret; rewrite app_nil_r; exact G1|]. apply (W _ c1 ev1 [] G1). }
  apply wp_bind. eapply wp_conseq; [apply (pu_do_poll r d c1 _ ev1 G1 S1)| |]; cbv beta; [|intros; rewrite crun_app; assumption].
  intros r2 c2 ev2 l2 G2. destruct (_ =? _); [apply W, G2|]. destruct (_ =? _); apply wp_ret; rewrite app_nil_r, crun_app; exact G2.
Qed.
Lemma calm_recv c : forall fuel len ev, wp (tcp_recv_loop fuel len) c ev (fun p c' _ l => c' = c /\ Forall calm l /\ (0 <= fst p \/ failed_send (fst p))) (fun _ _ l => Forall calm l).
Proof.
  induction fuel as [|fuel IH]; intros len ev; cbn [tcp_recv_loop]; [apply wp_halt; constructor|]. apply wp_bind. unfold wp at 1, sys_recv. unfold failed_send. destruct ev as [|[| |[bs| | | | |]| | | |] ev]; try exact (Forall_nil _); try (apply wp_ret; cbn [fst]; repeat split; solve [constructor|tauto]).
  - destruct (firstn _ _) as [|x y]; apply wp_ret; cbn [fst]; (split; [reflexivity|split; [repeat constructor|]]); [tauto|]. left. apply zlen_nonneg.
  - eapply wp_conseq; [apply IH| |]; cbv beta; intros; assumption.
Qed.
Definition read_says (d : Z) (w : clockwork) (c : conn) (r : Z) (c' : conn) (l : list obs) : Prop :=
  r = AMQP_STATUS_TIMEOUT -> c' = c /\ timed_out d w l.
Lemma update_status c ev : wp update_next_recv c ev (fun r _ _ _ => r <> AMQP_STATUS_TIMEOUT) (fun _ _ _ => True).
Proof.
  eapply wp_conseq; [apply updates| |auto]. intros r c' ev' l [_ H]. exact H.
Qed.
Lemma recv_punctual d : forall fuel c w ev, good w -> soon d w ->
  wp (recv_with_timeout N fuel d) c ev (fun r c' _ l => good (crun l w) /\ read_says d w c r c' l) (fun _ _ l => crun l w <> Overslept).
Proof.
  induction fuel as [|fuel IH]; intros c w ev G S; cbn [recv_with_timeout]; [apply wp_halt, good_late, G|].
  apply wp_bind. unfold amqp_socket_recv. wstep.
  assert (forall r ev1 l1, Forall calm l1 -> 0 <= fst r \/ failed_send (fst r) \/ fst r = AMQP_STATUS_SOCKET_CLOSED ->
    wp ((fun x : Z * bytes => let '(res, bs) := x in if res <? 0 then (c <- get;; if c_fd c =? -1 then ret AMQP_STATUS_CONNECTION_CLOSED else if (res =? NEEDREAD) || (res =? NEEDWRITE) then (res <- amqp_poll N (res =? NEEDWRITE) d;; (if res =? AMQP_STATUS_OK then recv_with_timeout N fuel d else ret res)) else ret res) else (store_received bs;; update_next_recv)) r) c ev1
      (fun r2 c2 _ l2 => good (crun (l1 ++ l2) w) /\ read_says d w c r2 c2 (l1 ++ l2)) (fun _ _ l2 => crun (l1 ++ l2) w <> Overslept)) as W.
  { intros [r bs] ev1 l1 C Hr. cbn [fst] in Hr. pose proof (good_calm l1 w C G) as G1. pose proof (soon_calm d l1 w C S) as S1. destruct (Z.ltb_spec r 0).
    - wstep. destruct (_ =? -1); [apply wp_ret; rewrite app_nil_r; split; [exact G1|discriminate]|].
      destruct (_ || _).
      2:{ apply wp_ret; rewrite app_nil_r; split; [exact G1|]. intros ->. exfalso. destruct Hr as [Hr|[Hr|Hr]]; [lia|apply failed_send_neg in Hr; tauto|discriminate]. }
      apply wp_bind. eapply wp_conseq; [apply (poll_punctual _ d c N _ ev1 G1 S1)| |]; cbv beta; [|intros; rewrite crun_app; assumption].
      intros r2 c2 ev2 l2 ((-> & G2 & S2) & Y). destruct (Z.eqb_spec r2 AMQP_STATUS_OK).
      + eapply wp_conseq; [apply (IH c _ ev2 G2 S2)| |]; cbv beta.
        * intros r3 c3 ev3 l3 [G3 R3]. rewrite app_assoc, !crun_app. split; [exact G3|]. intros X. destruct (R3 X) as [-> K]. split; [reflexivity|]. apply timed_out_app. rewrite crun_app. exact K.
        * intros. rewrite app_assoc, !crun_app; assumption.
      + apply wp_ret. rewrite app_nil_r, crun_app. split; [exact G2|]. intros ->. split; [reflexivity|]. apply timed_out_app. unfold says in Y.
        destruct Y as [Y|[Y|[(_ & Y)|[Y|Y]]]]; try discriminate; [exact Y|left; exact Y].
    - apply wp_bind. unfold store_received. wstep. apply wp_bind.
      assert (forall o, Forall calm o -> wp update_next_recv (set_sbuf c bs) ev1 (fun r2 c2 _ l2 => good (crun (l1 ++ o ++ l2) w) /\ read_says d w c r2 c2 (l1 ++ o ++ l2)) (fun _ _ l2 => crun (l1 ++ o ++ l2) w <> Overslept)) as U.
      { intros o Ho. pose proof (good_calm o _ Ho G1) as G2. eapply wp_conseq; [eapply wp_split; [apply (pu_next_recv _ _ ev1 G2)|apply update_status]| |]; cbv beta.
        - intros r2 c2 ev2 l2 [G3 R3]. rewrite !crun_app. split; [exact G3|]. intros X. contradiction.
        - intros s c2 l2 [G3 _]. rewrite !crun_app. exact G3. }
      destruct (c_sbuf c); [apply wp_ret|apply wp_note]; apply wp_upd; [apply (U []); constructor|]. cbn [app]. eapply wp_conseq; [apply (U [OLost (b :: l)]); repeat constructor| |]; cbv beta; intros; assumption. }
  destruct (_ =? -1). { wstep. apply (W (AMQP_STATUS_SOCKET_CLOSED, []) ev []); [constructor|auto]. }
  eapply wp_conseq; [apply (calm_recv c N _ ev)| |]; cbv beta; [|intros; apply good_late, good_calm; assumption]. intros r c1 ev1 l1 (-> & C & Hr). apply W; [exact C|tauto].
Qed.
Lemma pu_recv d c : d <= T -> pu (recv_with_timeout N N d) c.
Proof. intros H w ev G. eapply wp_conseq; [apply (recv_punctual d N c w ev G (soon_le d w H))| |auto]; cbv beta. intros; tauto. Qed.

Ltac pu1 :=
  match goal with
  | |- pu (bind get _) _ => apply pu_get_bind
  | |- pu (bind _ _) _ => apply pu_bind; [|intros]
  | |- pu (ret _) _ => apply pu_ret
  | |- pu (halt _) _ => apply pu_halt
  | |- pu (upd _) _ => apply pu_upd
  | |- pu (if ?b then _ else _) _ => destruct b
  | |- pu (match ?x with _ => _ end) _ => destruct x
  | |- pu (let _ := _ in _) _ => cbv zeta
  | |- pu (need ?o) _ => unfold need
  | |- pu (consume_one_frame _) _ => apply pu_consume
  | |- _ => solve [auto with pu]
  end.
Ltac pu := repeat pu1.
Hint Resolve pu_tv pu_past pu_alloc pu_clone pu_close pu_next_send : pu.
Lemma pu_create_link f c : pu (create_link f) c.
Proof. unfold create_link. pu. Qed.
Lemma pu_append e c : pu (append_entry e) c.
Proof. unfold append_entry. pu. Qed.
Hint Resolve pu_create_link pu_append : pu.
Lemma pu_drain fuel : forall c, pu (try_recv_drain E fuel) c.
Proof. induction fuel as [|fuel IH]; intros; cbn [try_recv_drain]; pu; apply IH. Qed.
Lemma pu_drain' c : pu (try_recv_drain E N) c.
Proof. apply pu_drain. Qed.
Hint Resolve pu_drain' : pu.
Lemma pu_try_recv c : pu (amqp_try_recv N E) c.
Proof.
  unfold amqp_try_recv. apply pu_bind; [apply pu_drain|]. intros r c1. destruct (negb _); [apply pu_ret|].
  intros w ev F. apply wp_bind. unfold time_from_now. change ((tv_sec (mkTv 0 0) <? 0) || (tv_usec (mkTv 0 0) <? 0)) with false. cbv iota.
  apply wp_bind. unfold wp at 1, sys_clock. destruct ev as [|[] ev]; try (apply good_late; exact F). apply wp_ret. cbn [app].
  pose proof (good_clock w (u64 now) F) as F1. pose proof (Z.mod_pos_bound now M64 ltac:(lia)) as Hn. fold (u64 now) in Hn. set (t := u64 now) in *.
  unfold amqp_time_from_now. change ((tv_sec (mkTv 0 0) <? 0) || (tv_usec (mkTv 0 0) <? 0)) with false. cbv iota zeta.
  change (u64 (u64 (u64 (tv_sec (mkTv 0 0)) * AMQP_NS_PER_S) + u64 (u64 (tv_usec (mkTv 0 0)) * AMQP_NS_PER_US))) with 0. rewrite Z.add_0_r.
  destruct (Z.eqb_spec t 0) as [Z0|Z0]; [apply wp_ret; exact F1|]. assert (u64 t = t) as -> by (unfold u64; apply Z.mod_small; lia).
  destruct (_ || _); [apply wp_ret; exact F1|]. change (AMQP_STATUS_OK =? AMQP_STATUS_OK) with true. cbv iota.
  assert (soon t (crun [OClock t] w)) as D.
  { destruct w as [L jr g| |]; try exact I. cbn [crun fold_left clock_step]. destruct (_ || _); [exact I|]. cbn [soon]. lia. }
  eapply wp_conseq; [apply (recv_punctual t N c1 _ ev F1 D)| |]; cbv beta; intros; [apply H|exact H].
Qed.
Hint Resolve pu_try_recv : pu.
Lemma pu_send_loop fuel : forall enc more d c, pu (send_frame_loop N E fuel enc more d) c.
Proof.
  induction fuel as [|fuel IH]; intros; cbn [send_frame_loop]; [pu|]. apply pu_get_bind. cbv zeta.
  apply pu_bind; [apply pu_try_send|]. intros. pu; apply IH.
Qed.
Lemma pu_send_frame f more d c : pu (amqp_send_frame_inner N E f more d) c.
Proof.
  unfold amqp_send_frame_inner. apply pu_get_bind. destruct (amqp_frame_to_bytes _ _) as [r b e|] eqn:Hf; [|pu].
  apply pu_bind; [apply pu_upd|intros]. destruct (negb _); [pu|apply pu_send_loop].
Qed.
Lemma pu_send_frame' f c : pu (amqp_send_frame N E f) c.
Proof. apply pu_send_frame. Qed.
Lemma pu_send_method ch id m c : pu (amqp_send_method N E ch id m) c.
Proof. apply pu_send_frame. Qed.
Hint Resolve pu_send_frame pu_send_frame' pu_send_method : pu.
Lemma pu_release_on ch c : pu (amqp_maybe_release_buffers_on_channel ch) c.
Proof. unfold amqp_maybe_release_buffers_on_channel. pu. Qed.
Hint Resolve pu_release_on : pu.
Lemma pu_wait_loop d : d <= T -> forall fuel skip c, pu (wait_frame_loop N E fuel skip d) c.
Proof.
  intros Hd. induction fuel as [|fuel IH]; intros; cbn [wait_frame_loop]; [pu|]. apply pu_get_bind. destruct (_ && _); [pu; apply IH|].
  apply pu_bind; [auto with pu|]. intros r1 c1. destruct (_ =? _); [pu|]. apply pu_bind; [pu|]. intros r2 c2. destruct (negb _); [pu|]. apply pu_get_bind. cbv zeta.
  apply pu_bind; [apply pu_recv; etransitivity; [apply first_le_l|exact Hd]|]. intros r3 c3. pu; apply IH.
Qed.
Lemma pu_rpc_wait d : d <= T -> forall fuel ch ids c, pu (rpc_wait N E fuel ch ids d) c.
Proof. intros Hd. induction fuel as [|fuel IH]; intros; cbn [rpc_wait]; pu; first [apply pu_wait_loop, Hd|apply IH]. Qed.
Lemma pu_rpc_inner ch id ids m d c : d <= T -> pu (simple_rpc_inner N E ch id ids m d) c.
Proof. intros. unfold simple_rpc_inner. pu. apply pu_rpc_wait. assumption. Qed.
Lemma pu_put_back f c : pu (amqp_put_back_frame f) c.
Proof. unfold amqp_put_back_frame. pu. Qed.
End Punctual.
