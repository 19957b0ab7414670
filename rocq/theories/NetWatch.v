(** C44: no call waits beyond the time by which something must be heard of the peer. *)
From Coq Require Import String ZArith List Bool Lia.
From Verif Require Import Base BaseFacts Codec TableModel TableSpec TableDec TableOps FramingStmt FramingGen FramingModel MethodSpec
  Frame FrameSpec Time Sasl Net NetApi NetSpec NetFacts NetSend NetRecv NetWalk NetAcct NetOrder HeartbeatSpec.
Import ListNotations.
Local Open Scope Z_scope.

(** the calls that do not open the connection or change the heartbeat interval *)
Definition unhurried (a : api) : Prop := match a with SendHeader | Tune _ _ _ | Login _ _ _ _ _ _ _ => False | _ => True end.

(** ** Proofs *)
Lemma wrun_app hb w a b : fold_left (watch_step hb) (a ++ b) w = fold_left (watch_step hb) b (fold_left (watch_step hb) a w).
Proof. apply fold_left_app. Qed.

Section Watch.
Context (N : nat) (E : nat -> aenv) (hb : Z) (Hhb : 0 < hb <= 1000000).
Definition run := fold_left (watch_step hb).
Definition fine (w : watch) (c : conn) : Prop := c_hb c = hb /\
  match w with
  | Watching R L _ g => g = false /\ R = c_next_recv c /\ R <= L + 2 * hb * second /\ 0 <= L < 2 ^ 63
  | Excused => True
  | Late => False
  end.
Definition tr {A} (m : M A) (c : conn) : Prop := forall w ev, fine w c ->
  wp m c ev (fun _ c' _ l => fine (run l w) c') (fun _ _ l => run l w <> Late).
Lemma fine_late w c : fine w c -> w <> Late.
Proof. intros [_ H] ->. exact H. Qed.
Lemma tr_ret {A} (a : A) c : tr (ret a) c.
Proof. intros w ev H. apply wp_ret. exact H. Qed.
Lemma tr_halt {A} s c : @tr A (halt s) c.
Proof. intros w ev H. apply wp_halt. eapply fine_late; exact H. Qed.
Lemma tr_bind {A B} (m : M A) (k : A -> M B) c : tr m c -> (forall a c', tr (k a) c') -> tr (bind m k) c.
Proof.
  intros Hm Hk w ev H. apply wp_bind. eapply wp_conseq; [apply (Hm w ev H)| |auto]; cbv beta. intros a c1 ev1 l1 H1.
  eapply wp_conseq; [apply (Hk a c1 _ ev1 H1)| |]; cbv beta; intros; unfold run in *; rewrite wrun_app; assumption.
Qed.
Lemma tr_get_bind {B} (k : conn -> M B) c : tr (k c) c -> tr (bind get k) c.
Proof. intros H w ev Hw. apply wp_get_bind. apply H; assumption. Qed.
Lemma tr_upd f c : c_hb (f c) = c_hb c -> c_next_recv (f c) = c_next_recv c -> tr (upd f) c.
Proof. intros H1 H2 w ev [G1 G2]. apply wp_upd. split; [congruence|]. cbn [run fold_left]. destruct w; auto. rewrite H2. exact G2. Qed.
(** observations without a meaning for [watch] *)
Definition plain (o : obs) : Prop := match o with OClock _ | OPoll _ _ _ | ORecv _ => False | _ => True end.
Lemma fine_plain l : forall w c, Forall plain l -> fine w c -> fine (run l w) c.
Proof.
  induction l as [|o l IH]; intros w c Hl H; [exact H|]. inversion Hl as [|? ? H1 H2]; subst. cbn [run fold_left]. apply IH; [exact H2|].
  destruct w; [|destruct o; exact H|destruct H as [_ []]]. destruct H as [G1 G2]. destruct o; try contradiction; (split; [exact G1|exact G2]).
Qed.
Lemma tr_plain {A} (m : M A) c : (forall ev, wp m c ev (fun _ c' _ l => Forall plain l /\ c_hb c' = c_hb c /\ c_next_recv c' = c_next_recv c) (fun _ _ l => Forall plain l)) -> tr m c.
Proof.
  intros H w ev Hw. eapply wp_conseq; [apply H| |]; cbv beta.
  - intros a c' ev' l (H1 & H2 & H3). pose proof (fine_plain l w c H1 Hw) as [G1 G2]. split; [congruence|]. destruct (run l w); auto. rewrite H3. exact G2.
  - intros s c' l H1. eapply fine_late. apply fine_plain; eassumption.
Qed.
Lemma fine_clock w c t : fine w c -> fine (run [OClock t] w) c.
Proof.
  intros [H1 H2]. split; [exact H1|]. cbn [run fold_left]. destruct w as [R L jr g| |]; [|exact I|contradiction]. destruct H2 as (-> & -> & H3 & H4). cbn [watch_step andb].
  destruct (Z.ltb_spec t L); cbn [orb]; [exact I|]. destruct (Z.leb_spec (2 ^ 63) t); [exact I|]. repeat split; lia.
Qed.
Lemma tr_clock c : tr sys_clock c.
Proof.
  intros w ev H. unfold wp, sys_clock. destruct ev as [|[] ev]; try (eapply fine_late; exact H). apply fine_clock. exact H.
Qed.
Lemma tr_silent_clock {A} (b : bool) (x : A) (f : Z -> A) c : tr (if b then ret x else (now <- sys_clock;; ret (f now))) c.
Proof. destruct b; [apply tr_ret|]. apply tr_bind; [apply tr_clock|intros; apply tr_ret]. Qed.
Lemma tr_from_now t c : tr (time_from_now t) c.
Proof. unfold time_from_now. destruct t; [apply tr_silent_clock|apply tr_ret]. Qed.
Lemma tr_tv t c : tr (time_tv_until t) c.
Proof. apply tr_silent_clock. Qed.
Lemma tr_past t c : tr (time_has_past t) c.
Proof. apply tr_silent_clock. Qed.
Lemma tr_alloc c : tr sys_alloc c.
Proof. apply tr_plain. intros ev. unfold wp, sys_alloc. destruct ev as [|[] ev]; repeat constructor. Qed.
Lemma tr_clone c : tr sys_clone c.
Proof. apply tr_plain. intros ev. unfold wp, sys_clone. destruct ev as [|[] ev]; repeat constructor. Qed.
Lemma tr_send more buf c : tr (sys_send more buf) c.
Proof. apply tr_plain. intros ev. unfold wp, sys_send. destruct ev as [|[|[]| | | | |] ev]; repeat constructor. Qed.
Lemma tr_sclose c : tr sys_close c.
Proof. apply tr_plain. intros ev. unfold wp, sys_close. destruct ev as [|[] ev]; repeat constructor. Qed.
Lemma tr_close c : tr amqp_socket_close c.
Proof. unfold amqp_socket_close. apply tr_get_bind. destruct (_ =? _); [apply tr_ret|]. apply tr_bind; [apply tr_sclose|]. intros ok c1. destruct (negb ok); [apply tr_ret|]. apply tr_bind; [apply tr_upd; reflexivity|intros; apply tr_ret]. Qed.
Lemma tr_consume c : tr (consume_one_frame E) c.
Proof.
  apply tr_plain. intros ev. unfold wp, consume_one_frame. destruct (amqp_handle_input _ _ _) as [res f s| |]; try constructor.
  destruct (_ <? _); [repeat constructor|]. split; [destruct (_ =? _); repeat constructor|split; reflexivity].
Qed.
Lemma tr_next_send c : tr update_next_send c.
Proof.
  unfold update_next_send. apply tr_get_bind. apply tr_bind; [apply tr_silent_clock|]. intros [r t] c1. apply tr_bind; [|intros; apply tr_ret].
  apply tr_upd; destruct t; reflexivity.
Qed.
(** the deadline [d] has not been passed over: it is at most the limit, or in the past *)
Definition due (d : Z) (w : watch) : Prop := match w with Watching R L _ _ => d <= R \/ d <= L | _ => True end.
Lemma due_clock d t w c : fine w c -> due d w -> due d (run [OClock t] w).
Proof.
  intros [_ H] G. cbn [run fold_left]. destruct w as [R L jr g| |]; try exact I. destruct H as (-> & _). cbn [watch_step andb].
  destruct (Z.ltb_spec t L); cbn [orb]; [exact I|]. destruct (Z.leb_spec (2 ^ 63) t); [exact I|]. cbn [due] in *. lia.
Qed.
Lemma due_plain d l : forall w, Forall plain l -> due d w -> due d (run l w).
Proof.
  induction l as [|o l IH]; intros w Hl H; [exact H|]. inversion Hl; subst. cbn [run fold_left]. apply IH; [assumption|]. destruct w; [|destruct o; exact I|destruct o; exact I]. destruct o; try contradiction; exact H.
Qed.
Lemma ms_ok d t : 0 < t -> t < d -> d - t <= 2 * 1000000 * second -> d <> UINT64_MAX -> 0 <= amqp_time_ms_until t d /\ t + amqp_time_ms_until t d * millisecond <= d.
Proof.
  intros H1 H2 H3 H4. unfold amqp_time_ms_until. destruct (Z.eqb_spec UINT64_MAX d); [lia|]. destruct (Z.eqb_spec 0 d); [lia|]. destruct (Z.eqb_spec t 0); [lia|]. destruct (Z.leb_spec d t); [lia|].
  change second with 1000000000 in H3. unfold u64. rewrite (Z.mod_small (d - t)) by lia. change AMQP_NS_PER_MS with 1000000. change millisecond with 1000000.
  pose proof (Z.div_pos (d - t) 1000000 ltac:(lia) ltac:(lia)). pose proof (Z.mul_div_le (d - t) 1000000 ltac:(lia)).
  assert ((d - t) / 1000000 <= 2000000000) by (apply Z.div_le_upper_bound; lia).
  unfold signed. rewrite Z.mod_small by lia. change (M32 / 2) with M31. destruct (Z.ltb_spec ((d - t) / 1000000) M31); lia.
Qed.
(** why [amqp_poll] returned [r] *)
Definition poll_says (write : bool) (w : watch) (r : Z) (l : list obs) : Prop :=
  r = AMQP_STATUS_OK \/ r = AMQP_STATUS_SOCKET_ERROR \/ (r = AMQP_STATUS_TIMEOUT /\ exists l0 ms, l = l0 ++ [OPoll write ms PTimeout]) \/ r = AMQP_STATUS_TIMER_FAILURE \/ run l w = Excused.
Lemma poll_full write d c : forall fuel w ev, fine w c -> due d w ->
  wp (amqp_poll fuel write d) c ev (fun r c' _ l => (c' = c /\ fine (run l w) c /\ due d (run l w)) /\ poll_says write w r l) (fun _ _ l => run l w <> Late).
Proof.
  induction fuel as [|fuel IH]; intros w ev Hw Hd; cbn [amqp_poll]; [apply wp_halt; eapply fine_late; exact Hw|].
  apply wp_bind. 
  assert (wp (time_ms_until d) c ev (fun ms c1 _ l => c1 = c /\ fine (run l w) c /\ due d (run l w) /\
     match run l w with Watching R L jr _ => ms = 0 \/ ms = AMQP_STATUS_TIMER_FAILURE \/ (jr = true /\ 0 <= ms /\ L + ms * millisecond <= R) | _ => True end) (fun _ _ l => run l w <> Late)) as W.
  { unfold time_ms_until. destruct (_ || _) eqn:Hc.
    - apply wp_ret. split; [reflexivity|]. split; [exact Hw|]. split; [exact Hd|]. cbn [run fold_left]. destruct w as [R L jr g| |]; try exact I.
      destruct Hw as (_ & _ & HR & HR2 & HL). cbn [due] in Hd. change second with 1000000000 in HR2. apply orb_prop in Hc. destruct Hc as [Hc|Hc]; apply Z.eqb_eq in Hc; [unfold UINT64_MAX in Hc; lia|]. subst d. left. reflexivity.
    - apply orb_false_elim in Hc. destruct Hc as [Hc1 Hc2]. apply Z.eqb_neq in Hc1, Hc2. apply wp_bind. unfold wp, sys_clock. destruct ev as [|[] ev]; try (eapply fine_late; exact Hw). cbn [ret app].
      pose proof (fine_clock w c (u64 now) Hw) as F. pose proof (due_clock d (u64 now) w c Hw Hd) as D. split; [reflexivity|]. split; [exact F|]. split; [exact D|].
      destruct (run [OClock (u64 now)] w) as [R L jr g| |] eqn:Hr; try exact I. 
      destruct w as [R0 L0 jr0 g0| |]; try discriminate. cbn [run fold_left watch_step] in Hr. destruct (_ || _); [discriminate|]. injection Hr as _ HL Hjr _. subst L jr.
      destruct F as (_ & _ & _ & F2 & F3). cbn [due] in D. destruct (Z.eq_dec (u64 now) 0) as [Z0|Z0].
      + right; left. unfold amqp_time_ms_until. destruct (Z.eqb_spec UINT64_MAX d); [lia|]. destruct (Z.eqb_spec 0 d); [lia|]. rewrite Z0. reflexivity.
      + destruct (Z.le_gt_cases d (u64 now)) as [Hle|Hgt].
        * left. unfold amqp_time_ms_until. destruct (Z.eqb_spec UINT64_MAX d); [lia|]. destruct (Z.eqb_spec 0 d); [lia|]. destruct (Z.eqb_spec (u64 now) 0); [lia|]. destruct (Z.leb_spec d (u64 now)); [reflexivity|lia].
        * right; right. change second with 1000000000 in F2. pose proof (ms_ok d (u64 now) ltac:(lia) Hgt ltac:(change second with 1000000000; lia) ltac:(lia)). split; [reflexivity|]. lia. }
  eapply wp_conseq; [exact W| |auto]; cbv beta. clear W. intros ms c1 ev1 l1 (-> & F & D & M).
  destruct (Z.ltb_spec ms (-1)); [apply wp_ret; rewrite app_nil_r; split; [auto|]; unfold poll_says; destruct (run l1 w); [destruct M as [M|[M|M]]; [lia|auto|lia]|auto 6|destruct F as [_ []]]|].
  apply wp_bind. 
  assert (forall res, fine (run [OPoll write ms res] (run l1 w)) c /\ due d (run [OPoll write ms res] (run l1 w))) as P.
  { intros res. destruct (run l1 w) as [R L jr g| |] eqn:Hr; [|split; [exact F|exact I]|destruct F as [_ []]]. cbn [run fold_left watch_step].
    assert ((ms =? 0) || (jr && (0 <=? ms) && (L + ms * millisecond <=? R)) = true) as ->.
    { destruct M as [->|[M|(-> & M1 & M2)]]; [reflexivity|unfold AMQP_STATUS_TIMER_FAILURE in *; lia|]. apply Z.leb_le in M1, M2. rewrite M1, M2. apply orb_true_r. }
    split; [exact F|exact D]. }
  unfold wp at 1, sys_poll. pose proof (fine_late _ _ F) as NL. destruct ev1 as [|e ev2]; [rewrite app_nil_r; exact NL|].
  destruct e as [| | |[]| | |]; try (rewrite app_nil_r; exact NL).
  - apply wp_ret. rewrite app_nil_r. unfold run in *. rewrite wrun_app. destruct (P PReady). split; [auto|left; reflexivity].
  - destruct (_ <? _); [rewrite app_nil_r; exact NL|]. apply wp_ret. rewrite app_nil_r. unfold run in *. rewrite wrun_app. destruct (P PTimeout). split; [auto|]. right; right; left. split; [reflexivity|]. exists l1, ms. reflexivity.
  - destruct (P PIntr) as [P1 P2]. eapply wp_conseq; [apply (IH _ ev2 P1 P2)| |]; cbv beta; unfold run in *.
    + intros r c2 ev3 l3 ((-> & G1 & G2) & G3). rewrite app_assoc, !wrun_app. split; [auto|]. unfold poll_says, run in *. rewrite !wrun_app. destruct G3 as [G3|[G3|[(G3 & l0 & m0 & ->)|[G3|G3]]]]; auto 6.
      right; right; left. split; [exact G3|]. exists ((l1 ++ [OPoll write ms PIntr]) ++ l0), m0. rewrite !app_assoc. reflexivity.
    + intros s c2 l3 G. rewrite app_assoc, !wrun_app. exact G.
  - apply wp_ret. rewrite app_nil_r. unfold run in *. rewrite wrun_app. destruct (P PErr). split; [auto|]. right; left. reflexivity.
Qed.
Lemma tr_poll write d c : forall fuel w ev, fine w c -> due d w ->
  wp (amqp_poll fuel write d) c ev (fun _ c' _ l => c' = c /\ fine (run l w) c /\ due d (run l w)) (fun _ _ l => run l w <> Late).
Proof. intros fuel w ev F D. eapply wp_conseq; [apply poll_full; eassumption| |auto]; cbv beta. intros r c' ev' l [H _]. exact H. Qed.

Definition trd {A} (d : Z) (m : M A) (c : conn) : Prop := forall w ev, fine w c -> due d w ->
  wp m c ev (fun _ c' _ l => fine (run l w) c') (fun _ _ l => run l w <> Late).
Lemma wp_fine_plain {A} (m : M A) c ev w d : fine w c -> due d w ->
  wp m c ev (fun _ c' _ l => Forall plain l /\ c' = c) (fun _ _ l => Forall plain l) ->
  wp m c ev (fun _ c' _ l => c' = c /\ fine (run l w) c /\ due d (run l w)) (fun _ _ l => run l w <> Late).
Proof.
  intros F D H. eapply wp_conseq; [exact H| |]; cbv beta.
  - intros a c' ev' l [H1 ->]. split; [reflexivity|]. split; [apply fine_plain; assumption|apply due_plain; assumption].
  - intros s c' l H1. eapply fine_late. apply fine_plain; eassumption.
Qed.
Lemma plain_send more : forall fuel buf c ev, wp (tcp_send_loop fuel more buf) c ev (fun _ c' _ l => Forall plain l /\ c' = c) (fun _ _ l => Forall plain l).
Proof.
  induction fuel as [|fuel IH]; intros buf c ev; cbn [tcp_send_loop]; [apply wp_halt; constructor|]. apply wp_bind. unfold wp at 1, sys_send. destruct ev as [|[|[]| | | | |] ev]; first [exact (Forall_nil _)|apply wp_ret; split; [repeat constructor|reflexivity]|idtac].
  eapply wp_conseq; [apply IH| |]; cbv beta; intros; assumption.
Qed.
Lemma plain_socket_send more buf c ev : wp (amqp_socket_send N more buf) c ev (fun _ c' _ l => Forall plain l /\ c' = c) (fun _ _ l => Forall plain l).
Proof. unfold amqp_socket_send. wstep. destruct (_ =? _); [apply wp_ret; split; [constructor|reflexivity]|apply plain_send]. Qed.
Lemma do_poll_fine r d c w ev : fine w c -> due d w ->
  wp (do_poll N r d) c ev (fun _ c' _ l => c' = c /\ fine (run l w) c /\ due d (run l w)) (fun _ _ l => run l w <> Late).
Proof.
  intros F D. unfold do_poll. wstep. destruct (_ =? -1); [apply wp_ret; auto|]. destruct (_ =? NEEDREAD); [apply tr_poll; assumption|]. destruct (_ =? NEEDWRITE); [apply tr_poll; assumption|apply wp_ret; auto].
Qed.
Lemma trd_try_send more d c : forall fuel len left, trd d (try_send_loop N fuel len left d more) c.
Proof.
  induction fuel as [|fuel IH]; intros len left w ev F D; cbn [try_send_loop]; [apply wp_halt; eapply fine_late; exact F|].
  apply wp_bind. eapply wp_conseq; [apply (wp_fine_plain _ c ev w d F D (plain_socket_send more left c ev))| |auto]; cbv beta. intros r c1 ev1 l1 (-> & F1 & D1).
  assert (forall left', wp (try_send_loop N fuel len left' d more) c ev1 (fun _ c2 _ l2 => fine (run (l1 ++ l2) w) c2) (fun _ _ l2 => run (l1 ++ l2) w <> Late)) as W.
  { intros left'. eapply wp_conseq; [apply (IH len left' _ ev1 F1 D1)| |]; cbv beta; intros; unfold run in *; rewrite wrun_app; assumption. }
  destruct (_ <? _). { cbv zeta. destruct (_ =? _); [apply wp_ret; rewrite app_nil_r; exact F1|apply W]. }
  apply wp_bind. eapply wp_conseq; [apply (do_poll_fine r d c _ ev1 F1 D1)| |]; cbv beta; [|intros; unfold run in *; rewrite wrun_app; assumption].
  intros r2 c2 ev2 l2 (-> & F2 & D2). destruct (_ =? _).
  - eapply wp_conseq; [apply (IH len left _ ev2 F2 D2)| |]; cbv beta; intros; unfold run in *; rewrite app_assoc, !wrun_app; assumption.
  - destruct (_ =? _); apply wp_ret; rewrite app_nil_r; unfold run in *; rewrite wrun_app; exact F2.
Qed.
Lemma fine_next_recv w c ev R L jr : c_hb c = hb -> w = Watching R L jr true -> R = c_next_recv c -> R <= L + 2 * hb * second -> 0 <= L < 2 ^ 63 ->
  wp update_next_recv c ev (fun _ c' _ l => fine (run l w) c') (fun _ _ l => run l w <> Late).
Proof.
  intros H1 -> H2 H3 H4. unfold update_next_recv. wstep. unfold amqp_heartbeat_recv. rewrite H1.
  assert (signed M32 (2 * hb) = 2 * hb) as ->. { unfold signed. rewrite Z.mod_small by lia. change (M32 / 2) with M31. destruct (Z.ltb_spec (2 * hb) M31); lia. }
  unfold time_s_from_now. destruct (Z.leb_spec (2 * hb) 0); [lia|]. wstep. apply wp_bind. unfold wp at 1, sys_clock. destruct ev as [|[] ev]; try discriminate.
  apply wp_ret. cbn [app]. pose proof (Z.mod_pos_bound now M64 ltac:(lia)) as Hn. fold (u64 now) in Hn. set (t := u64 now) in *.
  destruct (amqp_time_s_from_now t (2 * hb)) as [r t2] eqn:Ht. unfold amqp_time_s_from_now in Ht. destruct (Z.leb_spec (2 * hb) 0); [lia|].
  wstep. apply wp_ret. cbn [app run fold_left watch_step andb].
  destruct (Z.ltb_spec t L); cbn [orb]; [split; [destruct t2; exact H1|exact I]|]. destruct (Z.leb_spec (2 ^ 63) t); [split; [destruct t2; exact H1|exact I]|].
  destruct (Z.eqb_spec t 0).
  - injection Ht as <- <-. destruct (Z.ltb_spec 0 t); [lia|]. split; [exact H1|]. repeat split; try assumption; lia.
  - destruct (Z.ltb_spec 0 t); [|lia]. cbv zeta in Ht. change AMQP_NS_PER_S with second in *. change second with 1000000000 in *. unfold u64 in Ht. rewrite !(Z.mod_small (2 * hb)) in Ht by lia. rewrite !(Z.mod_small (2 * hb * 1000000000)) in Ht by lia. rewrite !(Z.mod_small (t + 2 * hb * 1000000000)) in Ht by lia.
    destruct (_ || _); injection Ht as <- <-; (split; [exact H1|]; repeat split; cbn [c_next_recv set_next_recv]; change second with 1000000000; lia).
Qed.
Lemma recv_fine c : forall fuel len w ev d, fine w c -> due d w ->
  wp (tcp_recv_loop fuel len) c ev (fun r c' _ l => c' = c /\ ((fine (run l w) c /\ due d (run l w) /\ (snd r = [] /\ fst r < 0)) \/ (exists bs, bs <> [] /\ r = (zlen bs, bs) /\ l = [ORecv bs])))
    (fun _ _ l => run l w <> Late).
Proof.
  induction fuel as [|fuel IH]; intros len w ev d F D; cbn [tcp_recv_loop]; [apply wp_halt; eapply fine_late; exact F|]. apply wp_bind. unfold wp at 1, sys_recv.
  pose proof (fine_late _ _ F) as NL. destruct ev as [|[| |[bs| | | | |]| | | |] ev]; try exact NL.
  - destruct (firstn (Z.to_nat len) bs) as [|x bs'] eqn:Hb; apply wp_ret; (split; [reflexivity|]); cbn [app].
    + left. split; [destruct w; [exact F|exact F|destruct F as [_ []]]|]. split; [destruct w; exact D|split; reflexivity].
    + right. exists (x :: bs'). repeat split. discriminate.
  - eapply wp_conseq; [apply (IH len w ev d F D)| |]; cbv beta; intros; assumption.
  - apply wp_ret. split; [reflexivity|]. left. repeat split; try apply F; exact D.
  - apply wp_ret. split; [reflexivity|]. left. repeat split; try apply F; exact D.
  - apply wp_ret. split; [reflexivity|]. left. repeat split; try apply F; exact D.
  - apply wp_ret. split; [reflexivity|]. left. repeat split; try apply F; exact D.
Qed.
Lemma trd_recv d c : forall fuel, trd d (recv_with_timeout N fuel d) c.
Proof.
  induction fuel as [|fuel IH]; intros w ev F D; cbn [recv_with_timeout]; [apply wp_halt; eapply fine_late; exact F|].
  apply wp_bind. unfold amqp_socket_recv. wstep.
  assert (forall r ev1 l1, fine (run l1 w) c -> due d (run l1 w) -> fst r < 0 ->
    wp ((fun x : Z * bytes => let '(res, bs) := x in if res <? 0 then (c <- get;; if c_fd c =? -1 then ret AMQP_STATUS_CONNECTION_CLOSED else if (res =? NEEDREAD) || (res =? NEEDWRITE) then (res <- amqp_poll N (res =? NEEDWRITE) d;; (if res =? AMQP_STATUS_OK then recv_with_timeout N fuel d else ret res)) else ret res) else (store_received bs;; update_next_recv)) r) c ev1
      (fun _ c2 _ l2 => fine (run (l1 ++ l2) w) c2) (fun _ _ l2 => run (l1 ++ l2) w <> Late)) as W.
  { intros [r bs] ev1 l1 F1 D1 Hr. cbn [fst] in Hr. destruct (Z.ltb_spec r 0); [|lia]. wstep. destruct (_ =? -1); [apply wp_ret; rewrite app_nil_r; exact F1|].
    destruct (_ || _); [|apply wp_ret; rewrite app_nil_r; exact F1]. apply wp_bind. eapply wp_conseq; [apply (tr_poll _ d c N _ ev1 F1 D1)| |]; cbv beta; [|intros; unfold run in *; rewrite wrun_app; assumption].
    intros r2 c2 ev2 l2 (-> & F2 & D2). destruct (_ =? _).
    - eapply wp_conseq; [apply (IH _ ev2 F2 D2)| |]; cbv beta; intros; unfold run in *; rewrite app_assoc, !wrun_app; assumption.
    - apply wp_ret. rewrite app_nil_r. unfold run in *; rewrite wrun_app. exact F2. }
  destruct (_ =? -1). { wstep. apply (W (AMQP_STATUS_SOCKET_CLOSED, []) ev []); [exact F|exact D|reflexivity]. }
  eapply wp_conseq; [apply (recv_fine c N _ w ev d F D)| |auto]; cbv beta. intros r c1 ev1 l1 [-> [(F1 & D1 & _ & Hr)|(bs & Hne & -> & ->)]]; [apply W; assumption|].
  destruct (Z.ltb_spec (zlen bs) 0); [pose proof (zlen_nonneg bs); lia|].
  destruct F as [F0 F]. destruct w as [R L jr g| |]; [|unfold store_received|contradiction].
  - destruct F as (-> & F1 & F2 & F3). apply wp_bind. unfold store_received. wstep. apply wp_bind.
    assert (forall jr', wp update_next_recv (set_sbuf c bs) ev1 (fun _ c2 _ l2 => fine (run l2 (Watching R L jr' true)) c2) (fun _ _ l2 => run l2 (Watching R L jr' true) <> Late)) as U.
    { intros jr'. eapply fine_next_recv; [exact F0|reflexivity|exact F1|exact F2|exact F3]. }
    assert (watch_step hb (Watching R L jr false) (ORecv bs) = Watching R L false true) as Hs by (destruct bs; [contradiction|reflexivity]).
    destruct (c_sbuf c); [apply wp_ret|apply wp_note]; apply wp_upd; (eapply wp_conseq; [apply (U false)| |]; cbv beta; intros; unfold run in *; cbn [app fold_left]; rewrite Hs; assumption).
  - assert (forall l c2, fine (run l Excused) c2 <-> c_hb c2 = hb) as X.
    { intros l. assert (run l Excused = Excused) as ->. { unfold run. induction l as [|o l IHl]; [reflexivity|]. cbn [fold_left watch_step]. destruct o; exact IHl. } intros c2. split; [intros [H0 _]; exact H0|intros H0; split; [exact H0|exact I]]. }
    assert (forall l, run l Excused <> Late) as Y.
    { intros l. unfold run. induction l as [|o l IHl]; [discriminate|]. cbn [fold_left watch_step]. destruct o; exact IHl. }
    apply wp_bind. wstep. apply wp_bind.
    assert (forall o, wp update_next_recv (set_sbuf c bs) ev1 (fun _ c2 _ l2 => fine (run (o ++ l2) Excused) c2) (fun _ _ l2 => run (o ++ l2) Excused <> Late)) as U.
    { intros o. eapply wp_conseq; [apply update_next_recv_ok| |intros; apply Y]; cbv beta. intros r c2 ev2 l2 (_ & _ & _ & K & _). apply X. destruct K as [->|[t ->]]; exact F0. }
    destruct (c_sbuf c); [apply wp_ret|apply wp_note]; apply wp_upd; (eapply wp_conseq; [apply (U [])| |]; cbv beta; intros; try apply Y; apply X; apply X in H0; exact H0).
Qed.

Ltac tr1 :=
  match goal with
  | |- tr (bind get _) _ => apply tr_get_bind
  | |- tr (bind _ _) _ => apply tr_bind; [|intros]
  | |- tr (ret _) _ => apply tr_ret
  | |- tr (halt _) _ => apply tr_halt
  | |- tr (upd _) _ => apply tr_upd; solve [repeat (match goal with |- context [match ?t with _ => _ end] => destruct t end); reflexivity]
  | |- tr (if ?b then _ else _) _ => destruct b
  | |- tr (match ?x with _ => _ end) _ => destruct x
  | |- tr (let _ := _ in _) _ => cbv zeta
  | |- tr (need ?o) _ => unfold need
  | |- tr (consume_one_frame _) _ => apply tr_consume
  | |- _ => solve [auto with tr]
  end.
Ltac tr := repeat tr1.
Hint Resolve tr_from_now tr_tv tr_past tr_alloc tr_clone tr_close tr_next_send : tr.
Lemma tr_create_link f c : tr (create_link f) c.
Proof. unfold create_link. tr. Qed.
Lemma tr_append e c : tr (append_entry e) c.
Proof. unfold append_entry. tr. Qed.
Hint Resolve tr_create_link tr_append : tr.
Lemma tr_drain fuel : forall c, tr (try_recv_drain E fuel) c.
Proof. induction fuel as [|fuel IH]; intros; cbn [try_recv_drain]; tr; apply IH. Qed.
Lemma tr_drain' c : tr (try_recv_drain E N) c.
Proof. apply tr_drain. Qed.
Hint Resolve tr_drain' : tr.
Lemma fine_due w c d : fine w c -> d <= c_next_recv c -> due d w.
Proof. intros [_ H] Hd. destruct w; try exact I. destruct H as (_ & -> & _). left. exact Hd. Qed.
Lemma first_le a b : amqp_time_first a b <= b.
Proof. unfold amqp_time_first. destruct (Z.ltb_spec a b); lia. Qed.
Lemma first_le_l a b : amqp_time_first a b <= a.
Proof. unfold amqp_time_first. destruct (Z.ltb_spec a b); lia. Qed.
Lemma trd_tr {A} d (m : M A) c : trd d m c -> d <= c_next_recv c -> tr m c.
Proof. intros H Hd w ev F. apply H; [exact F|]. eapply fine_due; eassumption. Qed.
Lemma tr_try_recv c : tr (amqp_try_recv N E) c.
Proof.
  unfold amqp_try_recv. apply tr_bind; [apply tr_drain|]. intros r c1. destruct (negb _); [apply tr_ret|].
  intros w ev F. apply wp_bind. unfold time_from_now. change ((tv_sec (mkTv 0 0) <? 0) || (tv_usec (mkTv 0 0) <? 0)) with false. cbv iota.
  apply wp_bind. unfold wp at 1, sys_clock. destruct ev as [|[] ev]; try (eapply fine_late; exact F). apply wp_ret. cbn [app].
  pose proof (fine_clock w c1 (u64 now) F) as F1. pose proof (Z.mod_pos_bound now M64 ltac:(lia)) as Hn. fold (u64 now) in Hn. set (t := u64 now) in *.
  unfold amqp_time_from_now. change ((tv_sec (mkTv 0 0) <? 0) || (tv_usec (mkTv 0 0) <? 0)) with false. cbv iota zeta.
  change (u64 (u64 (u64 (tv_sec (mkTv 0 0)) * AMQP_NS_PER_S) + u64 (u64 (tv_usec (mkTv 0 0)) * AMQP_NS_PER_US))) with 0. rewrite Z.add_0_r.
  destruct (Z.eqb_spec t 0) as [Z0|Z0]; [apply wp_ret; exact F1|]. assert (u64 t = t) as -> by (unfold u64; apply Z.mod_small; lia).
  destruct (_ || _); [apply wp_ret; exact F1|]. change (AMQP_STATUS_OK =? AMQP_STATUS_OK) with true. cbv iota.
  assert (due t (run [OClock t] w)) as D.
  { destruct w as [R L jr g| |]; try exact I. cbn [run fold_left watch_step]. destruct (_ || _); [exact I|]. cbn [due]. lia. }
  eapply wp_conseq; [apply (trd_recv t c1 N _ ev F1 D)| |]; cbv beta; intros; exact H.
Qed.
Hint Resolve tr_try_recv : tr.
Lemma tr_send_loop fuel : forall enc more d c, tr (send_frame_loop N E fuel enc more d) c.
Proof.
  induction fuel as [|fuel IH]; intros; cbn [send_frame_loop]; [tr|]. apply tr_get_bind. cbv zeta.
  apply tr_bind; [eapply trd_tr; [apply trd_try_send|apply first_le]|]. intros. tr; apply IH.
Qed.
Lemma tr_send_frame f more d c : tr (amqp_send_frame_inner N E f more d) c.
Proof.
  unfold amqp_send_frame_inner. apply tr_get_bind. destruct (amqp_frame_to_bytes _ _) as [r b e|] eqn:Hf; [|tr].
  apply tr_bind; [apply tr_upd; reflexivity|intros]. destruct (negb _); [tr|apply tr_send_loop].
Qed.
Hint Resolve tr_send_frame : tr.
Lemma tr_send_frame' f c : tr (amqp_send_frame N E f) c.
Proof. apply tr_send_frame. Qed.
Hint Resolve tr_send_frame' : tr.

Lemma tr_release_on ch c : tr (amqp_maybe_release_buffers_on_channel ch) c.
Proof.
  unfold amqp_maybe_release_buffers_on_channel. apply tr_get_bind.
  tr.
Qed.
Lemma tr_release c : tr amqp_release_buffers c.
Proof.
  unfold amqp_release_buffers. apply tr_get_bind.
  tr.
Qed.
Hint Resolve tr_release_on tr_release : tr.
Lemma tr_maybe_release c : tr amqp_maybe_release_buffers c.
Proof. unfold amqp_maybe_release_buffers. tr. Qed.
Hint Resolve tr_maybe_release : tr.

Lemma tr_wait_loop fuel : forall skip d c, tr (wait_frame_loop N E fuel skip d) c.
Proof.
  induction fuel as [|fuel IH]; intros; cbn [wait_frame_loop]; [tr|]. apply tr_get_bind. destruct (_ && _); [tr; apply IH|].
  apply tr_bind; [auto with tr|]. intros r1 c1. destruct (_ =? _); [tr|]. apply tr_bind; [tr|]. intros r2 c2. destruct (negb _); [tr|]. apply tr_get_bind. cbv zeta.
  apply tr_bind; [eapply trd_tr; [apply trd_recv|]|].
  - etransitivity; [apply first_le|]. apply first_le_l.
  - intros r3 c3. tr; apply IH.
Qed.
Lemma tr_wait d c : tr (wait_frame_inner N E d) c.
Proof. apply tr_wait_loop. Qed.
Hint Resolve tr_wait : tr.
Lemma tr_queue_frame f c : tr (amqp_queue_frame f) c.
Proof. unfold amqp_queue_frame. tr. Qed.
Lemma tr_put_back f c : tr (amqp_put_back_frame f) c.
Proof. unfold amqp_put_back_frame. tr. Qed.
Hint Resolve tr_queue_frame tr_put_back : tr.
Lemma tr_on_channel_loop fuel : forall ch c, tr (wait_on_channel_loop N E fuel ch) c.
Proof. induction fuel as [|fuel IH]; intros; cbn [wait_on_channel_loop]; tr; apply IH. Qed.
Lemma tr_on_channel_loop' ch c : tr (wait_on_channel_loop N E N ch) c.
Proof. apply tr_on_channel_loop. Qed.
Hint Resolve tr_on_channel_loop' : tr.
Lemma tr_on_channel ch c : tr (amqp_simple_wait_frame_on_channel N E ch) c.
Proof. unfold amqp_simple_wait_frame_on_channel. tr. Qed.
Lemma tr_noblock t c : tr (amqp_simple_wait_frame_noblock N E t) c.
Proof. unfold amqp_simple_wait_frame_noblock. tr. Qed.
Hint Resolve tr_on_channel tr_noblock : tr.
Lemma tr_method_list ch ids d c : tr (amqp_simple_wait_method_list N E ch ids d) c.
Proof. unfold amqp_simple_wait_method_list. tr. Qed.
Hint Resolve tr_method_list : tr.
Lemma tr_rpc_wait fuel : forall ch ids d c, tr (rpc_wait N E fuel ch ids d) c.
Proof. induction fuel as [|fuel IH]; intros; cbn [rpc_wait]; tr; apply IH. Qed.
Lemma tr_rpc_wait' ch ids d c : tr (rpc_wait N E N ch ids d) c.
Proof. apply tr_rpc_wait. Qed.
Hint Resolve tr_rpc_wait' : tr.
Lemma tr_send_method ch id m c : tr (amqp_send_method N E ch id m) c.
Proof. apply tr_send_frame. Qed.
Lemma tr_send_method_inner ch id m mo d c : tr (amqp_send_method_inner N E ch id m mo d) c.
Proof. apply tr_send_frame. Qed.
Hint Resolve tr_send_method tr_send_method_inner : tr.
Lemma tr_rpc_inner ch id ids m d c : tr (simple_rpc_inner N E ch id ids m d) c.
Proof. unfold simple_rpc_inner. tr. Qed.
Hint Resolve tr_rpc_inner : tr.
Lemma tr_rpc ch id ids m c : tr (amqp_simple_rpc N E ch id ids m) c.
Proof. unfold amqp_simple_rpc. tr. Qed.
Hint Resolve tr_rpc : tr.
Lemma tr_rpc_decoded ch id r m c : tr (amqp_simple_rpc_decoded N E ch id r m) c.
Proof. unfold amqp_simple_rpc_decoded. tr. Qed.
Hint Resolve tr_rpc_decoded : tr.
Lemma tr_call w ch args c : tr (amqp_call N E w ch args) c.
Proof. unfold amqp_call. destruct (build_request _ _ _); tr. Qed.
Lemma tr_channel_close ch code c : tr (amqp_channel_close N E ch code) c.
Proof. unfold amqp_channel_close. tr. Qed.
Lemma tr_connection_close code c : tr (amqp_connection_close N E code) c.
Proof. unfold amqp_connection_close. tr. Qed.
Lemma tr_get ch q na c : tr (amqp_basic_get N E ch q na) c.
Proof. unfold amqp_basic_get. tr. Qed.
Hint Resolve tr_call tr_channel_close tr_connection_close tr_get : tr.
Lemma tr_publish_body fuel : forall ch b u o c, tr (publish_body N E fuel ch b u o) c.
Proof. induction fuel as [|fuel IH]; intros; cbn [publish_body]; tr; apply IH. Qed.
Lemma tr_publish_body' ch b u o c : tr (publish_body N E N ch b u o) c.
Proof. apply tr_publish_body. Qed.
Hint Resolve tr_publish_body' : tr.
Lemma tr_publish ch x k ma im p b c : tr (amqp_basic_publish N E ch x k ma im p b) c.
Proof. unfold amqp_basic_publish. tr. Qed.
Lemma tr_read_body fuel : forall ch b o c, tr (read_body N E fuel ch b o) c.
Proof. induction fuel as [|fuel IH]; intros; cbn [read_body]; tr; apply IH. Qed.
Lemma tr_read_body' ch b o c : tr (read_body N E N ch b o) c.
Proof. apply tr_read_body. Qed.
Hint Resolve tr_publish tr_read_body' : tr.
Lemma tr_malloc n c : tr (sys_malloc n) c.
Proof. unfold sys_malloc. tr. Qed.
Hint Resolve tr_malloc : tr.
Lemma tr_read ch c : tr (amqp_read_message N E ch) c.
Proof. unfold amqp_read_message. tr. Qed.
Hint Resolve tr_read : tr.
Lemma tr_consume_message t c : tr (amqp_consume_message N E t) c.
Proof. unfold amqp_consume_message. tr. Qed.
Lemma tr_confirm t c : tr (amqp_publisher_confirm_wait N E t) c.
Proof. unfold amqp_publisher_confirm_wait. tr. Qed.
Hint Resolve tr_consume_message tr_confirm : tr.

Lemma tr_exec a c : unhurried a -> tr (exec N E a) c.
Proof.
  intros HP. destruct a; cbn [exec unhurried] in *; try contradiction; unfold amqp_basic_ack, amqp_basic_nack, amqp_basic_reject,
    amqp_simple_wait_method, simple_wait_method_inner; tr.
Qed.
Lemma tr_exec_all l : forall c, Forall unhurried l -> tr (exec_all N E l) c.
Proof.
  induction l as [|a l IH]; intros c HP; cbn [exec_all]; [tr|]. inversion HP; subst.
  apply tr_bind; [apply tr_exec; assumption|intros]. apply tr_bind; [apply IH; assumption|intros]. tr.
Qed.
End Watch.
