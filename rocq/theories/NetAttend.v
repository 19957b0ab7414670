(** C44: a call that waits for a frame neglects no duty ([attend], HeartbeatSpec.v). *)
From Coq Require Import String ZArith List Bool Lia.
From Verif Require Import Base BaseFacts Codec TableModel TableSpec TableDec TableOps FramingStmt FramingGen FramingModel MethodSpec
  Frame FrameSpec Time Sasl Net NetApi NetSpec NetFacts NetSend NetRecv NetWalk NetAcct NetOrder NetWait HeartbeatSpec NetWatch.
Import ListNotations.
Local Open Scope Z_scope.

Section Attend.
Context (N : nat) (E : nat -> aenv) (hb : Z) (Hhb : 0 < hb <= 1000000).
Definition arun := fold_left (attend_step hb).
Lemma arun_app a b w : arun (a ++ b) w = arun b (arun a w).
Proof. apply fold_left_app. Qed.
Lemma arun_nil w : arun [] w = w.
Proof. reflexivity. Qed.

(** [s]: the bytes of the heartbeat sent so far; [t]: something was tried; [b]: the
    heartbeat is not due before the end *)
Definition duty_ok (s : Z) (t b : bool) (d : duty) (c : conn) : Prop :=
  heard d = false /\ sent d = s /\ hear d = c_next_recv c /\ say d = c_next_send c /\
  hear d <= now d + 2 * hb * second /\ say d <= now d + hb * second /\ 0 <= now d < 2 ^ 63 /\
  (late d = true -> hear d <= now d) /\ (t = true -> tried d = true) /\ (b = true -> late d = true -> hear d <= say d).
Definition st (s : Z) (t b : bool) (a : attend) (c : conn) : Prop :=
  c_hb c = hb /\ match a with Attending d => duty_ok s t b d c | Free => True | _ => False end.
Lemma st_ok s t b a c : st s t b a c -> a <> Careless.
Proof. intros [_ H] ->. exact H. Qed.
Lemma st_weak s t b t' b' a c : st s t b a c -> (t' = true -> t = true) -> (b' = true -> b = true) -> st s t' b' a c.
Proof. intros [H1 H2] Ht Hb. split; [exact H1|]. destruct a; try exact H2. destruct H2 as (?&?&?&?&?&?&?&?&T&B). repeat split; auto; lia. Qed.

(** observations without a meaning *)
Definition aplain (o : obs) : Prop := match o with OClock _ | OPoll _ _ _ | ORecv (_ :: _) | OSend _ _ => False | _ => True end.
Lemma st_plain s t b l : forall a c, Forall aplain l -> st s t b a c -> st s t b (arun l a) c.
Proof.
  induction l as [|o l IH]; intros a c Hl H; [exact H|]. inversion Hl as [|? ? H1 H2]; subst. cbn [arun fold_left]. apply IH; [exact H2|].
  destruct a; [|destruct H as [_ []]|exact H|destruct H as [_ []]]. destruct H as [G1 G2]. destruct o; try contradiction; try (split; [exact G1|exact G2]).
  destruct bs; [|contradiction]. split; [exact G1|exact G2].
Qed.
Lemma st_clock s t b a c k : s <> 8 -> st s t b a c -> st s t b (arun [OClock k] a) c.
Proof.
  intros Hs [H1 H2]. split; [exact H1|]. cbn [arun fold_left]. destruct a as [d| | |]; try exact H2. destruct H2 as (D1&D2&D3&D4&D5&D6&D7&D8&D9&D10). cbn [attend_step].
  destruct (Z.ltb_spec k (now d)); cbn [orb]; [exact I|]. destruct (Z.leb_spec (2 ^ 63) k); [exact I|]. rewrite D1, D2. cbn [andb negb]. destruct (Z.eqb_spec s 8); [lia|]. cbn [andb].
  unfold duty_ok. cbn [heard sent hear say now tried late]. rewrite D3, D4 in *. rewrite ?andb_true_r. repeat split; try assumption; try lia; intros T; first [specialize (D8 T); lia|rewrite (D9 T); reflexivity].
Qed.

(** a computation that starts in [st] and does not end in [Careless] *)
Definition careful {A} (m : M A) c a ev (Q : A -> conn -> attend -> Prop) : Prop :=
  wp m c ev (fun x c' _ l => Q x c' (arun l a)) (fun _ _ l => arun l a <> Careless).
Lemma careful_bind {A B} (m : M A) (k : A -> M B) c a ev Q (Q' : B -> conn -> attend -> Prop) :
  careful m c a ev Q -> (forall x c' a' ev', Q x c' a' -> careful (k x) c' a' ev' Q') -> careful (bind m k) c a ev Q'.
Proof.
  intros H1 H2. apply wp_bind. eapply wp_conseq; [exact H1| |auto]; cbv beta. intros x c1 ev1 l1 H. eapply wp_conseq; [apply (H2 x c1 _ ev1 H)| |]; cbv beta; intros; rewrite arun_app; assumption.
Qed.
Lemma careful_conseq {A} (m : M A) c a ev (Q Q' : A -> conn -> attend -> Prop) : careful m c a ev Q -> (forall x c' a', Q x c' a' -> Q' x c' a') -> careful m c a ev Q'.
Proof. intros H1 H2. eapply wp_conseq; [exact H1| |auto]; cbv beta. intros. apply H2. assumption. Qed.
Lemma careful_ret {A} (x : A) c a ev (Q : A -> conn -> attend -> Prop) : Q x c a -> careful (ret x) c a ev Q.
Proof. intros H. apply wp_ret. exact H. Qed.
Lemma careful_get {B} (k : conn -> M B) c a ev (Q : B -> conn -> attend -> Prop) : careful (k c) c a ev Q -> careful (bind get k) c a ev Q.
Proof. intros H. apply wp_get_bind. exact H. Qed.
Lemma careful_upd {B} f (k : unit -> M B) c a ev (Q : B -> conn -> attend -> Prop) : careful (k tt) (f c) a ev Q -> careful (bind (upd f) k) c a ev Q.
Proof. intros H. apply wp_upd_bind. exact H. Qed.
Lemma careful_halt {A} s c a ev (Q : A -> conn -> attend -> Prop) : a <> Careless -> careful (halt s) c a ev Q.
Proof. intros H. apply wp_halt. exact H. Qed.
(** computations with no relevant observations *)
Lemma careful_plain {A} (m : M A) c a ev s t b : st s t b a c ->
  wp m c ev (fun _ c' _ l => Forall aplain l /\ c_hb c' = c_hb c /\ c_next_recv c' = c_next_recv c /\ c_next_send c' = c_next_send c) (fun _ _ l => Forall aplain l) ->
  careful m c a ev (fun _ c' a' => st s t b a' c').
Proof.
  intros H W. eapply wp_conseq; [exact W| |]; cbv beta.
  - intros x c' ev' l (H1 & H2 & H3 & H4). pose proof (st_plain s t b l a c H1 H) as [G1 G2]. split; [congruence|]. destruct (arun l a); auto. unfold duty_ok in *. rewrite H3, H4. exact G2.
  - intros x c' l H1. eapply st_ok. apply st_plain; eassumption.
Qed.
(** the deadline [d] is at most [L], or in the past *)
Definition dueA (d L : Z) (a : attend) : Prop := match a with Attending D => d <= L \/ d <= now D | _ => True end.
Definition blockedA (a : attend) : Prop := match a with Attending D => blocked D = true | _ => True end.
Lemma careful_clock c a ev s t b : s <> 8 -> st s t b a c ->
  careful sys_clock c a ev (fun k c' a' => c' = c /\ st s t b a' c /\ 0 <= k < M64 /\ (forall d L, dueA d L a -> dueA d L a') /\ (blockedA a -> blockedA a') /\
    match a' with Attending d => now d = k /\ just_read d = true /\ (k <= say d -> tried d = true) | _ => True end).
Proof.
  intros Hs H. unfold careful, wp, sys_clock. destruct ev as [|[] ev]; try (eapply st_ok; exact H). pose proof (Z.mod_pos_bound now M64 ltac:(lia)) as Hn. fold (u64 now) in Hn.
  pose proof (st_clock s t b a c (u64 now) Hs H) as G. split; [reflexivity|]. split; [exact G|]. split; [exact Hn|]. cbn [arun fold_left] in *. destruct a as [d| | |]; [|destruct H as [_ []]|split; [intros; exact I|split; [intros; exact I|exact I]]|destruct H as [_ []]].
  cbn [attend_step] in *. destruct (Z.ltb_spec (u64 now) (HeartbeatSpec.now d)); cbn [orb] in *; [split; [intros; exact I|split; [intros; exact I|exact I]]|]. destruct (Z.leb_spec (2 ^ 63) (u64 now)); [split; [intros; exact I|split; [intros; exact I|exact I]]|].
  split. { intros d0 L0. cbn [dueA HeartbeatSpec.now]. lia. }
  split. { cbn [blockedA blocked]. auto. }
  cbn [HeartbeatSpec.now just_read say tried]. split; [reflexivity|]. split; [reflexivity|]. intros K. apply Z.leb_le in K. rewrite K. apply orb_true_r.
Qed.
Lemma ms_until_ok d L c a ev s t b : s <> 8 -> st s t b a c -> dueA d L a -> L <= c_next_recv c ->
  careful (time_ms_until d) c a ev (fun ms c' a' => c' = c /\ st s t b a' c /\ dueA d L a' /\ (blockedA a -> blockedA a') /\
    match a' with Attending D => ms = 0 \/ ms = AMQP_STATUS_TIMER_FAILURE \/ (just_read D = true /\ 0 <= ms /\ now D + ms * millisecond <= L) | _ => True end).
Proof.
  intros Hs H D HL. unfold time_ms_until. destruct (_ || _) eqn:Hc.
  - apply careful_ret. split; [reflexivity|]. split; [exact H|]. split; [exact D|]. split; [auto|]. destruct a as [x| | |]; try exact I. destruct H as (_ & _ & _ & H3 & _ & H4 & _ & H5 & _). cbn [dueA] in D.
    change second with 1000000000 in H4. apply orb_prop in Hc. destruct Hc as [Hc|Hc]; apply Z.eqb_eq in Hc; [unfold UINT64_MAX in Hc; lia|]. subst d. left. reflexivity.
  - apply orb_false_elim in Hc. destruct Hc as [Hc1 Hc2]. apply Z.eqb_neq in Hc1, Hc2. eapply careful_bind; [apply (careful_clock c a ev s t b Hs H)|].
    cbv beta. intros k c1 a1 ev1 (-> & F & Hk & HD & HB & Hn). specialize (HD d L D). apply careful_ret. split; [reflexivity|]. split; [exact F|]. split; [exact HD|]. split; [exact HB|].
    destruct a1 as [x| | |]; try exact I. destruct Hn as (Hn & Hj & _). destruct F as (_ & _ & _ & F3 & _ & F4 & _ & F5 & _). cbn [dueA] in HD. rewrite Hn in *.
    destruct (Z.eq_dec k 0) as [Z0|Z0].
    + right; left. unfold amqp_time_ms_until. destruct (Z.eqb_spec UINT64_MAX d); [lia|]. destruct (Z.eqb_spec 0 d); [lia|]. rewrite Z0. reflexivity.
    + destruct (Z.le_gt_cases d k) as [Hle|Hgt].
      * left. unfold amqp_time_ms_until. destruct (Z.eqb_spec UINT64_MAX d); [lia|]. destruct (Z.eqb_spec 0 d); [lia|]. destruct (Z.eqb_spec k 0); [lia|]. destruct (Z.leb_spec d k); [reflexivity|lia].
      * right; right. change second with 1000000000 in *. pose proof (ms_ok d k ltac:(lia) Hgt ltac:(change second with 1000000000; lia) ltac:(lia)). split; [exact Hj|]. lia.
Qed.
Lemma within_ok ms x L limit : L <= limit -> ms = 0 \/ (just_read x = true /\ 0 <= ms /\ now x + ms * millisecond <= L) -> within ms x limit = true.
Proof.
  intros HL [->|(Hj & H1 & H2)]; [reflexivity|]. unfold within. rewrite Hj. apply Z.leb_le in H1. rewrite H1. assert (now x + ms * millisecond <= limit) as K by lia. apply Z.leb_le in K. rewrite K. apply orb_true_r.
Qed.
Lemma poll_write_ok w d c : forall fuel a ev s t b, s <> 8 -> st s t b a c -> dueA d (c_next_recv c) a -> (w = false -> blockedA a) ->
  careful (amqp_poll fuel w d) c a ev (fun r c' a' => c' = c /\ st s (t || (r =? AMQP_STATUS_OK) || (r =? AMQP_STATUS_TIMEOUT)) b a' c /\ dueA d (c_next_recv c) a' /\ (r = AMQP_STATUS_OK \/ r < 0)).
Proof.
  induction fuel as [|fuel IH]; intros a ev s t b Hs H D HW; cbn [amqp_poll]; [apply careful_halt; eapply st_ok; exact H|].
  eapply careful_bind; [apply (ms_until_ok d _ c a ev s t b Hs H D (Z.le_refl _))|]. cbv beta. intros ms c1 a1 ev1 (-> & F & D1 & B1 & M).
  destruct (Z.ltb_spec ms (-1)).
  { apply careful_ret. split; [reflexivity|]. split; [|split; [exact D1|right; lia]]. destruct a1 as [x| | |]; [|destruct F as [_ []]|split; [apply F|exact I]|destruct F as [_ []]].
    destruct M as [M|[->|M]]; try lia. rewrite !orb_false_r. exact F. }
  assert (forall res, st s true b (arun [OPoll w ms res] a1) c /\ dueA d (c_next_recv c) (arun [OPoll w ms res] a1) /\ (res = PIntr -> w = false -> blockedA (arun [OPoll w ms res] a1))) as P.
  { intros res. cbn [arun fold_left]. destruct a1 as [x| | |]; [|destruct F as [_ []]|split; [exact F|split; intros; exact I]|destruct F as [_ []]]. cbn [attend_step].
    assert (w || blocked x = true) as -> by (destruct w; [reflexivity|exact (B1 (HW eq_refl))]).
    destruct F as (F0 & F1 & F2 & F3 & F4 & F5 & F6 & F7 & F8 & F9 & F10).
    rewrite (within_ok ms x (c_next_recv c)); [|lia|destruct M as [M|[->|M]]; [left; exact M|exfalso; unfold AMQP_STATUS_TIMER_FAILURE in *; lia|right; exact M]].
    split; [|split; [exact D1|intros -> W; cbn [blockedA blocked]; rewrite (B1 (HW W)); reflexivity]]. split; [exact F0|]. unfold duty_ok. cbn [heard sent hear say now tried late]. repeat split; auto; lia. }
  unfold careful. apply wp_bind. unfold wp at 1, sys_poll. pose proof (st_ok _ _ _ _ _ F) as NL. destruct ev1 as [|e ev2]; [exact NL|].
  destruct e as [| | |[]| | |]; try exact NL.
  - apply wp_ret. cbn [app]. destruct (P PReady) as (P1 & P2 & _). change (AMQP_STATUS_OK =? AMQP_STATUS_OK) with true. rewrite orb_true_r. auto.
  - destruct (_ <? _); [exact NL|]. apply wp_ret. cbn [app]. destruct (P PTimeout) as (P1 & P2 & _). change (AMQP_STATUS_TIMEOUT =? AMQP_STATUS_TIMEOUT) with true. rewrite orb_true_r. split; [reflexivity|]. split; [exact P1|]. split; [exact P2|]. right; unfold AMQP_STATUS_TIMEOUT; lia.
  - destruct (P PIntr) as (P1 & P2 & P3). eapply wp_conseq; [apply (IH _ ev2 s true b Hs P1 P2 (P3 eq_refl))| |]; cbv beta.
    + intros r c2 ev3 l3 (-> & G1 & G2). rewrite arun_app. split; [reflexivity|]. split; [|exact G2]. eapply st_weak; [exact G1|auto|auto].
    + intros s0 c2 l3 G. rewrite arun_app. exact G.
  - apply wp_ret. cbn [app]. destruct (P PErr) as (P1 & P2 & _). split; [reflexivity|]. split; [|split; [exact P2|right; unfold AMQP_STATUS_SOCKET_ERROR; lia]]. eapply st_weak; [exact P1|auto|auto].
Qed.
Definition timed_out (s : Z) (b : bool) (a : attend) (c : conn) : Prop :=
  st s false false a c \/ (a = Ended /\ (b = true -> c_next_recv c <= c_next_send c)).
Lemma poll_read_ok w d L c : forall fuel a ev s b, s <> 8 -> L <= c_next_recv c -> L <= c_next_send c -> st s true b a c -> c_hb c = hb -> dueA d L a ->
  careful (amqp_poll fuel w d) c a ev (fun r c' a' => c' = c /\ if r =? AMQP_STATUS_TIMEOUT then timed_out s b a' c else st s true b a' c /\ dueA d L a').
Proof.
  induction fuel as [|fuel IH]; intros a ev s b Hs L1 L2 H Hh D; cbn [amqp_poll]; [apply careful_halt; eapply st_ok; exact H|].
  eapply careful_bind; [apply (ms_until_ok d _ c a ev s true b Hs H D L1)|]. cbv beta. intros ms c1 a1 ev1 (-> & F & D1 & _ & M).
  destruct (Z.ltb_spec ms (-1)).
  { apply careful_ret. split; [reflexivity|]. destruct (_ =? _); [left; eapply st_weak; [exact F|discriminate|discriminate]|split; [exact F|exact D1]]. }
  assert (forall res, res <> PTimeout -> st s true b (arun [OPoll w ms res] a1) c /\ dueA d L (arun [OPoll w ms res] a1)) as P.
  { intros res Hres. cbn [arun fold_left]. destruct a1 as [x| | |]; [|destruct F as [_ []]|split; [exact F|exact I]|destruct F as [_ []]]. cbn [attend_step].
    destruct F as (F0 & F1 & F2 & F3 & F4 & F5 & F6 & F7 & F8 & F9 & F10).
    destruct (w || blocked x).
    { rewrite (within_ok ms x L); [|lia|destruct M as [M|[->|M]]; [left; exact M|exfalso; unfold AMQP_STATUS_TIMER_FAILURE in *; lia|right; exact M]]. split; [|exact D1]. split; [exact F0|]. unfold duty_ok. cbn [heard sent hear say now tried late]. repeat split; auto; lia. }
    rewrite (within_ok ms x L); [|lia|destruct M as [M|[->|M]]; [left; exact M|exfalso; unfold AMQP_STATUS_TIMER_FAILURE in *; lia|right; exact M]]. rewrite (F9 eq_refl). cbn [andb].
    destruct res; try contradiction; (split; [|exact D1]; split; [exact F0|]; unfold duty_ok; cbn [heard sent hear say now tried late]; repeat split; auto; lia). }
  assert (timed_out s b (arun [OPoll w ms PTimeout] a1) c) as T.
  { cbn [arun fold_left]. destruct a1 as [x| | |]; [|destruct F as [_ []]|left; split; [exact Hh|exact I]|destruct F as [_ []]]. cbn [attend_step].
    destruct F as (F0 & F1 & F2 & F3 & F4 & F5 & F6 & F7 & F8 & F9 & F10).
    destruct (w || blocked x).
    { rewrite (within_ok ms x L); [|lia|destruct M as [M|[->|M]]; [left; exact M|exfalso; unfold AMQP_STATUS_TIMER_FAILURE in *; lia|right; exact M]]. left. split; [exact F0|]. unfold duty_ok. cbn [heard sent hear say now tried late]. repeat split; auto; try lia; discriminate. }
    rewrite (within_ok ms x L); [|lia|destruct M as [M|[->|M]]; [left; exact M|exfalso; unfold AMQP_STATUS_TIMER_FAILURE in *; lia|right; exact M]]. rewrite (F9 eq_refl). cbn [andb].
    destruct (Z.leb_spec (hear x) (now x)); [destruct (late x) eqn:Hl|].
    - right. split; [reflexivity|]. intros Hb. specialize (F10 Hb eq_refl). lia.
    - left. split; [exact F0|]. unfold duty_ok. cbn [heard sent hear say now tried late]. repeat split; auto; try lia; discriminate.
    - left. split; [exact F0|]. unfold duty_ok. cbn [heard sent hear say now tried late]. repeat split; auto; try lia; discriminate. }
  unfold careful. apply wp_bind. unfold wp at 1, sys_poll. pose proof (st_ok _ _ _ _ _ F) as NL. destruct ev1 as [|e ev2]; [exact NL|].
  destruct e as [| | |[]| | |]; try exact NL.
  - apply wp_ret. cbn [app]. split; [reflexivity|]. apply (P PReady). discriminate.
  - destruct (_ <? _); [exact NL|]. apply wp_ret. cbn [app]. split; [reflexivity|]. exact T.
  - destruct (P PIntr ltac:(discriminate)) as [P1 P2]. eapply wp_conseq; [apply (IH _ ev2 s b Hs L1 L2 P1 Hh P2)| |]; cbv beta.
    + intros r c2 ev3 l3 (-> & G). rewrite arun_app. split; [reflexivity|exact G].
    + intros s0 c2 l3 G. rewrite arun_app. exact G.
  - apply wp_ret. cbn [app]. split; [reflexivity|]. apply (P PErr). discriminate.
Qed.

(** *** Sending a heartbeat *)
Lemma tcp_send_careful more c : forall fuel buf a ev s t b, s + zlen buf = 8 -> 0 < zlen buf -> st s t b a c ->
  careful (tcp_send_loop fuel more buf) c a ev (fun r c' a' => c' = c /\
    (((r = 0 \/ failed_send r) /\ (r = NEEDREAD -> blockedA a') /\ st s t b a' c) \/ (0 < r <= zlen buf /\ st (s + r) true b a' c))).
Proof.
  induction fuel as [|fuel IH]; intros buf a ev s t b Hs Hb H; cbn [tcp_send_loop]; [apply careful_halt; eapply st_ok; exact H|].
  unfold careful. apply wp_bind. unfold wp at 1, sys_send. pose proof (st_ok _ _ _ _ _ H) as NL.
  unfold failed_send in *. destruct ev as [|[|[n| | | | | |]| | | | |] ev]; try exact NL.
  - apply wp_ret. cbn [app]. split; [reflexivity|]. set (m := Z.max 0 (Z.min n (zlen buf))). assert (0 <= m <= zlen buf) as Hm by lia. clearbody m.
    assert (zlen (firstn (Z.to_nat m) buf) = m) as Hz by (unfold zlen in *; rewrite firstn_length; lia).
    assert (st (s + m) true b (arun [OSend more (firstn (Z.to_nat m) buf)] a) c) as G.
    { cbn [arun fold_left]. destruct a as [x| | |]; [|destruct H as [_ []]|exact H|destruct H as [_ []]]. cbn [attend_step]. rewrite Hz.
      destruct H as (F0 & F1 & F2 & F3 & F4 & F5 & F6 & F7 & F8 & F9 & F10). split; [exact F0|]. unfold duty_ok; cbn [heard sent hear say now tried late]; repeat split; auto; lia. }
    destruct (Z.eq_dec m 0) as [->|Z0]; [left|right].
    + split; [auto|]. split; [discriminate|]. rewrite Z.add_0_r in G. eapply st_weak; [exact G|auto|auto].
    + split; [lia|exact G].
  - eapply wp_conseq; [apply (IH buf a ev s t b Hs Hb H)| |]; cbv beta; intros; assumption.
  - apply wp_ret. split; [reflexivity|]. left. split; [tauto|]. split; [discriminate|exact H].
  - apply wp_ret. split; [reflexivity|]. left. split; [tauto|]. split; [discriminate|exact H].
  - apply wp_ret. split; [reflexivity|]. left. split; [tauto|]. cbn [app arun fold_left]. destruct a as [x| | |]; [|destruct H as [_ []]|split; [intros; exact I|exact H]|destruct H as [_ []]]. cbn [attend_step].
    split; [reflexivity|]. destruct H as (F0 & F1 & F2 & F3 & F4 & F5 & F6 & F7 & F8 & F9 & F10). split; [exact F0|]. unfold duty_ok; cbn [heard sent hear say now tried late]; change (zlen (@nil byte)) with 0; repeat split; auto; lia.
  - apply wp_ret. split; [reflexivity|]. left. split; [tauto|]. split; [discriminate|exact H].
  - apply wp_ret. split; [reflexivity|]. left. split; [tauto|]. split; [discriminate|exact H].
Qed.
Lemma try_send_careful more d c : d <= c_next_recv c -> forall fuel len left a ev s t b, s + zlen left = 8 -> 0 < zlen left -> zlen left <= len -> st s t b a c ->
  careful (try_send_loop N fuel len left d more) c a ev (fun r c' a' => c' = c /\
    (r < 0 -> exists s', st s' false b a' c) /\ (0 <= r -> st (8 - (len - r)) true b a' c /\ r <= len)).
Proof.
  intros HD. induction fuel as [|fuel IH]; intros len left a ev s t b Hs Hl Hlen H; cbn [try_send_loop]; [apply careful_halt; eapply st_ok; exact H|].
  eapply (careful_bind _ _ _ _ _ (fun r c' a' => c' = c /\ (((r = 0 \/ failed_send r \/ r = AMQP_STATUS_SOCKET_CLOSED) /\ (r = NEEDREAD -> blockedA a') /\ st s t b a' c) \/ (0 < r <= zlen left /\ st (s + r) true b a' c)))).
  { unfold amqp_socket_send. apply careful_get. destruct (_ =? _); [apply careful_ret; split; [reflexivity|left; split; [auto|split; [discriminate|exact H]]]|].
    eapply careful_conseq; [apply tcp_send_careful; eassumption|]. cbv beta. intros r c' a' (-> & [(Hr & G)|G]); (split; [reflexivity|]); [left; split; [tauto|exact G]|right; exact G]. }
  intros r c1 a1 ev1 (-> & [(Hr & HB & G)|(Hr & G)]).
  - destruct (Z.ltb_spec 0 r) as [Hc|_]; [exfalso; destruct Hr as [->|[Hr| ->]]; [lia|apply failed_send_neg in Hr; lia|discriminate]|].
    eapply (careful_bind _ _ _ _ _ (fun r2 c' a' => c' = c /\ st s (t || (r2 =? AMQP_STATUS_TIMEOUT)) b a' c /\ (r2 = AMQP_STATUS_OK \/ r2 < 0))).
    { unfold do_poll. apply careful_get. destruct (_ =? -1); [apply careful_ret; split; [reflexivity|]; split; [eapply st_weak; [exact G| |auto]; rewrite orb_false_r; auto|right; unfold AMQP_STATUS_SOCKET_CLOSED; lia]|].
      assert (dueA d (c_next_recv c) a1) as D by (destruct a1; try exact I; left; lia).
      assert (r <> AMQP_STATUS_TIMEOUT /\ (r = AMQP_STATUS_OK \/ r < 0)) as (N2 & N3).
      { destruct Hr as [->|[Hr| ->]]; [split; [discriminate|left; reflexivity]|apply failed_send_neg in Hr; tauto|split; [discriminate|right; reflexivity]]. }
      assert (forall w, (w = false -> blockedA a1) -> careful (amqp_poll N w d) c a1 ev1 (fun r2 c' a' => c' = c /\ st s (t || (r2 =? AMQP_STATUS_TIMEOUT)) b a' c /\ (r2 = AMQP_STATUS_OK \/ r2 < 0))) as PW.
      { intros w HW. eapply careful_conseq; [apply (poll_write_ok w _ c N a1 ev1 s t b); [lia|exact G|exact D|exact HW]|]. cbv beta. intros x c' a' (-> & G1 & _ & G2). split; [reflexivity|]. split; [|exact G2]. eapply st_weak; [exact G1| |auto].
        destruct (x =? AMQP_STATUS_TIMEOUT); rewrite ?orb_true_r, ?orb_false_r; auto. intros ->. reflexivity. }
      destruct (Z.eqb_spec r NEEDREAD); [apply PW; auto|]. destruct (Z.eqb_spec r NEEDWRITE); [apply PW; discriminate|].
      apply careful_ret. split; [reflexivity|]. destruct (Z.eqb_spec r AMQP_STATUS_TIMEOUT); [contradiction|]. rewrite orb_false_r. split; [exact G|tauto]. }
    intros r2 c2 a2 ev2 (-> & G2 & R2). destruct (Z.eqb_spec r2 AMQP_STATUS_OK) as [->|].
    + eapply careful_conseq; [apply (IH len left a2 ev2 s _ b Hs Hl Hlen G2)|]. cbv beta. intros; assumption.
    + destruct (Z.eqb_spec r2 AMQP_STATUS_TIMEOUT) as [->|].
      * apply careful_ret. split; [reflexivity|]. split; [lia|]. intros _. replace (8 - (len - (len - zlen left))) with s by lia. rewrite orb_true_r in G2. split; [exact G2|]. lia.
      * apply careful_ret. split; [reflexivity|]. destruct R2 as [R2|R2]; [contradiction|]. split; [|lia]. intros _. exists s. eapply st_weak; [exact G2|discriminate|auto].
  - destruct (Z.ltb_spec 0 r); [|lia]. cbv zeta. assert (zlen (skipn (Z.to_nat r) left) = zlen left - r) as Hz by (unfold zlen in *; rewrite skipn_length; lia).
    destruct (Z.eqb_spec (zlen (skipn (Z.to_nat r) left)) 0) as [Z0|Z0].
    + apply careful_ret. split; [reflexivity|]. split; [lia|]. intros _. replace (8 - (len - len)) with (s + r) by lia. split; [exact G|lia].
    + apply (IH len _ a1 ev1 (s + r) true b); try assumption; try lia.
Qed.

(** *** The two deadlines *)
Lemma s_from_now k secs : 0 < k < 2 ^ 63 -> 0 < secs <= 2000000 -> amqp_time_s_from_now k secs = (AMQP_STATUS_OK, Some (k + secs * second)).
Proof.
  intros Hk Hs. unfold amqp_time_s_from_now. destruct (Z.leb_spec secs 0); [lia|]. destruct (Z.eqb_spec k 0); [lia|]. change AMQP_NS_PER_S with 1000000000. change second with 1000000000. cbv zeta. unfold u64.
  rewrite !(Z.mod_small secs) by lia. rewrite !(Z.mod_small (secs * 1000000000)) by lia. rewrite !(Z.mod_small (k + secs * 1000000000)) by lia.
  destruct (Z.ltb_spec (k + secs * 1000000000) k); [lia|]. destruct (Z.ltb_spec (k + secs * 1000000000) (secs * 1000000000)); [lia|]. reflexivity.
Qed.
Lemma free_hb l : arun l Free = Free.
Proof. unfold arun. induction l as [|o l IH]; [reflexivity|]. cbn [fold_left attend_step]. exact IH. Qed.
Lemma next_send_careful c a ev t b : st 8 t b a c ->
  careful update_next_send c a ev (fun r c' a' => a' <> Careless /\ (r = AMQP_STATUS_OK -> st 0 true true a' c')).
Proof.
  intros H. pose proof (st_ok _ _ _ _ _ H) as NL. destruct H as [H0 H]. unfold update_next_send. apply careful_get. unfold amqp_heartbeat_send. rewrite H0.
  unfold time_s_from_now. destruct (Z.leb_spec hb 0); [lia|]. unfold careful. wstep. apply wp_bind. unfold wp at 1, sys_clock. destruct ev as [|[k| | | | | |] ev]; try exact NL.
  apply wp_ret. pose proof (Z.mod_pos_bound k M64 ltac:(lia)) as Hk. fold (u64 k) in Hk. set (x := u64 k) in *. clearbody x.
  destruct a as [d| | |]; [|destruct H| |destruct H].
  2:{ destruct (amqp_time_s_from_now x hb) as [r o]. wstep. apply wp_ret. rewrite free_hb. split; [discriminate|]. intros _. split; [destruct o; exact H0|exact I]. }
  destruct H as (F1 & F2 & F3 & F4 & F5 & F6 & F7 & F8 & F9 & F10).
  assert (arun [OClock x] (Attending d) = if (x <? now d) || (2 ^ 63 <=? x) then Free else
      Attending (mkDuty (hear d) (if 0 <? x then x + hb * second else say d) x true false 0 (tried d || (x <=? (if 0 <? x then x + hb * second else say d))) (late d) (blocked d))) as Hrun.
  { cbn [arun fold_left attend_step]. rewrite F1, F2. change (8 =? 8) with true. cbn [andb negb]. rewrite andb_true_r. reflexivity. }
  destruct ((x <? now d) || (2 ^ 63 <=? x)) eqn:Hc.
  { destruct (amqp_time_s_from_now x hb) as [r o]. wstep. apply wp_ret. cbn [app]. rewrite Hrun. split; [discriminate|]. intros _. split; [destruct o; exact H0|exact I]. }
  apply orb_false_elim in Hc. destruct Hc as [Hc1 Hc2]. apply Z.ltb_ge in Hc1. apply Z.leb_gt in Hc2. destruct (Z.ltb_spec 0 x).
  - rewrite s_from_now by lia. wstep. apply wp_ret. cbn [app]. rewrite Hrun. split; [discriminate|]. intros _. split; [exact H0|].
    assert (x <=? x + hb * second = true) as -> by (apply Z.leb_le; change second with 1000000000; lia). rewrite orb_true_r.
    unfold duty_ok; cbn [heard sent hear say now tried late c_next_recv c_next_send set_next_send]. change second with 1000000000 in *. repeat split; auto; try lia; intros; (assert (hear d <= now d) by auto; lia).
  - unfold amqp_time_s_from_now. destruct (Z.leb_spec hb 0); [lia|]. destruct (Z.eqb_spec x 0); [|lia]. wstep. apply wp_ret. cbn [app]. rewrite Hrun. split; [discriminate|]. discriminate.
Qed.
Lemma next_recv_careful c d ev s : c_hb c = hb -> heard d = true -> sent d = s -> s <> 8 -> hear d = c_next_recv c -> say d = c_next_send c ->
  hear d <= now d + 2 * hb * second -> say d <= now d + hb * second -> 0 <= now d < 2 ^ 63 ->
  careful update_next_recv c (Attending d) ev (fun r c' a' => a' <> Careless /\ r <> AMQP_STATUS_TIMEOUT /\ (r = AMQP_STATUS_OK -> st s false false a' c')).
Proof.
  intros H0 F1 F2 Fs F3 F4 F5 F6 F7. unfold update_next_recv. apply careful_get. unfold amqp_heartbeat_recv. rewrite H0.
  assert (signed M32 (2 * hb) = 2 * hb) as ->. { unfold signed. rewrite Z.mod_small by lia. change (M32 / 2) with M31. destruct (Z.ltb_spec (2 * hb) M31); lia. }
  unfold time_s_from_now. destruct (Z.leb_spec (2 * hb) 0); [lia|]. unfold careful. wstep. apply wp_bind. unfold wp at 1, sys_clock. destruct ev as [|[k| | | | | |] ev]; try discriminate.
  apply wp_ret. pose proof (Z.mod_pos_bound k M64 ltac:(lia)) as Hk. fold (u64 k) in Hk. set (x := u64 k) in *. clearbody x.
  assert (arun [OClock x] (Attending d) = if (x <? now d) || (2 ^ 63 <=? x) then Free else
      Attending (mkDuty (if 0 <? x then x + 2 * hb * second else hear d) (say d) x true false s (tried d || (x <=? say d)) false (blocked d))) as Hrun.
  { cbn [arun fold_left attend_step]. rewrite F1, F2. destruct (Z.eqb_spec s 8); [contradiction|]. cbn [andb negb]. rewrite andb_false_r. reflexivity. }
  assert (forall now t, fst (amqp_time_s_from_now now t) <> AMQP_STATUS_TIMEOUT) as NT.
  { intros w t. unfold amqp_time_s_from_now. repeat match goal with |- context [if ?b then _ else _] => destruct b end; discriminate. }
  specialize (NT x (2 * hb)).
  destruct ((x <? now d) || (2 ^ 63 <=? x)) eqn:Hc.
  { destruct (amqp_time_s_from_now x (2 * hb)) as [r o]. wstep. apply wp_ret. cbn [app]. rewrite Hrun. split; [discriminate|]. split; [exact NT|]. intros _. split; [destruct o; exact H0|exact I]. }
  apply orb_false_elim in Hc. destruct Hc as [Hc1 Hc2]. apply Z.ltb_ge in Hc1. apply Z.leb_gt in Hc2. destruct (Z.ltb_spec 0 x).
  - rewrite s_from_now in * by lia. wstep. apply wp_ret. cbn [app]. rewrite Hrun. split; [discriminate|]. split; [exact NT|]. intros _. split; [exact H0|].
    unfold duty_ok; cbn [heard sent hear say now tried late c_next_recv c_next_send set_next_recv]. change second with 1000000000 in *. repeat split; auto; try lia; discriminate.
  - destruct (amqp_time_s_from_now x (2 * hb)) as [r o] eqn:Hr. unfold amqp_time_s_from_now in Hr. destruct (Z.leb_spec (2 * hb) 0); [lia|]. destruct (Z.eqb_spec x 0); [|lia]. injection Hr as <- <-. wstep. apply wp_ret. cbn [app]. rewrite Hrun. split; [discriminate|]. split; discriminate.
Qed.

(** *** Receiving *)
Lemma tcp_recv_careful c d L : forall fuel len a ev s t b, st s t b a c -> dueA d L a ->
  careful (tcp_recv_loop fuel len) c a ev (fun r c' a' => c' = c /\
    ((st s t b a' c /\ dueA d L a' /\ snd r = [] /\ fst r < 0 /\ fst r <> AMQP_STATUS_TIMEOUT) \/ (exists bs, bs <> [] /\ r = (zlen bs, bs) /\ a' = arun [ORecv bs] a))).
Proof.
  induction fuel as [|fuel IH]; intros len a ev s t b H D; cbn [tcp_recv_loop]; [apply careful_halt; eapply st_ok; exact H|].
  unfold careful. apply wp_bind. unfold wp at 1, sys_recv. pose proof (st_ok _ _ _ _ _ H) as NL. destruct ev as [|[| |[bs| | | | |]| | | |] ev]; try exact NL.
  - destruct (firstn (Z.to_nat len) bs) as [|x bs'] eqn:Hb; apply wp_ret; (split; [reflexivity|]); cbn [app].
    + left. split; [apply (st_plain s t b [ORecv []] a c); [repeat constructor|exact H]|]. split; [destruct a; exact D|]. split; [reflexivity|]. split; [reflexivity|]. discriminate.
    + right. exists (x :: bs'). repeat split. discriminate.
  - eapply wp_conseq; [apply (IH len a ev s t b H D)| |]; cbv beta; intros; assumption.
  - apply wp_ret. split; [reflexivity|]. left. split; [exact H|]. split; [exact D|]. split; [reflexivity|]. split; [reflexivity|]. discriminate.
  - apply wp_ret. split; [reflexivity|]. left. split; [exact H|]. split; [exact D|]. split; [reflexivity|]. split; [reflexivity|]. discriminate.
  - apply wp_ret. split; [reflexivity|]. left. split; [exact H|]. split; [exact D|]. split; [reflexivity|]. split; [reflexivity|]. discriminate.
  - apply wp_ret. split; [reflexivity|]. left. split; [exact H|]. split; [exact D|]. split; [reflexivity|]. split; [reflexivity|]. discriminate.
Qed.
Definition heard_st (s : Z) (a : attend) (c : conn) : Prop :=
  c_hb c = hb /\ match a with
  | Attending d => heard d = true /\ sent d = s /\ hear d = c_next_recv c /\ say d = c_next_send c /\ hear d <= now d + 2 * hb * second /\ say d <= now d + hb * second /\ 0 <= now d < 2 ^ 63
  | Free => True | _ => False end.
Lemma heard_recv s t b a c bs : st s t b a c -> bs <> [] -> heard_st s (arun [ORecv bs] a) c.
Proof.
  intros [H0 H] Hb. split; [exact H0|]. destruct bs as [|x bs]; [contradiction|]. cbn [arun fold_left]. destruct a as [d| | |]; [|destruct H|exact I|destruct H]. cbn [attend_step].
  destruct H as (F1&F2&F3&F4&F5&F6&F7&_). cbn [heard sent hear say now]. auto 10.
Qed.
Lemma update_careful c a ev s : s <> 8 -> heard_st s a c ->
  careful update_next_recv c a ev (fun r c' a' => a' <> Careless /\ r <> AMQP_STATUS_TIMEOUT /\ (r = AMQP_STATUS_OK -> st s false false a' c')).
Proof.
  intros Hs [H0 H]. destruct a as [d| | |]; [|destruct H| |destruct H].
  - destruct H as (F1&F2&F3&F4&F5&F6&F7). apply next_recv_careful; assumption.
  - eapply wp_conseq; [apply update_next_recv_ok| |]; cbv beta.
    + intros r c' ev' l (_ & _ & R & K & _). rewrite free_hb. split; [discriminate|]. split; [exact R|]. intros _. split; [|exact I]. destruct K as [->|[x ->]]; exact H0.
    + intros. rewrite free_hb. discriminate.
Qed.
Definition received (s : Z) (b : bool) (c : conn) (r : Z) (c' : conn) (a' : attend) : Prop :=
  a' <> Careless /\ (r = AMQP_STATUS_OK -> st s false false a' c') /\ (r = AMQP_STATUS_TIMEOUT -> c' = c /\ timed_out s b a' c).
Lemma recv_careful d L c : forall fuel a ev s b, s <> 8 -> L <= c_next_recv c -> L <= c_next_send c -> st s true b a c -> dueA d L a ->
  careful (recv_with_timeout N fuel d) c a ev (received s b c).
Proof.
  induction fuel as [|fuel IH]; intros a ev s b Hs L1 L2 H D; cbn [recv_with_timeout]; [apply careful_halt; eapply st_ok; exact H|].
  eapply (careful_bind _ _ _ _ _ (fun r c' a' => c' = c /\
    ((st s true b a' c /\ dueA d L a' /\ snd r = [] /\ fst r < 0 /\ fst r <> AMQP_STATUS_TIMEOUT) \/ (exists bs, bs <> [] /\ r = (zlen bs, bs) /\ heard_st s a' c)))).
  { unfold amqp_socket_recv. apply careful_get. destruct (_ =? -1).
    - apply careful_ret. split; [reflexivity|]. left. split; [exact H|]. split; [exact D|]. split; [reflexivity|]. split; [reflexivity|]. discriminate.
    - eapply careful_conseq; [apply (tcp_recv_careful c d L N _ a ev s true b H D)|]. cbv beta. intros r c' a' (-> & [G|(bs & Hb & -> & ->)]); (split; [reflexivity|]); [left; exact G|right].
      exists bs. split; [exact Hb|]. split; [reflexivity|]. eapply heard_recv; eassumption. }
  intros [r bs] c1 a1 ev1 (-> & [(F & D1 & _ & Hr & Hr1)|(bs' & Hb & Hr & F)]); cbn [fst] in *.
  - destruct (Z.ltb_spec r 0); [|lia]. apply careful_get.
    assert (forall x, x <> AMQP_STATUS_TIMEOUT -> x <> AMQP_STATUS_OK -> received s b c x c a1) as R0.
    { intros x X1 X2. split; [eapply st_ok; exact F|]. split; [intros ->; contradiction|intros ->; contradiction]. }
    destruct (_ =? -1); [apply careful_ret, R0; discriminate|]. destruct ((r =? NEEDREAD) || (r =? NEEDWRITE)) eqn:Hc; [|apply careful_ret, R0; [exact Hr1|unfold AMQP_STATUS_OK; lia]].
    apply (careful_bind _ _ _ _ _ (fun r2 c' a' => c' = c /\ if r2 =? AMQP_STATUS_TIMEOUT then timed_out s b a' c else st s true b a' c /\ dueA d L a')).
    + apply (poll_read_ok _ d L c N a1 ev1 s b Hs L1 L2 F); [apply F|exact D1].
    + intros r2 c2 a2 ev2 (-> & G). destruct (Z.eqb_spec r2 AMQP_STATUS_OK) as [->|].
      * change (AMQP_STATUS_OK =? AMQP_STATUS_TIMEOUT) with false in G. destruct G as [G1 G2]. apply (IH a2 ev2 s b Hs L1 L2 G1 G2).
      * apply careful_ret. destruct (Z.eqb_spec r2 AMQP_STATUS_TIMEOUT) as [->|].
        { split; [|split; [intros; contradiction|intros _; split; [reflexivity|exact G]]]. destruct G as [G|[-> _]]; [eapply st_ok; exact G|discriminate]. }
        { destruct G as [G _]. split; [eapply st_ok; exact G|]. split; intros; contradiction. }
  - injection Hr as -> ->. destruct (Z.ltb_spec (zlen bs') 0); [pose proof (zlen_nonneg bs'); lia|].
    apply (careful_bind _ _ _ _ _ (fun _ c' a' => heard_st s a' c')).
    + unfold store_received. apply careful_get.
      assert (forall a', heard_st s a' c -> forall ev', careful (upd (fun c0 => set_sbuf c0 bs')) c a' ev' (fun _ c' a' => heard_st s a' c')) as U.
      { intros a' G ev'. unfold careful. apply wp_upd. exact G. }
      apply (careful_bind _ _ _ _ _ (fun _ c' a' => c' = c /\ heard_st s a' c)); [|intros x c' a' ev' [-> G]; apply U; exact G].
      destruct (c_sbuf c); [apply careful_ret; split; [reflexivity|exact F]|]. unfold careful. apply wp_note. split; [reflexivity|]. cbn [arun fold_left]. destruct a1; exact F.
    + intros _ c2 a2 ev2 G. eapply careful_conseq; [apply (update_careful c2 a2 ev2 s Hs G)|]. cbv beta. intros x c' a' (X1 & X2 & X3). split; [exact X1|]. split; [exact X3|]. intros; contradiction.
Qed.

Lemma drain_plain fuel : forall c ev, wp (try_recv_drain E fuel) c ev
  (fun _ c' _ l => Forall aplain l /\ c_hb c' = c_hb c /\ c_next_recv c' = c_next_recv c /\ c_next_send c' = c_next_send c) (fun _ _ l => Forall aplain l).
Proof.
  induction fuel as [|fuel IH]; intros c ev; cbn [try_recv_drain]; [apply wp_halt; constructor|]. wstep. destruct (negb _); [apply wp_ret; repeat constructor|].
  apply wp_bind. unfold wp at 1, consume_one_frame. destruct (amqp_handle_input _ _ _) as [res f s| |]; try constructor.
  destruct (res <? 0) eqn:Hres.
  - destruct (negb _) eqn:Hn; [apply wp_ret; repeat constructor|]. exfalso. apply negb_false_iff, Z.eqb_eq in Hn. subst res. discriminate.
  - change (negb (AMQP_STATUS_OK =? AMQP_STATUS_OK)) with false. cbv iota.
    assert (Forall aplain (if f_type f =? 0 then [] else [OFrame f])) as P0 by (destruct (_ =? 0); repeat constructor). set (l0 := if f_type f =? 0 then [] else [OFrame f]) in *. clearbody l0.
    set (c1 := set_sbuf _ _). destruct (negb _).
    + apply wp_bind. unfold create_link. apply wp_bind. unfold wp at 1, sys_alloc. destruct ev as [|[] ev]; try (rewrite app_nil_r; exact P0). wstep. apply wp_ret.
      assert (Forall aplain [OAlloc ok]) as P1 by repeat constructor. destruct ok.
      * unfold append_entry. wstep. eapply wp_conseq; [apply IH| |]; cbv beta; [intros x c' ev' l (P2 & P3); rewrite !Forall_app; split; [auto|exact P3]|intros; rewrite !Forall_app; auto].
      * apply wp_ret. rewrite !Forall_app. repeat split; auto.
    + eapply wp_conseq; [apply IH| |]; cbv beta; [intros x c' ev' l (P2 & P3); rewrite !Forall_app; split; [auto|exact P3]|intros; rewrite !Forall_app; auto].
Qed.
Lemma try_recv_careful c a ev s b : s <> 8 -> st s true b a c ->
  careful (amqp_try_recv N E) c a ev (fun r c' a' => a' <> Careless /\ (r = AMQP_STATUS_OK -> st s false false a' c')).
Proof.
  intros Hs H. unfold amqp_try_recv. eapply careful_bind; [apply (careful_plain _ c a ev s true b H), drain_plain|]. cbv beta. clear H. intros r c1 a1 ev1 H.
  destruct (Z.eqb_spec r AMQP_STATUS_OK); cbn [negb]; [|apply careful_ret; split; [eapply st_ok; exact H|intros; contradiction]].
  unfold time_from_now. change ((tv_sec (mkTv 0 0) <? 0) || (tv_usec (mkTv 0 0) <? 0)) with false. cbv iota.
  apply (careful_bind _ _ _ _ _ (fun p c' a' => c' = c1 /\ st s true b a' c1 /\ match snd p with
    | Some t => match a' with Attending d => t = now d | _ => True end | None => fst p <> AMQP_STATUS_OK end)).
  { eapply careful_bind; [apply (careful_clock c1 a1 ev1 s true b Hs H)|]. cbv beta. intros k c2 a2 ev2 (-> & F & Hk & _ & Hn). apply careful_ret. split; [reflexivity|]. split; [exact F|].
    unfold amqp_time_from_now. change ((tv_sec (mkTv 0 0) <? 0) || (tv_usec (mkTv 0 0) <? 0)) with false. cbv iota zeta.
    change (u64 (u64 (u64 (tv_sec (mkTv 0 0)) * AMQP_NS_PER_S) + u64 (u64 (tv_usec (mkTv 0 0)) * AMQP_NS_PER_US))) with 0. rewrite Z.add_0_r.
    assert (u64 k = k) as -> by (unfold u64; apply Z.mod_small; lia).
    destruct (Z.eqb_spec k 0); [discriminate|]. destruct (_ || _); cbn [snd]; destruct a2; try exact I; symmetry; apply Hn. }
  intros [res [t|]] c2 a2 ev2 (-> & F & K); cbn [fst snd] in K.
  - destruct (Z.eqb_spec res AMQP_STATUS_OK); [|apply careful_ret; split; [eapply st_ok; exact F|intros; contradiction]].
    eapply careful_conseq; [apply (recv_careful t (Z.min (c_next_recv c1) (c_next_send c1)) c1 N a2 ev2 s b Hs); [lia|lia|exact F|]|].
    + destruct a2; try exact I. right. lia.
    + cbv beta. intros x c' a' (R1 & R2 & _). split; assumption.
  - apply careful_ret. split; [eapply st_ok; exact F|intros; contradiction].
Qed.
Lemma heartbeat_loop_careful : forall fuel enc c a ev s t b, s + zlen enc = 8 -> 0 < zlen enc -> st s t b a c ->
  careful (send_frame_loop N E fuel enc false amqp_time_infinite) c a ev (fun r c' a' => a' <> Careless /\ (r = AMQP_STATUS_OK -> st 0 true true a' c')).
Proof.
  induction fuel as [|fuel IH]; intros enc c a ev s t b Hs He H; cbn [send_frame_loop]; [apply careful_halt; eapply st_ok; exact H|]. apply careful_get. cbv zeta.
  eapply careful_bind; [apply (try_send_careful false _ c (first_le _ _) N (zlen enc) enc a ev s t b Hs He (Z.le_refl _) H)|]. cbv beta.
  intros r c1 a1 ev1 (-> & R1 & R2). destruct (Z.ltb_spec r 0) as [Hr|Hr].
  { apply careful_ret. destruct (R1 Hr) as [s' F]. split; [eapply st_ok; exact F|]. intros ->. discriminate. }
  destruct (R2 Hr) as [F Hr2]. destruct (Z.eqb_spec (zlen enc) r) as [<-|Hne]; cbn [negb].
  - replace (8 - (zlen enc - zlen enc)) with 8 in F by lia. apply (next_send_careful c a1 ev1 true b F).
  - destruct (amqp_time_equal _ _); [apply careful_ret; split; [eapply st_ok; exact F|discriminate]|].
    eapply careful_bind; [apply (try_recv_careful c a1 ev1 (8 - (zlen enc - r)) b); [lia|exact F]|]. cbv beta. intros r2 c2 a2 ev2 (NL & G).
    destruct (Z.eqb_spec r2 AMQP_STATUS_TIMEOUT); [apply careful_ret; split; [exact NL|discriminate]|].
    destruct (Z.eqb_spec r2 AMQP_STATUS_OK) as [->|]; cbn [negb]; [|apply careful_ret; split; [exact NL|intros; contradiction]].
    assert (zlen (skipn (Z.to_nat r) enc) = zlen enc - r) as Hz by (unfold zlen in *; rewrite skipn_length; lia).
    eapply careful_conseq; [apply (IH _ c2 a2 ev2 (8 - (zlen enc - r)) false false); [lia|lia|apply G; reflexivity]|]. auto.
Qed.
Lemma heartbeat_careful c a ev t b : st 0 t b a c ->
  careful (amqp_send_frame N E heartbeat_frame) c a ev (fun r c' a' => a' <> Careless /\ (r = AMQP_STATUS_OK -> st 0 true true a' c')).
Proof.
  intros H. unfold amqp_send_frame, amqp_send_frame_inner. apply careful_get. destruct (amqp_frame_to_bytes _ _) as [r buf enc|] eqn:Hf; [|apply careful_halt; eapply st_ok; exact H].
  apply heartbeat_bytes in Hf. destruct Hf as [-> ->]. apply careful_upd. change (negb (AMQP_STATUS_OK =? AMQP_STATUS_OK)) with false. cbv iota.
  apply (heartbeat_loop_careful N heartbeat_wire _ a ev 0 t b); [reflexivity|reflexivity|exact H].
Qed.
Lemma consume_plain c ev : wp (consume_one_frame E) c ev
  (fun _ c' _ l => Forall aplain l /\ c_hb c' = c_hb c /\ c_next_recv c' = c_next_recv c /\ c_next_send c' = c_next_send c) (fun _ _ l => Forall aplain l).
Proof.
  unfold wp, consume_one_frame. destruct (amqp_handle_input _ _ _) as [res f s| |]; try constructor.
  destruct (res <? 0); [repeat constructor|]. split; [destruct (_ =? 0); repeat constructor|]. repeat split.
Qed.
Lemma release_plain ch c ev : wp (amqp_maybe_release_buffers_on_channel ch) c ev
  (fun _ c' _ l => Forall aplain l /\ c_hb c' = c_hb c /\ c_next_recv c' = c_next_recv c /\ c_next_send c' = c_next_send c) (fun _ _ l => Forall aplain l).
Proof.
  unfold amqp_maybe_release_buffers_on_channel. wstep. destruct (i_state _); try (apply wp_ret; repeat constructor).
  destruct (negb _); [apply wp_halt; constructor|]. destruct (existsb _ _); [apply wp_ret; repeat constructor|apply wp_upd; repeat constructor].
Qed.
Lemma past_careful c a ev : st 0 false false a c ->
  careful (time_has_past (c_next_send c)) c a ev (fun r c' a' => c' = c /\ st 0 false false a' c /\ (r <> AMQP_STATUS_TIMER_FAILURE -> r <> AMQP_STATUS_TIMEOUT -> st 0 true true a' c)).
Proof.
  intros H. unfold time_has_past. destruct (Z.eqb_spec UINT64_MAX (c_next_send c)) as [Hm|Hm].
  - apply careful_ret. split; [reflexivity|]. split; [exact H|]. intros _ _. destruct H as [H0 H]. split; [exact H0|]. destruct a as [d| | |]; try exact H.
    destruct H as (_&_&_&F4&_&F6&F7&_). exfalso. change second with 1000000000 in *. unfold UINT64_MAX in *. lia.
  - eapply careful_bind; [apply (careful_clock c a ev 0 false false); [discriminate|exact H]|]. cbv beta. intros k c1 a1 ev1 (-> & F & Hk & _ & _ & Hn).
    apply careful_ret. split; [reflexivity|]. split; [exact F|]. unfold amqp_time_has_past. destruct (Z.eqb_spec UINT64_MAX (c_next_send c)); [contradiction|].
    destruct (Z.eqb_spec k 0); [intros X; contradiction|]. destruct (Z.ltb_spec (c_next_send c) k); [intros _ X; contradiction|]. intros _ _. destruct F as [F0 F]. split; [exact F0|]. destruct a1 as [d| | |]; try exact F.
    destruct F as (F1&F2&F3&F4&F5&F6&F7&F8&F9&F10). destruct Hn as (Hn1 & _ & Hn2). rewrite Hn1 in *. unfold duty_ok. rewrite Hn1. repeat split; auto; try lia; intros; [apply Hn2; lia|match goal with X : late d = true |- _ => specialize (F8 X); lia end].
Qed.
Lemma close_careful c a ev : a = Ended \/ st 0 false false a c -> careful amqp_socket_close c a ev (fun _ _ a' => a' <> Careless).
Proof.
  intros H. assert (a <> Careless) as NL by (destruct H as [->|H]; [discriminate|eapply st_ok; exact H]).
  unfold amqp_socket_close. apply careful_get. destruct (_ =? -1); [apply careful_ret; exact NL|].
  apply (careful_bind _ _ _ _ _ (fun _ _ a' => a' <> Careless)).
  - unfold careful, wp, sys_close. destruct ev as [|[] ev]; try exact NL.
    unfold arun. cbn [fold_left]. destruct a; cbn [attend_step]; first [discriminate|exact NL].
  - intros ok c1 a1 ev1 G. destruct (negb ok); [apply careful_ret; exact G|]. apply careful_upd, careful_ret. exact G.
Qed.
Lemma wait_careful T : forall fuel skip c a ev, st 0 false false a c ->
  careful (wait_frame_loop N E fuel skip T) c a ev (fun p c' a' => a' <> Careless /\ (fst p = AMQP_STATUS_OK -> st 0 false false a' c')).
Proof.
  induction fuel as [|fuel IH]; intros skip c a ev H; cbn [wait_frame_loop]; [apply careful_halt; eapply st_ok; exact H|]. apply careful_get.
  destruct (_ && _).
  - eapply careful_bind; [apply (careful_plain _ c a ev 0 false false H), consume_plain|]. cbv beta. clear H. intros [r f] c1 a1 ev1 H.
    destruct (negb _); [apply careful_ret; split; [eapply st_ok; exact H|intros _; exact H]|]. destruct (_ =? _).
    + eapply careful_bind; [apply (careful_plain _ c1 a1 ev1 0 false false H), release_plain|]. cbv beta. intros x c2 a2 ev2 G. apply IH; exact G.
    + destruct (negb _); [apply careful_ret; split; [eapply st_ok; exact H|intros _; exact H]|]. apply IH; exact H.
  - eapply careful_bind; [apply (past_careful c a ev H)|]. cbv beta. clear H. intros r c1 a1 ev1 (-> & H & Hok).
    destruct (_ =? AMQP_STATUS_TIMER_FAILURE) eqn:Hf; [apply careful_ret; split; [eapply st_ok; exact H|intros _; exact H]|].
    apply (careful_bind _ _ _ _ _ (fun r c' a' => a' <> Careless /\ (r = AMQP_STATUS_OK -> st 0 true true a' c'))).
    { destruct (Z.eqb_spec r AMQP_STATUS_TIMEOUT) as [->|Hne]; [apply (heartbeat_careful c a1 ev1 false false H)|]. apply careful_ret. split; [eapply st_ok; exact H|]. intros _. apply Hok; [apply Z.eqb_neq; exact Hf|exact Hne]. }
    intros r2 c2 a2 ev2 (NL & G). destruct (Z.eqb_spec r2 AMQP_STATUS_OK) as [->|]; cbn [negb]; [|apply careful_ret; split; [exact NL|intros; contradiction]]. specialize (G eq_refl). apply careful_get. cbv zeta.
    set (L := amqp_time_first (c_next_recv c2) (c_next_send c2)). set (D := amqp_time_first T L).
    assert (L <= c_next_recv c2 /\ L <= c_next_send c2 /\ D <= L) as (L1 & L2 & L3) by (split; [apply first_le_l|split; apply first_le]).
    assert (dueA D L a2) as DU by (destruct a2; try exact I; left; exact L3).
    eapply careful_bind; [apply (recv_careful D L c2 N a2 ev2 0 true); [discriminate|exact L1|exact L2|exact G|exact DU]|]. cbv beta.
    intros r3 c3 a3 ev3 (NL3 & K1 & K2). destruct (Z.eqb_spec r3 AMQP_STATUS_TIMEOUT).
    + destruct (K2 e) as (-> & K). apply careful_get. unfold amqp_time_equal. destruct (Z.eqb_spec D (c_next_recv c2)).
      { eapply careful_bind; [apply close_careful; destruct K as [K|[K _]]; auto|]. cbv beta. intros. apply careful_ret. split; [assumption|discriminate]. }
      destruct (Z.eqb_spec D T); [apply careful_ret; split; [exact NL3|discriminate]|]. destruct (Z.eqb_spec D (c_next_send c2)); [|apply careful_halt; exact NL3].
      apply IH. destruct K as [K|[_ K]]; [exact K|]. exfalso. specialize (K eq_refl). assert (D <> L -> D = T) as DT by (unfold D, amqp_time_first; destruct (T <? L); congruence).
      assert (L = c_next_recv c2 \/ L = c_next_send c2) as LL by (unfold L, amqp_time_first; destruct (_ <? _); auto). lia.
    + destruct (Z.eqb_spec r3 AMQP_STATUS_OK) as [->|]; cbn [negb]; [apply IH, K1; reflexivity|apply careful_ret; split; [exact NL3|intros; contradiction]].
Qed.
Definition waited (p : Z * frame) (c' : conn) (a' : attend) : Prop := a' <> Careless /\ (fst p = AMQP_STATUS_OK -> st 0 false false a' c').
Lemma queue_plain f c ev : wp (amqp_queue_frame f) c ev
  (fun _ c' _ l => Forall aplain l /\ c_hb c' = c_hb c /\ c_next_recv c' = c_next_recv c /\ c_next_send c' = c_next_send c) (fun _ _ l => Forall aplain l).
Proof.
  unfold amqp_queue_frame, create_link. apply wp_bind. apply wp_bind. unfold wp at 1, sys_alloc. destruct ev as [|[] ev]; try constructor. wstep. apply wp_ret.
  destruct ok; [unfold append_entry; wstep|]; apply wp_ret; repeat constructor.
Qed.
Lemma on_channel_loop_careful ch : forall fuel c a ev, st 0 false false a c -> careful (wait_on_channel_loop N E fuel ch) c a ev waited.
Proof.
  induction fuel as [|fuel IH]; intros c a ev H; cbn [wait_on_channel_loop]; [apply careful_halt; eapply st_ok; exact H|].
  eapply careful_bind; [apply (wait_careful amqp_time_infinite N false c a ev H)|]. cbv beta. intros [r f] c1 a1 ev1 (NL & K). cbn [fst] in K.
  destruct (Z.eqb_spec r AMQP_STATUS_OK); cbn [negb]; [|apply careful_ret; split; [exact NL|intros; contradiction]]. specialize (K e). destruct (_ =? _); [apply careful_ret; split; [exact NL|intros _; exact K]|].
  eapply careful_bind; [apply (careful_plain _ c1 a1 ev1 0 false false K), queue_plain|]. cbv beta. intros r2 c2 a2 ev2 G. destruct (negb _); [apply careful_ret; split; [eapply st_ok; exact G|intros _; exact G]|]. apply IH, G.
Qed.
Lemma on_channel_careful ch c a ev : st 0 false false a c -> careful (amqp_simple_wait_frame_on_channel N E ch) c a ev waited.
Proof.
  intros H. unfold amqp_simple_wait_frame_on_channel. apply careful_get. destruct (find_on_channel _ _ _) as [[[f q]|]|]; [|apply on_channel_loop_careful, H|apply careful_halt; eapply st_ok; exact H].
  apply careful_upd, careful_ret. split; [eapply st_ok; exact H|intros _; exact H].
Qed.
Lemma noblock_careful t c a ev : st 0 false false a c -> careful (amqp_simple_wait_frame_noblock N E t) c a ev waited.
Proof.
  intros H. unfold amqp_simple_wait_frame_noblock.
  apply (careful_bind _ _ _ _ _ (fun _ c' a' => st 0 false false a' c')).
  { unfold time_from_now. destruct t as [tv|]; [|apply careful_ret; exact H]. destruct (_ || _); [apply careful_ret; exact H|].
    eapply careful_bind; [apply (careful_clock c a ev 0 false false); [discriminate|exact H]|]. cbv beta. intros k c1 a1 ev1 (-> & F & _). apply careful_ret. exact F. }
  clear H. intros [r d] c1 a1 ev1 H. destruct d as [d|]; [|apply careful_ret; split; [eapply st_ok; exact H|intros _; exact H]].
  destruct (negb _); [apply careful_ret; split; [eapply st_ok; exact H|intros _; exact H]|]. apply careful_get. destruct (c_queue c1) as [|e q]; [apply (wait_careful d N false c1 a1 ev1 H)|].
  destruct (negb _); [apply careful_halt; eapply st_ok; exact H|]. apply careful_upd, careful_ret. split; [eapply st_ok; exact H|intros _; exact H].
Qed.
End Attend.
