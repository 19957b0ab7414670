(** Proofs for C70: on a calm schedule, with a well-formed stream, nothing fails. *)
From Coq Require Import String ZArith List Bool Lia.
From Verif Require Import Base BaseFacts Codec TableModel TableSpec TableOps FramingStmt FramingGen FramingModel MethodSpec
  Frame FrameSpec FrameProofs FrameStream FrameFacts FrameInit FrameNew Time Sasl Net NetApi NetSpec NetFacts NetSend NetRecv NetWalk NetAcct NetOrder NetWait NetRx NetWell EncStatus CalmSpec Prop_Frame.
Import ListNotations.
Local Open Scope Z_scope.

Lemma u64_id z : 0 <= z < M64 -> u64 z = z.
Proof. intros. unfold u64. apply Z.mod_small. lia. Qed.

Section Calm.
(** [tail]: what the server sends after the frames considered *)
Context (N : nat) (E : nat -> aenv) (HE : never_fails E) (fm ob : Z) (tail : bytes).

(** a connection that has not received its first 8 bytes yet: [a] has been read *)
Definition starting (fs : list (Z * aframe)) (s : inst) (a : bytes) : Prop :=
  exists B, s = init_of B a /\ small B /\ zlen a < 8 /\ b_fm B = fm /\ ae_junk (E (b_nf B)) 7 = x00 /\ nth 7 (ser fs ++ tail) x00 = x00 /\ is_magic (ser fs ++ tail) = false.
Definition at_ (fs : list (Z * aframe)) (s : inst) (a : bytes) : Prop := pos E fm s a \/ starting fs s a.
Lemma pos_fm s a : pos E fm s a -> i_frame_max s = fm.
Proof. intros (B & -> & _ & _ & <-). unfold st_of. destruct (_ =? 0); [reflexivity|]. destruct (_ <? 7); reflexivity. Qed.
Lemma at_fm fs s a : at_ fs s a -> i_frame_max s = fm.
Proof. intros [H|(B & -> & _ & _ & <- & _)]; [eapply pos_fm; eassumption|reflexivity]. Qed.
Definition fed (fs : list (Z * aframe)) (c : conn) (w : bytes) : Prop :=
  zlen (c_outbuf c) = ob /\ exists a, at_ fs (c_in c) a /\ zlen (c_sbuf c) <= SOCK_BUFFER_SIZE /\ prefix (a ++ c_sbuf c ++ w) (ser fs ++ tail).
Definition happy (t : Z) (fs : list (Z * aframe)) (c : conn) (ev : list event) : Prop :=
  0 <= t /\ calm t ev /\ in_use t c /\ Forall (good_frame fm) fs /\ Forall modest_frame fs /\
  Forall (fun e => modest (fst e)) (c_queue c) /\ fed fs c (inflow ev).

Definition calmly {A} (m : M A) (t : Z) (fs : list (Z * aframe)) (c : conn) (Q : A -> Z -> list (Z * aframe) -> conn -> Prop) : Prop :=
  forall ev, happy t fs c ev -> wp m c ev (fun a c' ev' _ => exists t' fs', t <= t' /\ happy t' fs' c' ev' /\ Q a t' fs' c') (fun _ _ _ => True).

Lemma calmly_ret {A} (a : A) t fs c (Q : A -> Z -> list (Z * aframe) -> conn -> Prop) : Q a t fs c -> calmly (ret a) t fs c Q.
Proof. intros H ev HH. apply wp_ret. exists t, fs. split; [lia|auto]. Qed.
Lemma calmly_halt {A} s t fs c (Q : A -> Z -> list (Z * aframe) -> conn -> Prop) : calmly (halt s) t fs c Q.
Proof. intros ev HH. apply wp_halt, I. Qed.
Lemma calmly_bind {A B} (m : M A) (k : A -> M B) t fs c Q1 (Q : B -> Z -> list (Z * aframe) -> conn -> Prop) :
  calmly m t fs c Q1 -> (forall a t1 fs1 c1, t <= t1 -> Q1 a t1 fs1 c1 -> calmly (k a) t1 fs1 c1 Q) -> calmly (bind m k) t fs c Q.
Proof.
  intros Hm Hk ev HH. apply wp_bind. eapply wp_conseq; [apply Hm, HH| |auto].
  intros a c1 ev1 l1 (t1 & fs1 & T1 & H1 & Q1a). eapply wp_conseq; [apply (Hk a t1 fs1 c1 T1 Q1a ev1 H1)| |auto].
  intros b c2 ev2 l2 (t2 & fs2 & T2 & H2 & Qb). exists t2, fs2. split; [lia|auto].
Qed.
Lemma calmly_conseq {A} (m : M A) t fs c (Q Q' : A -> Z -> list (Z * aframe) -> conn -> Prop) :
  calmly m t fs c Q -> (forall a t1 fs1 c1, t <= t1 -> Q a t1 fs1 c1 -> Q' a t1 fs1 c1) -> calmly m t fs c Q'.
Proof.
  intros Hm Hk ev HH. eapply wp_conseq; [apply Hm, HH| |auto].
  intros a c1 ev1 l1 (t1 & fs1 & T1 & H1 & Q1a). exists t1, fs1. auto.
Qed.
(** the state can be inspected, and the invariant used *)
Lemma calmly_get_bind {B} (k : conn -> M B) t fs c (Q : B -> Z -> list (Z * aframe) -> conn -> Prop) :
  (0 <= t -> in_use t c -> Forall (fun e => modest (fst e)) (c_queue c) -> calmly (k c) t fs c Q) -> calmly (bind get k) t fs c Q.
Proof. intros H ev HH. apply wp_get_bind. apply H; [apply HH|apply HH|apply HH|exact HH]. Qed.
Lemma calmly_use {B} (k : M B) t fs c (Q : B -> Z -> list (Z * aframe) -> conn -> Prop) :
  (in_use t c -> zlen (c_outbuf c) = ob -> i_frame_max (c_in c) = fm -> calmly k t fs c Q) -> calmly k t fs c Q.
Proof. intros H ev HH. apply H; [apply HH|apply HH|destruct HH as (_ & _ & _ & _ & _ & _ & (_ & a & HP & _)); eapply at_fm; exact HP|exact HH]. Qed.

(** changes the invariant does not depend on *)
Lemma happy_queue t fs c ev q : happy t fs c ev -> Forall (fun e => modest (fst e)) q -> happy t fs (set_queue c q) ev.
Proof. intros (H0 & H1 & H2 & H3 & H4 & H5 & H6) Hq. split; [exact H0|]. split; [exact H1|]. split; [exact H2|]. split; [exact H3|]. split; [exact H4|]. split; [exact Hq|exact H6]. Qed.
Lemma happy_outbuf t fs c ev b : happy t fs c ev -> zlen b = zlen (c_outbuf c) -> happy t fs (set_outbuf c b) ev.
Proof.
  intros (H0 & H1 & (A1 & A2 & A3 & A4 & A5 & A6 & A7) & H3 & H4 & H5 & H6) Hq. split; [exact H0|]. split; [exact H1|].
  split; [split; [exact A1|]; split; [exact A2|]; split; [exact A3|]; split; [exact A4|]; split; [exact A5|]; split; [exact A6|cbn [c_outbuf set_outbuf]; lia]|].
  split; [exact H3|]. split; [exact H4|]. split; [exact H5|]. destruct H6 as [Hob H6]. split; [cbn [c_outbuf set_outbuf]; lia|exact H6].
Qed.
Lemma modest_later t t' d : t <= t' -> modest_deadline t d -> modest_deadline t' d.
Proof. intros H [->|K]; [left; reflexivity|right; lia]. Qed.
Lemma happy_later t t' fs c ev : t <= t' -> calm t' ev -> happy t fs c ev -> happy t' fs c ev.
Proof.
  intros Ht Hc (H0 & H1 & (A1 & A2 & A3 & A4 & A5) & H3 & H4 & H5 & H6). split; [lia|]. split; [exact Hc|].
  split; [split; [exact A1|]; split; [eapply modest_later; eauto|]; split; [eapply modest_later; eauto|]; split; [exact A4|exact A5]|].
  split; [exact H3|]. split; [exact H4|]. split; [exact H5|exact H6].
Qed.
Lemma calmly_queue t fs c f (Q : unit -> Z -> list (Z * aframe) -> conn -> Prop) :
  (Forall (fun e => modest (fst e)) (c_queue c) -> Forall (fun e => modest (fst e)) (f c)) -> (0 <= t -> in_use t c -> Q tt t fs (set_queue c (f c))) ->
  calmly (upd (fun c => set_queue c (f c))) t fs c Q.
Proof. intros Hq HQ ev HH. apply wp_upd. exists t, fs. split; [lia|]. split; [apply happy_queue; [exact HH|apply Hq, HH]|]. apply HQ; apply HH. Qed.

(** ** The system *)
(** an event that reads nothing and is not the clock *)
Lemma happy_next t fs c e ev : (match e with EvClock _ | EvRecv (ROk _) => False | _ => True end) -> happy t fs c (e :: ev) -> happy t fs c ev.
Proof.
  intros He (H0 & (C1 & C2) & H2 & H3 & H4 & H5 & H6). split; [exact H0|].
  split; [split; [inversion C1; assumption|destruct e; try contradiction; exact C2]|].
  split; [exact H2|]. split; [exact H3|]. split; [exact H4|]. split; [exact H5|].
  destruct e; try contradiction; try exact H6. destruct r; try contradiction; exact H6.
Qed.
Lemma happy_head t fs c e ev : happy t fs c (e :: ev) -> no_failure e.
Proof. intros (_ & (C & _) & _). inversion C; assumption. Qed.

Lemma calm_clock t fs c : calmly sys_clock t fs c (fun now t' fs' c' => now = t' /\ fs' = fs /\ c' = c /\ 0 < now < M63).
Proof.
  intros ev HH. unfold wp, sys_clock. destruct ev as [|[now|r|r|r|ok|ok|oom] ev]; try exact I.
  pose proof (happy_head _ _ _ _ _ HH) as Hn. cbn [no_failure] in Hn. rewrite u64_id by lia. pose proof HH as (_ & (C1 & C2) & _). cbn in C2. destruct C2 as [C2 C3].
  exists now, fs. split; [exact C2|]. split; [|auto]. apply (happy_later t); [exact C2|split; [inversion C1; assumption|exact C3]|].
  destruct HH as (H0 & _ & H2 & H3 & H4 & H5 & H6). assert (calm t ev) as Ct.
  { split; [inversion C1; assumption|]. clear -C2 C3. revert now t C2 C3. induction ev as [|e ev IH]; intros now t C2 C3; [exact I|]. destruct e; cbn [clock_monotone] in *; try (eapply IH; eauto). split; [lia|apply C3]. }
  split; [exact H0|]. split; [exact Ct|]. split; [exact H2|]. split; [exact H3|]. split; [exact H4|]. split; [exact H5|exact H6].
Qed.
Lemma calm_sys_poll w ms t fs c : calmly (sys_poll w ms) t fs c (fun r t' fs' c' => (r = PReady \/ r = PIntr) /\ fs' = fs /\ c' = c).
Proof.
  intros ev HH. unfold wp, sys_poll. destruct ev as [|[now|r|r|r|ok|ok|oom] ev]; try exact I.
  pose proof (happy_head _ _ _ _ _ HH) as Hn. apply happy_next in HH; [|exact I]. destruct r; cbn in Hn; try contradiction.
  - exists t, fs. split; [lia|]. split; [exact HH|]. auto.
  - exists t, fs. split; [lia|]. split; [exact HH|]. auto.
Qed.
Lemma calm_alloc t fs c : calmly sys_alloc t fs c (fun ok t' fs' c' => ok = true /\ fs' = fs /\ c' = c).
Proof.
  intros ev HH. unfold wp, sys_alloc. destruct ev as [|[now|r|r|r|ok|ok|oom] ev]; try exact I.
  pose proof (happy_head _ _ _ _ _ HH) as Hn. apply happy_next in HH; [|exact I]. cbn in Hn. exists t, fs. split; [lia|]. split; [exact HH|]. auto.
Qed.
Lemma calm_clone t fs c : calmly sys_clone t fs c (fun oom t' fs' c' => (forall n, oom n = false) /\ fs' = fs /\ c' = c).
Proof.
  intros ev HH. unfold wp, sys_clone. destruct ev as [|[now|r|r|r|ok|ok|oom] ev]; try exact I.
  pose proof (happy_head _ _ _ _ _ HH) as Hn. apply happy_next in HH; [|exact I]. cbn in Hn. exists t, fs. split; [lia|]. split; [exact HH|]. auto.
Qed.
Lemma calm_send fuel more buf t fs c :
  calmly (tcp_send_loop fuel more buf) t fs c (fun r t' fs' c' => (0 <= r \/ r = NEEDREAD \/ r = NEEDWRITE) /\ fs' = fs /\ c' = c).
Proof.
  induction fuel as [|fuel IH]; cbn [tcp_send_loop]; [apply calmly_halt|]. intros ev HH. apply wp_bind. unfold wp at 1, sys_send.
  destruct ev as [|[now|r|r|r|ok|ok|oom] ev]; try exact I. pose proof (happy_head _ _ _ _ _ HH) as Hn. apply happy_next in HH; [|exact I].
  destruct r; cbn in Hn; try contradiction.
  - apply wp_ret. exists t, fs. split; [lia|]. split; [exact HH|]. split; [left; lia|auto].
  - eapply wp_conseq; [apply IH, HH| |auto]. auto.
  - apply wp_ret. exists t, fs. split; [lia|]. split; [exact HH|]. auto.
  - apply wp_ret. exists t, fs. split; [lia|]. split; [exact HH|]. auto.
Qed.

(** ** Time *)
Lemma inf_modest t : modest_deadline t amqp_time_infinite.
Proof. left; reflexivity. Qed.
Lemma first_modest t a b : modest_deadline t a -> modest_deadline t b -> modest_deadline t (amqp_time_first a b).
Proof. unfold amqp_time_first. destruct (a <? b); auto. Qed.
Lemma calm_ms_until d t fs c : modest_deadline t d -> calmly (time_ms_until d) t fs c (fun r t' fs' c' => -1 <= r /\ fs' = fs /\ c' = c).
Proof.
  intros Hd. unfold time_ms_until. destruct (_ || _) eqn:B.
  - apply calmly_ret. split; [|auto]. unfold amqp_time_ms_until. apply orb_true_iff in B. destruct (UINT64_MAX =? d); [lia|]. destruct (0 =? d); [lia|]. destruct B; discriminate.
  - apply orb_false_iff in B. destruct B as [B1 B2]. eapply calmly_bind; [apply calm_clock|]. cbv beta. intros now t1 fs1 c1 Ht (-> & -> & -> & Hn). apply calmly_ret. split; [|auto].
    unfold amqp_time_ms_until. rewrite B1, B2. destruct (Z.eqb_spec t1 0); [lia|]. destruct (Z.leb_spec d t1); [lia|].
    destruct Hd as [->|Hd]; [exfalso; apply Z.eqb_neq in B1; apply B1; reflexivity|]. rewrite u64_id by lia. unfold AMQP_NS_PER_MS.
    assert (0 <= (d - t1) / 1000000 <= 2000000000) as R. { split; [apply Z.div_pos; lia|]. apply Z.div_le_upper_bound; lia. }
    unfold signed. rewrite Z.mod_small by lia. destruct (Z.ltb_spec ((d - t1) / 1000000) (M32 / 2)) as [|K]; [lia|]. change (M32 / 2) with 2147483648 in K. lia.
Qed.
Lemma calm_has_past d t fs c : calmly (time_has_past d) t fs c (fun r t' fs' c' => (r = AMQP_STATUS_OK \/ r = AMQP_STATUS_TIMEOUT) /\ fs' = fs /\ c' = c).
Proof.
  unfold time_has_past. destruct (UINT64_MAX =? d) eqn:B.
  - apply calmly_ret. split; [|auto]. unfold amqp_time_has_past. rewrite B. auto.
  - eapply calmly_bind; [apply calm_clock|]. cbv beta. intros now t1 fs1 c1 Ht (-> & -> & -> & Hn). apply calmly_ret. split; [|auto].
    unfold amqp_time_has_past. rewrite B. destruct (Z.eqb_spec t1 0); [lia|]. destruct (d <? t1); auto.
Qed.
Lemma calm_from_now tv t fs c : modest_timeout tv ->
  calmly (time_from_now tv) t fs c (fun r t' fs' c' => exists d, r = (AMQP_STATUS_OK, Some d) /\ modest_deadline t' d /\ fs' = fs /\ c' = c).
Proof.
  intros Hd. unfold time_from_now. destruct tv as [tv|].
  - destruct Hd as (D1 & D2 & D3). destruct (Z.ltb_spec (tv_sec tv) 0); [lia|]. destruct (Z.ltb_spec (tv_usec tv) 0); [lia|]. cbn [orb].
    eapply calmly_bind; [apply calm_clock|]. cbv beta. intros now t1 fs1 c1 Ht (-> & -> & -> & Hn). apply calmly_ret.
    unfold amqp_time_from_now. destruct (Z.ltb_spec (tv_sec tv) 0); [lia|]. destruct (Z.ltb_spec (tv_usec tv) 0); [lia|]. cbn [orb]. cbv zeta.
    destruct (Z.eqb_spec t1 0); [lia|]. unfold AMQP_NS_PER_S, AMQP_NS_PER_US.
    rewrite (u64_id (tv_sec tv)), (u64_id (tv_usec tv)), (u64_id (tv_sec tv * 1000000000)), (u64_id (tv_usec tv * 1000)), (u64_id (tv_sec tv * 1000000000 + tv_usec tv * 1000)) by lia.
    rewrite (u64_id (t1 + _)) by lia. set (delta := tv_sec tv * 1000000000 + tv_usec tv * 1000) in *.
    destruct (Z.ltb_spec (t1 + delta) t1); [lia|]. destruct (Z.ltb_spec (t1 + delta) delta); [lia|]. cbn [orb].
    exists (t1 + delta). split; [reflexivity|]. split; [right; lia|auto].
  - apply calmly_ret. exists amqp_time_infinite. split; [reflexivity|]. split; [apply inf_modest|auto].
Qed.
Lemma calm_s_from_now s t fs c : s <= 131070 ->
  calmly (time_s_from_now s) t fs c (fun r t' fs' c' => exists d, r = (AMQP_STATUS_OK, Some d) /\ modest_deadline t' d /\ fs' = fs /\ c' = c).
Proof.
  intros Hs. unfold time_s_from_now. destruct (Z.leb_spec s 0).
  - apply calmly_ret. unfold amqp_time_s_from_now. destruct (Z.leb_spec s 0); [|lia]. exists amqp_time_infinite. split; [reflexivity|]. split; [apply inf_modest|auto].
  - eapply calmly_bind; [apply calm_clock|]. cbv beta. intros now t1 fs1 c1 Ht (-> & -> & -> & Hn). apply calmly_ret.
    unfold amqp_time_s_from_now. destruct (Z.leb_spec s 0); [lia|]. destruct (Z.eqb_spec t1 0); [lia|]. cbv zeta. unfold AMQP_NS_PER_S.
    rewrite (u64_id s), (u64_id (s * 1000000000)), (u64_id (t1 + _)) by lia.
    destruct (Z.ltb_spec (t1 + s * 1000000000) t1); [lia|]. destruct (Z.ltb_spec (t1 + s * 1000000000) (s * 1000000000)); [lia|]. cbn [orb].
    exists (t1 + s * 1000000000). split; [reflexivity|]. split; [right; lia|auto].
Qed.
Lemma calm_tv_until d t fs c : modest_deadline t d ->
  calmly (time_tv_until d) t fs c (fun r t' fs' c' => exists tv, r = (AMQP_STATUS_OK, Some tv) /\ modest_timeout tv /\ fs' = fs /\ c' = c).
Proof.
  intros Hd. unfold time_tv_until. destruct (_ || _) eqn:B.
  - apply calmly_ret. unfold amqp_time_tv_until. apply orb_true_iff in B. destruct (UINT64_MAX =? d); [exists None; cbn; auto|]. destruct (0 =? d); [|destruct B; discriminate].
    exists (Some (mkTv 0 0)). split; [reflexivity|]. split; [cbn; lia|auto].
  - apply orb_false_iff in B. destruct B as [B1 B2]. eapply calmly_bind; [apply calm_clock|]. cbv beta. intros now t1 fs1 c1 Ht (-> & -> & -> & Hn). apply calmly_ret.
    unfold amqp_time_tv_until. rewrite B1, B2. destruct (Z.eqb_spec t1 0); [lia|]. destruct (Z.leb_spec d t1); [exists (Some (mkTv 0 0)); split; [reflexivity|]; split; [cbn; lia|auto]|].
    destruct Hd as [->|Hd]; [exfalso; apply Z.eqb_neq in B1; apply B1; reflexivity|]. cbv zeta. rewrite u64_id by lia. eexists. split; [reflexivity|]. split; [|auto].
    cbn [modest_timeout tv_sec tv_usec]. unfold AMQP_NS_PER_S, AMQP_NS_PER_US. set (x := d - t1) in *. assert (0 <= x <= 2000000000000000) by lia.
    pose proof (Z.div_mod x 1000000000 ltac:(lia)) as D1. pose proof (Z.mod_pos_bound x 1000000000 ltac:(lia)) as D2. set (q := x / 1000000000) in *. set (r := x mod 1000000000) in *.
    pose proof (Z.div_mod r 1000 ltac:(lia)) as D3. pose proof (Z.mod_pos_bound r 1000 ltac:(lia)) as D4. set (u := r / 1000) in *. set (v := r mod 1000) in *.
    assert (forall z, 0 <= z < 2147483648 -> signed M32 z = z) as SG. { intros z Hz. unfold signed. rewrite Z.mod_small by lia. destruct (Z.ltb_spec z (M32 / 2)) as [|K]; [reflexivity|]. change (M32 / 2) with 2147483648 in K. lia. }
    rewrite !SG by lia. lia.
Qed.
Lemma calm_next_send t fs c : calmly update_next_send t fs c (fun r t' fs' c' => r = AMQP_STATUS_OK /\ fs' = fs /\ c_sbuf c' = c_sbuf c /\ c_queue c' = c_queue c).
Proof.
  unfold update_next_send. apply calmly_get_bind. intros H0 Hu Hq. pose proof Hu as (U1 & U2 & U3 & U4 & U5).
  eapply calmly_bind; [apply calm_s_from_now; unfold amqp_heartbeat_send; lia|]. cbv beta. intros r t1 fs1 c1 Ht (d & -> & Hd & -> & ->).
  eapply (calmly_bind _ _ _ _ _ (fun _ _ fs' c' => fs' = fs /\ c_sbuf c' = c_sbuf c /\ c_queue c' = c_queue c)).
  - intros ev (H0' & H1 & (A1 & A2 & A3 & A4 & A5) & H3 & H4 & H5 & H6). apply wp_upd. exists t1, fs. split; [lia|]. split; [|auto].
    split; [exact H0'|]. split; [exact H1|]. split; [split; [exact A1|]; split; [exact Hd|]; split; [exact A3|]; split; [exact A4|exact A5]|].
    split; [exact H3|]. split; [exact H4|]. split; [exact H5|exact H6].
  - intros _ t2 fs2 c2 _ (-> & S2 & Q2). apply calmly_ret. auto.
Qed.
Lemma calm_next_recv t fs c : calmly update_next_recv t fs c (fun r t' fs' c' => r = AMQP_STATUS_OK /\ fs' = fs /\ c_sbuf c' = c_sbuf c /\ c_queue c' = c_queue c).
Proof.
  unfold update_next_recv. apply calmly_get_bind. intros H0 Hu Hq. pose proof Hu as (U1 & U2 & U3 & U4 & U5).
  eapply calmly_bind; [apply calm_s_from_now|].
  { unfold amqp_heartbeat_recv, signed. rewrite Z.mod_small by lia. destruct (Z.ltb_spec (2 * c_hb c) (M32 / 2)) as [|K]; lia. }
  cbv beta. intros r t1 fs1 c1 Ht (d & -> & Hd & -> & ->).
  eapply (calmly_bind _ _ _ _ _ (fun _ _ fs' c' => fs' = fs /\ c_sbuf c' = c_sbuf c /\ c_queue c' = c_queue c)).
  - intros ev (H0' & H1 & (A1 & A2 & A3 & A4 & A5) & H3 & H4 & H5 & H6). apply wp_upd. exists t1, fs. split; [lia|]. split; [|auto].
    split; [exact H0'|]. split; [exact H1|]. split; [split; [exact A1|]; split; [exact A2|]; split; [exact Hd|]; split; [exact A4|exact A5]|].
    split; [exact H3|]. split; [exact H4|]. split; [exact H5|exact H6].
  - intros _ t2 fs2 c2 _ (-> & S2 & Q2). apply calmly_ret. auto.
Qed.

(** ** Waiting for the socket, sending *)
Lemma calm_poll fuel w d : forall t fs c, modest_deadline t d -> calmly (amqp_poll fuel w d) t fs c (fun r t' fs' c' => r = AMQP_STATUS_OK /\ fs' = fs /\ c' = c).
Proof.
  induction fuel as [|fuel IH]; intros t fs c Hd; cbn [amqp_poll]; [apply calmly_halt|].
  eapply calmly_bind; [apply calm_ms_until, Hd|]. cbv beta. intros ms t1 fs1 c1 T1 (Hms & -> & ->). destruct (Z.ltb_spec ms (-1)); [lia|].
  eapply calmly_bind; [apply calm_sys_poll|]. cbv beta. intros r t2 fs2 c2 T2 ([->| ->] & -> & ->).
  - apply calmly_ret. auto.
  - apply IH. eapply modest_later; [|exact Hd]. lia.
Qed.
Lemma calm_do_poll r d t fs c : modest_deadline t d -> 0 = r \/ r = NEEDREAD \/ r = NEEDWRITE -> calmly (do_poll N r d) t fs c (fun r t' fs' c' => r = AMQP_STATUS_OK /\ fs' = fs /\ c' = c).
Proof.
  intros Hd Hr. unfold do_poll. apply calmly_get_bind. intros H0 (U1 & _) _. destruct (Z.eqb_spec (c_fd c) (-1)); [contradiction|].
  destruct Hr as [<-|[->| ->]].
  - apply calmly_ret. auto.
  - change (NEEDREAD =? NEEDREAD) with true. apply calm_poll, Hd.
  - change (NEEDWRITE =? NEEDREAD) with false. change (NEEDWRITE =? NEEDWRITE) with true. apply calm_poll, Hd.
Qed.
Lemma calm_try_send_loop fuel len more d : forall left t fs c, modest_deadline t d ->
  calmly (try_send_loop N fuel len left d more) t fs c (fun r t' fs' c' => r = len /\ fs' = fs /\ c' = c).
Proof.
  induction fuel as [|fuel IH]; intros left t fs c Hd; cbn [try_send_loop]; [apply calmly_halt|].
  eapply (calmly_bind _ _ _ _ _ (fun r _ fs' c' => (0 <= r \/ r = NEEDREAD \/ r = NEEDWRITE) /\ fs' = fs /\ c' = c)).
  { unfold amqp_socket_send. apply calmly_get_bind. intros H0 (U1 & _) _. destruct (Z.eqb_spec (c_fd c) (-1)); [contradiction|]. apply calm_send. }
  intros r t1 fs1 c1 T1 (Hr & -> & ->). pose proof (modest_later _ _ _ T1 Hd) as Hd1. destruct (Z.ltb_spec 0 r).
  - cbv zeta. destruct (_ =? 0); [apply calmly_ret; auto|]. apply IH, Hd1.
  - eapply calmly_bind; [apply calm_do_poll; [exact Hd1|lia]|]. cbv beta. intros r2 t2 fs2 c2 T2 (-> & -> & ->). change (AMQP_STATUS_OK =? AMQP_STATUS_OK) with true. cbv iota.
    apply IH. eapply modest_later; eauto.
Qed.
Lemma calm_send_frame_loop fuel enc more d t fs c : modest_deadline t d ->
  calmly (send_frame_loop N E fuel enc more d) t fs c (fun r t' fs' c' => r = AMQP_STATUS_OK /\ fs' = fs /\ c_sbuf c' = c_sbuf c /\ c_queue c' = c_queue c).
Proof.
  intros Hd. destruct fuel as [|fuel]; cbn [send_frame_loop]; [apply calmly_halt|]. apply calmly_get_bind. intros H0 (U1 & U2 & U3 & U4) _. cbv zeta.
  eapply calmly_bind; [apply calm_try_send_loop, first_modest; [exact Hd|exact U3]|]. cbv beta. intros r t1 fs1 c1 T1 (-> & -> & ->).
  pose proof (zlen_nonneg enc). destruct (Z.ltb_spec (zlen enc) 0); [lia|]. rewrite Z.eqb_refl. cbn [negb]. apply calm_next_send.
Qed.
(** sending a frame: the only errors are those of encoding it *)
Definition encodes (f : frame) (buf : bytes) (r : Z) : Prop := exists buf' enc, amqp_frame_to_bytes f buf = FRet r buf' enc.
Lemma calm_send_frame_inner f more d t fs c : modest_deadline t d ->
  calmly (amqp_send_frame_inner N E f more d) t fs c (fun r t' fs' c' => encodes f (c_outbuf c) r /\ (r = AMQP_STATUS_OK \/ blames_caller r) /\ fs' = fs /\ c_sbuf c' = c_sbuf c /\ c_queue c' = c_queue c).
Proof.
  intros Hd. unfold amqp_send_frame_inner. apply calmly_get_bind. intros H0 (U1 & U2 & U3 & U4 & U5 & U6 & U7) _.
  destruct (amqp_frame_to_bytes f (c_outbuf c)) as [res buf enc|] eqn:F; [|apply calmly_halt].
  pose proof (frame_to_bytes_status _ _ _ _ _ U7 F) as FS. pose proof (frame_to_bytes_len _ _ _ _ _ F) as FL.
  eapply (calmly_bind _ _ _ _ _ (fun _ _ fs' c' => fs' = fs /\ c_sbuf c' = c_sbuf c /\ c_queue c' = c_queue c)).
  { intros ev HH. apply wp_upd. exists t, fs. split; [lia|]. split; [|auto]. apply happy_outbuf; [exact HH|exact FL]. }
  intros _ t1 fs1 c1 T1 (-> & S1 & Q1). pose proof (modest_later _ _ _ T1 Hd) as Hd1.
  assert (encodes f (c_outbuf c) res) as En by (exists buf, enc; exact F).
  destruct (Z.eqb_spec res AMQP_STATUS_OK) as [->|Hne]; cbn [negb].
  - eapply calmly_conseq; [apply calm_send_frame_loop, Hd1|]. cbv beta. intros r t2 fs2 c2 T2 (-> & -> & -> & ->). auto.
  - apply calmly_ret. split; [exact En|]. split; [|auto]. destruct FS as [?|FS]; [contradiction|]. right. exact FS.
Qed.

(** a frame that fits *)
Definition fits (ch : Z) (a : aframe) : Prop :=
  aframe_ok a /\ aframe_representable a = true /\ zlen (ser_frame ch a) <= ob.
Lemma calm_send_fits ch a more d t fs c : 20 <= ob -> fits ch a -> modest_deadline t d ->
  calmly (amqp_send_frame_inner N E (c_frame ch a) more d) t fs c (fun r t' fs' c' => r = AMQP_STATUS_OK /\ fs' = fs /\ c_sbuf c' = c_sbuf c /\ c_queue c' = c_queue c).
Proof.
  intros Hob (F1 & F2 & F3) Hd. apply calmly_use. intros (_ & _ & _ & _ & _ & _ & U7) Eob _. eapply calmly_conseq; [apply calm_send_frame_inner, Hd|]. cbv beta.
  intros r t1 fs1 c1 T1 ((buf & enc & He) & _ & H). split; [|exact H].
  destruct (C10_frame_bytes ch a (c_outbuf c) F1 ltac:(lia)) as (st & b2 & e2 & E1 & _ & C).
  { intros b ->. unfold ser_frame in F3. rewrite zlen_wire in F3. cbn [ser_payload] in F3. lia. }
  rewrite He in E1. assert (st = r) as -> by congruence. destruct C as [(-> & _)|(_ & C)]; [reflexivity|]. exfalso. clear -C F2 F3 Eob. intuition (congruence || lia).
Qed.

(** ** Receiving *)
Lemma calm_tcp_recv fuel t fs c : forall ev, happy t fs c ev -> wp (tcp_recv_loop fuel SOCK_BUFFER_SIZE) c ev
  (fun p c' ev' _ => c' = c /\ (((fst p = NEEDREAD \/ fst p = NEEDWRITE) /\ happy t fs c ev') \/
     (fst p = zlen (snd p) /\ 0 < zlen (snd p) <= SOCK_BUFFER_SIZE /\ calm t ev' /\ inflow ev = snd p ++ inflow ev'))) (fun _ _ _ => True).
Proof.
  induction fuel as [|fuel IH]; intros ev HH; cbn [tcp_recv_loop]; [exact I|]. apply wp_bind. unfold wp at 1, sys_recv.
  destruct ev as [|[now|r|r|r|ok|ok|oom] ev]; try exact I. pose proof (happy_head _ _ _ _ _ HH) as Hn.
  destruct r as [bs| | | | |]; cbn [no_failure] in Hn; try contradiction.
  - destruct Hn as [Hn1 Hn2]. assert (firstn (Z.to_nat SOCK_BUFFER_SIZE) bs = bs) as ->. { apply firstn_all2. unfold zlen in Hn2. lia. }
    cbv zeta. destruct bs as [|b bs]; [contradiction|]. apply wp_ret. cbn [fst snd]. split; [reflexivity|]. right. split; [reflexivity|]. split; [rewrite zlen_cons in *; pose proof (zlen_nonneg bs); lia|].
    destruct HH as (_ & (C1 & C2) & _). split; [split; [inversion C1; assumption|exact C2]|]. reflexivity.
  - apply happy_next in HH; [|exact I]. eapply wp_conseq; [apply IH, HH| |auto]. auto.
  - apply happy_next in HH; [|exact I]. apply wp_ret. cbn [fst snd]. auto.
  - apply happy_next in HH; [|exact I]. apply wp_ret. cbn [fst snd]. auto.
Qed.
Lemma calm_recv fuel d : forall t fs c, modest_deadline t d -> c_sbuf c = [] ->
  calmly (recv_with_timeout N fuel d) t fs c (fun r t' fs' c' => r = AMQP_STATUS_OK /\ fs' = fs /\ c_queue c' = c_queue c).
Proof.
  induction fuel as [|fuel IH]; intros t fs c Hd Hs; cbn [recv_with_timeout]; [apply calmly_halt|].
  intros ev HH. apply wp_bind. unfold amqp_socket_recv. apply wp_get_bind. pose proof HH as (H0 & Hc & Hu & H3 & H4 & H5 & H6). pose proof Hu as (U1 & _).
  destruct (Z.eqb_spec (c_fd c) (-1)); [contradiction|]. eapply wp_conseq; [apply calm_tcp_recv, HH| |auto].
  intros [r bs] c1 ev1 l1 (-> & [(Hr & H1)|(Hr & Hz & C1 & I1)]); cbn [fst snd] in *.
  - assert (r <? 0 = true) as -> by (destruct Hr as [->| ->]; reflexivity). apply wp_get_bind. destruct (Z.eqb_spec (c_fd c) (-1)); [contradiction|].
    assert ((r =? NEEDREAD) || (r =? NEEDWRITE) = true) as -> by (destruct Hr as [->| ->]; reflexivity). apply wp_bind.
    eapply wp_conseq; [apply (calm_poll N (r =? NEEDWRITE) d t fs c Hd ev1 H1)| |auto]. intros r2 c2 ev2 l2 (t2 & fs2 & T2 & H2 & -> & -> & ->).
    change (AMQP_STATUS_OK =? AMQP_STATUS_OK) with true. cbv iota. eapply wp_conseq; [apply (IH t2 fs c (modest_later _ _ _ T2 Hd) Hs ev2 H2)| |auto].
    intros r3 c3 ev3 l3 (t3 & fs3 & T3 & HH3 & -> & -> & HQ3). exists t3, fs. split; [lia|auto].
  - subst r. destruct (Z.ltb_spec (zlen bs) 0); [lia|]. apply wp_bind. unfold store_received. apply wp_get_bind. rewrite Hs. apply wp_ret_bind. apply wp_upd.
    assert (happy t fs (set_sbuf c bs) ev1) as H1.
    { split; [exact H0|]. split; [exact C1|]. split; [exact Hu|]. split; [exact H3|]. split; [exact H4|]. split; [exact H5|].
      destruct H6 as (Hob & a & P & Z0 & Pr). split; [exact Hob|]. exists a. split; [exact P|]. split; [cbn [c_sbuf set_sbuf]; lia|]. cbn [c_sbuf set_sbuf]. rewrite Hs, I1 in Pr. exact Pr. }
    eapply wp_conseq; [apply (calm_next_recv t fs (set_sbuf c bs) ev1 H1)| |auto]. intros r3 c3 ev3 l3 (t3 & fs3 & T3 & HH3 & -> & -> & _ & HQ3).
    exists t3, fs. split; [lia|auto].
Qed.

(** taking a frame from what was received *)
Lemma received_modest f ca : received f ca -> modest_frame ca -> modest f.
Proof. intros [gen ->] H. unfold modest_frame, modest in *. destruct (snd ca); exact H. Qed.
(** the bytes [w] received since the last frame, when they are the beginning of the stream *)
Lemma wstep_tail B fs w : small B -> Forall (good_frame (b_fm B)) fs -> tail = [] \/ fs <> [] -> prefix w (ser fs ++ tail) ->
  wstep E B w = WMore \/
  (exists ca fs' w' f, fs = ca :: fs' /\ w = ser_frame (fst ca) (snd ca) ++ w' /\ prefix w' (ser fs' ++ tail) /\
     wstep E B w = WFrame f /\ received f ca /\ size_of w + 8 = zlen (ser_frame (fst ca) (snd ca))).
Proof.
  intros HB HG HT HP. pose proof HB as [HB1 HB2]. destruct (HE (b_nf B)) as (Np & Nb & No).
  destruct fs as [|[chan a] fs'].
  { destruct HT as [HT|HT]; [|contradiction]. rewrite HT in HP. apply prefix_nil_inv in HP. subst w. left. apply wstep_incomplete; left; reflexivity. }
  inversion HG as [|? ? (G1 & G2 & G3 & G4 & G5) HG']; subst. cbn [fst snd] in *. rewrite ser_cons, <- app_assoc in HP. cbn [fst snd] in HP.
  pose proof (type_of_range a) as TR. unfold ser_frame in G5. rewrite zlen_wire in G5.
  apply prefix_split in HP. destruct HP as [(r & Hw & Hr)|(w' & -> & Hw')].
  - left.
    assert (prefix w (ser [(chan, a)])) as Pw by (exists r; cbn [ser map concat fst snd]; rewrite app_nil_r; exact Hw).
    assert (Forall (good_frame (b_fm B)) [(chan, a)]) as G by (apply Forall_cons; [exact (Forall_inv HG)|apply Forall_nil]).
    destruct (wstep_well E B [(chan, a)] w HB HE G Pw) as [[W _]|(ca & fs1 & w' & f & K1 & K2 & _)]; [exact W|].
    exfalso. injection K1 as <- <-. cbn [fst snd] in K2. apply (f_equal (@length byte)) in Hw. apply (f_equal (@length byte)) in K2. rewrite app_length in *. destruct r; [contradiction|]. cbn [length] in Hw. lia.
  - right.
    destruct (wstep_wire E B (type_of a) chan (ser_payload a) xce w' (ser_frame chan a ++ w')) as (S1 & S2 & S3); auto; try lia.
    { rewrite u64_small by assumption. lia. }
    { unfold ser_frame, wire. rewrite <- !app_assoc. reflexivity. }
    rewrite body_res_received in S3 by (auto; lia).
    exists (chan, a), fs', w', (received_frame (b_gens B chan) chan a). cbn [fst snd].
    split; [reflexivity|]. split; [reflexivity|]. split; [exact Hw'|]. split; [exact S3|]. split; [exists (b_gens B chan); reflexivity|].
    rewrite S1. unfold ser_frame. rewrite zlen_wire. reflexivity.
Qed.
(** what is left to show once the state is that of [w] in the base [B] *)
Lemma consume_base t fs c a ev B : happy t fs c ev -> tail = [] \/ fs <> [] -> small B -> b_fm B = fm -> 0 <= zlen a -> zlen a <= zlen (a ++ c_sbuf c) ->
  (7 <= zlen (a ++ c_sbuf c) -> zlen a <= size_of (a ++ c_sbuf c) + 8) ->
  prefix (a ++ c_sbuf c ++ inflow ev) (ser fs ++ tail) -> amqp_handle_input E (c_in c) (c_sbuf c) = step E B (a ++ c_sbuf c) (zlen a) ->
  wp (consume_one_frame E) c ev (fun p c' ev' _ => exists t' fs', t <= t' /\ happy t' fs' c' ev' /\
  fst p = AMQP_STATUS_OK /\ c_queue c' = c_queue c /\ ((f_type (snd p) = 0 /\ fs' = fs) \/ (f_type (snd p) <> 0 /\ exists ca, fs = ca :: fs' /\ received (snd p) ca))) (fun _ _ _ => True).
Proof.
  intros HH HT HS Hfm A0 LA HK Pr EQ. pose proof HH as (H0 & Hc & Hu & H3 & H4 & H5 & (Hob & _ & _ & Z0 & _)).
  unfold wp, consume_one_frame. rewrite EQ. pose proof HS as [HB1 HB2]. set (w := a ++ c_sbuf c) in *.
  assert (prefix w (ser fs ++ tail)) as Pw. { destruct Pr as [x Pr]. exists (inflow ev ++ x). unfold w. rewrite Pr, <- !app_assoc. reflexivity. }
  pose proof SBUF_ok as SB. pose proof (zlen_app a (c_sbuf c)) as LW. fold w in LW. pose proof (size_of_range w) as SR.
  rewrite step_wstep; [|exact HS|lia|lia|exact HK].
  destruct (wstep_tail B fs w HS ltac:(rewrite Hfm; exact H3) HT Pw) as [W|(ca & fs' & w' & f' & -> & Hw & Hp & W & Hrec & Hsz)]; rewrite W.
  - destruct (Z.ltb_spec (zlen w - zlen a) 0); [lia|]. change (f_type no_frame =? 0) with true. cbv iota. replace (zlen w - zlen a) with (zlen (c_sbuf c)) by lia. rewrite zlen_length, skipn_all.
    exists t, fs. split; [lia|]. split; [|cbn [fst snd c_queue set_sbuf set_in]; auto].
    split; [exact H0|]. split; [exact Hc|]. split; [exact Hu|]. split; [exact H3|]. split; [exact H4|]. split; [exact H5|].
    split; [exact Hob|]. exists w. cbn [c_in c_sbuf set_sbuf set_in app]. split; [left; exists B; split; [reflexivity|split; [exact HS|split; [apply wstep_more, W|exact Hfm]]]|].
    split; [exact SBUF_nil|]. unfold w. rewrite <- app_assoc. exact Pr.
  - pose proof (wstep_frame _ _ _ _ W) as (W7 & W8 & W9 & W10). specialize (HK W7). destruct (Z.ltb_spec (size_of w + 8 - zlen a) 0); [lia|]. apply Forall_inv_tail in H3, H4.
    assert (f_type f' <> 0) as Hft. { destruct Hrec as [gen ->]. cbn. apply type_nonzero. }
    exists t, fs'. split; [lia|]. split; [|cbn [fst snd c_queue set_sbuf set_in]; split; [reflexivity|]; split; [reflexivity|]; right; split; [exact Hft|]; exists ca; auto].
    split; [exact H0|]. split; [exact Hc|]. split; [exact Hu|]. split; [exact H3|]. split; [exact H4|]. split; [exact H5|].
    split; [exact Hob|]. exists []. cbn [c_in c_sbuf set_sbuf set_in app].
    split. { left. exists (next_base B w). split; [reflexivity|]. split; [split; [exact HB1|apply next_base_ok, HS]|]. split; [left; reflexivity|exact Hfm]. }
    split; [unfold zlen in *; rewrite skipn_length; lia|].
    assert (skipn (Z.to_nat (size_of w + 8)) w = skipn (Z.to_nat (size_of w + 8 - zlen a)) (c_sbuf c)) as <-.
    { generalize dependent (size_of w). intros n ? ? ? ? ? ? ?. unfold w. rewrite (skipn_app _ a). rewrite (@skipn_all2 _ _ a) by (unfold zlen in *; lia). cbn [app]. f_equal. unfold zlen in *; lia. }
    rewrite Hsz, zlen_length. assert (skipn (length (ser_frame (fst ca) (snd ca))) w = w') as ->. { rewrite Hw at 1. rewrite skipn_app, skipn_all, Nat.sub_diag. reflexivity. }
    rewrite ser_cons, <- app_assoc in Pr. rewrite app_assoc in Pr. change (a ++ c_sbuf c) with w in Pr. rewrite Hw, <- app_assoc in Pr. apply prefix_cut in Pr. exact Pr.
Qed.
Lemma calm_consume t fs c : tail = [] \/ fs <> [] -> calmly (consume_one_frame E) t fs c (fun p t' fs' c' =>
  fst p = AMQP_STATUS_OK /\ c_queue c' = c_queue c /\ ((f_type (snd p) = 0 /\ fs' = fs) \/ (f_type (snd p) <> 0 /\ exists ca, fs = ca :: fs' /\ received (snd p) ca))).
Proof.
  intros HT ev HH. pose proof HH as (H0 & Hc & Hu & H3 & H4 & H5 & (Hob & a & Ha & Z0 & Pr)).
  destruct (c_sbuf c) as [|d0 d'] eqn:ED.
  { unfold wp, consume_one_frame. rewrite ED. unfold amqp_handle_input. change (zlen (@nil byte) =? 0) with true. cbn iota. change (AMQP_STATUS_OK <? 0) with false. cbv iota.
    exists t, fs. split; [lia|]. split; [|cbn [fst snd c_queue set_sbuf set_in]; auto].
    replace (set_sbuf (set_in c (c_in c)) (skipn (Z.to_nat AMQP_STATUS_OK) [])) with c; [exact HH|]. rewrite skipn_nil, <- ED. destruct c; reflexivity. }
  rewrite <- ED in *. assert (HN : c_sbuf c <> []) by (rewrite ED; discriminate). clear ED d0 d'. pose proof SBUF_ok as SB.
  pose proof (zlen_nonneg a) as A0. pose proof (zlen_app a (c_sbuf c)) as LW. pose proof (zlen_nonneg (c_sbuf c)) as L0. pose proof (size_of_range (a ++ c_sbuf c)) as SR.
  destruct Ha as [(B & HB & HS & HI & Hfm)|(B & HB & HS & Ha & Hfm & Hj & Hn7 & Hmg)].
  - pose proof HS as [HB1 HB2]. apply (consume_base t fs c a ev B); try assumption; try lia.
    + intros H7. destruct HI as [HI|(K7 & _ & K8)]; [lia|]. rewrite size_of_app by lia. lia.
    + rewrite HB. apply handle_input_closed; try assumption; lia.
  - pose proof HS as [HB1 HB2]. set (w := a ++ c_sbuf c) in *.
    assert (prefix w (ser fs ++ tail)) as Pw. { destruct Pr as [x Pr]. exists (inflow ev ++ x). unfold w. rewrite Pr, <- !app_assoc. reflexivity. }
    pose proof (handle_initial E B a (c_sbuf c) HB2 Ha HN ltac:(lia)) as HI. cbv zeta in HI. fold w in HI. rewrite <- HB in HI.
    destruct (Z.ltb_spec (zlen w) 8) as [L8|L8].
    + unfold wp, consume_one_frame. rewrite HI. destruct (Z.ltb_spec (zlen (c_sbuf c)) 0); [lia|]. change (f_type no_frame =? 0) with true. cbv iota. rewrite zlen_length, skipn_all.
      exists t, fs. split; [lia|]. split; [|cbn [fst snd c_queue set_sbuf set_in]; auto].
      split; [exact H0|]. split; [exact Hc|]. split; [exact Hu|]. split; [exact H3|]. split; [exact H4|]. split; [exact H5|].
      split; [exact Hob|]. exists w. cbn [c_in c_sbuf set_sbuf set_in app]. split; [right; exists B; repeat (split; [auto|]); assumption|]. split; [exact SBUF_nil|]. unfold w. rewrite <- app_assoc. exact Pr.
    + destruct Pw as [x Px]. assert (is_magic w = false) as Hm by (apply (magic_app w x); rewrite <- Px; exact Hmg). rewrite Hm in HI.
      assert (garbled (E (b_nf B)) w = w) as GW.
      { unfold garbled. rewrite Hj, <- Hn7, Px. clear -L8. destruct w as [|w0 [|w1 [|w2 [|w3 [|w4 [|w5 [|w6 [|w7 w]]]]]]]]; try (unfold zlen in L8; cbn [length] in L8; lia). reflexivity. }
      assert (Pw : prefix w (ser fs ++ tail)) by (exists x; exact Px).
      assert (HSi : small (init_base B w)) by (split; [exact HB1|apply (zlen_firstn 8); lia]).
      pose proof (wstep_tail (init_base B w) fs w HSi ltac:(cbn [init_base b_fm]; rewrite Hfm; exact H3) HT Pw) as WW.
      destruct (HE (b_nf B)) as (Np & Nb & _).
      assert (refused B w = false) as Hr.
      { unfold refused. unfold wstep in WW. cbn [init_base b_fm b_nf] in WW. destruct (Z.ltb_spec (zlen w) 7); [lia|]. 
        destruct (INT_MAX <=? size_of w); [destruct WW as [K|(? & ? & ? & ? & _ & _ & _ & K & _)]; discriminate|].
        destruct (u64 (b_fm B) <? size_of w + 8); [destruct WW as [K|(? & ? & ? & ? & _ & _ & _ & K & _)]; discriminate|]. reflexivity. }
      rewrite Hr, Np, Nb, GW in HI. apply (consume_base t fs c a ev (init_base B w)); try assumption; fold w; try lia.
Qed.
Lemma happy_gens t fs c ev g : i_state (c_in c) = IDLE -> happy t fs c ev -> happy t fs (set_gens c g) ev.
Proof.
  intros Hi (H0 & Hc & Hu & H3 & H4 & H5 & (Hob & a & [(B & HB & [HB1 HB2] & HI & Hf)|(B & HB & _)] & Z0 & Pr)); [|rewrite HB in Hi; discriminate].
  assert (reads E (c_in c) false a) as HR by (exists B; split; [exact HB|split; [split; assumption|exact HI]]).
  destruct (idle_reads E _ _ _ Hi HR) as (_ & -> & _).
  split; [exact H0|]. split; [exact Hc|]. split; [exact Hu|]. split; [exact H3|]. split; [exact H4|]. split; [exact H5|].
  split; [exact Hob|]. exists []. split; [|split; [exact Z0|exact Pr]]. left. exists (mkB (b_fm B) (b_hdr B) g (b_nf B)). unfold set_gens. cbn [c_in set_in]. rewrite HB.
  split; [reflexivity|]. split; [split; assumption|]. split; [left; reflexivity|exact Hf].
Qed.
Lemma calm_release_on ch t fs c : calmly (amqp_maybe_release_buffers_on_channel ch) t fs c (fun _ t' fs' c' => fs' = fs /\ c_sbuf c' = c_sbuf c /\ c_queue c' = c_queue c).
Proof.
  intros ev HH. unfold amqp_maybe_release_buffers_on_channel. apply wp_get_bind.
  assert (exists t' fs', t <= t' /\ happy t' fs' c ev /\ fs' = fs /\ c_sbuf c = c_sbuf c /\ c_queue c = c_queue c) as K by (exists t, fs; split; [lia|auto]).
  destruct (i_state (c_in c)) eqn:Hi; try (apply wp_ret; exact K). destruct (negb _); [exact I|]. destruct (existsb _ _); [apply wp_ret; exact K|].
  apply wp_upd. exists t, fs. split; [lia|]. split; [|auto]. apply happy_gens; assumption.
Qed.
Lemma calm_release t fs c : calmly amqp_release_buffers t fs c (fun _ t' fs' c' => fs' = fs /\ c_sbuf c' = c_sbuf c /\ c_queue c' = c_queue c).
Proof.
  intros ev HH. unfold amqp_release_buffers. apply wp_get_bind. destruct (i_state (c_in c)) eqn:Hi; try exact I. destruct (negb _); [exact I|].
  apply wp_upd. exists t, fs. split; [lia|]. split; [|auto]. apply happy_gens; assumption.
Qed.
Lemma calm_maybe_release t fs c : calmly amqp_maybe_release_buffers t fs c (fun _ t' fs' c' => fs' = fs).
Proof.
  unfold amqp_maybe_release_buffers. apply calmly_get_bind. intros _ _ _. destruct (amqp_release_buffers_ok c); [|apply calmly_ret; reflexivity].
  eapply calmly_conseq; [apply calm_release|]. intros ? ? ? ? _ (-> & _). reflexivity.
Qed.

(** waiting for a frame: the next one that is no heartbeat *)
Lemma calm_heartbeat t fs c : calmly (amqp_send_frame N E heartbeat_frame) t fs c (fun r t' fs' c' => r = AMQP_STATUS_OK /\ fs' = fs /\ c_sbuf c' = c_sbuf c /\ c_queue c' = c_queue c).
Proof.
  eapply calmly_conseq; [apply calm_send_frame_inner, inf_modest|]. cbv beta. intros r t1 fs1 c1 T1 ((buf & enc & F) & _ & H). apply heartbeat_bytes in F. split; [apply F|exact H].
Qed.
Definition is_beat (ca : Z * aframe) : Prop := type_of (snd ca) = 8.
Definition takes (fs fs' : list (Z * aframe)) (f : frame) : Prop :=
  exists hbs ca, fs = hbs ++ ca :: fs' /\ Forall is_beat hbs /\ ~ is_beat ca /\ received f ca.
(** the next frame that is no heartbeat *)
Definition next_is (fs : list (Z * aframe)) (ca : Z * aframe) (rest : list (Z * aframe)) : Prop :=
  exists hbs, fs = hbs ++ ca :: rest /\ Forall is_beat hbs /\ ~ is_beat ca.
(** there is one before the tail *)
Definition enough (fs : list (Z * aframe)) : Prop := tail = [] \/ exists ca rest, next_is fs ca rest.
Lemma enough_one fs : enough fs -> tail = [] \/ fs <> [].
Proof. intros [H|(ca & rest & [|h hbs] & -> & _)]; [left; exact H|right; discriminate..]. Qed.
Lemma enough_next ca fs : enough (ca :: fs) -> is_beat ca -> enough fs.
Proof.
  intros [H|(cb & rest & [|h hbs] & E1 & H1 & H2)] Hb; [left; exact H| |]; injection E1 as -> ->; [contradiction|].
  right. exists cb, rest, hbs. split; [reflexivity|]. split; [inversion H1; assumption|exact H2].
Qed.
Lemma received_ty f ca : received f ca -> f_type f = type_of (snd ca).
Proof. intros [gen ->]. reflexivity. Qed.
Lemma calm_wait_loop fuel d : forall t fs c, modest_deadline t d -> enough fs ->
  calmly (wait_frame_loop N E fuel false d) t fs c (fun p t' fs' c' => fst p = AMQP_STATUS_OK /\ c_queue c' = c_queue c /\ takes fs fs' (snd p)).
Proof.
  induction fuel as [|fuel IH]; intros t fs c Hd HT; cbn [wait_frame_loop]; [apply calmly_halt|].
  apply calmly_get_bind. intros H0 (U1 & U2 & U3 & U4) _. cbn [negb andb]. destruct (amqp_data_in_buffer c) eqn:DB.
  - eapply calmly_bind; [apply calm_consume, enough_one, HT|]. cbv beta. intros [r f] t1 fs1 c1 T1 (Hr & Q1 & Hf). cbn [fst snd] in *. subst r. change (AMQP_STATUS_OK =? AMQP_STATUS_OK) with true. cbn [negb].
    pose proof (modest_later _ _ _ T1 Hd) as Hd1. destruct (Z.eqb_spec AMQP_FRAME_HEARTBEAT (f_type f)) as [Hb|Hb].
    + destruct Hf as [(K & _)|(_ & ca & -> & Hrec)]; [rewrite K in Hb; discriminate|].
      eapply calmly_bind; [apply calm_release_on|]. cbv beta. intros _ t2 fs2 c2 T2 (-> & S2 & Q2).
      assert (is_beat ca) as Hbeat by (unfold is_beat; rewrite <- (received_ty _ _ Hrec), <- Hb; reflexivity).
      eapply calmly_conseq; [apply (IH t2 fs1 c2 (modest_later _ _ _ T2 Hd1) (enough_next _ _ HT Hbeat))|]. cbv beta. intros p t3 fs3 c3 T3 (P1 & P2 & (hbs & cb & -> & P3 & P4)).
      split; [exact P1|]. split; [congruence|]. exists (ca :: hbs), cb. split; [reflexivity|]. split; [|exact P4]. constructor; [exact Hbeat|exact P3].
    + destruct (Z.eqb_spec (f_type f) 0) as [T0|T0]; cbn [negb].
      * destruct Hf as [(_ & ->)|(K & _)]; [|contradiction]. eapply calmly_conseq; [apply (IH t1 fs c1 Hd1 HT)|]. cbv beta. intros p t3 fs3 c3 T3 (P1 & P2 & P3). split; [exact P1|]. split; [congruence|exact P3].
      * destruct Hf as [(K & _)|(_ & ca & -> & Hrec)]; [contradiction|]. apply calmly_ret. split; [reflexivity|]. split; [exact Q1|]. exists [], ca. split; [reflexivity|]. split; [constructor|].
        split; [|exact Hrec]. unfold is_beat. rewrite <- (received_ty _ _ Hrec). intros K. apply Hb. rewrite K. reflexivity.
  - assert (c_sbuf c = []) as Hs by (unfold amqp_data_in_buffer in DB; destruct (c_sbuf c); [reflexivity|discriminate]).
    eapply calmly_bind; [apply calm_has_past|]. cbv beta. intros r t1 fs1 c1 T1 (Hr & -> & ->). pose proof (modest_later _ _ _ T1 Hd) as Hd1.
    assert (r =? AMQP_STATUS_TIMER_FAILURE = false) as -> by (destruct Hr as [->| ->]; reflexivity).
    eapply (calmly_bind _ _ _ _ _ (fun r _ fs' c' => r = AMQP_STATUS_OK /\ fs' = fs /\ c_sbuf c' = [] /\ c_queue c' = c_queue c)).
    { destruct Hr as [->| ->]; cbv iota.
      - change (AMQP_STATUS_OK =? AMQP_STATUS_TIMEOUT) with false. cbv iota. apply calmly_ret. auto.
      - change (AMQP_STATUS_TIMEOUT =? AMQP_STATUS_TIMEOUT) with true. cbv iota. eapply calmly_conseq; [apply calm_heartbeat|]. cbv beta. intros r2 t2 fs2 c2 T2 (-> & -> & S2 & Q2). rewrite S2. auto. }
    cbv beta. intros r2 t2 fs2 c2 T2 (-> & -> & S2 & Q2). change (AMQP_STATUS_OK =? AMQP_STATUS_OK) with true. cbn [negb]. pose proof (modest_later _ _ _ T2 Hd1) as Hd2.
    apply calmly_get_bind. intros H02 (V1 & V2 & V3 & V4) _. cbv zeta.
    eapply calmly_bind; [apply calm_recv; [apply first_modest; [exact Hd2|apply first_modest; assumption]|exact S2]|]. cbv beta. intros r3 t3 fs3 c3 T3 (-> & -> & Q3).
    change (AMQP_STATUS_OK =? AMQP_STATUS_TIMEOUT) with false. change (AMQP_STATUS_OK =? AMQP_STATUS_OK) with true. cbn [negb]. cbv iota.
    eapply calmly_conseq; [apply (IH t3 fs c3 (modest_later _ _ _ T3 Hd2) HT)|]. cbv beta. intros p t4 fs4 c4 T4 (P1 & P2 & P3). split; [exact P1|]. split; [congruence|exact P3].
Qed.
Lemma takes_good fs fs' f : Forall (good_frame fm) fs -> Forall modest_frame fs -> takes fs fs' f -> modest f /\ f_type f <> 0 /\ exists ca, good_frame fm ca /\ received f ca.
Proof.
  intros HG HM (hbs & ca & -> & _ & _ & Hr). apply Forall_app in HG, HM. destruct HG as [_ HG]. destruct HM as [_ HM]. inversion HG; subst. inversion HM; subst.
  split; [eapply received_modest; eassumption|]. split; [rewrite (received_ty _ _ Hr); apply type_nonzero|]. exists ca. auto.
Qed.
Lemma calm_wait d t fs c : modest_deadline t d -> enough fs ->
  calmly (wait_frame_inner N E d) t fs c (fun p t' fs' c' => fst p = AMQP_STATUS_OK /\ c_queue c' = c_queue c /\ takes fs fs' (snd p) /\ modest (snd p) /\ f_type (snd p) <> 0).
Proof.
  intros Hd HT ev HH. eapply wp_conseq; [apply (calm_wait_loop N d t fs c Hd HT ev HH)| |auto]. intros p c' ev' _ (t' & fs' & T & H' & H1 & H2 & H3). exists t', fs'. split; [exact T|]. split; [exact H'|].
  destruct HH as (_ & _ & _ & HG & HM & _). destruct (takes_good _ _ _ HG HM H3) as (K1 & K2 & _). auto.
Qed.
End Calm.
