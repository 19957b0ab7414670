(** Which statuses the layers of the library report, for a clock that does not go back
    (for C73). *)
From Coq Require Import String ZArith List Bool Lia.
From Verif Require Import Base BaseFacts Codec TableModel TableSpec TableOps FramingStmt FramingGen FramingModel MethodSpec
  Frame FrameSpec Time Sasl Net NetApi NetSpec NetFacts NetSend NetRecv NetWalk NetWait NetTyped NetSpeak EncStatus DecStatus CalmSpec SpeakSpec NetNear CodesSpec.
Import ListNotations.
Local Open Scope Z_scope.

Notation ok_at := settled_at.
Definition keepd := NetNear.keepd.
Lemma keepd_later d T T' : T <= T' < M63 -> keepd d T -> keepd d T'.
Proof. apply keepd_mono. Qed.
Lemma ok_range T c : ok_at T c -> 0 <= T < M63.
Proof. intros ((H & _) & _). exact H. Qed.
Lemma ok_later T l c : ok_at T c -> steady T l -> ok_at (last_reading T l) c.
Proof.
  intros (H1 & H2 & H3 & H4 & H5) Hs. pose proof (last_later l T ltac:(apply H1) Hs). split; [apply near_later; assumption|].
  split; [eapply modest_later; [|exact H2]; lia|auto].
Qed.
Lemma ok_fields T c c' : c_hb c' = c_hb c -> c_next_recv c' = c_next_recv c -> c_next_send c' = c_next_send c -> c_to c' = c_to c ->
  zlen (c_sbuf c') <= zlen (c_sbuf c) -> zlen (c_outbuf c') <= zlen (c_outbuf c) -> ok_at T c -> ok_at T c'.
Proof.
  intros E1 E2 E3 E4 E5 E6 (H1 & H2 & H3 & H4 & H5). split; [eapply near_fields; eassumption|]. rewrite E3, E4. repeat (split; [assumption|]). lia.
Qed.

(** [kn T P m c]: if the clock readings are steady from [T] on, what [m] leaves is again
    ok and satisfies [P]. *)
Definition kn {A} (T : Z) (P : A -> conn -> Z -> Prop) (m : M A) (c : conn) : Prop := forall ev,
  wp m c ev (fun a c' _ l => steady T l -> ok_at (last_reading T l) c' /\ P a c' (last_reading T l)) (fun _ _ _ => True).
Lemma kn_bind {A B} T (P : A -> conn -> Z -> Prop) (Q : B -> conn -> Z -> Prop) m k c : ok_at T c -> kn T P m c ->
  (forall a c' T', T <= T' < M63 -> ok_at T' c' -> P a c' T' -> kn T' Q (k a) c') -> kn T Q (bind m k) c.
Proof.
  intros Hn H1 H2 ev. apply wp_bind. eapply wp_conseq; [apply H1| |auto]; cbv beta. intros a c1 ev1 l1 A1.
  unfold wp. destruct (k a c1 ev1) as [b c2 ev2 l2|s c2 l2] eqn:Ek; [|exact I]. intros Hs. apply steady_app in Hs. destruct Hs as [S1 S2]. rewrite last_reading_app.
  destruct (A1 S1) as [A2 A3]. pose proof (last_later l1 T (ok_range _ _ Hn) S1) as HT. specialize (H2 a c1 _ HT A2 A3 ev1). unfold wp in H2. rewrite Ek in H2. apply H2, S2.
Qed.
Lemma kn_ret {A} T (P : A -> conn -> Z -> Prop) a c : ok_at T c -> P a c T -> kn T P (ret a) c.
Proof. intros H1 H2 ev. apply wp_ret. intros _. cbn [last_reading]. auto. Qed.
Lemma kn_halt {A} T (P : A -> conn -> Z -> Prop) s c : kn T P (halt s) c.
Proof. intros ev. apply wp_halt. exact I. Qed.
Lemma kn_get {A} T (P : A -> conn -> Z -> Prop) k c : kn T P (k c) c -> kn T P (bind get k) c.
Proof. intros H ev. apply wp_get_bind, H. Qed.
Lemma kn_upd T f c : ok_at T (f c) -> kn T (fun _ c' T' => c' = f c /\ T' = T) (upd f) c.
Proof. intros H ev. apply wp_upd. intros _. cbn [last_reading]. auto. Qed.
Lemma kn_conseq {A} T (P P' : A -> conn -> Z -> Prop) m c : kn T P m c -> (forall a c' T', P a c' T' -> P' a c' T') -> kn T P' m c.
Proof. intros H H2 ev. eapply wp_conseq; [apply H| |auto]; cbv beta. intros a c' ev' l K Hs. destruct (K Hs); auto. Qed.
Lemma kn_need {A} T (o : option A) c : ok_at T c -> kn T (fun a c' T' => o = Some a /\ c' = c /\ T' = T) (need o) c.
Proof. intros H. destruct o as [a|]; [apply kn_ret; auto|apply kn_halt]. Qed.
Lemma kn_alloc T c : ok_at T c -> kn T (fun _ _ _ => True) sys_alloc c.
Proof. intros H ev. unfold wp, sys_alloc. destruct ev as [|[] ev]; auto. Qed.
Lemma kn_clone T c : ok_at T c -> kn T (fun _ _ _ => True) sys_clone c.
Proof. intros H ev. unfold wp, sys_clone. destruct ev as [|[] ev]; auto. Qed.

(** success or one of these *)
Definition got (fs : list Z) (r : Z) : Prop := r = AMQP_STATUS_OK \/ In r fs.
Lemma in_sub l l' r : forallb (fun x => existsb (Z.eqb x) l') l = true -> In r l -> In r l'.
Proof.
  intros H Hr. rewrite forallb_forall in H. specialize (H r Hr). apply existsb_exists in H. destruct H as (x & Hx & He). apply Z.eqb_eq in He. subst. exact Hx.
Qed.
Lemma got_sub l l' r : forallb (fun x => existsb (Z.eqb x) l') l = true -> got l r -> got l' r.
Proof. intros H [K|K]; [left; exact K|right; eapply in_sub; eassumption]. Qed.
Lemma got_ok l : got l AMQP_STATUS_OK.
Proof. left. reflexivity. Qed.
Definition lim (d : Z) : list Z := if d =? amqp_time_infinite then [] else [AMQP_STATUS_TIMEOUT].
Lemma lim_in d : d <> amqp_time_infinite -> In AMQP_STATUS_TIMEOUT (lim d).
Proof. unfold lim. destruct (Z.eqb_spec d amqp_time_infinite); [contradiction|left; reflexivity]. Qed.
Lemma lim_out d r : In r (lim d) -> r = AMQP_STATUS_TIMEOUT /\ d <> amqp_time_infinite.
Proof. unfold lim. destruct (Z.eqb_spec d amqp_time_infinite); [intros []|intros [<-|[]]; auto]. Qed.
(** membership in lists that differ by a time limit *)
Ltac member := cbn [fst reply_in]; lazymatch goal with |- In ?r _ => vm_compute; tauto end.

Section Codes.
Context (N : nat) (E : nat -> aenv).

Lemma kn_clock T c : ok_at T c -> kn T (fun now c' T' => c' = c /\ (now = 0 \/ now = T')) sys_clock c.
Proof.
  intros H ev. unfold wp, sys_clock. destruct ev as [|[] ev]; auto. intros Hs. split; [apply ok_later; assumption|]. split; [reflexivity|].
  cbn [last_reading]. destruct (Z.eqb_spec (u64 now) 0); auto.
Qed.
Lemma kn_ms T d c : ok_at T c -> keepd d T ->
  kn T (fun ms c' T' => c' = c /\ (ms < -1 -> ms = AMQP_STATUS_TIMER_FAILURE) /\ (d = amqp_time_infinite -> ms = -1)) (time_ms_until d) c.
Proof.
  intros Hn Hd. unfold time_ms_until. destruct (Z.eqb_spec UINT64_MAX d) as [<-|H1].
  - apply kn_ret; [exact Hn|]. split; [reflexivity|]. unfold amqp_time_ms_until. rewrite Z.eqb_refl. split; [lia|reflexivity].
  - cbn [orb]. destruct (Z.eqb_spec 0 d) as [<-|H2].
    + apply kn_ret; [exact Hn|]. split; [reflexivity|]. unfold amqp_time_ms_until. destruct (Z.eqb_spec UINT64_MAX 0); [discriminate|]. cbn [Z.eqb]. split; [lia|discriminate].
    + eapply kn_bind; [exact Hn|apply kn_clock, Hn|]. cbv beta. intros now c1 T' HT Hn' [-> Hnow]. apply kn_ret; [exact Hn'|]. split; [reflexivity|].
      split; [|intros K; contradiction H1; rewrite K; reflexivity]. unfold amqp_time_ms_until.
      destruct (Z.eqb_spec UINT64_MAX d); [contradiction|]. destruct (Z.eqb_spec 0 d); [contradiction|].
      destruct (Z.eqb_spec now 0) as [Hz|Hz]; [reflexivity|]. destruct Hnow as [Hnow|Hnow]; [contradiction|]. subst T'.
      destruct (Z.leb_spec d now); [lia|]. destruct Hd as [Hm Hr]. destruct Hm as [Hm|Hm]; [exfalso; apply H1; rewrite Hm; reflexivity|].
      unfold u64 at 1. rewrite Z.mod_small by lia. unfold AMQP_NS_PER_MS. intros K. exfalso. revert K. unfold signed.
      assert (0 <= (d - now) / 1000000 < M31). { split; [apply Z.div_pos; lia|]. apply Z.div_lt_upper_bound; lia. }
      rewrite Z.mod_small by lia. destruct (Z.ltb_spec ((d - now) / 1000000) (M32 / 2)); [lia|]. change (M32 / 2) with M31 in *. lia.
Qed.
Definition polled (d : Z) (r : Z) : Prop := got ([AMQP_STATUS_SOCKET_ERROR; AMQP_STATUS_TIMER_FAILURE] ++ lim d) r.
Lemma kn_poll fuel : forall T w d c, ok_at T c -> keepd d T -> kn T (fun r c' _ => c' = c /\ polled d r) (amqp_poll fuel w d) c.
Proof.
  induction fuel as [|fuel IH]; intros T w d c Hn Hd; cbn [amqp_poll]; [apply kn_halt|].
  eapply kn_bind; [exact Hn|apply (kn_ms T d c Hn Hd)|]. cbv beta. intros ms c1 T' HT Hn' (-> & H1 & H2).
  destruct (Z.ltb_spec ms (-1)) as [L|L].
  - apply kn_ret; [exact Hn'|]. split; [reflexivity|]. rewrite (H1 L). right. right. left. reflexivity.
  - eapply (kn_bind _ (fun r c' T' => c' = c /\ (r = PTimeout -> 0 <= ms))); [exact Hn'| |].
    + intros ev. unfold wp, sys_poll. destruct ev as [|[| | |r| | |] ev]; auto. destruct r; try (destruct (Z.ltb_spec ms 0)); auto; intros Hs; (split; [exact (ok_later T' _ c Hn' Hs)|split; [reflexivity|]]); try discriminate; intros; lia.
    + cbv beta. intros r c2 T2 HT2 Hn2 [-> Hr]. destruct r; [apply kn_ret; [exact Hn2|split; [reflexivity|apply got_ok]]| | |].
      * apply kn_ret; [exact Hn2|]. split; [reflexivity|]. right. apply in_or_app. right. apply lim_in. intros K. specialize (H2 K). specialize (Hr eq_refl). lia.
      * apply IH; [exact Hn2|]. eapply keepd_later; [|exact Hd]. lia.
      * apply kn_ret; [exact Hn2|]. split; [reflexivity|]. right. left. reflexivity.
Qed.

Definition sock_failures : list Z := [AMQP_STATUS_SOCKET_ERROR; AMQP_STATUS_CONNECTION_CLOSED; AMQP_STATUS_SSL_ERROR].
Definition tried (len r : Z) : Prop := 0 <= r <= len \/ In r (NEEDREAD :: NEEDWRITE :: AMQP_STATUS_SOCKET_CLOSED :: sock_failures).
Lemma kn_send_loop fuel : forall T more buf c, ok_at T c -> kn T (fun r c' T' => c' = c /\ T' = T /\ tried (zlen buf) r) (tcp_send_loop fuel more buf) c.
Proof.
  induction fuel as [|fuel IH]; intros T more buf c Hn; cbn [tcp_send_loop]; [apply kn_halt|].
  eapply (kn_bind _ (fun r c' T' => c' = c /\ T' = T /\ match r with SOk n => 0 <= n <= zlen buf | _ => True end)); [exact Hn| |].
  - intros ev. unfold wp, sys_send. destruct ev as [|[|r| | | | |] ev]; auto. pose proof (zlen_nonneg buf). destruct r; intros Hs; cbn [last_reading]; (split; [exact Hn|]); repeat (split; [reflexivity|]); auto. lia.
  - cbv beta. intros r c1 T1 HT1 Hn1 (-> & -> & Hr).
    destruct r as [n| | | | | |]; try (apply kn_ret; [exact Hn1|]; split; [reflexivity|]; split; [reflexivity|]; right; member).
    + apply kn_ret; [exact Hn1|]. split; [reflexivity|]. split; [reflexivity|]. left. exact Hr.
    + apply IH. exact Hn1.
Qed.
Lemma kn_socket_send T more buf c : ok_at T c -> kn T (fun r c' T' => c' = c /\ T' = T /\ tried (zlen buf) r) (amqp_socket_send N more buf) c.
Proof.
  intros Hn. unfold amqp_socket_send. apply kn_get. destruct (_ =? _); [apply kn_ret; [exact Hn|]; split; [reflexivity|]; split; [reflexivity|]; right; member|apply kn_send_loop, Hn].
Qed.
Lemma kn_do_poll T r d c : ok_at T c -> keepd d T -> tried 0 r -> kn T (fun r c' _ => c' = c /\ got (link_failures ++ lim d) r) (do_poll N r d) c.
Proof.
  intros Hn Hd Hr. unfold do_poll. apply kn_get. destruct (_ =? _); [apply kn_ret; [exact Hn|]; split; [reflexivity|]; right; right; left; reflexivity|].
  assert (forall r, polled d r -> got (link_failures ++ lim d) r) as Hp.
  { intros x [K|K]; [left; exact K|right]. apply in_app_or in K. apply in_or_app. destruct K as [K|K]; [left; revert K; apply in_sub; reflexivity|right; exact K]. }
  destruct (Z.eqb_spec r NEEDREAD) as [->|N1]; [eapply kn_conseq; [apply (kn_poll N T false d c Hn Hd)|cbv beta; intros; intuition auto]|].
  destruct (Z.eqb_spec r NEEDWRITE) as [->|N2]; [eapply kn_conseq; [apply (kn_poll N T true d c Hn Hd)|cbv beta; intros; intuition auto]|].
  apply kn_ret; [exact Hn|]. split; [reflexivity|]. destruct Hr as [Hr|[Hr|[Hr|Hr]]]; [left; unfold AMQP_STATUS_OK; lia|congruence|congruence|].
  right. apply in_or_app. left. revert Hr. apply in_sub. reflexivity.
Qed.
Definition sent_count (len d r : Z) : Prop := In r link_failures \/ (0 <= r <= len /\ (r <> len -> d <> amqp_time_infinite)).
Lemma kn_try_send_loop fuel : forall T len left d more c, ok_at T c -> keepd d T -> zlen left <= len ->
  kn T (fun r c' _ => c' = c /\ sent_count len d r) (try_send_loop N fuel len left d more) c.
Proof.
  induction fuel as [|fuel IH]; intros T len left d more c Hn Hd Hl; cbn [try_send_loop]; [apply kn_halt|].
  eapply kn_bind; [exact Hn|apply kn_socket_send, Hn|]. cbv beta. intros r c1 T1 HT1 Hn1 (-> & -> & Hr). pose proof (zlen_nonneg left) as H0. destruct (Z.ltb_spec 0 r).
  - cbv zeta. pose proof (zlen_skipn_le (Z.to_nat r) left). destruct (_ =? _); [|apply IH; auto; lia].
    apply kn_ret; [exact Hn1|]. split; [reflexivity|]. right. split; [lia|]. intros K. contradiction K. reflexivity.
  - assert (tried 0 r) as Hr0. { destruct Hr as [Hr|Hr]; [left; lia|right; exact Hr]. }
    eapply kn_bind; [exact Hn1|apply (kn_do_poll _ _ d c Hn1 Hd Hr0)|]. cbv beta. intros r2 c2 T2 HT2 Hn2 (-> & Hr2).
    destruct (Z.eqb_spec r2 AMQP_STATUS_OK); [apply IH; auto; eapply keepd_later; [|exact Hd]; lia|].
    destruct Hr2 as [Hr2|Hr2]; [contradiction|]. apply in_app_or in Hr2.
    destruct (Z.eqb_spec r2 AMQP_STATUS_TIMEOUT) as [->|Hnt]; apply kn_ret; try exact Hn2; (split; [reflexivity|]).
    + right. split; [lia|]. intros _. destruct Hr2 as [Hr2|Hr2]; [exfalso; vm_compute in Hr2; intuition discriminate|apply lim_out in Hr2; apply Hr2].
    + left. destruct Hr2 as [Hr2|Hr2]; [exact Hr2|]. apply lim_out in Hr2. destruct Hr2; contradiction.
Qed.
Lemma kn_try_send T buf d more c : ok_at T c -> keepd d T -> kn T (fun r c' _ => c' = c /\ sent_count (zlen buf) d r) (amqp_try_send N buf d more) c.
Proof. intros Hn Hd. apply kn_try_send_loop; auto. lia. Qed.

Lemma keepd_infinite T c : ok_at T c -> keepd amqp_time_infinite T.
Proof. intros H. split; [left; reflexivity|eapply ok_range, H]. Qed.

Lemma kn_s_from_now T s c : ok_at T c -> 0 <= s <= 131070 ->
  kn T (fun p c' T' => c' = c /\ ((fst p = AMQP_STATUS_OK /\ exists d, snd p = Some d /\ modest_deadline T' d) \/ (fst p = AMQP_STATUS_TIMER_FAILURE /\ snd p = None))) (time_s_from_now s) c.
Proof.
  intros Hn Hs. unfold time_s_from_now. destruct (Z.leb_spec s 0).
  - apply kn_ret; [exact Hn|]. split; [reflexivity|]. left. unfold amqp_time_s_from_now. destruct (Z.leb_spec s 0); [|lia]. split; [reflexivity|]. exists amqp_time_infinite. split; [reflexivity|left; reflexivity].
  - eapply kn_bind; [exact Hn|apply kn_clock, Hn|]. cbv beta. intros now c1 T' HT Hn' [-> Hnow]. apply kn_ret; [exact Hn'|]. split; [reflexivity|].
    unfold amqp_time_s_from_now. destruct (Z.leb_spec s 0); [lia|]. destruct (Z.eqb_spec now 0) as [Hz|Hz]; [right; auto|]. destruct Hnow as [Hnow|Hnow]; [contradiction|]. subst T'. left.
    cbv zeta. unfold AMQP_NS_PER_S. pose proof (ok_range _ _ Hn). assert (u64 (u64 s * 1000000000) = s * 1000000000) as Hu.
    { unfold u64. rewrite (Z.mod_small s) by lia. apply Z.mod_small. lia. }
    rewrite Hu. assert (u64 (now + s * 1000000000) = now + s * 1000000000) as -> by (unfold u64 at 1; apply Z.mod_small; lia).
    destruct (Z.ltb_spec (now + s * 1000000000) now); [lia|]. destruct (Z.ltb_spec (now + s * 1000000000) (s * 1000000000)); [lia|]. cbn [orb fst snd].
    split; [reflexivity|]. eexists. split; [reflexivity|]. right. lia.
Qed.
Definition in_time : list Z := [AMQP_STATUS_TIMER_FAILURE].
Lemma kn_next_recv T c : ok_at T c -> kn T (fun r c' _ => got in_time r) update_next_recv c.
Proof.
  intros Hn. unfold update_next_recv. apply kn_get. pose proof Hn as ((_ & Hh & _) & _).
  assert (amqp_heartbeat_recv c = 2 * c_hb c) as ->.
  { unfold amqp_heartbeat_recv, signed. rewrite Z.mod_small by lia. destruct (Z.ltb_spec (2 * c_hb c) (M32 / 2)); [reflexivity|]. change (M32 / 2) with M31 in *. lia. }
  eapply kn_bind; [exact Hn|apply (kn_s_from_now T _ c Hn); lia|]. cbv beta. intros [r t] c1 T1 HT1 Hn1 (-> & Hd). cbn [fst snd] in Hd.
  destruct Hd as [(-> & d & -> & Hd)|(-> & ->)].
  - eapply kn_bind; [exact Hn1|apply (kn_upd T1 (fun c => set_next_recv c d)); destruct Hn1 as ((A1 & A2 & A3 & A4) & A5); split; [split; [exact A1|split; [exact A2|split; [exact Hd|exact A4]]]|exact A5]|].
    cbv beta. intros u c2 T2 HT2 Hn2 (-> & ->). apply kn_ret; [exact Hn2|apply got_ok].
  - eapply kn_bind; [exact Hn1|apply (kn_upd T1 (fun c => c)); exact Hn1|]. cbv beta. intros u c2 T2 HT2 Hn2 (-> & ->). apply kn_ret; [exact Hn2|right; left; reflexivity].
Qed.
Lemma kn_next_send T c : ok_at T c -> kn T (fun r c' _ => got in_time r) update_next_send c.
Proof.
  intros Hn. unfold update_next_send. apply kn_get. pose proof Hn as ((_ & Hh & _) & _). unfold amqp_heartbeat_send.
  eapply kn_bind; [exact Hn|apply (kn_s_from_now T _ c Hn); lia|]. cbv beta. intros [r t] c1 T1 HT1 Hn1 (-> & Hd). cbn [fst snd] in Hd.
  destruct Hd as [(-> & d & -> & Hd)|(-> & ->)].
  - eapply kn_bind; [exact Hn1|apply (kn_upd T1 (fun c => set_next_send c d)); destruct Hn1 as (A1 & A2 & A5); split; [exact A1|split; [exact Hd|exact A5]]|].
    cbv beta. intros u c2 T2 HT2 Hn2 (-> & ->). apply kn_ret; [exact Hn2|apply got_ok].
  - eapply kn_bind; [exact Hn1|apply (kn_upd T1 (fun c => c)); exact Hn1|]. cbv beta. intros u c2 T2 HT2 Hn2 (-> & ->). apply kn_ret; [exact Hn2|right; left; reflexivity].
Qed.
End Codes.
