(** No loop of the library runs for ever without asking the operating system for
    something: with a bound on loops above [mu], the bound is never hit. *)
From Coq Require Import String ZArith List Bool Lia.
From Verif Require Import Base BaseFacts Codec TableModel TableSpec TableDec TableOps FramingStmt FramingGen FramingModel Frame FrameProofs FrameStream Time Sasl Net NetApi NetSpec NetFacts EncStatus NetOrder NetRpc NetTyped.
From Verif Require Prop_Sasl.
Import ListNotations.
Local Open Scope Z_scope.

(** 1 if the frame in the buffer is complete but could not be decoded *)
Definition nu (s : inst) : Z := if i_off s <? i_target s then 0 else 1.
Definition off_ok (s : inst) : Prop := in_ok s /\ 0 <= i_off s <= i_target s /\ i_target s < M31 /\ (i_state s <> BODY -> i_target s <= 8).
Definition K (c : conn) : Prop := off_ok (c_in c) /\ zlen (c_sbuf c) <= SOCK_BUFFER_SIZE /\ zlen (c_outbuf c) < M31.
Definition mu (c : conn) (ev : list event) : Z :=
  (SOCK_BUFFER_SIZE + 2) * zlen ev + zlen (c_sbuf c) + nu (c_in c) + zlen (c_queue c).
Lemma nu_range s : 0 <= nu s <= 1.
Proof. unfold nu. destruct (_ <? _); lia. Qed.

Definition hprog (s : inst) (d : bytes) (r : hres) : Prop :=
  match r with
  | HRet res f s' => off_ok s' /\ (res < 0 \/ (0 <= res <= zlen d /\ nu s' = 0 /\ (1 <= res \/ nu s = 1)))
  | _ => True
  end.
Lemma sub_size_small a b : 0 <= b <= a -> a < M63 -> sub_size a b = a - b.
Proof. intros. unfold sub_size. apply Z.mod_small. lia. Qed.
Lemma add_size_small a b : 0 <= a -> 0 <= b -> a + b < M63 -> add_size a b = a + b.
Proof. intros. unfold add_size. apply Z.mod_small. lia. Qed.
Lemma signed_small a : 0 <= a < M31 -> signed M32 a = a.
Proof. intros. unfold signed. rewrite Z.mod_small by lia. destruct (Z.ltb_spec a (M32 / 2)); [reflexivity|]. change (M32 / 2) with M31 in *. lia. Qed.

Lemma consume_prog s d n s' r : off_ok s -> zlen d < M31 -> consume_data s d = Some (n, s', r) ->
  off_ok s' /\ 0 <= n <= zlen d /\ zlen r = zlen d - n /\ i_off s' = i_off s + n /\ i_target s' = i_target s /\ i_state s' = i_state s /\
  (i_off s' < i_target s' -> n = zlen d) /\ (n = 0 -> d = [] \/ nu s = 1).
Proof.
  intros (Hi & Ho & Ht & H8) Hd Hc. pose proof (consume_in_ok _ _ _ _ _ Hc Hi) as Hi'. revert Hc. unfold consume_data.
  rewrite sub_size_small by lia. set (n' := if zlen d <? i_target s - i_off s then zlen d else i_target s - i_off s).
  assert (0 <= n' <= zlen d /\ n' <= i_target s - i_off s) as [N1 N2]. { pose proof (zlen_nonneg d). unfold n'. destruct (Z.ltb_spec (zlen d) (i_target s - i_off s)); lia. }
  assert (i_off s + n' < i_target s -> n' = zlen d) as N3. { unfold n'. destruct (Z.ltb_spec (zlen d) (i_target s - i_off s)); lia. }
  assert (n' = 0 -> d = [] \/ nu s = 1) as N4.
  { unfold n', nu. destruct (Z.ltb_spec (zlen d) (i_target s - i_off s)); intros E1; [left; apply zlen_0_nil; exact E1|right]. destruct (Z.ltb_spec (i_off s) (i_target s)); lia. }
  rewrite add_size_small by lia.
  assert (zlen (skipn (Z.to_nat n') d) = zlen d - n') as Hr by (unfold zlen in *; rewrite skipn_length; lia).
  destruct (i_buf s) as [|ch g bs|]; try discriminate.
  - destruct (write _ _ _); [|discriminate]. intros H; inversion H; subst n s' r. unfold off_ok. cbn [i_off i_target i_state]. repeat split; auto; try lia; try apply Hi'.
  - destruct (Nat.eqb _ _); [|discriminate]. destruct (write _ _ _); [|discriminate]. intros H; inversion H; subst n s' r. unfold off_ok. cbn [i_off i_target i_state]. repeat split; auto; try lia; try apply Hi'.
Qed.
Lemma return_off s : off_ok s -> off_ok (return_to_idle s) /\ nu (return_to_idle s) = 0.
Proof. intros (H1 & H2 & H3 & _). split; [|reflexivity]. split; [apply return_ok, H1|]. cbn. unfold HEADER_SIZE. repeat split; lia. Qed.
Lemma body_prog E s0 d n s : off_ok s -> 0 <= n <= zlen d -> zlen d < M31 -> (1 <= n \/ nu s0 = 1) -> hprog s0 d (handle_body E n s).
Proof.
  intros Hs Hn Hd H1. unfold handle_body.
  destruct (raw_bytes s) as [raw|] eqn:Hraw; [|exact I]. pose proof (raw_len _ _ (proj1 Hs) Hraw) as Hl.
  assert (forall f, hprog s0 d (HRet AMQP_STATUS_BAD_AMQP_DATA f s)) as E1 by (intros f; split; [exact Hs|left; reflexivity]).
  assert (forall f, hprog s0 d (HRet AMQP_STATUS_NO_MEMORY f s)) as E2 by (intros f; split; [exact Hs|left; reflexivity]).
  assert (forall f, hprog s0 d (HRet AMQP_STATUS_UNKNOWN_METHOD f s)) as E3 by (intros f; split; [exact Hs|left; reflexivity]).
  assert (forall f st, st < 0 -> hprog s0 d (HRet st f s)) as E4 by (intros f st Hst; split; [exact Hs|left; exact Hst]).
  assert (forall f, hprog s0 d (HRet (signed M32 n) f (return_to_idle s))) as D.
  { intros f. destruct (return_off s Hs) as [R1 R2]. split; [exact R1|right]. rewrite signed_small by lia. auto. }
  destruct (d_at _ _ _); [|exact I]. destruct (negb _); [apply E1|]. destruct (d_at _ _ _); [|exact I]. destruct (d_at _ _ _); [|exact I].
  cbv zeta. destruct (ae_nopool _); [apply E2|].
  destruct (_ =? _).
  { destruct (d_at _ _ _) as [id|]; [|exact I]. destruct (slice _ _ _) as [enc|] eqn:Hsl.
    - apply slice_len in Hsl. destruct (amqp_decode_method _ _ _) eqn:Hdec; cbn [decoded]; try exact I; [apply D|]. apply E4. eapply decode_method_status; [|exact Hdec]. lia.
    - destruct (switch _ _) as [[|]|]; [|exact I|apply E3]. destruct (ae_oom _ _ _); [apply E2|apply D]. }
  destruct (_ =? _).
  { destruct (d_at _ _ _) as [id|]; [|exact I]. destruct (d_at _ _ _) as [bsz|]; [|exact I]. destruct (slice _ _ _) as [enc|] eqn:Hsl; [|exact I].
    apply slice_len in Hsl. destruct (amqp_decode_properties _ _ _) eqn:Hdec; cbn [decoded]; try exact I; [apply D|]. apply E4. eapply decode_properties_status; [|exact Hdec]. lia. }
  destruct (_ =? _); [destruct (slice _ _ _); [apply D|exact I]|]. destruct (_ =? _); apply D.
Qed.
Lemma header_prog E s0 d n s r : off_ok s -> i_off s <= 8 -> 0 <= n -> n + zlen r = zlen d -> zlen d < M31 -> (1 <= n \/ nu s0 = 1) -> hprog s0 d (handle_header E n s r).
Proof.
  intros Hs Ho Hn Hr Hd H1. unfold handle_header. destruct (raw_bytes s) as [raw|] eqn:Hraw; [|exact I].
  assert (forall f, hprog s0 d (HRet AMQP_STATUS_BAD_AMQP_DATA f s)) as E1 by (intros f; split; [exact Hs|left; reflexivity]).
  destruct (d_at _ _ _); [|exact I]. destruct (d_at W32 raw 3) as [sz|] eqn:Hsz; [|exact I]. apply d_at_range in Hsz.
  destruct (Z.leb_spec INT_MAX sz) as [|Hlt]; [apply E1|]. cbv zeta.
  assert (u32 (sz + HEADER_SIZE + FOOTER_SIZE) = sz + 8) as -> by (unfold u32, HEADER_SIZE, FOOTER_SIZE; rewrite Z.mod_small; lia).
  destruct (Z.ltb_spec (u64 (i_frame_max s)) (sz + 8)) as [|Hfm]; [apply E1|].
  destruct (ae_nopool _); [split; [exact Hs|left; reflexivity]|].
  destruct Hs as ((I1 & I2 & I3) & O1 & O2 & O3).
  destruct (ae_noblock _). { split; [|left; reflexivity]. repeat split; cbn; auto; try lia. }
  destruct (slice _ _ _) as [hd|]; [|exact I]. destruct (write _ _ _) as [blk|] eqn:Hw; [|exact I].
  apply write_len in Hw. rewrite zlen_fresh in Hw by lia.
  assert (u64 (i_frame_max s) = i_frame_max s) as Eu by (unfold u64; apply Z.mod_small; lia). rewrite Eu in Hfm.
  set (s1 := mkIn _ _ _ _ _ _ _ _).
  assert (off_ok s1) as Hs1. { unfold s1. repeat split; cbn; auto; try lia. congruence. }
  pose proof (zlen_nonneg r) as Hr0. assert (zlen r < M31) as Hr1 by lia.
  destruct (consume_data s1 r) as [[[k s2] r2]|] eqn:Hc; [|exact I].
  destruct (consume_prog _ _ _ _ _ Hs1 Hr1 Hc) as (C1 & C2 & C3 & C4 & C5 & C6 & C7 & C8).
  rewrite add_size_small by lia.
  destruct (Z.ltb_spec (i_off s2) (i_target s2)) as [Hlt2|Hge].
  - split; [exact C1|right]. rewrite signed_small by lia. split; [lia|]. split; [|lia]. unfold nu. destruct (Z.ltb_spec (i_off s2) (i_target s2)); lia.
  - apply body_prog; auto; try lia.
Qed.
Lemma input_prog E s d : off_ok s -> zlen d < M31 -> d <> [] -> hprog s d (amqp_handle_input E s d).
Proof.
  intros Hs Hd Hne. unfold amqp_handle_input.
  destruct (Z.eqb_spec (zlen d) 0) as [H0|H0]; [apply zlen_0_nil in H0; contradiction|]. cbv zeta.
  set (s0 := match i_state s with IDLE => _ | _ => _ end).
  assert (off_ok s0 /\ nu s0 = nu s) as (Hs0 & Hnu).
  { unfold s0. destruct Hs as (I1 & O1 & O2 & O3). destruct (i_state s) eqn:Est; (split; [|reflexivity]); try (split; [exact I1|]; split; [exact O1|]; split; [exact O2|]; rewrite ?Est; exact O3).
    split; [exact I1|]. split; [exact O1|]. split; [exact O2|]. cbn. intros _. apply O3. discriminate. }
  destruct (consume_data s0 d) as [[[n s1] r]|] eqn:Hc; [|exact I].
  destruct (consume_prog _ _ _ _ _ Hs0 Hd Hc) as (C1 & C2 & C3 & C4 & C5 & C6 & C7 & C8).
  assert (1 <= n \/ nu s = 1) as H1. { destruct (Z.eq_dec n 0) as [->|]; [|lia]. destruct (C8 eq_refl); [contradiction|right; congruence]. }
  destruct (Z.ltb_spec (i_off s1) (i_target s1)) as [Hlt|Hge].
  - split; [exact C1|right]. rewrite signed_small by lia. split; [lia|]. split; [|exact H1]. unfold nu. destruct (Z.ltb_spec (i_off s1) (i_target s1)); lia.
  - pose proof C1 as (I1 & O1 & O2 & O3).
    destruct (i_state s1) eqn:Est1.
    + exact I.
    + destruct (raw_bytes s1) as [raw|]; [|exact I]. destruct (slice raw 0 4) as [mg|]; [|exact I].
      destruct (list_eq_dec _ _ _).
      * do 4 (destruct (d_at _ _ _); [|exact I]). destruct (return_off s1 C1) as [R1 R2].
        split; [exact R1|right]. rewrite signed_small by lia. split; [lia|]. split; [exact R2|exact H1].
      * apply header_prog; auto; try lia. assert (i_target s1 <= 8) by (apply O3; discriminate). lia.
    + apply header_prog; auto; try lia. assert (i_target s1 <= 8) by (apply O3; discriminate). lia.
    + apply body_prog; auto; lia.
Qed.

(** ** Functions that leave the input side alone *)
Definition core (c c' : conn) : Prop := c_in c' = c_in c /\ c_sbuf c' = c_sbuf c /\ c_queue c' = c_queue c /\ zlen (c_outbuf c') = zlen (c_outbuf c).
Lemma core_refl c : core c c. Proof. repeat split. Qed.
Lemma core_trans a b c : core a b -> core b c -> core a c.
Proof. unfold core. intuition congruence. Qed.
Definition nofuel (s : stop) (c : conn) (l : list obs) : Prop := s <> Fuel.
(** [lo n P m]: consumes at least one event if [P] holds of the result *)
Definition lo {A} (n : Z) (P : A -> Prop) (m : M A) : Prop := forall c ev, zlen ev < n ->
  wp m c ev (fun a c' ev' _ => core c c' /\ zlen ev' <= zlen ev /\ (P a -> zlen ev' < zlen ev)) nofuel.
Definition never {A} (_ : A) : Prop := False.
Definition always {A} (_ : A) : Prop := True.
Lemma lo_ret A n (P : A -> Prop) a : ~ P a -> lo n P (ret a).
Proof. intros H c ev _. apply wp_ret. split; [apply core_refl|]. split; [lia|contradiction]. Qed.
Lemma lo_halt A n P s : s <> Fuel -> lo n P (halt (A := A) s).
Proof. intros H c ev _. apply wp_halt. exact H. Qed.
Lemma lo_weaken A n (P Q : A -> Prop) m : lo n P m -> (forall a, Q a -> P a) -> lo n Q m.
Proof. intros H HQ c ev He. eapply wp_conseq; [apply H, He| |auto]; cbv beta. intros a c' ev' l (H1 & H2 & H3). auto. Qed.
Lemma lo_any A n P m : lo (A := A) n P m -> lo n never m.
Proof. intros H. eapply lo_weaken; [exact H|]. intros a []. Qed.
Lemma lo_bind A B n (P : A -> Prop) (Q : B -> Prop) (m : M A) (k : A -> M B) :
  lo n P m -> (forall a, lo n (fun b => Q b /\ ~ P a) (k a)) -> lo n Q (bind m k).
Proof.
  intros Hm Hk c ev He. apply wp_bind. eapply wp_conseq; [apply Hm, He| |auto]; cbv beta. intros a c1 ev1 l1 (H1 & H2 & H3).
  eapply wp_conseq; [apply (Hk a); lia| |auto]; cbv beta. intros b c2 ev2 l2 (G1 & G2 & G3). split; [eapply core_trans; eassumption|]. split; [lia|].
  intros HQ. destruct (Z.lt_ge_cases (zlen ev1) (zlen ev)); [lia|]. apply Z.le_lt_trans with (zlen ev1 - 1); [|lia]. assert (zlen ev2 < zlen ev1); [|lia]. apply G3. split; [exact HQ|]. intros HP. specialize (H3 HP). lia.
Qed.
Lemma lo_seq A B n (m : M A) (k : A -> M B) : lo n never m -> (forall a, lo n never (k a)) -> lo n never (bind m k).
Proof. intros Hm Hk. eapply lo_bind; [exact Hm|]. intros a. eapply lo_weaken; [apply Hk|]. intros b []; auto. Qed.
(** the first part already consumes something *)
Lemma lo_first A B n Q (m : M A) (k : A -> M B) : lo n always m -> (forall a, lo n never (k a)) -> lo n Q (bind m k).
Proof. intros Hm Hk. eapply lo_bind; [exact Hm|]. intros a. eapply lo_weaken; [apply Hk|]. intros b [_ H]. destruct (H I). Qed.
(** the second part does *)
Lemma lo_second A B n Q (m : M A) (k : A -> M B) : lo n never m -> (forall a, lo n Q (k a)) -> lo n Q (bind m k).
Proof. intros Hm Hk. eapply lo_bind; [exact Hm|]. intros a. eapply lo_weaken; [apply Hk|]. intros b [H _]. exact H. Qed.
Lemma lo_get A n Q (k : conn -> M A) : (forall c, lo n Q (k c)) -> lo n Q (bind get k).
Proof. intros H c ev He. apply wp_get_bind. apply H, He. Qed.
Lemma lo_upd n f : (forall c, core c (f c)) -> lo n never (upd f).
Proof. intros H c ev He. apply wp_upd. split; [apply H|]. split; [lia|contradiction]. Qed.
Lemma zlen_cons' {A} (x : A) l : zlen (x :: l) = zlen l + 1.
Proof. unfold zlen. cbn [length]. lia. Qed.
Ltac losys1 := cbv beta iota zeta; first [solve [unfold nofuel; discriminate] | split; [apply core_refl|rewrite ?zlen_cons'; split; [lia|intros _; lia]]].
Ltac losys := intros c ev He; unfold wp, sys_clock, sys_send, sys_recv, sys_poll, sys_close, sys_alloc, sys_clone;
  destruct ev as [|e ev]; [losys1|]; destruct e as [now|r|r|r|ok|ok|oom]; try losys1.
Lemma lo_clock n : lo n always sys_clock. Proof. losys. Qed.
Lemma lo_send n more b : lo n always (sys_send more b). Proof. losys. destruct r; losys1. Qed.
Lemma lo_recv n len : lo n always (sys_recv len). Proof. losys. destruct r; losys1. Qed.
Lemma lo_sys_poll n w ms : lo n always (sys_poll w ms). Proof. losys. destruct r; try losys1. destruct (ms <? 0); losys1. Qed.
Lemma lo_close n : lo n always sys_close. Proof. losys. Qed.
Lemma lo_alloc n : lo n always sys_alloc. Proof. losys. Qed.
Lemma lo_clone n : lo n always sys_clone. Proof. losys. Qed.
Lemma lo_never_ret A n (a : A) : lo n never (ret a). Proof. apply lo_ret. auto. Qed.
Lemma lo_from_now n t : lo n never (time_from_now t).
Proof. unfold time_from_now. destruct t as [tv|]; [|apply lo_never_ret]. destruct (_ || _); [apply lo_never_ret|]. apply lo_seq; [eapply lo_any, lo_clock|intros; apply lo_never_ret]. Qed.
Lemma lo_s_from_now n t : lo n never (time_s_from_now t).
Proof. unfold time_s_from_now. destruct (_ <=? _); [apply lo_never_ret|]. apply lo_seq; [eapply lo_any, lo_clock|intros; apply lo_never_ret]. Qed.
(** the clock is read unless the deadline is infinite or immediate *)
Lemma lo_ms_until n t : lo n (fun ms => ms < -1) (time_ms_until t).
Proof.
  unfold time_ms_until. destruct ((UINT64_MAX =? t) || (0 =? t)) eqn:E1.
  - apply lo_ret. unfold amqp_time_ms_until. apply orb_true_iff in E1. destruct (UINT64_MAX =? t); [lia|]. destruct E1 as [E1|E1]; [discriminate|]. rewrite E1. lia.
  - eapply lo_first; [apply lo_clock|]. intros. apply lo_never_ret.
Qed.
Lemma lo_tv_until n t : lo n never (time_tv_until t).
Proof. unfold time_tv_until. destruct (_ || _); [apply lo_never_ret|]. apply lo_seq; [eapply lo_any, lo_clock|intros; apply lo_never_ret]. Qed.
Lemma lo_has_past n t : lo n never (time_has_past t).
Proof. unfold time_has_past. destruct (_ =? _); [apply lo_never_ret|]. apply lo_seq; [eapply lo_any, lo_clock|intros; apply lo_never_ret]. Qed.
Lemma lo_next_send n : lo n never update_next_send.
Proof.
  unfold update_next_send. apply lo_get. intros c0. apply lo_seq; [apply lo_s_from_now|]. intros [r t]. apply lo_seq; [|intros; apply lo_never_ret].
  apply lo_upd. intros c. destruct t; repeat split.
Qed.
Lemma lo_next_recv n : lo n never update_next_recv.
Proof.
  unfold update_next_recv. apply lo_get. intros c0. apply lo_seq; [apply lo_s_from_now|]. intros [r t]. apply lo_seq; [|intros; apply lo_never_ret].
  apply lo_upd. intros c. destruct t; repeat split.
Qed.
Lemma lo_socket_close n : lo n never amqp_socket_close.
Proof.
  unfold amqp_socket_close. apply lo_get. intros c. destruct (_ =? _); [apply lo_never_ret|]. apply lo_seq; [eapply lo_any, lo_close|]. intros [|]; cbn [negb]; [|apply lo_never_ret].
  apply lo_seq; [|intros; apply lo_never_ret]. apply lo_upd. repeat split.
Qed.
Lemma lo_login_error n r : lo n never (login_error r).
Proof. unfold login_error. apply lo_seq; [apply lo_socket_close|intros; apply lo_never_ret]. Qed.
(** a loop: every round that is not the last consumes something *)
Lemma lo_send_loop more b : forall fuel, lo (Z.of_nat fuel) always (tcp_send_loop fuel more b).
Proof.
  induction fuel as [|fuel IH]; intros c ev He; [pose proof (zlen_nonneg ev); lia|]. cbn [tcp_send_loop]. apply wp_bind.
  eapply wp_conseq; [apply (lo_send _ more b c ev He)| |auto]; cbv beta. intros r c1 ev1 l1 (H1 & H2 & H3). specialize (H3 I).
  destruct r; try (apply wp_ret; split; [exact H1|]; split; [lia|intros; lia]).
  eapply wp_conseq; [apply IH; lia| |auto]; cbv beta. intros b2 c2 ev2 l2 (G1 & G2 & G3). split; [eapply core_trans; eassumption|]. split; [lia|intros; lia].
Qed.
Lemma lo_poll w d : forall fuel, lo (Z.of_nat fuel) always (amqp_poll fuel w d).
Proof.
  induction fuel as [|fuel IH]; intros c ev He; [pose proof (zlen_nonneg ev); lia|]. cbn [amqp_poll]. apply wp_bind.
  eapply wp_conseq; [apply (lo_ms_until _ d c ev He)| |auto]; cbv beta. intros ms c1 ev1 l1 (H1 & H2 & H3).
  destruct (Z.ltb_spec ms (-1)) as [Hm|_].
  { specialize (H3 Hm). apply wp_ret. split; [exact H1|]. split; [lia|intros; lia]. }
  apply wp_bind. eapply wp_conseq; [apply (lo_sys_poll (Z.of_nat (S fuel)) w ms c1 ev1); lia| |auto]; cbv beta. intros r c2 ev2 l2 (G1 & G2 & G3). specialize (G3 I).
  pose proof (core_trans _ _ _ H1 G1) as G.
  destruct r; try (apply wp_ret; split; [exact G|]; split; [lia|intros; lia]).
  eapply wp_conseq; [apply IH; lia| |auto]; cbv beta. intros b2 c3 ev3 l3 (K1 & K2 & K3). split; [eapply core_trans; eassumption|]. split; [lia|intros; lia].
Qed.
Lemma lo_le A n n' P (m : M A) : n' <= n -> lo n P m -> lo n' P m.
Proof. intros H Hm c ev He. apply Hm. lia. Qed.

Section Prog.
Context (N : nat) (E : nat -> aenv).
Notation n := (Z.of_nat N).

Lemma lo_socket_send more b : lo n (fun r => r <> AMQP_STATUS_SOCKET_CLOSED) (amqp_socket_send N more b).
Proof.
  unfold amqp_socket_send. apply lo_get. intros c. destruct (_ =? _); [apply lo_ret; auto|]. eapply lo_weaken; [apply lo_send_loop|]. intros; exact I.
Qed.
Lemma lo_do_poll r d : lo n never (do_poll N r d).
Proof. unfold do_poll. apply lo_get. intros c. destruct (_ =? _); [apply lo_never_ret|]. destruct (_ =? _); [eapply lo_any, lo_poll|]. destruct (_ =? _); [eapply lo_any, lo_poll|apply lo_never_ret]. Qed.
Lemma do_poll_closed d c ev : c_fd c = -1 -> do_poll N AMQP_STATUS_SOCKET_CLOSED d c ev = Done AMQP_STATUS_SOCKET_CLOSED c ev [].
Proof. intros H. unfold do_poll, bind, get. rewrite H. reflexivity. Qed.
Lemma tcp_send_not_closed fuel more b : forall c ev, wp (tcp_send_loop fuel more b) c ev (fun r _ _ _ => r <> AMQP_STATUS_SOCKET_CLOSED) (fun _ _ _ => True).
Proof.
  induction fuel as [|fuel IH]; intros c ev; cbn [tcp_send_loop]; [apply wp_halt; exact I|]. apply wp_bind.
  unfold sys_send at 1, wp at 1. destruct ev as [|e ev]; [exact I|]. destruct e as [|[k| | | | | |]| | | | |]; try exact I; cbv zeta; try (apply wp_ret; discriminate).
  - apply wp_ret. intros H. assert (0 <= Z.max 0 (Z.min k (zlen b))) by lia. rewrite H in H0. apply H0. reflexivity.
  - eapply wp_conseq; [apply IH| |auto]. auto.
Qed.
Lemma socket_send_closed more b c ev : wp (amqp_socket_send N more b) c ev (fun r c' ev' _ => r = AMQP_STATUS_SOCKET_CLOSED -> c' = c /\ ev' = ev /\ c_fd c = -1) (fun _ _ _ => True).
Proof.
  unfold amqp_socket_send. wstep. destruct (Z.eqb_spec (c_fd c) (-1)); [apply wp_ret; auto|].
  eapply wp_conseq; [apply tcp_send_not_closed| |auto]; cbv beta. intros r c' ev' l H1 H2. contradiction.
Qed.
Lemma lo_try_send_loop len d more : forall fuel left c ev, zlen ev < Z.of_nat fuel -> zlen ev < n -> zlen left <= len ->
  wp (try_send_loop N fuel len left d more) c ev (fun r c' ev' _ => core c c' /\ zlen ev' <= zlen ev /\ (0 <= r -> zlen ev' < zlen ev)) nofuel.
Proof.
  induction fuel as [|fuel IH]; intros left c ev Hf He Hl; [pose proof (zlen_nonneg ev); lia|]. cbn [try_send_loop]. apply wp_bind.
  eapply wp_conseq; [apply (wp_split _ _ _ _ _ _ _ (lo_socket_send more left c ev He) (socket_send_closed more left c ev))| |]; cbv beta; [|intros s c1 l1 [H _]; exact H].
  intros r c1 ev1 l1 ((H1 & H2 & H3) & Hc).
  destruct (Z.ltb_spec 0 r) as [Hr|Hr].
  - assert (zlen ev1 < zlen ev) as H4. { apply H3. intros ->. discriminate. } cbv zeta.
    destruct (_ =? _); [apply wp_ret; split; [exact H1|]; split; [lia|intros; lia]|].
    eapply wp_conseq; [apply IH; try lia; unfold zlen in *; rewrite skipn_length; lia| |auto]; cbv beta. intros r2 c2 ev2 l2 (G1 & G2 & G3). split; [eapply core_trans; eassumption|]. split; [lia|intros; lia].
  - destruct (Z.eq_dec r AMQP_STATUS_SOCKET_CLOSED) as [->|Hne].
    + destruct (Hc eq_refl) as (-> & -> & Hfd). apply wp_bind. unfold wp at 1. rewrite do_poll_closed by exact Hfd.
      change (AMQP_STATUS_SOCKET_CLOSED =? AMQP_STATUS_OK) with false. change (AMQP_STATUS_SOCKET_CLOSED =? AMQP_STATUS_TIMEOUT) with false. cbv iota.
      apply wp_ret. split; [exact H1|]. split; [lia|]. intros H. exfalso. apply H. reflexivity.
    + specialize (H3 Hne). apply wp_bind. eapply wp_conseq; [apply (lo_do_poll r d c1 ev1); lia| |auto]; cbv beta. intros r2 c2 ev2 l2 (G1 & G2 & _).
      pose proof (core_trans _ _ _ H1 G1) as G.
      destruct (_ =? _).
      { eapply wp_conseq; [apply IH; lia| |auto]; cbv beta. intros r3 c3 ev3 l3 (K1 & K2 & K3). split; [eapply core_trans; eassumption|]. split; [lia|intros; lia]. }
      destruct (_ =? _); apply wp_ret; (split; [exact G|]); (split; [lia|intros; lia]).
Qed.
Lemma lo_try_send b d more : lo n (fun r => 0 <= r) (amqp_try_send N b d more).
Proof. intros c ev He. unfold amqp_try_send. apply lo_try_send_loop; lia. Qed.
Lemma lo_send_header d : lo n never (send_header_inner N d).
Proof. unfold send_header_inner. apply lo_seq; [eapply lo_any, lo_try_send|]. intros r. destruct (_ =? _); apply lo_never_ret. Qed.

(** receiving *)
Lemma lo_recv_loop len : forall fuel c ev, zlen ev < Z.of_nat fuel ->
  wp (tcp_recv_loop fuel len) c ev (fun r c' ev' _ => c' = c /\ zlen ev' < zlen ev /\ zlen (snd r) <= Z.max 0 len) nofuel.
Proof.
  induction fuel as [|fuel IH]; intros c ev He; [pose proof (zlen_nonneg ev); lia|]. cbn [tcp_recv_loop]. apply wp_bind.
  unfold sys_recv at 1, wp at 1. destruct ev as [|e ev]; [discriminate|]. destruct e as [| |r| | | |]; try discriminate. rewrite zlen_cons' in *. destruct r as [bs| | | | |]; cbv zeta.
  - assert (zlen (firstn (Z.to_nat len) bs) <= Z.max 0 len) as Hb by (unfold zlen; rewrite firstn_length; lia).
    destruct (firstn (Z.to_nat len) bs) as [|b0 bs']; apply wp_ret; (split; [reflexivity|]); (split; [lia|]); [cbn [snd]; change (zlen (@nil byte)) with 0; lia|exact Hb].
  - eapply wp_conseq; [apply IH; lia| |auto]; cbv beta. intros r c1 ev1 l1 (H1 & H2 & H3). auto with zarith.
  - apply wp_ret. split; [reflexivity|]. split; [lia|cbn [snd]; change (zlen (@nil byte)) with 0; lia].
  - apply wp_ret. split; [reflexivity|]. split; [lia|cbn [snd]; change (zlen (@nil byte)) with 0; lia].
  - apply wp_ret. split; [reflexivity|]. split; [lia|cbn [snd]; change (zlen (@nil byte)) with 0; lia].
  - apply wp_ret. split; [reflexivity|]. split; [lia|cbn [snd]; change (zlen (@nil byte)) with 0; lia].
Qed.
Definition recv_spec (c : conn) (ev : list event) (r : Z) (c' : conn) (ev' : list event) : Prop :=
  c_in c' = c_in c /\ c_queue c' = c_queue c /\ zlen (c_outbuf c') = zlen (c_outbuf c) /\ zlen ev' <= zlen ev /\
  ((r = AMQP_STATUS_OK \/ r = AMQP_STATUS_TIMEOUT) -> zlen ev' < zlen ev) /\
  (c_sbuf c' = c_sbuf c \/ (zlen (c_sbuf c') <= SOCK_BUFFER_SIZE /\ zlen ev' < zlen ev)).
Lemma recv_prog t : forall fuel c ev, zlen ev < Z.of_nat fuel -> zlen ev < n ->
  wp (recv_with_timeout N fuel t) c ev (fun r c' ev' _ => recv_spec c ev r c' ev') nofuel.
Proof.
  induction fuel as [|fuel IH]; intros c ev Hf He; [pose proof (zlen_nonneg ev); lia|]. cbn [recv_with_timeout]. apply wp_bind.
  unfold amqp_socket_recv. wstep. destruct (Z.eqb_spec (c_fd c) (-1)) as [Hfd|Hfd].
  { apply wp_ret. change (AMQP_STATUS_SOCKET_CLOSED <? 0) with true. cbv iota. wstep. rewrite Hfd. change (-1 =? -1) with true. cbv iota. apply wp_ret.
    repeat split; try lia. { intros [H|H]; discriminate. } left; reflexivity. }
  eapply wp_conseq; [apply lo_recv_loop; exact He| |auto]; cbv beta. intros [r bs] c1 ev1 l1 (-> & H2 & H3). cbn [snd] in H3.
  destruct (r <? 0).
  - wstep. destruct (_ =? _). { apply wp_ret. repeat split; try lia. left; reflexivity. }
    destruct (_ || _). 2:{ apply wp_ret. repeat split; try lia. left; reflexivity. }
    apply wp_bind. eapply wp_conseq; [apply (lo_poll _ t N c ev1); lia| |auto]; cbv beta. intros r2 c2 ev2 l2 ((G1 & G2 & G3 & G5) & G4 & _).
    destruct (_ =? _). 2:{ apply wp_ret. repeat split; try congruence; try lia. left; congruence. }
    eapply wp_conseq; [apply IH; lia| |auto]; cbv beta. intros r3 c3 ev3 l3 (K1 & K2 & K6 & K3 & K4 & K5).
    repeat split; try congruence; try lia. destruct K5 as [K5|[K5 K7]]; [left; congruence|right; split; [exact K5|lia]].
  - assert (zlen bs <= SOCK_BUFFER_SIZE) as Hb by (unfold SOCK_BUFFER_SIZE in *; lia).
    unfold store_received. apply wp_bind. wstep. apply wp_bind.
    destruct (c_sbuf c); [apply wp_ret|apply wp_note]; apply wp_upd; (eapply wp_conseq; [apply (lo_next_recv n _ ev1); lia| |auto]); cbv beta; intros r2 c2 ev2 l2 ((G1 & G2 & G3 & G5) & G4 & _); cbn in G1, G2, G3, G5;
      (repeat split; try congruence; try lia); right; rewrite G2; (split; [exact Hb|lia]).
Qed.

(** ** Functions on whole connections *)
Definition pg {A} (P : A -> bool) (m : M A) (c : conn) : Prop := forall ev, K c -> mu c ev < n ->
  wp m c ev (fun a c' ev' _ => K c' /\ mu c' ev' <= mu c ev + (if P a then 0 else 1)) nofuel.
Definition allok {A} (_ : A) : bool := true.
(** what comes after an error *)
Definition tail {A} (P : A -> bool) (m : M A) (c : conn) : Prop := forall ev, K c -> mu c ev <= n ->
  wp m c ev (fun a c' ev' _ => K c' /\ mu c' ev' <= mu c ev /\ P a = false) nofuel.
Lemma mu_ev c ev : zlen ev <= mu c ev.
Proof. unfold mu, SOCK_BUFFER_SIZE. pose proof (nu_range (c_in c)). pose proof (zlen_nonneg ev). pose proof (zlen_nonneg (c_sbuf c)). pose proof (zlen_nonneg (c_queue c)). lia. Qed.
Lemma core_K c c' : core c c' -> K c -> K c'.
Proof. intros (H1 & H2 & H3 & H4) (G1 & G2 & G3). unfold K. rewrite H1, H2, H4. auto. Qed.
Lemma core_mu c c' ev ev' : core c c' -> zlen ev' <= zlen ev -> mu c' ev' <= mu c ev - (SOCK_BUFFER_SIZE + 2) * (zlen ev - zlen ev').
Proof. intros (H1 & H2 & H3 & _) He. unfold mu. rewrite H1, H2, H3. lia. Qed.
Lemma core_mu' c c' ev ev' : core c c' -> zlen ev' <= zlen ev -> mu c' ev' <= mu c ev.
Proof. intros H He. pose proof (core_mu _ _ _ _ H He). unfold SOCK_BUFFER_SIZE in *. lia. Qed.
Lemma lo_pg A P (m : M A) Q c : lo n Q m -> pg P m c.
Proof.
  intros H ev HK Hm. eapply wp_conseq; [apply H| |auto]; [pose proof (mu_ev c ev); lia|]. cbv beta. intros a c' ev' l (H1 & H2 & _).
  split; [eapply core_K; eassumption|]. pose proof (core_mu' _ _ _ _ H1 H2). destruct (P a); lia.
Qed.
Lemma pg_ret A P (a : A) c : pg P (ret a) c.
Proof. intros ev HK Hm. apply wp_ret. split; [exact HK|]. destruct (P a); lia. Qed.
Lemma pg_halt A P s c : s <> Fuel -> pg P (halt (A := A) s) c.
Proof. intros H ev HK Hm. apply wp_halt. exact H. Qed.
Lemma pg_bind A B P Q (m : M A) (k : A -> M B) c : pg P m c -> (forall a c', P a = true -> pg Q (k a) c') -> (forall a c', P a = false -> tail Q (k a) c') -> pg Q (bind m k) c.
Proof.
  intros Hm Hk Ht ev HK He. apply wp_bind. eapply wp_conseq; [apply Hm; assumption| |auto]; cbv beta. intros a c1 ev1 l1 [H1 H2].
  destruct (P a) eqn:EP.
  - eapply wp_conseq; [apply (Hk a c1 EP ev1 H1); lia| |auto]; cbv beta. intros b c2 ev2 l2 [G1 G2]. split; [exact G1|]. destruct (Q b); lia.
  - eapply wp_conseq; [apply (Ht a c1 EP ev1 H1); lia| |auto]; cbv beta. intros b c2 ev2 l2 (G1 & G2 & G3). split; [exact G1|]. rewrite G3. lia.
Qed.
Lemma pg_seq A B Q (m : M A) (k : A -> M B) c : pg allok m c -> (forall a c', pg Q (k a) c') -> pg Q (bind m k) c.
Proof. intros Hm Hk. eapply pg_bind; [exact Hm|auto|discriminate]. Qed.
Lemma pg_lo A B P Q (m : M A) (k : A -> M B) c : lo n P m -> (forall a c', pg Q (k a) c') -> pg Q (bind m k) c.
Proof. intros Hm Hk. apply pg_seq; [eapply lo_pg; exact Hm|exact Hk]. Qed.
Lemma pg_get A P (k : conn -> M A) c : pg P (k c) c -> pg P (bind get k) c.
Proof. intros H ev HK Hm. apply wp_get_bind. apply H; assumption. Qed.
Lemma pg_upd f c : core c (f c) -> pg allok (upd f) c.
Proof. intros H ev HK Hm. apply wp_upd. split; [eapply core_K; eassumption|]. pose proof (core_mu' _ _ ev ev H ltac:(lia)). cbn. lia. Qed.
Lemma pg_weaken A P Q (m : M A) c : (forall a, P a = false -> Q a = false) -> pg P m c -> pg Q m c.
Proof.
  intros H Hm ev HK He. eapply wp_conseq; [apply Hm; assumption| |auto]; cbv beta. intros a c' ev' l [H1 H2]. split; [exact H1|].
  specialize (H a). destruct (P a), (Q a); try lia.
Qed.
Lemma tail_ret A P (a : A) c : P a = false -> tail P (ret a) c.
Proof. intros H ev HK Hm. apply wp_ret. split; [exact HK|]. split; [lia|exact H]. Qed.
Lemma tail_halt A P s c : s <> Fuel -> tail P (halt (A := A) s) c.
Proof. intros H ev HK Hm. apply wp_halt. exact H. Qed.
Lemma tail_bind A B P (m : M A) (k : A -> M B) c : (forall ev, wp m c ev (fun _ c' ev' _ => core c c' /\ zlen ev' <= zlen ev) nofuel) -> (forall a c', tail P (k a) c') -> tail P (bind m k) c.
Proof.
  intros Hm Hk ev HK He. apply wp_bind. eapply wp_conseq; [apply Hm; assumption| |auto]; cbv beta. intros a c1 ev1 l1 [H1 H2].
  pose proof (core_mu' _ _ _ _ H1 H2). eapply wp_conseq; [apply (Hk a c1 ev1); [eapply core_K; eassumption|lia]| |auto]; cbv beta. intros b c2 ev2 l2 (G1 & G2 & G3). split; [exact G1|]. split; [lia|exact G3].
Qed.
Lemma close_core c ev : wp amqp_socket_close c ev (fun _ c' ev' _ => core c c' /\ zlen ev' <= zlen ev) nofuel.
Proof. eapply wp_conseq; [apply (lo_socket_close (zlen ev + 1) c ev); lia| |auto]; cbv beta. intros a c' ev' l (H1 & H2 & _). auto. Qed.

Definition okz (r : Z) : bool := r =? AMQP_STATUS_OK.
Definition okf (p : Z * frame) : bool := fst p =? AMQP_STATUS_OK.
(** one frame: progress unless it fails *)
Lemma consume_prog1 c ev : K c -> amqp_data_in_buffer c = true ->
  wp (consume_one_frame E) c ev (fun p c' ev' _ => K c' /\ ev' = ev /\ (if okf p then mu c' ev < mu c ev else mu c' ev <= mu c ev + 1)) nofuel.
Proof.
  intros (HK1 & HK2 & HK3) Hd. unfold consume_one_frame, wp.
  assert (c_sbuf c <> []) as Hne by (unfold amqp_data_in_buffer in Hd; destruct (c_sbuf c); [discriminate|congruence]).
  assert (zlen (c_sbuf c) < M31) as Hl by (unfold SOCK_BUFFER_SIZE in HK2; lia).
  pose proof (input_prog E (c_in c) (c_sbuf c) HK1 Hl Hne) as H. destruct (amqp_handle_input E (c_in c) (c_sbuf c)) as [res f s'| |]; try discriminate.
  destruct H as [H1 H2]. destruct (Z.ltb_spec res 0) as [Hr|Hr].
  - split; [split; [exact H1|split; [exact HK2|exact HK3]]|]. split; [reflexivity|]. unfold okf; cbn [fst]. destruct (Z.eqb_spec res AMQP_STATUS_OK) as [->|_]; [unfold AMQP_STATUS_OK in Hr; lia|].
    unfold mu. cbn [c_sbuf c_queue c_in set_in]. pose proof (nu_range (c_in c)). pose proof (nu_range s'). lia.
  - destruct H2 as [H2|(H2 & H3 & H4)]; [lia|].
    assert (zlen (skipn (Z.to_nat res) (c_sbuf c)) = zlen (c_sbuf c) - res) as Hs by (unfold zlen in *; rewrite skipn_length; lia).
    split; [split; [exact H1|split; [cbn [c_sbuf set_sbuf]; lia|exact HK3]]|]. split; [reflexivity|]. change (okf (AMQP_STATUS_OK, f)) with true. cbv iota.
    unfold mu. cbn [c_sbuf c_queue c_in set_in set_sbuf]. rewrite Hs, H3. pose proof (nu_range (c_in c)). lia.
Qed.
Lemma create_link_prog f c ev :
  wp (create_link f) c ev (fun o c' ev' _ => c' = c /\ zlen ev' < zlen ev) nofuel.
Proof.
  unfold create_link. apply wp_bind. unfold sys_alloc at 1, wp at 1. destruct ev as [|e ev]; [discriminate|]. destruct e; try discriminate. rewrite zlen_cons'. wstep. apply wp_ret. split; [reflexivity|lia].
Qed.
(** appending (or prepending) costs an allocation *)
Lemma queue_mu c q ev ev' : zlen q <= zlen (c_queue c) + 1 -> zlen ev' < zlen ev -> mu (set_queue c q) ev' < mu c ev.
Proof. intros H1 H2. unfold mu. cbn [c_sbuf c_queue c_in set_queue]. unfold SOCK_BUFFER_SIZE. lia. Qed.
Lemma queue_K c q : K c -> K (set_queue c q).
Proof. intros H. exact H. Qed.
Lemma zlen_snoc {A} (l : list A) x : zlen (l ++ [x]) = zlen l + 1.
Proof. unfold zlen. rewrite app_length. cbn [length]. lia. Qed.
Lemma drain_prog : forall fuel c ev, K c -> mu c ev < Z.of_nat fuel ->
  wp (try_recv_drain E fuel) c ev (fun r c' ev' _ => K c' /\ mu c' ev' <= mu c ev + (if okz r then 0 else 1) /\ zlen ev' <= zlen ev) nofuel.
Proof.
  induction fuel as [|fuel IH]; intros c ev HK He; [pose proof (mu_ev c ev); pose proof (zlen_nonneg ev); lia|]. cbn [try_recv_drain]. wstep.
  destruct (amqp_data_in_buffer c) eqn:Hd; cbn [negb]; [|apply wp_ret; split; [exact HK|]; cbn; lia].
  apply wp_bind. eapply wp_conseq; [apply consume_prog1; assumption| |auto]; cbv beta. intros [r f] c1 ev1 l1 (H1 & -> & H2). unfold okf in H2. cbn [fst] in H2.
  destruct (r =? AMQP_STATUS_OK) eqn:Hr; cbn [negb].
  2:{ apply wp_ret. split; [exact H1|]. unfold okz. rewrite Hr. split; [exact H2|lia]. }
  assert (forall c2 ev2, K c2 -> mu c2 ev2 < mu c ev -> zlen ev2 <= zlen ev ->
    wp (try_recv_drain E fuel) c2 ev2 (fun r0 c' ev' _ => K c' /\ mu c' ev' <= mu c ev + (if okz r0 then 0 else 1) /\ zlen ev' <= zlen ev) nofuel) as Hrec.
  { intros c2 ev2 K2 M2 E2. eapply wp_conseq; [apply IH; [exact K2|lia]| |auto]; cbv beta. intros r3 c3 ev3 l3 (G1 & G2 & G3). split; [exact G1|]. split; lia. }
  destruct (f_type f =? 0); cbn [negb].
  { apply (Hrec c1 ev); [exact H1|lia|lia]. }
  apply wp_bind. eapply wp_conseq; [apply create_link_prog| |auto]; cbv beta. intros o c2 ev2 l2 (-> & He2).
  destruct o as [e|].
  - unfold append_entry. wstep. apply (Hrec (set_queue c1 (c_queue c1 ++ [e])) ev2); [exact H1| |lia].
    pose proof (queue_mu c1 (c_queue c1 ++ [e]) ev ev2 ltac:(rewrite zlen_snoc; lia) He2). lia.
  - apply wp_ret. split; [exact H1|]. split; [|lia]. pose proof (core_mu' c1 c1 ev ev2 (core_refl _) ltac:(lia)). destruct (okz _); lia.
Qed.
Lemma recv_mu c ev r c' ev' : recv_spec c ev r c' ev' -> K c -> K c' /\ mu c' ev' <= mu c ev /\ ((r = AMQP_STATUS_OK \/ r = AMQP_STATUS_TIMEOUT) -> mu c' ev' < mu c ev).
Proof.
  intros (H1 & H2 & H6 & H3 & H4 & H5) (K1 & K2 & K3). unfold K, mu. rewrite H1, H2, H6. pose proof (zlen_nonneg (c_sbuf c)). pose proof (zlen_nonneg (c_sbuf c')).
  destruct H5 as [H5|[H5 H7]]; [rewrite H5|]; (split; [auto|]); unfold SOCK_BUFFER_SIZE in *; (split; [lia|]); intros G; try specialize (H4 G); lia.
Qed.
(** TIMEOUT is no error here *)
Definition okt (r : Z) : bool := (r =? AMQP_STATUS_OK) || (r =? AMQP_STATUS_TIMEOUT).
Lemma try_recv_prog c ev : K c -> mu c ev < n ->
  wp (amqp_try_recv N E) c ev (fun r c' ev' _ => K c' /\ (if okz r then mu c' ev' < mu c ev else mu c' ev' <= mu c ev + 1)) nofuel.
Proof.
  intros HK Hm. unfold amqp_try_recv. apply wp_bind. eapply wp_conseq; [apply drain_prog; assumption| |auto]; cbv beta. intros r c1 ev1 l1 (H1 & H2 & H3).
  unfold okz in H2. destruct (r =? AMQP_STATUS_OK) eqn:Hr; cbn [negb].
  2:{ apply wp_ret. split; [exact H1|]. unfold okz. rewrite Hr. lia. }
  assert (zlen ev1 < n) as Hev by (pose proof (mu_ev c1 ev1); lia).
  apply wp_bind. eapply wp_conseq; [apply (wp_split _ _ _ _ _ _ _ (lo_from_now n (Some (mkTv 0 0)) c1 ev1 Hev) (from_now_ok (Some (mkTv 0 0)) c1 ev1))| |intros s c2 l2 [Hs _]; exact Hs]; cbv beta.
  intros [r2 t] c2 ev2 l2 ((G1 & G2 & _) & _ & _ & (_ & _ & D0 & _) & _).
  pose proof (core_mu' _ _ _ _ G1 G2) as G3. pose proof (core_K _ _ G1 H1) as G4.
  destruct t as [t|].
  - destruct (r2 =? AMQP_STATUS_OK) eqn:Hr2.
    + eapply wp_conseq; [apply (recv_prog t N c2 ev2); pose proof (mu_ev c2 ev2); lia| |auto]; cbv beta. intros r3 c3 ev3 l3 Hsp.
      destruct (recv_mu _ _ _ _ _ Hsp G4) as (Q1 & Q2 & Q3). split; [exact Q1|]. destruct (okz r3) eqn:Ho; [|lia]. unfold okz in Ho. apply Z.eqb_eq in Ho. specialize (Q3 (or_introl Ho)). lia.
    + apply wp_ret. split; [exact G4|]. unfold okz. rewrite Hr2. lia.
  - apply wp_ret. split; [exact G4|]. destruct (okz r2) eqn:Ho; [|lia].
    exfalso. cbn [fst snd] in D0. unfold okz in Ho. apply Z.eqb_eq in Ho. exact (D0 eq_refl Ho).
Qed.

(** strict progress if the result is good, at most one step back otherwise *)
Definition ps {A} (P : A -> bool) (m : M A) (c : conn) : Prop := forall ev, K c -> mu c ev < n ->
  wp m c ev (fun a c' ev' _ => K c' /\ (if P a then mu c' ev' < mu c ev else mu c' ev' <= mu c ev + 1)) nofuel.
Lemma ps_pg A P (m : M A) c : ps P m c -> pg P m c.
Proof. intros H ev HK Hm. eapply wp_conseq; [apply H; assumption| |auto]; cbv beta. intros a c' ev' l [H1 H2]. split; [exact H1|]. destruct (P a); lia. Qed.
Definition okn (r : Z) : bool := 0 <=? r.
Lemma send_frame_loop_prog d more : forall fuel enc c ev, K c -> mu c ev < Z.of_nat fuel -> mu c ev < n ->
  wp (send_frame_loop N E fuel enc more d) c ev (fun r c' ev' _ => K c' /\ (if okn r then mu c' ev' < mu c ev else mu c' ev' <= mu c ev + 1)) nofuel.
Proof.
  induction fuel as [|fuel IH]; intros enc c ev HK He Hn; [pose proof (mu_ev c ev); pose proof (zlen_nonneg ev); lia|]. cbn [send_frame_loop]. wstep. cbv zeta.
  apply wp_bind. eapply wp_conseq; [apply (lo_try_send enc _ more c ev); pose proof (mu_ev c ev); lia| |auto]; cbv beta. intros r c1 ev1 l1 (H1 & H2 & H3).
  pose proof (core_mu _ _ _ _ H1 H2) as Hm. pose proof (core_mu' _ _ _ _ H1 H2) as Hm'. pose proof (core_K _ _ H1 HK) as HK1. unfold SOCK_BUFFER_SIZE in Hm.
  destruct (Z.ltb_spec r 0) as [Hr|Hr]; [apply wp_ret; split; [exact HK1|]; unfold okn; destruct (Z.leb_spec 0 r); lia|]. specialize (H3 Hr).
  destruct (_ =? r); cbn [negb].
  { eapply wp_conseq; [apply (lo_next_send n c1 ev1); pose proof (mu_ev c ev); lia| |auto]; cbv beta. intros r2 c2 ev2 l2 (G1 & G2 & _).
    pose proof (core_mu' _ _ _ _ G1 G2). split; [eapply core_K; eassumption|]. destruct (okn r2); lia. }
  destruct (amqp_time_equal _ _); [apply wp_ret; split; [exact HK1|]; destruct (okn _); lia|].
  apply wp_bind. eapply wp_conseq; [apply try_recv_prog; [exact HK1|lia]| |auto]; cbv beta. intros r2 c2 ev2 l2 [G1 G2]. unfold okz in G2.
  destruct (Z.eqb_spec r2 AMQP_STATUS_TIMEOUT) as [->|_]. { change (AMQP_STATUS_TIMEOUT =? AMQP_STATUS_OK) with false in G2. cbv iota in G2. apply wp_ret. split; [exact G1|]. change (okn AMQP_STATUS_HEARTBEAT_TIMEOUT) with false. cbv iota. lia. }
  destruct (r2 =? AMQP_STATUS_OK); cbn [negb]. 2:{ apply wp_ret. split; [exact G1|]. destruct (okn r2); lia. }
  eapply wp_conseq; [apply IH; [exact G1|lia|lia]| |auto]; cbv beta. intros r3 c3 ev3 l3 [Q1 Q2]. split; [exact Q1|]. destruct (okn r3); lia.
Qed.
Lemma send_frame_prog f more d c : ps okn (amqp_send_frame_inner N E f more d) c.
Proof.
  intros ev HK Hm. unfold amqp_send_frame_inner. wstep. destruct (amqp_frame_to_bytes f (c_outbuf c)) as [res buf enc|] eqn:Hf; [|apply wp_halt; discriminate].
  wstep. assert (core c (set_outbuf c buf)) as Hc. { repeat split. cbn. exact (frame_to_bytes_len _ _ _ _ _ Hf). }
  pose proof (core_K _ _ Hc HK) as HK1. assert (mu (set_outbuf c buf) ev = mu c ev) as Hmu by reflexivity.
  destruct (Z.eqb_spec res AMQP_STATUS_OK) as [->|Hne]; cbn [negb].
  - rewrite <- Hmu in Hm. eapply wp_conseq; [apply send_frame_loop_prog; assumption| |auto]; cbv beta. rewrite Hmu. auto.
  - apply wp_ret. split; [exact HK1|]. destruct HK as (_ & _ & HK). destruct (frame_to_bytes_status _ _ _ _ _ HK Hf) as [->|H]; [contradiction|]. apply enc_err_neg in H.
    unfold okn. destruct (Z.leb_spec 0 res); [lia|]. rewrite Hmu. lia.
Qed.
Lemma release_on_prog ch c ev : K c -> wp (amqp_maybe_release_buffers_on_channel ch) c ev (fun _ c' ev' _ => K c' /\ mu c' ev' = mu c ev) nofuel.
Proof.
  intros HK. unfold amqp_maybe_release_buffers_on_channel. wstep. destruct (i_state (c_in c)); try (apply wp_ret; auto; fail).
  destruct (negb _); [apply wp_halt; discriminate|]. destruct (existsb _ _); [apply wp_ret; auto|]. apply wp_upd. split; [exact HK|reflexivity].
Qed.
Lemma release_prog c : pg allok amqp_release_buffers c.
Proof.
  intros ev HK Hm. unfold amqp_release_buffers. wstep. destruct (i_state (c_in c)); try (apply wp_halt; discriminate).
  destruct (negb _); [apply wp_halt; discriminate|]. apply wp_upd. split; [exact HK|]. change (mu (set_gens c (fun k : Z => if existsb (on_channel k) (c_queue c) then gens c k else S (gens c k))) ev) with (mu c ev). cbn. lia.
Qed.
Lemma maybe_release_prog c : pg allok amqp_maybe_release_buffers c.
Proof. unfold amqp_maybe_release_buffers. apply pg_get. destruct (_ c); [apply release_prog|apply pg_ret]. Qed.

Lemma wait_loop_prog d : forall fuel skip c ev, K c -> mu c ev < Z.of_nat fuel -> mu c ev < n ->
  wp (wait_frame_loop N E fuel skip d) c ev (fun p c' ev' _ => K c' /\ (if okf p then mu c' ev' < mu c ev else mu c' ev' <= mu c ev + 1)) nofuel.
Proof.
  induction fuel as [|fuel IH]; intros skip c ev HK He Hn; [pose proof (mu_ev c ev); pose proof (zlen_nonneg ev); lia|]. cbn [wait_frame_loop]. wstep.
  assert (forall skip c2 ev2, K c2 -> mu c2 ev2 < mu c ev ->
    wp (wait_frame_loop N E fuel skip d) c2 ev2 (fun p c' ev' _ => K c' /\ (if okf p then mu c' ev' < mu c ev else mu c' ev' <= mu c ev + 1)) nofuel) as Hrec.
  { intros sk c2 ev2 K2 M2. eapply wp_conseq; [apply IH; [exact K2|lia|lia]| |auto]; cbv beta. intros p3 c3 ev3 l3 [G1 G2]. split; [exact G1|]. destruct (okf p3); lia. }
  destruct (negb skip && amqp_data_in_buffer c) eqn:Hd.
  - apply andb_true_iff in Hd. destruct Hd as [_ Hd]. apply wp_bind. eapply wp_conseq; [apply consume_prog1; assumption| |auto]; cbv beta. intros [r f] c1 ev1 l1 (H1 & -> & H2).
    unfold okf in H2. cbn [fst] in H2. destruct (r =? AMQP_STATUS_OK) eqn:Hr; cbn [negb].
    2:{ apply wp_ret. split; [exact H1|]. unfold okf. cbn [fst]. rewrite Hr. exact H2. }
    destruct (_ =? f_type f).
    { apply wp_bind. eapply wp_conseq; [apply release_on_prog; exact H1| |auto]; cbv beta. intros _ c2 ev2 l2 [G1 G2]. apply Hrec; [exact G1|lia]. }
    destruct (negb _); [apply wp_ret; split; [exact H1|]; exact H2|]. apply Hrec; [exact H1|lia].
  - apply wp_bind. assert (zlen ev < n) as Hev by (pose proof (mu_ev c ev); lia). eapply wp_conseq; [apply (lo_has_past n _ c ev Hev)| |auto]; cbv beta. intros r c1 ev1 l1 (H1 & H2 & _).
    pose proof (core_mu' _ _ _ _ H1 H2) as Hm1. pose proof (core_K _ _ H1 HK) as HK1.
    destruct (Z.eqb_spec r AMQP_STATUS_TIMER_FAILURE) as [->|_]; [apply wp_ret; split; [exact HK1|]; change (okf (AMQP_STATUS_TIMER_FAILURE, no_frame)) with false; cbv iota; lia|].
    apply wp_bind.
    assert (wp (if r =? AMQP_STATUS_TIMEOUT then amqp_send_frame N E heartbeat_frame else ret AMQP_STATUS_OK) c1 ev1
      (fun r2 c' ev' _ => K c' /\ (if okz r2 then mu c' ev' <= mu c ev else mu c' ev' <= mu c ev + 1)) nofuel) as HS.
    { destruct (_ =? _).
      - unfold amqp_send_frame. eapply wp_conseq; [apply send_frame_prog; [exact HK1|lia]| |auto]; cbv beta. intros r2 c2 ev2 l2 [G1 G2]. split; [exact G1|].
        unfold okn, okz in *. destruct (Z.eqb_spec r2 AMQP_STATUS_OK) as [->|]; [change (0 <=? AMQP_STATUS_OK) with true in G2; cbv iota in G2; lia|]. destruct (0 <=? r2); lia.
      - apply wp_ret. split; [exact HK1|]. cbn. lia. }
    eapply wp_conseq; [exact HS| |auto]; cbv beta. intros r2 c2 ev2 l2 [G1 G2]. unfold okz in G2. destruct (r2 =? AMQP_STATUS_OK) eqn:Hr2; cbn [negb].
    2:{ apply wp_ret. split; [exact G1|]. unfold okf. cbn [fst]. rewrite Hr2. exact G2. }
    wstep. cbv zeta. apply wp_bind. eapply wp_conseq; [apply (recv_prog _ N c2 ev2); pose proof (mu_ev c2 ev2); lia| |auto]; cbv beta. intros r3 c3 ev3 l3 Hsp.
    destruct (recv_mu _ _ _ _ _ Hsp G1) as (Q1 & Q2 & Q3).
    destruct (Z.eqb_spec r3 AMQP_STATUS_TIMEOUT) as [E3|_].
    { specialize (Q3 (or_intror E3)). wstep.
      destruct (amqp_time_equal _ _).
      { apply wp_bind. eapply wp_conseq; [apply close_core| |auto]; cbv beta. intros _ c4 ev4 l4 [R1 R2]. apply wp_ret. pose proof (core_mu' _ _ _ _ R1 R2). split; [eapply core_K; eassumption|].
        change (okf (AMQP_STATUS_HEARTBEAT_TIMEOUT, no_frame)) with false; cbv iota; lia. }
      destruct (amqp_time_equal _ _); [apply wp_ret; split; [exact Q1|]; change (okf (AMQP_STATUS_TIMEOUT, no_frame)) with false; cbv iota; lia|].
      destruct (amqp_time_equal _ _); [apply Hrec; [exact Q1|lia]|apply wp_halt; discriminate]. }
    destruct (r3 =? AMQP_STATUS_OK) eqn:Hr3; cbn [negb].
    + apply Z.eqb_eq in Hr3. specialize (Q3 (or_introl Hr3)). apply Hrec; [exact Q1|lia].
    + apply wp_ret. split; [exact Q1|]. unfold okf. cbn [fst]. rewrite Hr3. lia.
Qed.
Lemma wait_prog d c : ps okf (wait_frame_inner N E d) c.
Proof. intros ev HK Hm. apply wait_loop_prog; assumption. Qed.
Lemma queue_prog f c ev : K c -> wp (amqp_queue_frame f) c ev (fun r c' ev' _ => K c' /\ mu c' ev' <= mu c ev) nofuel.
Proof.
  intros HK. unfold amqp_queue_frame. apply wp_bind. eapply wp_conseq; [apply create_link_prog| |auto]; cbv beta. intros o c1 ev1 l1 (-> & He).
  destruct o as [e|].
  - unfold append_entry. wstep. apply wp_ret. split; [exact HK|]. pose proof (queue_mu c (c_queue c ++ [e]) ev ev1 ltac:(rewrite zlen_snoc; lia) He). lia.
  - apply wp_ret. split; [exact HK|]. apply core_mu'; [apply core_refl|lia].
Qed.
Lemma put_back_prog f c ev : K c -> wp (amqp_put_back_frame f) c ev (fun r c' ev' _ => K c' /\ mu c' ev' <= mu c ev) nofuel.
Proof.
  intros HK. unfold amqp_put_back_frame. apply wp_bind. eapply wp_conseq; [apply create_link_prog| |auto]; cbv beta. intros o c1 ev1 l1 (-> & He).
  destruct o as [e|].
  - wstep. apply wp_ret. split; [exact HK|]. pose proof (queue_mu c (e :: c_queue c) ev ev1 ltac:(rewrite zlen_cons'; lia) He). lia.
  - apply wp_ret. split; [exact HK|]. apply core_mu'; [apply core_refl|lia].
Qed.
Lemma on_channel_loop_prog ch : forall fuel c ev, K c -> mu c ev < Z.of_nat fuel -> mu c ev < n ->
  wp (wait_on_channel_loop N E fuel ch) c ev (fun p c' ev' _ => K c' /\ (if okf p then mu c' ev' < mu c ev else mu c' ev' <= mu c ev + 1)) nofuel.
Proof.
  induction fuel as [|fuel IH]; intros c ev HK He Hn; [pose proof (mu_ev c ev); pose proof (zlen_nonneg ev); lia|]. cbn [wait_on_channel_loop].
  apply wp_bind. eapply wp_conseq; [apply wait_prog; assumption| |auto]; cbv beta. intros [r f] c1 ev1 l1 [H1 H2].
  unfold okf in H2. cbn [fst] in H2. destruct (r =? AMQP_STATUS_OK) eqn:Hr; cbn [negb]; [|apply wp_ret; split; [exact H1|]; unfold okf; cbn [fst]; rewrite Hr; exact H2].
  destruct (_ =? f_chan f); [apply wp_ret; split; [exact H1|exact H2]|].
  apply wp_bind. eapply wp_conseq; [apply queue_prog; exact H1| |auto]; cbv beta. intros r2 c2 ev2 l2 [G1 G2].
  destruct (r2 =? AMQP_STATUS_OK) eqn:Hr2; cbn [negb]; [|apply wp_ret; split; [exact G1|]; unfold okf; cbn [fst]; rewrite Hr2; lia].
  eapply wp_conseq; [apply IH; [exact G1|lia|lia]| |auto]; cbv beta. intros p3 c3 ev3 l3 [Q1 Q2]. split; [exact Q1|]. destruct (okf p3); lia.
Qed.
Lemma find_len g ch : forall q f q', find_on_channel g ch q = Some (Some (f, q')) -> zlen q' < zlen q.
Proof.
  induction q as [|e q IH]; intros f q'; cbn [find_on_channel]; [discriminate|]. rewrite zlen_cons'. destruct (negb _); [discriminate|]. destruct (on_channel ch e).
  - intros H. inversion H. lia.
  - intros H. specialize (IH _ _ H). lia.
Qed.
Lemma on_channel_prog ch c : ps okf (amqp_simple_wait_frame_on_channel N E ch) c.
Proof.
  intros ev HK Hm. unfold amqp_simple_wait_frame_on_channel. wstep. destruct (find_on_channel _ _ _) as [[[f q]|]|] eqn:Hf; [| |apply wp_halt; discriminate].
  - wstep. apply wp_ret. split; [exact HK|]. change (okf (AMQP_STATUS_OK, f)) with true. cbv iota. apply find_len in Hf. unfold mu. cbn [c_sbuf c_queue c_in set_queue]. lia.
  - apply on_channel_loop_prog; assumption.
Qed.
Lemma noblock_prog t c : ps okf (amqp_simple_wait_frame_noblock N E t) c.
Proof.
  intros ev HK Hm. unfold amqp_simple_wait_frame_noblock. assert (zlen ev < n) as Hev by (pose proof (mu_ev c ev); lia).
  apply wp_bind. eapply wp_conseq; [apply (wp_split _ _ _ _ _ _ _ (lo_from_now n t c ev Hev) (from_now_ok t c ev))| |intros s c2 l2 [Hs _]; exact Hs]; cbv beta.
  intros [r d] c1 ev1 l1 ((H1 & H2 & _) & _ & _ & (_ & _ & D0 & _) & _). cbn [fst snd] in D0.
  pose proof (core_mu' _ _ _ _ H1 H2) as Hm1. pose proof (core_K _ _ H1 HK) as HK1.
  destruct d as [d|]. 2:{ specialize (D0 eq_refl). apply wp_ret. split; [exact HK1|]. unfold okf. cbn [fst]. destruct (Z.eqb_spec r AMQP_STATUS_OK); [contradiction|lia]. }
  destruct (r =? AMQP_STATUS_OK) eqn:Hr; cbn [negb]; [|apply wp_ret; split; [exact HK1|]; unfold okf; cbn [fst]; rewrite Hr; lia].
  wstep. destruct (c_queue c1) as [|e q] eqn:Eq.
  - eapply wp_conseq; [apply wait_prog; [exact HK1|lia]| |auto]; cbv beta. intros p c2 ev2 l2 [G1 G2]. split; [exact G1|]. destruct (okf p); lia.
  - destruct (negb _); [apply wp_halt; discriminate|]. wstep. apply wp_ret. split; [exact HK1|]. change (okf (AMQP_STATUS_OK, fst e)) with true. cbv iota.
    assert (mu (set_queue c1 q) ev1 < mu c1 ev1); [|lia]. unfold mu. cbn [c_sbuf c_queue c_in set_queue]. rewrite Eq, zlen_cons'. lia.
Qed.

(** ** The calls *)
Definition fails {A} (_ : A) : bool := false.
Definition okr (r : rpc_reply_t) : bool := match r with RLibrary _ => false | _ => true end.
Definition ok1 {A} (p : Z * A) : bool := fst p =? AMQP_STATUS_OK.
Definition okr1 {A} (p : rpc_reply_t * A) : bool := okr (fst p).
Lemma pg_fails A P (m : M A) c : pg P m c -> pg fails m c.
Proof. intros H. eapply pg_weaken; [|exact H]. reflexivity. Qed.
Lemma pg_need A P (o : option A) c : pg P (need o) c.
Proof. destruct o; [apply pg_ret|apply pg_halt; discriminate]. Qed.
Lemma pg_if A P (b : bool) (m1 m2 : M A) c : pg P m1 c -> pg P m2 c -> pg P (if b then m1 else m2) c.
Proof. destruct b; auto. Qed.
Lemma pg_wp A P (m : M A) c : (forall ev, K c -> wp m c ev (fun _ c' ev' _ => K c' /\ mu c' ev' <= mu c ev) nofuel) -> pg P m c.
Proof. intros H ev HK Hm. eapply wp_conseq; [apply H; exact HK| |auto]; cbv beta. intros a c' ev' l [H1 H2]. split; [exact H1|]. destruct (P a); lia. Qed.
Lemma tail_login_error r c : tail okr (login_error r) c.
Proof. unfold login_error. apply tail_bind; [apply close_core|]. intros. apply tail_ret. reflexivity. Qed.
Lemma pg_login_error r P c : pg P (login_error r) c.
Proof. eapply lo_pg. apply lo_login_error. Qed.

Lemma send_method_prog ch id m more d c : ps okn (amqp_send_method_inner N E ch id m more d) c.
Proof. apply send_frame_prog. Qed.
Lemma list_prog ch ids d c : pg ok1 (amqp_simple_wait_method_list N E ch ids d) c.
Proof.
  unfold amqp_simple_wait_method_list. eapply pg_lo; [apply lo_tv_until|]. intros [r tv] c1. destruct tv as [tv|]; [|apply pg_ret]. destruct (negb _); [apply pg_ret|].
  eapply pg_bind; [apply ps_pg, noblock_prog| |].
  - intros [r2 f] c2 Hr. destruct (negb _); [apply pg_ret|]. destruct (_ || _); [apply pg_ret|]. eapply pg_seq; [apply pg_need|]. intros [id m] c3. destruct (negb _); apply pg_ret.
  - intros [r2 f] c2 Hr. unfold okf in Hr. cbn [fst] in Hr. rewrite Hr. cbn [negb]. apply tail_ret. exact Hr.
Qed.
Lemma rpc_wait_prog ch ids d : forall fuel c ev, K c -> mu c ev < Z.of_nat fuel -> mu c ev < n ->
  wp (rpc_wait N E fuel ch ids d) c ev (fun r c' ev' _ => K c' /\ mu c' ev' <= mu c ev + (if okr r then 0 else 1)) nofuel.
Proof.
  induction fuel as [|fuel IH]; intros c ev HK He Hn; [pose proof (mu_ev c ev); pose proof (zlen_nonneg ev); lia|]. cbn [rpc_wait].
  apply wp_bind. eapply wp_conseq; [apply wait_prog; assumption| |auto]; cbv beta. intros [r f] c1 ev1 l1 [H1 H2].
  unfold okf in H2. cbn [fst] in H2. destruct (r =? AMQP_STATUS_OK) eqn:Hr; cbn [negb].
  2:{ apply wp_bind. eapply (wp_conseq _ _ _ (fun _ c' ev' _ => core c1 c' /\ zlen ev' <= zlen ev1) _ nofuel).
      - destruct (r =? AMQP_STATUS_TIMEOUT); [apply close_core|apply wp_ret; split; [apply core_refl|lia]].
      - intros _ c2 ev2 l2 [G1 G2]. apply wp_ret. split; [eapply core_K; eassumption|]. pose proof (core_mu' _ _ _ _ G1 G2). cbn [okr]. lia.
      - auto. }
  destruct (negb _).
  - apply wp_bind. eapply wp_conseq; [apply create_link_prog| |auto]; cbv beta. intros o c2 ev2 l2 (-> & He2). destruct o as [e|].
    + unfold append_entry. wstep. pose proof (queue_mu c1 (c_queue c1 ++ [e]) ev1 ev2 ltac:(rewrite zlen_snoc; lia) He2).
      eapply wp_conseq; [apply IH; [exact H1|lia|lia]| |auto]; cbv beta. intros r3 c3 ev3 l3 [Q1 Q2]. split; [exact Q1|]. destruct (okr r3); lia.
    + apply wp_ret. split; [exact H1|]. pose proof (core_mu' c1 c1 ev1 ev2 (core_refl _) ltac:(lia)). cbn [okr]. lia.
  - apply wp_bind. unfold need. destruct (method_of f) as [[id m]|]; [|apply wp_halt; discriminate]. apply wp_ret. apply wp_ret. split; [exact H1|]. destruct (okr _); lia.
Qed.
Lemma rpc_inner_prog ch id ids m d c : pg okr (simple_rpc_inner N E ch id ids m d) c.
Proof.
  unfold simple_rpc_inner. eapply pg_bind; [apply ps_pg, send_method_prog| |].
  - intros r c1 _. destruct (_ <? _); [apply pg_ret|]. intros ev HK Hm. apply rpc_wait_prog; assumption.
  - intros r c1 Hr. unfold okn in Hr. apply Z.leb_gt in Hr. destruct (Z.ltb_spec r 0); [apply tail_ret; reflexivity|lia].
Qed.
Lemma rpc_prog ch id ids m c : pg okr (amqp_simple_rpc N E ch id ids m) c.
Proof.
  unfold amqp_simple_rpc. apply pg_get. eapply pg_lo; [apply lo_from_now|]. intros [r d] c1. destruct d; [|apply pg_ret]. destruct (negb _); [apply pg_ret|apply rpc_inner_prog].
Qed.
Lemma rpc_decoded_prog ch id r m c : pg fails (amqp_simple_rpc_decoded N E ch id r m) c.
Proof.
  unfold amqp_simple_rpc_decoded. eapply pg_bind; [apply rpc_prog| |].
  - intros r0 c1 _. apply pg_seq; [apply pg_upd; repeat split|]. intros. apply pg_ret.
  - intros r0 c1 _. apply tail_bind; [intros ev; apply wp_upd; split; [repeat split|lia]|]. intros. apply tail_ret. reflexivity.
Qed.
Lemma close_prog ch code : forall c, pg okr (amqp_channel_close N E ch code) c.
Proof. intros c. unfold amqp_channel_close. destruct (_ || _); [apply pg_ret|apply rpc_prog]. Qed.
Lemma conn_close_prog code : forall c, pg okr (amqp_connection_close N E code) c.
Proof. intros c. unfold amqp_connection_close. destruct (_ || _); [apply pg_ret|apply rpc_prog]. Qed.
Lemma get_prog ch q na c : pg fails (amqp_basic_get N E ch q na) c.
Proof.
  unfold amqp_basic_get. eapply pg_bind; [apply rpc_prog| |].
  - intros r0 c1 _. apply pg_seq; [apply pg_upd; repeat split|]. intros. apply pg_ret.
  - intros r0 c1 _. apply tail_bind; [intros ev; apply wp_upd; split; [repeat split|lia]|]. intros. apply tail_ret. reflexivity.
Qed.
Lemma publish_body_prog ch b u : forall fuel o c ev, K c -> mu c ev < Z.of_nat fuel -> mu c ev < n ->
  wp (publish_body N E fuel ch b u o) c ev (fun r c' ev' _ => K c' /\ mu c' ev' <= mu c ev + (if okz r then 0 else 1)) nofuel.
Proof.
  induction fuel as [|fuel IH]; intros o c ev HK He Hn; [pose proof (mu_ev c ev); pose proof (zlen_nonneg ev); lia|]. cbn [publish_body].
  destruct (negb _); [apply wp_ret; split; [exact HK|cbn; lia]|]. cbv zeta. destruct (_ =? 0); [apply wp_ret; split; [exact HK|cbn; lia]|].
  apply wp_bind. unfold need. destruct (slice _ _ _) as [fr|]; [|apply wp_halt; discriminate]. apply wp_ret.
  apply wp_bind. eapply wp_conseq; [apply send_frame_prog; assumption| |auto]; cbv beta. intros r c1 ev1 l1 [H1 H2]. unfold okn in H2.
  destruct (Z.ltb_spec r 0) as [Hr|Hr].
  - apply wp_ret. split; [exact H1|]. destruct (Z.leb_spec 0 r); [lia|]. unfold okz. destruct (Z.eqb_spec r AMQP_STATUS_OK) as [->|]; [unfold AMQP_STATUS_OK in Hr; lia|lia].
  - destruct (Z.leb_spec 0 r); [|lia]. eapply wp_conseq; [apply IH; [exact H1|lia|lia]| |auto]; cbv beta. intros r3 c3 ev3 l3 [Q1 Q2]. split; [exact Q1|]. destruct (okz r3); lia.
Qed.
Lemma publish_prog ch x k ma im p b c : pg okz (amqp_basic_publish N E ch x k ma im p b) c.
Proof.
  unfold amqp_basic_publish. apply pg_get. cbv zeta. eapply pg_lo; [apply lo_has_past|]. intros r c1. destruct (_ =? _); [apply pg_ret|].
  assert (forall r c, okn r = false -> tail okz (if r <? 0 then ret r else ret 0) c) as T0.
  { intros r0 c0 Hr. unfold okn in Hr. apply Z.leb_gt in Hr. destruct (Z.ltb_spec r0 0); [|lia]. apply tail_ret. unfold okz. destruct (Z.eqb_spec r0 AMQP_STATUS_OK) as [->|]; [unfold AMQP_STATUS_OK in Hr; lia|reflexivity]. }
  assert (forall r (m : M Z) c, okn r = false -> tail okz (if r <? 0 then ret r else m) c) as T.
  { intros r0 m c0 Hr. specialize (T0 r0 c0 Hr). unfold okn in Hr. apply Z.leb_gt in Hr. destruct (Z.ltb_spec r0 0); [exact T0|lia]. }
  eapply (pg_bind _ _ okz).
  { destruct (_ =? _); [|apply pg_ret]. intros ev HK Hm. eapply wp_conseq; [apply try_recv_prog; assumption| |auto]; cbv beta. intros r0 c' ev' l [H1 H2]. split; [exact H1|]. destruct (okz r0); lia. }
  2:{ intros r2 c2 Hr. destruct (_ =? _); [apply tail_ret; reflexivity|]. unfold okz in Hr. rewrite Hr. cbn [negb]. apply tail_ret. exact Hr. }
  intros r2 c2 Hr. destruct (_ =? _); [apply pg_ret|]. destruct (negb _); [apply pg_ret|].
  eapply pg_bind; [apply ps_pg, send_method_prog| |intros r3 c3 H3; apply T; exact H3]. intros r3 c3 _. destruct (_ <? _); [apply pg_ret|].
  eapply pg_bind; [apply ps_pg, send_frame_prog| |intros r4 c4 H4; apply T; exact H4]. intros r4 c4 _. destruct (_ <? _); [apply pg_ret|].
  intros ev HK Hm. apply publish_body_prog; assumption.
Qed.
Lemma read_body_prog ch : forall fuel b o c ev, K c -> mu c ev < Z.of_nat fuel -> mu c ev < n ->
  wp (read_body N E fuel ch b o) c ev (fun r c' ev' _ => K c' /\ mu c' ev' <= mu c ev + (if okr1 r then 0 else 1)) nofuel.
Proof.
  induction fuel as [|fuel IH]; intros b o c ev HK He Hn; [pose proof (mu_ev c ev); pose proof (zlen_nonneg ev); lia|]. cbn [read_body].
  destruct (negb _); [apply wp_ret; split; [exact HK|cbn; lia]|].
  apply wp_bind. eapply wp_conseq; [apply on_channel_prog; assumption| |auto]; cbv beta. intros [r f] c1 ev1 l1 [H1 H2].
  unfold okf in H2. cbn [fst] in H2. destruct (r =? AMQP_STATUS_OK); cbn [negb]; [|apply wp_ret; split; [exact H1|cbn; lia]].
  destruct (negb _). { destruct (is_close f) as [[id m]|]; apply wp_ret; (split; [exact H1|cbn; lia]). }
  destruct (f_pay f) as [| | |fr|]; try (apply wp_halt; discriminate).
  destruct (_ <? _); [apply wp_ret; split; [exact H1|cbn; lia]|].
  apply wp_bind. unfold need. destruct (write _ _ _) as [b'|]; [|apply wp_halt; discriminate]. apply wp_ret.
  eapply wp_conseq; [apply IH; [exact H1|lia|lia]| |auto]; cbv beta. intros r3 c3 ev3 l3 [Q1 Q2]. split; [exact Q1|]. destruct (okr1 r3); lia.
Qed.
Lemma read_message_prog ch c : pg okr1 (amqp_read_message N E ch) c.
Proof.
  unfold amqp_read_message. eapply pg_bind; [apply ps_pg, on_channel_prog| |].
  2:{ intros [r f] c1 Hr. unfold okf in Hr. cbn [fst] in Hr. rewrite Hr. cbn [negb]. apply tail_ret. reflexivity. }
  intros [r f] c1 _. destruct (negb _); [apply pg_ret|]. destruct (negb _).
  { destruct (is_close f) as [[id m]|]; [apply pg_ret|]. apply pg_seq; [apply pg_wp; intros; apply put_back_prog; assumption|]. intros; apply pg_ret. }
  destruct (f_pay f) as [| |cls bsz p enc| |]; try (apply pg_halt; discriminate).
  eapply pg_lo; [apply lo_clone|]. intros oom c2. apply pg_seq; [apply pg_need|]. intros [e|p'] c3; [apply pg_ret|].
  eapply pg_seq. { apply pg_if; [apply pg_ret|]. unfold sys_malloc. eapply pg_lo; [apply lo_alloc|]. intros; apply pg_ret. }
  intros ok c4. destruct (negb _); [apply pg_ret|].
  eapply (pg_bind _ _ okr1).
  - intros ev HK Hm. apply read_body_prog; assumption.
  - intros [r0 b] c5 _. apply pg_ret.
  - intros [r0 b] c5 Hr. apply tail_ret. exact Hr.
Qed.
Lemma consume_prog2 t c : pg fails (amqp_consume_message N E t) c.
Proof.
  unfold amqp_consume_message. eapply pg_bind; [apply ps_pg, noblock_prog| |].
  2:{ intros [r f] c1 Hr. unfold okf in Hr. cbn [fst] in Hr. rewrite Hr. cbn [negb]. apply tail_ret. reflexivity. }
  assert (forall f P c, pg P (amqp_put_back_frame f;; ret (RLibrary AMQP_STATUS_UNEXPECTED_STATE, @None envelope)) c) as PB.
  { intros f P c0. apply pg_seq; [apply pg_wp; intros; apply put_back_prog; assumption|]. intros; apply pg_ret. }
  intros [r f] c1 _. destruct (negb _); [apply pg_ret|]. destruct (if f_type f =? _ then _ else _) as [[id m]|]; [|apply PB].
  destruct (_ =? _); [|apply PB]. do 5 (apply pg_seq; [apply pg_need|]; intros ? ?). eapply pg_lo; [apply lo_alloc|]. intros ok c7. destruct (negb ok); [apply pg_ret|].
  eapply pg_bind; [apply read_message_prog| |].
  - intros [r0 msg] c8 _. apply pg_ret.
  - intros [r0 msg] c8 _. apply tail_ret. reflexivity.
Qed.
Lemma confirm_prog t c : pg fails (amqp_publisher_confirm_wait N E t) c.
Proof.
  unfold amqp_publisher_confirm_wait. eapply pg_bind; [apply ps_pg, noblock_prog| |].
  2:{ intros [r f] c1 Hr. unfold okf in Hr. cbn [fst] in Hr. rewrite Hr. cbn [negb]. apply tail_ret. reflexivity. }
  assert (forall f P c, pg P (amqp_put_back_frame f;; ret (RLibrary AMQP_STATUS_UNEXPECTED_STATE, @None (Z * Z * mstruct))) c) as PB.
  { intros f P c0. apply pg_seq; [apply pg_wp; intros; apply put_back_prog; assumption|]. intros; apply pg_ret. }
  intros [r f] c1 _. destruct (negb _); [apply pg_ret|]. destruct (if f_type f =? _ then _ else _) as [[id m]|]; [|apply PB].
  destruct (_ || _); [apply pg_ret|apply PB].
Qed.
Lemma tune_prog cm fm hb c : 0 <= fm < M30 -> pg allok (amqp_tune_connection cm fm hb) c.
Proof.
  intros Hfm ev HK Hm. unfold amqp_tune_connection. wstep. destruct (i_state (c_in c)); try (apply wp_halt; discriminate). wstep.
  set (c1 := set_limits c _ _ _).
  assert (K c1) as HK1. { destruct HK as (((I1 & I2 & I3) & O) & H2 & H3). split; [split; [split; [exact I1|split; [exact Hfm|exact I3]]|exact O]|]. split; [exact H2|exact H3]. }
  assert (mu c1 ev = mu c ev) as Hmu by reflexivity. clearbody c1.
  assert (zlen ev < n) as Hev by (pose proof (mu_ev c ev); lia).
  apply wp_bind. eapply wp_conseq; [apply (lo_next_send n c1 ev Hev)| |auto]; cbv beta. intros r c2 ev2 l2 (G1 & G2 & _).
  pose proof (core_mu' _ _ _ _ G1 G2) as M2. pose proof (core_K _ _ G1 HK1) as HK2.
  destruct (negb _); [apply wp_ret; split; [exact HK2|cbn; lia]|].
  apply wp_bind. eapply wp_conseq; [apply (lo_next_recv n c2 ev2); lia| |auto]; cbv beta. intros r3 c3 ev3 l3 (G3 & G4 & _).
  pose proof (core_mu' _ _ _ _ G3 G4) as M3. pose proof (core_K _ _ G3 HK2) as HK3.
  destruct (negb _); [apply wp_ret; split; [exact HK3|cbn; lia]|].
  apply wp_bind. eapply wp_conseq; [apply (lo_alloc n c3 ev3); lia| |auto]; cbv beta. intros ok c4 ev4 l4 (G5 & G6 & _).
  pose proof (core_mu' _ _ _ _ G5 G6) as M4. pose proof (core_K _ _ G5 HK3) as HK4.
  destruct ok; wstep; apply wp_ret.
  - split; [|change (mu (set_outbuf c4 (firstn (Z.to_nat fm) (c_outbuf c4) ++ repeat x00 (Z.to_nat fm - length (c_outbuf c4)))) ev4) with (mu c4 ev4); cbn; lia].
    destruct HK4 as (K1 & K2 & K3). split; [exact K1|]. split; [exact K2|]. cbn [c_outbuf set_outbuf]. unfold zlen. rewrite app_length, firstn_length, repeat_length. lia.
  - split; [|match goal with |- context [mu (set_outbuf c4 ?b) ev4] => change (mu (set_outbuf c4 b) ev4) with (mu c4 ev4) end; cbn; lia].
    destruct HK4 as (K1 & K2 & K3). split; [exact K1|]. split; [exact K2|]. cbn [c_outbuf set_outbuf]. destruct (_ <? _); [change (zlen (@nil byte)) with 0; lia|].
    unfold zlen in *. rewrite firstn_length. lia.
Qed.
Lemma login_open_prog vh d c : pg okr (login_open N E vh d) c.
Proof.
  unfold login_open. eapply pg_bind; [apply rpc_inner_prog| |].
  - intros r c1 _. destruct r; try apply pg_ret. apply pg_seq; [apply maybe_release_prog|intros; apply pg_ret].
  - intros r c1 Hr. destruct r; try discriminate Hr. apply tail_ret. reflexivity.
Qed.
Lemma tail_neg r (m : M rpc_reply_t) c : okn r = false -> tail okr (if r <? 0 then login_error r else m) c.
Proof. intros Hr. unfold okn in Hr. apply Z.leb_gt in Hr. destruct (Z.ltb_spec r 0); [apply tail_login_error|lia]. Qed.
Lemma login_tune_prog vh cm fm hb d c : 0 <= fm < M30 -> pg okr (login_tune N E vh cm fm hb d) c.
Proof.
  intros Hfm. unfold login_tune. apply pg_seq; [apply release_prog|]. intros _ c1. eapply pg_bind; [apply list_prog| |].
  2:{ intros [r [id m]] c2 Hr. unfold ok1 in Hr. cbn [fst] in Hr. rewrite Hr. cbn [negb]. apply tail_login_error. }
  intros [r [id m]] c2 _. destruct (negb _); [apply pg_login_error|]. destruct (_ =? _); [apply pg_ret|].
  apply pg_seq; [apply pg_need|]. intros scm c3. apply pg_seq; [apply pg_need|]. intros sfm c4. apply pg_seq; [apply pg_need|]. intros shb c5. cbv zeta.
  apply pg_seq; [apply tune_prog; apply (tune_limit_range _ _ M30); [unfold u32; apply Z.mod_pos_bound; reflexivity|exact Hfm]|]. intros r6 c6. destruct (_ <? _); [apply pg_login_error|].
  eapply pg_bind; [apply ps_pg, send_method_prog| |intros r7 c7 H7; apply tail_neg; exact H7]. intros r7 c7 _. destruct (_ <? _); [apply pg_login_error|].
  apply pg_seq; [apply release_prog|]. intros. apply login_open_prog.
Qed.
Lemma login_prog pf vh cm fm hb p t cr c : fm < M30 -> pg okr (amqp_login_inner N E pf vh cm fm hb p t cr) c.
Proof.
  intros Hfm. unfold amqp_login_inner. destruct (_ || _); [apply pg_ret|]. destruct (Z.ltb_spec fm 0); [apply pg_ret|]. destruct (_ || _); [apply pg_ret|].
  eapply pg_lo; [apply lo_from_now|]. intros [r d] c1. destruct d as [d|]; [|apply pg_login_error]. destruct (negb _); [apply pg_login_error|].
  eapply pg_lo; [apply lo_send_header|]. intros r2 c2. destruct (negb _); [apply pg_login_error|].
  unfold simple_wait_method_inner. eapply pg_bind; [apply list_prog| |].
  2:{ intros [r3 [id m]] c3 Hr. unfold ok1 in Hr. cbn [fst] in Hr. rewrite Hr. cbn [negb]. apply tail_login_error. }
  intros [r3 [id m]] c3 _. destruct (negb _); [apply pg_login_error|].
  apply pg_seq; [apply pg_need|]. intros v1 c4. apply pg_seq; [apply pg_need|]. intros v2 c5. destruct (_ || _); [apply pg_login_error|].
  apply pg_seq; [apply pg_need|]. intros sp c6. eapply pg_lo; [apply lo_clone|]. intros oom c7. destruct (fst (amqp_table_clone _ _ _)) as [e|t']; [apply pg_login_error|].
  apply pg_seq; [apply pg_upd; repeat split|]. intros _ c8. apply pg_seq; [apply pg_need|]. intros mech c9.
  destruct (Prop_Sasl.C30_whole_words mech (cred_method cr)) as (found & -> & _). destruct found; [|apply pg_login_error].
  eapply pg_lo; [apply lo_alloc|]. intros ok c10. destruct (sasl_response _ _) as [resp| |]; [|apply pg_login_error|apply pg_halt; discriminate].
  eapply pg_lo; [apply lo_clone|]. intros oom2 c11. apply pg_seq; [apply pg_need|]. intros merged c12. destruct (fst merged) as [e|props]; [apply pg_login_error|].
  apply pg_seq; [apply pg_upd; repeat split|]. intros _ c13.
  eapply pg_bind; [apply ps_pg, send_method_prog| |intros r7 c14 H7; apply tail_neg; exact H7]. intros r7 c14 _. destruct (_ <? _); [apply pg_login_error|]. apply login_tune_prog. lia.
Qed.
Definition limits_ok (a : api) : Prop :=
  match a with Tune _ fm _ => 0 <= fm < M30 | Login _ _ _ fm _ _ _ => fm < M30 | _ => True end.
Lemma exec_prog a c : limits_ok a -> pg fails (exec N E a) c.
Proof.
  intros Ha.
  assert (forall A P (m : M A) (k : A -> outcome_t) c, pg P m c -> pg fails (bind m (fun x => ret (k x))) c) as B.
  { intros A P m k c0 Hm. eapply pg_bind; [exact Hm|intros; apply pg_ret|intros; apply tail_ret; reflexivity]. }
  assert (forall A B P (m : M (A * B)) (k : A -> B -> outcome_t) c, pg P m c -> pg fails (bind m (fun x => let '(a, b) := x in ret (k a b))) c) as B2.
  { intros A B0 P m k c0 Hm. eapply pg_bind; [exact Hm|intros [] ? _; apply pg_ret|intros [] ? _; apply tail_ret; reflexivity]. }
  destruct a; cbn [exec limits_ok] in *.
  - apply (B _ okn). eapply lo_pg. apply lo_send_header.
  - eapply B. eapply ps_pg. apply send_frame_prog.
  - eapply B. eapply ps_pg. apply send_method_prog.
  - eapply B2. eapply ps_pg. apply noblock_prog.
  - eapply pg_bind; [apply list_prog|intros [r [i m]] c1 _; apply pg_ret|intros [r [i m]] c1 _; apply tail_ret; reflexivity].
  - eapply B. apply rpc_prog.
  - eapply B. unfold amqp_call. destruct (build_request _ _ _); [apply rpc_decoded_prog|apply pg_halt; discriminate].
  - eapply B. apply close_prog.
  - eapply B. apply conn_close_prog.
  - eapply B. apply publish_prog.
  - eapply B. eapply ps_pg. apply send_method_prog.
  - eapply B. eapply ps_pg. apply send_method_prog.
  - eapply B. eapply ps_pg. apply send_method_prog.
  - eapply B. apply get_prog.
  - eapply B2. apply read_message_prog.
  - eapply B2. apply consume_prog2.
  - eapply B2. apply confirm_prog.
  - apply pg_seq; [apply release_prog|intros; apply pg_ret].
  - apply pg_seq; [apply maybe_release_prog|intros; apply pg_ret].
  - apply pg_seq; [apply pg_wp; intros ev HK; eapply wp_conseq; [apply release_on_prog; exact HK| |auto]; cbv beta; intros _ c' ev' l [H1 H2]; split; [exact H1|lia]|intros; apply pg_ret].
  - eapply B. apply tune_prog. exact Ha.
  - apply pg_get. cbv zeta. apply pg_seq; [apply pg_upd; repeat split|intros; apply pg_ret].
  - apply pg_get. cbv zeta. apply pg_seq; [apply pg_upd; repeat split|intros; apply pg_ret].
  - eapply B. unfold amqp_login_with_properties. apply pg_get. apply login_prog. exact Ha.
Qed.
Lemma exec_all_prog : forall l c ev, Forall limits_ok l -> K c -> mu c ev + zlen l <= n -> 
  wp (exec_all N E l) c ev (fun _ c' ev' _ => K c' /\ mu c' ev' <= mu c ev + zlen l) nofuel.
Proof.
  induction l as [|a l IH]; intros c ev Ha HK Hm; cbn [exec_all]; [apply wp_ret; split; [exact HK|change (zlen (@nil api)) with 0; lia]|].
  inversion Ha as [|? ? H1 H2]; subst. rewrite zlen_cons' in *. pose proof (zlen_nonneg l). apply wp_bind. eapply wp_conseq; [apply (exec_prog a c H1 ev HK); lia| |auto]; cbv beta. intros o c1 ev1 l1 [G1 G2]. cbn [fails] in G2.
  apply wp_bind. eapply wp_conseq; [apply (IH c1 ev1 H2 G1); lia| |auto]; cbv beta. intros os c2 ev2 l2 [G3 G4]. apply wp_ret. split; [exact G3|lia].
Qed.
End Prog.
