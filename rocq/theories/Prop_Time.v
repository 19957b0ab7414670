(** C24, C25, C26, C54. *)
From Coq Require Import ZArith List Bool Lia Psatz.
From Verif Require Import Base Time.
Import ListNotations.
Local Open Scope Z_scope.

(** A clock reading: any positive uint64_t; 0 means the clock failed. *)
Definition clock_ok (now : Z) : Prop := 0 < now < M64.
(** Members of struct timeval are 64 bit integers. *)
Definition c_timeval (tv : timeval) : Prop := - M63 <= tv_sec tv < M63 /\ - M63 <= tv_usec tv < M63.
(** The requested time span in nanoseconds, as a mathematical integer. *)
Definition span (tv : timeval) : Z := tv_sec tv * 1000000000 + tv_usec tv * 1000.

Lemma u64_id z : 0 <= z < M64 -> u64 z = z.
Proof. intros. apply Z.mod_small. lia. Qed.
Lemma u64_range z : 0 <= u64 z < M64.
Proof. apply Z.mod_pos_bound. lia. Qed.
Lemma signed32_id z : 0 <= z < M31 -> signed M32 z = z.
Proof. intros. unfold signed. rewrite (Z.mod_small z) by lia. change (M32 / 2) with M31. destruct (Z.ltb_spec z M31); lia. Qed.

Lemma delta_mod tv : tv_sec tv >= 0 -> tv_usec tv >= 0 -> c_timeval tv ->
  u64 (u64 (u64 (tv_sec tv) * AMQP_NS_PER_S) + u64 (u64 (tv_usec tv) * AMQP_NS_PER_US)) = span tv mod M64.
Proof.
  intros H1 H2 [H3 H4]. rewrite (u64_id (tv_sec tv)), (u64_id (tv_usec tv)) by lia. unfold u64, span.
  change AMQP_NS_PER_S with 1000000000. change AMQP_NS_PER_US with 1000. symmetry. apply Zplus_mod.
Qed.

(** C24: no timeout is no deadline; negative timeouts are refused; a failing clock
    is reported. *)
Theorem C24_special_cases :
  forall (now : Z) (tv : timeval),
    amqp_time_from_now now None = (AMQP_STATUS_OK, Some UINT64_MAX) /\
    (tv_sec tv < 0 \/ tv_usec tv < 0 -> fst (amqp_time_from_now now (Some tv)) = AMQP_STATUS_INVALID_PARAMETER) /\
    (tv_sec tv >= 0 /\ tv_usec tv >= 0 -> fst (amqp_time_from_now 0 (Some tv)) = AMQP_STATUS_TIMER_FAILURE).
Proof.
  intros now tv. split; [reflexivity|]. split; intros H; unfold amqp_time_from_now;
    destruct (Z.ltb_spec (tv_sec tv) 0), (Z.ltb_spec (tv_usec tv) 0); cbn [orb]; try reflexivity; lia.
Qed.

(** C24 for timeouts below 2^64 nanoseconds (584 years): the deadline is exactly
    now + timeout, or the timeout is refused - exactly when the sum does not fit. *)
Theorem C24_deadline_exact_partial :
  forall (now : Z) (tv : timeval),
    clock_ok now -> c_timeval tv -> tv_sec tv >= 0 -> tv_usec tv >= 0 -> span tv < M64 ->
    (now + span tv < M64 /\ amqp_time_from_now now (Some tv) = (AMQP_STATUS_OK, Some (now + span tv))) \/
    (now + span tv >= M64 /\ fst (amqp_time_from_now now (Some tv)) = AMQP_STATUS_INVALID_PARAMETER).
Proof.
  intros now tv Hn Hc H1 H2 Hs. unfold clock_ok in Hn. unfold amqp_time_from_now. rewrite delta_mod by auto.
  assert (H0 : 0 <= span tv) by (unfold span; lia). rewrite (Z.mod_small (span tv)) by lia.
  destruct (Z.ltb_spec (tv_sec tv) 0); [lia|]. destruct (Z.ltb_spec (tv_usec tv) 0); [lia|]. cbn [orb].
  destruct (Z.eqb_spec now 0); [lia|]. cbv zeta.
  destruct (Z.ltb_spec (now + span tv) M64) as [L|L].
  - left. split; [auto|]. rewrite u64_id by lia.
    destruct (Z.ltb_spec (now + span tv) now); [lia|]. destruct (Z.ltb_spec (now + span tv) (span tv)); [lia|]. reflexivity.
  - right. split; [lia|]. assert (E : u64 (now + span tv) = now + span tv - M64).
    { unfold u64. rewrite (Z.mod_eq _ M64) by lia. assert ((now + span tv) / M64 = 1) by (symmetry; apply Z.div_unique with (r := now + span tv - M64); lia). lia. }
    rewrite E. destruct (Z.ltb_spec (now + span tv - M64) now); [reflexivity|lia].
Qed.

(** The deadline in seconds used for heartbeats (any int) is exact. *)
Theorem C24_seconds_exact :
  forall (now seconds : Z), clock_ok now -> - M31 <= seconds < M31 -> now + seconds * 1000000000 < M64 ->
    amqp_time_s_from_now now seconds =
      (AMQP_STATUS_OK, Some (if seconds <=? 0 then UINT64_MAX else now + seconds * 1000000000)).
Proof.
  intros now sec Hn Hs Hb. unfold clock_ok in *. unfold amqp_time_s_from_now. destruct (Z.leb_spec sec 0); [reflexivity|].
  destruct (Z.eqb_spec now 0); [lia|]. cbv zeta. unfold AMQP_NS_PER_S. rewrite (u64_id sec) by lia. rewrite (u64_id (sec * _)) by lia.
  rewrite u64_id by lia. destruct (Z.ltb_spec (now + sec * 1000000000) now); [lia|].
  destruct (Z.ltb_spec (now + sec * 1000000000) (sec * 1000000000)); [lia|]. reflexivity.
Qed.

(** C24 is false beyond that: a timeout whose nanoseconds wrap around is accepted
    and gives a deadline years too early - for every clock reading.  And a timeout
    that ends exactly at 2^64-1 is no timeout at all. *)
Theorem C24_wraparound_refuted :
  forall now, clock_ok now -> now < M63 ->
    let tv := mkTv 18446744074 0 in
    amqp_time_from_now now (Some tv) = (AMQP_STATUS_OK, Some (now + 290448384)) /\
    now + 290448384 < now + span tv - 18 * 10 ^ 18 /\
    amqp_time_from_now (2 ^ 64 - 1 - 1000000000) (Some (mkTv 1 0)) = (AMQP_STATUS_OK, Some amqp_time_infinite).
Proof.
  intros now Hn Hn' tv. unfold clock_ok in Hn. split; [|split; [unfold span, tv; cbn; lia|reflexivity]].
  unfold amqp_time_from_now, tv, tv_sec, tv_usec.
  set (d := u64 (u64 (u64 18446744074 * AMQP_NS_PER_S) + u64 (u64 0 * AMQP_NS_PER_US))).
  assert (E : d = 290448384) by reflexivity. rewrite E.
  destruct (Z.eqb_spec now 0); [lia|]. cbv zeta. rewrite u64_id by lia.
  change ((18446744074 <? 0) || (0 <? 0)) with false. cbn iota.
  destruct (Z.ltb_spec (now + 290448384) now); [lia|]. destruct (Z.ltb_spec (now + 290448384) 290448384); [lia|]. reflexivity.
Qed.

(** C25: -1 exactly for no deadline, 0 once it has passed (or for "now"), else the
    whole milliseconds remaining, never more than the time remaining - if less
    than 2^31 milliseconds (24.8 days) remain. *)
Theorem C25_poll_timeout_partial :
  forall (now time : Z),
    clock_ok now -> 0 <= time < M64 -> (time <> UINT64_MAX -> time - now < M31 * 1000000) ->
    let ms := amqp_time_ms_until now time in
    (ms = -1 <-> time = UINT64_MAX) /\
    (time <= now -> time <> UINT64_MAX -> ms = 0) /\
    (now < time -> time <> UINT64_MAX -> 0 <= ms < M31 /\ ms * 1000000 <= time - now < (ms + 1) * 1000000).
Proof.
  intros now time Hn Ht Hd ms. unfold clock_ok in Hn. unfold ms, amqp_time_ms_until, UINT64_MAX in *.
  destruct (Z.eqb_spec 0xffffffffffffffff time) as [->|N]; [repeat split; intros; try lia|].
  assert (L : 0 < M31) by lia. specialize (Hd ltac:(lia)).
  destruct (Z.eqb_spec 0 time) as [<-|N0]; [repeat split; intros; lia|].
  destruct (Z.eqb_spec now 0); [lia|].
  destruct (Z.leb_spec time now) as [L1|L1]; [repeat split; intros; lia|].
  rewrite u64_id by lia. unfold AMQP_NS_PER_MS.
  pose proof (Z.div_mod (time - now) 1000000 ltac:(lia)) as DM. pose proof (Z.mod_pos_bound (time - now) 1000000 ltac:(lia)) as MB.
  assert (0 <= (time - now) / 1000000) by (apply Z.div_pos; lia).
  assert ((time - now) / 1000000 < M31) by (apply Z.div_lt_upper_bound; lia).
  rewrite signed32_id by lia. repeat split; intros; try lia.
Qed.

(** C25 is false for more distant deadlines: with 2^32-1 milliseconds to go the
    library waits forever, and with 2^31 it gets a negative number that
    amqp_poll's caller sees as an error. *)
Theorem C25_far_deadlines_refuted :
  forall now, clock_ok now -> now < M63 ->
    amqp_time_ms_until now (now + 4294967295 * 1000000) = -1 /\
    amqp_time_ms_until now (now + 2147483648 * 1000000) = - M31 /\
    amqp_time_ms_until now (now + 4294967296 * 1000000) = 0.
Proof.
  intros now Hn Hn'. unfold clock_ok in Hn.
  assert (K : forall n, 0 < n < M63 / 1000000 -> amqp_time_ms_until now (now + n * 1000000) = signed M32 n).
  { intros n Hb. change (M63 / 1000000) with 9223372036854 in Hb. unfold amqp_time_ms_until, UINT64_MAX.
    destruct (Z.eqb_spec 0xffffffffffffffff (now + n * 1000000)); [lia|].
    destruct (Z.eqb_spec 0 (now + n * 1000000)); [lia|]. destruct (Z.eqb_spec now 0); [lia|].
    destruct (Z.leb_spec (now + n * 1000000) now); [lia|]. f_equal. rewrite u64_id by lia.
    replace (now + n * 1000000 - now) with (n * AMQP_NS_PER_MS) by (unfold AMQP_NS_PER_MS; lia). apply Z.div_mul. discriminate. }
  rewrite !K by (change (M63 / 1000000) with 9223372036854; lia). repeat split; reflexivity.
Qed.

(** C26 *)
Theorem C26_timeval_until :
  forall (now time : Z),
    clock_ok now -> 0 <= time < M64 -> (time <> UINT64_MAX -> time - now < M31 * 1000000000) ->
    (time = UINT64_MAX -> amqp_time_tv_until now time = (AMQP_STATUS_OK, Some None)) /\
    (time <> UINT64_MAX -> exists tv, amqp_time_tv_until now time = (AMQP_STATUS_OK, Some (Some tv)) /\
       0 <= tv_sec tv /\ 0 <= tv_usec tv < 1000000 /\
       (time <= now -> span tv = 0) /\
       (now < time -> span tv <= time - now < span tv + 1000)).
Proof.
  intros now time Hn Ht Hd. unfold clock_ok in Hn. unfold amqp_time_tv_until, UINT64_MAX in *. split; [intros ->; reflexivity|].
  intros N. destruct (Z.eqb_spec 0xffffffffffffffff time); [lia|]. specialize (Hd N).
  destruct (Z.eqb_spec 0 time); [eexists; split; [reflexivity|]; unfold span; cbn [tv_sec tv_usec]; lia|].
  destruct (Z.eqb_spec now 0); [lia|].
  destruct (Z.leb_spec time now); [eexists; split; [reflexivity|]; unfold span; cbn [tv_sec tv_usec]; lia|].
  eexists. split; [reflexivity|]. unfold span. cbn [tv_sec tv_usec]. rewrite u64_id by lia. unfold AMQP_NS_PER_S, AMQP_NS_PER_US.
  set (d := time - now) in *.
  pose proof (Z.div_mod d 1000000000 ltac:(lia)). pose proof (Z.mod_pos_bound d 1000000000 ltac:(lia)).
  set (m := d mod 1000000000) in *.
  pose proof (Z.div_mod m 1000 ltac:(lia)). pose proof (Z.mod_pos_bound m 1000 ltac:(lia)).
  assert (0 <= d / 1000000000 < M31) by (split; [apply Z.div_pos; lia|apply Z.div_lt_upper_bound; lia]).
  assert (0 <= m / 1000 < 1000000) by (split; [apply Z.div_pos; lia|apply Z.div_lt_upper_bound; lia]).
  rewrite !signed32_id by lia. lia.
Qed.

Theorem C26_first_is_earlier :
  forall l r, (amqp_time_first l r = l \/ amqp_time_first l r = r) /\ amqp_time_first l r <= l /\ amqp_time_first l r <= r.
Proof. intros. unfold amqp_time_first. destruct (Z.ltb_spec l r); lia. Qed.

(** A clock that fails is reported by everything that needs it, and never read as a time;
    what does not depend on the time does not need it. *)
Theorem C24_clock_failed :
  forall (now : Z),
    (forall seconds, seconds > 0 -> amqp_time_s_from_now 0 seconds = (AMQP_STATUS_TIMER_FAILURE, None)) /\
    (forall tv, tv_sec tv >= 0 -> tv_usec tv >= 0 -> amqp_time_from_now 0 (Some tv) = (AMQP_STATUS_TIMER_FAILURE, None)) /\
    (forall time, 0 < time < UINT64_MAX ->
       amqp_time_ms_until 0 time = AMQP_STATUS_TIMER_FAILURE /\ amqp_time_tv_until 0 time = (AMQP_STATUS_TIMER_FAILURE, None) /\
       amqp_time_has_past 0 time = AMQP_STATUS_TIMER_FAILURE) /\
    amqp_time_ms_until now 0 = 0 /\ amqp_time_tv_until now 0 = (AMQP_STATUS_OK, Some (Some (mkTv 0 0))) /\
    amqp_time_ms_until now UINT64_MAX = -1 /\ amqp_time_tv_until now UINT64_MAX = (AMQP_STATUS_OK, Some None) /\
    amqp_time_has_past now UINT64_MAX = AMQP_STATUS_OK.
Proof.
  intros now. split; [|split; [|split; [|repeat split]]].
  - intros sec H. unfold amqp_time_s_from_now. destruct (Z.leb_spec sec 0); [lia|reflexivity].
  - intros tv H1 H2. unfold amqp_time_from_now. destruct (Z.ltb_spec (tv_sec tv) 0), (Z.ltb_spec (tv_usec tv) 0); try lia. reflexivity.
  - intros time H. unfold amqp_time_ms_until, amqp_time_tv_until, amqp_time_has_past, amqp_time_infinite.
    destruct (Z.eqb_spec UINT64_MAX time); [lia|]. destruct (Z.eqb_spec 0 time); [lia|]. destruct (Z.eqb_spec time UINT64_MAX); [lia|]. repeat split.
Qed.
(** A deadline has passed exactly when the clock is beyond it. *)
Theorem C26_has_past :
  forall now time, clock_ok now -> 0 <= time < M64 ->
    (amqp_time_has_past now time = AMQP_STATUS_TIMEOUT <-> time <> UINT64_MAX /\ time < now) /\
    (amqp_time_has_past now time = AMQP_STATUS_OK <-> time = UINT64_MAX \/ now <= time).
Proof.
  intros now time Hn Ht. unfold clock_ok in Hn. unfold amqp_time_has_past, UINT64_MAX, AMQP_STATUS_OK, AMQP_STATUS_TIMEOUT, AMQP_STATUS_TIMER_FAILURE.
  destruct (Z.eqb_spec 0xffffffffffffffff time); [lia|]. destruct (Z.eqb_spec now 0); [lia|].
  destruct (Z.ltb_spec time now); lia.
Qed.

(** ** C54: any history of settings.  The specification remembers the last
    accepted setting of each kind. *)
Inductive setting := SetRpc (t : option timeval) | SetHandshake (t : option timeval).
Definition valid (t : option timeval) : bool :=
  match t with Some tv => (0 <=? tv_sec tv) && (0 <=? tv_usec tv) | None => true end.
Definition run (s : timeouts) (op : setting) : timeouts :=
  match op with SetRpc t => snd (amqp_set_rpc_timeout s t) | SetHandshake t => snd (amqp_set_handshake_timeout s t) end.
Definition last_rpc (init : option timeval) (l : list setting) : option timeval :=
  fold_left (fun acc op => match op with SetRpc t => if valid t then t else acc | _ => acc end) l init.
Definition last_handshake (init : option timeval) (l : list setting) : option timeval :=
  fold_left (fun acc op => match op with SetHandshake t => if valid t then t else acc | _ => acc end) l init.

Lemma set_valid tv : (tv_sec tv <? 0) || (tv_usec tv <? 0) = negb (valid (Some tv)).
Proof.
  cbn [valid]. destruct (Z.ltb_spec (tv_sec tv) 0), (Z.ltb_spec (tv_usec tv) 0), (Z.leb_spec 0 (tv_sec tv)), (Z.leb_spec 0 (tv_usec tv)); try lia; reflexivity.
Qed.

Theorem C54_timeouts_stored :
  forall (l : list setting),
    amqp_get_rpc_timeout (fold_left run l new_timeouts) = last_rpc None l /\
    amqp_get_handshake_timeout (fold_left run l new_timeouts) = last_handshake (Some (mkTv 12 0)) l.
Proof.
  assert (G : forall l s, amqp_get_rpc_timeout (fold_left run l s) = last_rpc (amqp_get_rpc_timeout s) l /\
     amqp_get_handshake_timeout (fold_left run l s) = last_handshake (amqp_get_handshake_timeout s) l).
  { induction l as [|op l IH]; intros s; [split; reflexivity|].
    cbn [fold_left last_rpc last_handshake]. destruct (IH (run s op)) as [I1 I2]. unfold last_rpc, last_handshake in *.
    rewrite I1, I2. clear IH I1 I2.
    destruct op as [[tv|]|[tv|]]; cbn [run amqp_set_rpc_timeout amqp_set_handshake_timeout]; try rewrite set_valid; try (destruct (valid (Some tv)));
      cbn [negb snd]; split; reflexivity. }
  intros l. apply (G l new_timeouts).
Qed.
Theorem C54_status :
  forall s t,
    fst (amqp_set_rpc_timeout s t) = (if valid t then AMQP_STATUS_OK else AMQP_STATUS_INVALID_PARAMETER) /\
    fst (amqp_set_handshake_timeout s t) = (if valid t then AMQP_STATUS_OK else AMQP_STATUS_INVALID_PARAMETER).
Proof.
  intros s [tv|]; cbn [amqp_set_rpc_timeout amqp_set_handshake_timeout]; try rewrite set_valid; try (destruct (valid (Some tv)));
    split; reflexivity.
Qed.

(** ** Concrete cases *)
Example C24_case : clock_ok 5000000000 /\ c_timeval (mkTv 3 500000) /\ span (mkTv 3 500000) < M64 /\
  amqp_time_from_now 5000000000 (Some (mkTv 3 500000)) = (AMQP_STATUS_OK, Some 8500000000).
Proof. unfold clock_ok, c_timeval, span. cbn. repeat split; lia. Qed.
Example C25_case : amqp_time_ms_until 5000000000 8500999999 = 3500 /\ amqp_time_ms_until 5 4 = 0 /\ amqp_time_ms_until 5 UINT64_MAX = -1.
Proof. repeat split. Qed.
Example C26_case : amqp_time_tv_until 5000000000 8500123999 = (AMQP_STATUS_OK, Some (Some (mkTv 3 500123))).
Proof. reflexivity. Qed.
Example C54_case :
  amqp_get_rpc_timeout (fold_left run [SetRpc (Some (mkTv 1 2)); SetRpc (Some (mkTv (-1) 0)); SetHandshake None] new_timeouts) = Some (mkTv 1 2).
Proof. reflexivity. Qed.

Print Assumptions C24_special_cases.
Print Assumptions C24_deadline_exact_partial.
Print Assumptions C24_seconds_exact.
Print Assumptions C24_wraparound_refuted.
Print Assumptions C25_poll_timeout_partial.
Print Assumptions C25_far_deadlines_refuted.
Print Assumptions C26_timeval_until.
Print Assumptions C26_first_is_earlier.
Print Assumptions C26_has_past.
Print Assumptions C54_timeouts_stored.
Print Assumptions C54_status.
Print Assumptions C24_clock_failed.
