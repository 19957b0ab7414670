(** C89: waiting for a socket, with poll() and with select(). *)
From Coq Require Import ZArith List Bool Lia.
From Verif Require Import Base Time Prop_Time Net Waiting.
Import ListNotations.
Local Open Scope Z_scope.

(** ** Vocabulary *)
(** a signal arrived while waiting *)
Definition interrupted (r : round) : Prop := res r < 0 /\ errno r = 4.
(** what the caller is told *)
Definition told (r : round) : Z :=
  if 0 <? res r then AMQP_STATUS_OK else if res r =? 0 then AMQP_STATUS_TIMEOUT else AMQP_STATUS_SOCKET_ERROR.
(** There was one system call per round, each with the arguments that [fits] says,
    until one was not interrupted: that one's result is told.  If all have been
    interrupted it still waits. *)
Definition waits_well (fits : round -> ask -> Prop) (rounds : list round) (r : waited * list ask) : Prop :=
  exists used rest, rounds = used ++ rest /\ Forall2 fits used (snd r) /\
    match fst r with
    | Returns st => exists before last, used = before ++ [last] /\ Forall interrupted before /\ ~ interrupted last /\ st = told last
    | Waits => rest = [] /\ Forall interrupted used
    | Aborts | Undefined => False
    end.
(** a working clock, and a deadline that is less than [far] ns away, or none *)
Definition clocks (deadline far : Z) (rounds : list round) : Prop :=
  Forall (fun r => clock_ok (clock r) /\ (deadline <> UINT64_MAX -> deadline - clock r < far)) rounds.
(** poll() waits for the descriptor to become readable (writable): without limit if
    there is no deadline, not at all if it has passed, else for the time left in
    whole milliseconds *)
Definition polls (fd : Z) (write : bool) (deadline : Z) (r : round) (a : ask) : Prop :=
  exists ms, a = Poll fd (if write then POLLOUT else POLLIN) ms /\
    (deadline = UINT64_MAX -> ms = -1) /\
    (deadline <> UINT64_MAX -> deadline <= clock r -> ms = 0) /\
    (deadline <> UINT64_MAX -> clock r < deadline -> 0 <= ms /\ ms * 1000000 <= deadline - clock r < (ms + 1) * 1000000).
(** select() likewise, in microseconds; it is asked about this descriptor alone *)
Definition selects (fd : Z) (write : bool) (deadline : Z) (r : round) (a : ask) : Prop :=
  exists limit, a = Select (fd + 1) (if write then None else Some [fd]) (if write then Some [fd] else None) None limit /\
    (deadline = UINT64_MAX -> limit = None) /\
    (deadline <> UINT64_MAX -> exists tv, limit = Some tv /\ 0 <= tv_sec tv /\ 0 <= tv_usec tv < 1000000 /\
       (deadline <= clock r -> span tv = 0) /\ (clock r < deadline -> span tv <= deadline - clock r < span tv + 1000)).
Definition event_of (write : bool) : Z := if write then AMQP_SF_POLLOUT else AMQP_SF_POLLIN.

(** ** Proofs *)
Lemma well_cons (fits : round -> ask -> Prop) r rest a w l : fits r a -> interrupted r -> waits_well fits rest (w, l) -> waits_well fits (r :: rest) (w, a :: l).
Proof.
  intros Hf Hi (used & rem & -> & H1 & H2). cbn [fst snd] in *. exists (r :: used), rem. split; [reflexivity|]. split; [constructor; assumption|].
  destruct w; try contradiction.
  - destruct H2 as (b & la & -> & B1 & B2 & B3). exists (r :: b), la. split; [reflexivity|]. split; [constructor; assumption|]. split; assumption.
  - destruct H2. split; [assumption|constructor; assumption].
Qed.
Lemma well_last (fits : round -> ask -> Prop) r rest a st : fits r a -> ~ interrupted r -> st = told r -> waits_well fits (r :: rest) (Returns st, [a]).
Proof. intros Hf Hi Ht. exists [r], rest. split; [reflexivity|]. split; [repeat constructor; exact Hf|]. exists [], r. repeat split; auto. Qed.
Lemma told_cases r (rec : waited * list ask) (a : ask) (fits : round -> ask -> Prop) rest : fits r a -> (interrupted r -> waits_well fits rest rec) ->
  waits_well fits (r :: rest)
    (if 0 <? res r then (Returns AMQP_STATUS_OK, [a])
     else if 0 =? res r then (Returns AMQP_STATUS_TIMEOUT, [a])
     else if errno r =? EINTR then let '(w, l) := rec in (w, a :: l)
     else (Returns AMQP_STATUS_SOCKET_ERROR, [a])).
Proof.
  intros Hf Hr. unfold interrupted in *. unfold EINTR. destruct (Z.ltb_spec 0 (res r)).
  { apply well_last; [exact Hf|unfold interrupted; lia|]. unfold told. destruct (Z.ltb_spec 0 (res r)); [reflexivity|lia]. }
  destruct (Z.eqb_spec 0 (res r)).
  { apply well_last; [exact Hf|unfold interrupted; lia|]. unfold told. destruct (Z.ltb_spec 0 (res r)); [lia|]. destruct (Z.eqb_spec (res r) 0); [reflexivity|lia]. }
  destruct (Z.eqb_spec (errno r) 4).
  - destruct rec as [w l]. apply well_cons; [exact Hf|unfold interrupted; lia|apply Hr; lia].
  - apply well_last; [exact Hf|unfold interrupted; lia|]. unfold told. destruct (Z.ltb_spec 0 (res r)); [lia|]. destruct (Z.eqb_spec (res r) 0); [lia|reflexivity].
Qed.
Lemma ms_of deadline r : 0 <= deadline < M64 -> clock_ok (clock r) -> (deadline <> UINT64_MAX -> deadline - clock r < M31 * 1000000) ->
  let ms := amqp_time_ms_until (clock r) deadline in
  (ms <? -1) = false /\ forall fd write, polls fd write deadline r (Poll fd (if write then POLLOUT else POLLIN) ms).
Proof.
  intros Hd Hc Hf ms. destruct (C25_poll_timeout_partial (clock r) deadline Hc Hd Hf) as (H1 & H2 & H3). fold ms in H1, H2, H3.
  destruct (Z.eq_dec deadline UINT64_MAX) as [HU|HU].
  - split; [apply Z.ltb_ge; rewrite (proj2 H1 HU); lia|]. intros fd write. exists ms. split; [reflexivity|]. split; [intros _; apply H1, HU|]. split; intros; contradiction.
  - destruct (Z_le_gt_dec deadline (clock r)) as [HL|HL].
    + split; [apply Z.ltb_ge; rewrite (H2 HL HU); lia|]. intros fd write. exists ms. split; [reflexivity|]. split; [intros; contradiction|]. split; [intros; apply H2; assumption|lia].
    + destruct (H3 ltac:(lia) HU) as [A B]. split; [apply Z.ltb_ge; lia|]. intros fd write. exists ms. split; [reflexivity|]. split; [intros; contradiction|]. split; [lia|]. intros _ _. split; [lia|exact B].
Qed.
Lemma tv_of deadline r : 0 <= deadline < M64 -> clock_ok (clock r) -> (deadline <> UINT64_MAX -> deadline - clock r < M31 * 1000000000) ->
  exists limit, amqp_time_tv_until (clock r) deadline = (AMQP_STATUS_OK, Some limit) /\
    forall fd write, selects fd write deadline r (Select (fd + 1) (if write then None else Some [fd]) (if write then Some [fd] else None) None limit).
Proof.
  intros Hd Hc Hf. destruct (C26_timeval_until (clock r) deadline Hc Hd Hf) as (H1 & H2).
  destruct (Z.eq_dec deadline UINT64_MAX) as [HU|HU].
  - exists None. split; [apply H1, HU|]. intros fd write. exists None. split; [reflexivity|]. split; [reflexivity|intros; contradiction].
  - destruct (H2 HU) as (tv & E & B). exists (Some tv). split; [exact E|]. intros fd write. exists (Some tv). split; [reflexivity|]. split; [intros; contradiction|]. intros _. exists tv. split; [reflexivity|exact B].
Qed.

(** ** C89 *)
Theorem C89_poll_partial :
  forall (fd : Z) (write : bool) (deadline : Z) (rounds : list round),
    0 <= deadline < M64 -> clocks deadline (2147483648 * 1000000) rounds ->
    waits_well (polls fd write deadline) rounds (amqp_poll_poll fd (event_of write) deadline rounds).
Proof.
  intros fd write deadline rounds Hd HC. unfold amqp_poll_poll. replace (negb _) with false by (destruct write; reflexivity).
  induction rounds as [|r rest IH]; cbn [poll_rounds]; [exists [], []; repeat split; constructor|].
  inversion HC as [|? ? [C1 C2] C3]; subst. destruct (ms_of deadline r Hd C1 C2) as [-> Hp].
  assert ((if event_of write =? AMQP_SF_POLLIN then POLLIN else POLLOUT) = (if write then POLLOUT else POLLIN)) as -> by (destruct write; reflexivity).
  apply told_cases; [apply Hp|intros _; apply IH, C3].
Qed.
Theorem C89_select_partial :
  forall (fd : Z) (write : bool) (deadline : Z) (rounds : list round) (fds exceptfds : list Z),
    0 <= fd < 1024 -> 0 <= deadline < M64 -> clocks deadline (2147483648 * 1000000000) rounds ->
    waits_well (selects fd write deadline) rounds (amqp_poll_select fd (event_of write) deadline fds exceptfds rounds).
Proof.
  intros fd write deadline rounds fds exc Hfd Hd HC. unfold amqp_poll_select. replace (_ && _) with false by (destruct write; reflexivity).
  assert ((Z.land (event_of write) AMQP_SF_POLLERR =? 0) = true) as HE by (destruct write; reflexivity). rewrite HE. cbn [negb].
  revert fds exc. induction rounds as [|r rest IH]; intros fds exc; cbn [select_rounds]; [exists [], []; repeat split; constructor|].
  inversion HC as [|? ? [C1 C2] C3]; subst. unfold FD_SET, FD_ZERO, FD_SETSIZE. destruct (Z.leb_spec 0 fd); [|lia]. destruct (Z.ltb_spec fd 1024); [|lia]. cbn [andb].
  rewrite HE. cbn [negb]. destruct (tv_of deadline r Hd C1 C2) as (limit & -> & Hs). change (AMQP_STATUS_OK =? AMQP_STATUS_OK) with true. cbn [negb].
  assert ((if negb (Z.land (event_of write) AMQP_SF_POLLIN =? 0) then Select (fd + 1) (Some [fd]) None None limit else Select (fd + 1) None (Some [fd]) None limit)
    = Select (fd + 1) (if write then None else Some [fd]) (if write then Some [fd] else None) None limit) as -> by (destruct write; reflexivity).
  apply told_cases; [apply Hs|intros _; apply IH, C3].
Qed.
(** Both versions tell the caller the same: what is proved about the library with
    poll() holds with select(). *)
Lemma same_loop fd write deadline : 0 <= fd < 1024 -> 0 <= deadline < M64 -> forall rounds fds exc, clocks deadline (M31 * 1000000) rounds ->
  fst (select_rounds fd (event_of write) deadline fds exc rounds) = fst (poll_rounds fd (event_of write) deadline rounds) /\
  length (snd (select_rounds fd (event_of write) deadline fds exc rounds)) = length (snd (poll_rounds fd (event_of write) deadline rounds)).
Proof.
  intros Hfd Hd. assert ((Z.land (event_of write) AMQP_SF_POLLERR =? 0) = true) as HE by (destruct write; reflexivity).
  induction rounds as [|r rest IH]; intros fds exc HC; cbn [select_rounds poll_rounds]; [split; reflexivity|].
  inversion HC as [|? ? [C1 C2] C3]; subst. unfold FD_SET, FD_ZERO, FD_SETSIZE. destruct (Z.leb_spec 0 fd); [|lia]. destruct (Z.ltb_spec fd 1024); [|lia]. cbn [andb].
  rewrite HE. cbn [negb]. destruct (ms_of deadline r Hd C1 C2) as [-> _].
  destruct (tv_of deadline r Hd C1 ltac:(intros K; specialize (C2 K); lia)) as (limit & -> & _). change (AMQP_STATUS_OK =? AMQP_STATUS_OK) with true. cbn [negb].
  destruct (0 <? res r); [split; reflexivity|]. destruct (0 =? res r); [split; reflexivity|]. destruct (errno r =? EINTR); [|split; reflexivity].
  specialize (IH (left_fds r) (left_except r) C3). destruct (select_rounds _ _ _ _ _ rest) as [w1 l1], (poll_rounds _ _ _ rest) as [w2 l2]. cbn [fst snd length] in *. destruct IH. split; congruence.
Qed.
Theorem C89_same_partial :
  forall (fd : Z) (write : bool) (deadline : Z) (rounds : list round) (fds exceptfds : list Z),
    0 <= fd < 1024 -> 0 <= deadline < M64 -> clocks deadline (2147483648 * 1000000) rounds ->
    let p := amqp_poll_poll fd (event_of write) deadline rounds in
    let s := amqp_poll_select fd (event_of write) deadline fds exceptfds rounds in
    fst s = fst p /\ length (snd s) = length (snd p).
Proof.
  intros fd write deadline rounds fds exc Hfd Hd HC. cbv zeta. unfold amqp_poll_poll, amqp_poll_select.
  replace (negb (_ || _)) with false by (destruct write; reflexivity). replace (_ && _) with false by (destruct write; reflexivity).
  assert ((Z.land (event_of write) AMQP_SF_POLLERR =? 0) = true) as HE by (destruct write; reflexivity). rewrite HE. cbn [negb].
  apply same_loop; assumption.
Qed.
(** The clock fails: both say so, without waiting. *)
Theorem C89_clock_failure :
  forall (fd : Z) (write : bool) (deadline : Z) (r : round) (rest : list round) (fds exceptfds : list Z),
    0 <= fd < 1024 -> 0 < deadline < UINT64_MAX -> clock r = 0 ->
    amqp_poll_poll fd (event_of write) deadline (r :: rest) = (Returns AMQP_STATUS_TIMER_FAILURE, []) /\
    amqp_poll_select fd (event_of write) deadline fds exceptfds (r :: rest) = (Returns AMQP_STATUS_TIMER_FAILURE, []).
Proof.
  intros fd write deadline r rest fds exc Hfd Hd Hc. unfold amqp_poll_poll, amqp_poll_select. cbn [poll_rounds select_rounds]. unfold FD_SET, FD_SETSIZE.
  destruct (Z.leb_spec 0 fd); [|lia]. destruct (Z.ltb_spec fd 1024); [|lia].
  unfold amqp_time_ms_until, amqp_time_tv_until. rewrite Hc. destruct (Z.eqb_spec UINT64_MAX deadline); [lia|]. destruct (Z.eqb_spec 0 deadline); [lia|].
  destruct write; split; reflexivity.
Qed.
(** With select(), a descriptor of 1024 or more is written into the bits beyond the
    set: every wait on such a connection is undefined. *)
Theorem C89_large_descriptor_refuted :
  forall (fd : Z) (write : bool) (deadline : Z) (r : round) (rest : list round) (fds exceptfds : list Z),
    1024 <= fd -> amqp_poll_select fd (event_of write) deadline fds exceptfds (r :: rest) = (Undefined, []).
Proof.
  intros fd write deadline r rest fds exc Hfd. unfold amqp_poll_select. cbn [select_rounds]. unfold FD_SET, FD_SETSIZE. destruct (Z.ltb_spec fd 1024); [lia|]. rewrite andb_false_r.
  destruct write; reflexivity.
Qed.
(** Net.v, on which the theorems about connections rest, has the version with poll();
    there a round is these events. *)
Definition round_events (deadline : Z) (r : round) : list event :=
  (if (UINT64_MAX =? deadline) || (0 =? deadline) then [] else [EvClock (clock r)]) ++
  [EvPoll (if 0 <? res r then PReady else if res r =? 0 then PTimeout else if errno r =? 4 then PIntr else PErr)].
Definition polls_in (fd : Z) (l : list obs) : list ask :=
  flat_map (fun o => match o with OPoll w ms _ => [Poll fd (if w then POLLOUT else POLLIN) ms] | _ => [] end) l.
Theorem C89_net :
  forall (fd : Z) (write : bool) (deadline : Z) (fuel : nat) (rounds : list round) (c : conn),
    (length rounds < fuel)%nat -> 0 <= deadline < M64 ->
    Forall (fun r => 0 <= clock r < M64 /\ (amqp_time_ms_until (clock r) deadline < 0 -> res r <> 0)) rounds ->
    let p := amqp_poll_poll fd (event_of write) deadline rounds in
    match Net.amqp_poll fuel write deadline c (concat (map (round_events deadline) rounds)) with
    | Done st c' _ l => c' = c /\ fst p = Returns st /\ snd p = polls_in fd l
    | Halt Blocked c' l => c' = c /\ fst p = Waits /\ snd p = polls_in fd l
    | Halt _ _ _ => False
    end.
Proof.
  intros fd write deadline fuel rounds c HF Hd HC. unfold amqp_poll_poll. replace (negb _) with false by (destruct write; reflexivity). cbv zeta.
  revert fuel HF. induction HC as [|r rest [C1 C2] HC IH]; intros fuel HF; (destruct fuel as [|fuel]; [cbn in HF; lia|]); cbn [map concat].
  - cbn [Net.amqp_poll poll_rounds]. unfold bind at 1. unfold time_ms_until. destruct ((UINT64_MAX =? deadline) || (0 =? deadline)) eqn:HG.
    + cbn [ret]. unfold amqp_time_ms_until. apply orb_true_iff in HG. destruct (UINT64_MAX =? deadline) eqn:H1; [cbn; repeat split|]. destruct HG as [HG|HG]; [discriminate|]. rewrite HG. cbn. repeat split.
    + cbn. repeat split.
  - assert (bind (time_ms_until deadline) (fun ms => if ms <? -1 then ret ms else
        bind (sys_poll write ms) (fun r => match r with PReady => ret AMQP_STATUS_OK | PTimeout => ret AMQP_STATUS_TIMEOUT | PIntr => Net.amqp_poll fuel write deadline | PErr => ret AMQP_STATUS_SOCKET_ERROR end)) c (round_events deadline r ++ concat (map (round_events deadline) rest))
      = Net.amqp_poll (S fuel) write deadline c (round_events deadline r ++ concat (map (round_events deadline) rest))) as <- by reflexivity.
    assert (exists l0, polls_in fd l0 = [] /\ time_ms_until deadline c (round_events deadline r ++ concat (map (round_events deadline) rest)) =
      Done (amqp_time_ms_until (clock r) deadline) c (EvPoll (if 0 <? res r then PReady else if res r =? 0 then PTimeout else if errno r =? 4 then PIntr else PErr) :: concat (map (round_events deadline) rest)) l0) as (l0 & L0 & HT).
    { unfold time_ms_until, round_events. destruct ((UINT64_MAX =? deadline) || (0 =? deadline)) eqn:HG.
      - exists []. split; [reflexivity|]. cbn [app ret]. unfold ret. f_equal. unfold amqp_time_ms_until. apply orb_true_iff in HG.
        destruct (UINT64_MAX =? deadline); [reflexivity|]. destruct HG as [HG|HG]; [discriminate|]. rewrite HG. reflexivity.
      - exists [OClock (u64 (clock r))]. split; [reflexivity|]. cbn [app]. unfold bind, sys_clock, ret. rewrite u64_id by exact C1. reflexivity. }
    unfold bind at 1. rewrite HT. cbv beta iota. cbn [poll_rounds]. set (ms := amqp_time_ms_until (clock r) deadline) in *.
    assert ((if event_of write =? AMQP_SF_POLLIN then POLLIN else POLLOUT) = (if write then POLLOUT else POLLIN)) as -> by (destruct write; reflexivity).
    destruct (Z.ltb_spec ms (-1)); [cbn [ret]; unfold ret; rewrite app_nil_r, L0; repeat split|].
    assert (forall l1, polls_in fd (l0 ++ l1) = polls_in fd l1) as PA by (intros; unfold polls_in in *; rewrite flat_map_app, L0; reflexivity).
    unfold EINTR. rewrite (Z.eqb_sym 0 (res r)). unfold bind, sys_poll.
    destruct (0 <? res r); [unfold ret; rewrite PA; repeat split|].
    destruct (Z.eqb_spec (res r) 0) as [H0|H0].
    { destruct (Z.ltb_spec ms 0) as [Hms|Hms]; [destruct (C2 Hms H0)|]. unfold ret. rewrite PA. repeat split. }
    destruct (errno r =? 4); [|unfold ret; rewrite PA; repeat split].
    cbn [length] in HF. specialize (IH fuel ltac:(lia)). fold (round_events deadline) in *.
    destruct (Net.amqp_poll fuel write deadline c _) as [st c' ev' l|[] c' l]; try contradiction; destruct (poll_rounds _ _ _ rest) as [w lg]; cbn [fst snd] in *;
      destruct IH as (I1 & I2 & I3); rewrite PA; cbn [polls_in flat_map app]; (split; [exact I1|split; [exact I2|f_equal; exact I3]]).
Qed.

(** A wait for room to send with 2.5 ms left, interrupted after 1 ms. *)
Example C89_case :
  let rounds := [mkRound 1000000000 (-1) 4 [] []; mkRound 1001000000 0 0 [7] []] in
  clocks 1002500000 (2147483648 * 1000000) rounds /\
  amqp_poll_poll 7 AMQP_SF_POLLOUT 1002500000 rounds = (Returns AMQP_STATUS_TIMEOUT, [Poll 7 POLLOUT 2; Poll 7 POLLOUT 1]) /\
  amqp_poll_select 7 AMQP_SF_POLLOUT 1002500000 [3] [] rounds =
    (Returns AMQP_STATUS_TIMEOUT, [Select 8 None (Some [7]) None (Some (mkTv 0 2500)); Select 8 None (Some [7]) None (Some (mkTv 0 1500))]).
Proof. split; [|split; vm_compute; reflexivity]. repeat (apply Forall_cons; [split; [unfold clock_ok; cbn; lia|cbn; lia]|]). constructor. Qed.

Print Assumptions C89_poll_partial.
Print Assumptions C89_select_partial.
Print Assumptions C89_same_partial.
Print Assumptions C89_clock_failure.
Print Assumptions C89_large_descriptor_refuted.
Print Assumptions C89_net.
