(** C61: what a run of a call with a timeout must look like.

    A run is the list of what the library asked of the operating system and what it was
    told ([obs]).  [clockwork] follows such a list and checks every poll that waits for
    the peer: it is asked for no time at all, or the clock was read immediately before
    and the time asked for ends no later than the deadline.  Polls that are a part of
    sending (for room to write; with TLS, for input right after an attempt to send of
    which nothing was accepted) are not checked. *)
From Coq Require Import ZArith List Bool.
From Verif Require Import Base Time Net NetApi.
Import ListNotations.
Local Open Scope Z_scope.

(** the length of a timeout in nanoseconds *)
Definition nanoseconds (tv : timeval) : Z := tv_sec tv * 1000000000 + tv_usec tv * 1000.
(** a timeout of at most 2^31 - 1 milliseconds (24 days), what poll can be asked for *)
Definition reasonable (tv : timeval) : Prop := 0 <= tv_sec tv /\ 0 <= tv_usec tv /\ nanoseconds tv <= 2147483647 * 1000000.

(** [now]: the last clock reading; [just_read]: it was immediately before; [blocked]: an
    attempt to send of which nothing was accepted came before (and then only clock
    readings and interrupted polls).
    [Forgiven]: the clock went backwards or is beyond 2^63 ns.
    [Overslept]: a poll was asked to wait for longer than the time left. *)
Inductive clockwork :=
| OnTime (now : Z) (just_read blocked : bool)
| Forgiven
| Overslept.
Definition clock_step (deadline : Z) (w : clockwork) (o : obs) : clockwork :=
  match w with
  | OnTime now just_read blocked =>
    match o with
    | OClock t => if (t <? now) || (2 ^ 63 <=? t) then Forgiven else OnTime t true blocked
    | OSend _ bytes => OnTime now false (match bytes with [] => true | _ => false end)
    | OPoll write ms result =>
      if write || blocked then OnTime now false (blocked && match result with PIntr => true | _ => false end)
      else if (ms =? 0) || (just_read && (0 <=? ms) && (now + ms * 1000000 <=? deadline)) then OnTime now false false
      else Overslept
    | _ => OnTime now false false
    end
  | w => w
  end.
Definition clock_run (deadline : Z) (l : list obs) : clockwork := fold_left (clock_step deadline) l (OnTime 0 false false).
(** The run begins by reading the clock, and no poll for the peer waits past that time
    plus the timeout. *)
Definition keeps_timeout (tv : timeval) (l : list obs) : Prop :=
  match l with
  | [] => True
  | OClock start :: _ => clock_run (start + nanoseconds tv) l <> Overslept
  | _ => False
  end.
(** The time is up: the last thing done (but for closing the socket) was a poll that
    timed out, and it ended less than a millisecond before the deadline, or after it. *)
Definition time_is_up (tv : timeval) (l : list obs) : Prop :=
  match l with
  | OClock start :: _ =>
    clock_run (start + nanoseconds tv) l = Forgiven \/
    exists before now write ms closing,
      l = before ++ [OClock now; OPoll write ms PTimeout] ++ closing /\
      start + nanoseconds tv < now + (ms + 1) * 1000000 /\
      Forall (fun o => match o with OClose _ => True | _ => False end) closing
  | _ => False
  end.

(** The clock jumps by more than [slip] between two readings with nothing in between
    (the process was not running). *)
Definition hiccup (slip : Z) (l : list obs) : Prop :=
  exists before t1 t2 after, l = before ++ OClock t1 :: OClock t2 :: after /\ slip < t2 - t1.
(** No poll for the peer waits past the timeout by more than [slip], unless the process
    stands still for longer than that between two clock readings. *)
Definition keeps_timeout_within (tv : timeval) (slip : Z) (l : list obs) : Prop :=
  match l with
  | [] => True
  | OClock start :: _ => clock_run (start + nanoseconds tv + slip) l <> Overslept \/ hiccup slip l
  | _ => False
  end.

(** the timeout a call is subject to *)
Definition timeout_of (c : conn) (a : api) : option timeval :=
  match a with
  | WaitFrame t | ConsumeMessage t | ConfirmWait t => t
  | Rpc _ _ _ _ | Call _ _ _ | ChannelClose _ _ | ConnectionClose _ | BasicGet _ _ _ => amqp_get_rpc_timeout (c_to c)
  | _ => None
  end.
(** a call reports AMQP_STATUS_TIMEOUT *)
Definition reports_timeout (o : outcome_t) (c' : conn) : Prop :=
  match o with
  | OutFrame st _ => st = AMQP_STATUS_TIMEOUT
  | OutReply r | OutEnvelope r _ | OutConfirm r _ => r = RLibrary AMQP_STATUS_TIMEOUT
  | OutDecoded None => c_recent c' = RLibrary AMQP_STATUS_TIMEOUT
  | _ => False
  end.
