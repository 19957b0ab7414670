(** C44: what a run must look like for a dead peer to be noticed in time.

    A run is the list of what the library asked of the operating system and what it
    was told ([obs]): clock readings, poll calls with their timeout, bytes sent and
    received.  [watch] follows such a list and keeps the time by which something must
    have been heard of the peer: twice the heartbeat interval after the clock reading
    that follows the last bytes received (amqp_private.h:166-172). *)
From Coq Require Import ZArith List Bool.
From Verif Require Import Base Net.
Import ListNotations.
Local Open Scope Z_scope.

Definition second : Z := 10 ^ 9.
Definition millisecond : Z := 10 ^ 6.

(** [limit]: something must be heard by then; [now]: the last clock reading;
    [just_read]: the clock was read immediately before; [heard]: bytes were received
    and the clock has not been read since.
    [Excused]: the clock went backwards or is beyond 2^63 ns (292 years).
    [Late]: a poll was asked to wait for longer than the time left. *)
Inductive watch :=
| Watching (limit now : Z) (just_read heard : bool)
| Excused
| Late.
Definition watch_step (heartbeat : Z) (w : watch) (o : obs) : watch :=
  match w, o with
  | Watching limit now just_read heard, OClock t =>
    if (t <? now) || (2 ^ 63 <=? t) then Excused
    else Watching (if heard && (0 <? t) then t + 2 * heartbeat * second else limit) t true false
  | Watching limit now just_read heard, OPoll _ ms _ =>
    if (ms =? 0) || (just_read && (0 <=? ms) && (now + ms * millisecond <=? limit))
    then Watching limit now false heard else Late
  | Watching limit now just_read heard, ORecv (_ :: _) => Watching limit now false true
  | Watching limit now just_read heard, _ => Watching limit now false heard
  | w, _ => w
  end.
(** No poll of the run waits beyond the limit, which is [limit] at first; the clock
    does not start before [now]. *)
Definition never_late (heartbeat limit now : Z) (l : list obs) : Prop :=
  fold_left (watch_step heartbeat) l (Watching limit now false false) <> Late.

(** The same for a call that waits for a frame, with the two other duties: to send a
    heartbeat when nothing was sent for the heartbeat interval, and to give up when the
    peer is silent.
    [hear]: something must be heard by then; [say]: something must have been sent by
    then; [sent]: the bytes of a heartbeat (8) handed to the socket so far; [tried]:
    since the last bytes were received or the last poll for input timed out, the clock
    was seen not past [say], or the library tried to send; [late]: a poll for input
    that was begun when [hear] had passed has timed out; [blocked]: the last thing done,
    but for clock readings and interrupted polls, was an attempt to send of which nothing
    was accepted (TLS may have to read before it can write: the poll for input that
    follows is part of sending). *)
Record duty := mkDuty { hear : Z; say : Z; now : Z; just_read : bool; heard : bool; sent : Z; tried : bool; late : bool; blocked : bool }.
(** [Ended]: a second such poll has timed out: nothing but closing the socket may
    follow.  [Careless]: a duty was neglected. *)
Inductive attend := Attending (d : duty) | Ended | Free | Careless.
Definition within (ms : Z) (d : duty) (limit : Z) : bool := (ms =? 0) || (just_read d && (0 <=? ms) && (now d + ms * millisecond <=? limit)).
Definition attend_step (heartbeat : Z) (a : attend) (o : obs) : attend :=
  match a with
  | Free | Careless => a
  | Ended => match o with OClose _ => Ended | _ => Careless end
  | Attending d =>
    match o with
    | OClock t =>
      if (t <? now d) || (2 ^ 63 <=? t) then Free
      else
        let hear' := if heard d && (0 <? t) then t + 2 * heartbeat * second else hear d in
        let say' := if (sent d =? 8) && (0 <? t) then t + heartbeat * second else say d in
        Attending (mkDuty hear' say' t true false (if sent d =? 8 then 0 else sent d) (tried d || (t <=? say')) (late d && negb (heard d)) (blocked d))
    | OSend _ bytes =>
      Attending (mkDuty (hear d) (say d) (now d) false (heard d) (sent d + zlen bytes) true (late d) (match bytes with [] => true | _ => false end))
    | OPoll write ms result =>
      if write || blocked d then
        if within ms d (hear d)
        then Attending (mkDuty (hear d) (say d) (now d) false (heard d) (sent d) true (late d) (blocked d && match result with PIntr => true | _ => false end))
        else Careless
      else if within ms d (Z.min (hear d) (say d)) && tried d then
        match result with
        | PTimeout =>
          if hear d <=? now d
          then (if late d then Ended else Attending (mkDuty (hear d) (say d) (now d) false (heard d) (sent d) false true false))
          else Attending (mkDuty (hear d) (say d) (now d) false (heard d) (sent d) false (late d) false)
        | _ => Attending (mkDuty (hear d) (say d) (now d) false (heard d) (sent d) (tried d) (late d) false)
        end
      else Careless
    | ORecv (_ :: _) => Attending (mkDuty (hear d) (say d) (now d) false true (sent d) false (late d) false)
    | _ => Attending (mkDuty (hear d) (say d) (now d) false (heard d) (sent d) (tried d) (late d) false)
    end
  end.
(** A run of a call that waits for a frame, begun at [now] with the deadlines [hear]
    and [say], neglects no duty. *)
Definition attentive (heartbeat hear say now : Z) (l : list obs) : Prop :=
  fold_left (attend_step heartbeat) l (Attending (mkDuty hear say now false false 0 false false false)) <> Careless.
