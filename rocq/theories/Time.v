(** Model of librabbitmq/amqp_time.c and of the timeout settings in amqp_api.c.
    A time point is a uint64_t in nanoseconds ([Z] in 0..2^64-1); a clock reading
    is a parameter [now] (0: the clock failed). *)
From Coq Require Import ZArith List Bool.
From Verif Require Import Base.
Local Open Scope Z_scope.

(** amqp_time.h:21-25 *)
Definition AMQP_NS_PER_S := 1000000000.
Definition AMQP_NS_PER_MS := 1000000.
Definition AMQP_NS_PER_US := 1000.
Definition UINT64_MAX := 0xffffffffffffffff.

(** struct timeval: two 64 bit signed members *)
Record timeval := mkTv { tv_sec : Z; tv_usec : Z }.

(** amqp_time.c:71-82 (POSIX): [tp] is what clock_gettime delivers, None if it
    fails *)
Definition amqp_get_monotonic_timestamp (tp : option (Z * Z)) : Z :=
  match tp with
  | None => 0
  | Some (sec, nsec) => u64 (u64 (u64 sec * AMQP_NS_PER_S) + u64 nsec)
  end.

(** amqp_time.c:140-144 *)
Definition amqp_time_infinite : Z := UINT64_MAX.

(** amqp_time.c:85-114: (status, *time); *time is None when it was not
    assigned *)
Definition amqp_time_from_now (now : Z) (timeout : option timeval) : Z * option Z :=
  match timeout with
  | None => (AMQP_STATUS_OK, Some amqp_time_infinite)
  | Some tv =>
    if (tv_sec tv <? 0) || (tv_usec tv <? 0) then (AMQP_STATUS_INVALID_PARAMETER, None)
    else
      let delta := u64 (u64 (u64 (tv_sec tv) * AMQP_NS_PER_S) + u64 (u64 (tv_usec tv) * AMQP_NS_PER_US)) in
      if now =? 0 then (AMQP_STATUS_TIMER_FAILURE, None)
      else
        let t := u64 (now + delta) in
        if (t <? now) || (t <? delta) then (AMQP_STATUS_INVALID_PARAMETER, Some t) else (AMQP_STATUS_OK, Some t)
  end.

(** amqp_time.c:116-138; [seconds] is an int *)
Definition amqp_time_s_from_now (now : Z) (seconds : Z) : Z * option Z :=
  if seconds <=? 0 then (AMQP_STATUS_OK, Some amqp_time_infinite)
  else if now =? 0 then (AMQP_STATUS_TIMER_FAILURE, None)
  else
    let delta := u64 (u64 seconds * AMQP_NS_PER_S) in
    let t := u64 (now + delta) in
    if (t <? now) || (t <? delta) then (AMQP_STATUS_INVALID_PARAMETER, Some t) else (AMQP_STATUS_OK, Some t).

(** amqp_time.c:146-171 *)
Definition amqp_time_ms_until (now time : Z) : Z :=
  if UINT64_MAX =? time then -1
  else if 0 =? time then 0
  else if now =? 0 then AMQP_STATUS_TIMER_FAILURE
  else if time <=? now then 0
  else signed M32 (u64 (time - now) / AMQP_NS_PER_MS).

(** amqp_time.c:173-208: (status, *out); None: *out not assigned; Some None: NULL *)
Definition amqp_time_tv_until (now time : Z) : Z * option (option timeval) :=
  if UINT64_MAX =? time then (AMQP_STATUS_OK, Some None)
  else if 0 =? time then (AMQP_STATUS_OK, Some (Some (mkTv 0 0)))
  else if now =? 0 then (AMQP_STATUS_TIMER_FAILURE, None)
  else if time <=? now then (AMQP_STATUS_OK, Some (Some (mkTv 0 0)))
  else
    let delta := u64 (time - now) in
    (AMQP_STATUS_OK, Some (Some (mkTv (signed M32 (delta / AMQP_NS_PER_S))
                                      (signed M32 ((delta mod AMQP_NS_PER_S) / AMQP_NS_PER_US))))).

(** amqp_time.c:210-225 *)
Definition amqp_time_has_past (now time : Z) : Z :=
  if UINT64_MAX =? time then AMQP_STATUS_OK
  else if now =? 0 then AMQP_STATUS_TIMER_FAILURE
  else if time <? now then AMQP_STATUS_TIMEOUT
  else AMQP_STATUS_OK.

(** amqp_time.c:227-232 *)
Definition amqp_time_first (l r : Z) : Z := if l <? r then l else r.
(** amqp_time.c:234-236 *)
Definition amqp_time_equal (l r : Z) : bool := l =? r.

(** ** Timeout settings of a connection: handshake_timeout/rpc_timeout either are
    NULL (false) or point to the internal_* member. *)
Record timeouts := mkTo {
  hs_set : bool; internal_handshake_timeout : timeval;
  rpc_set : bool; internal_rpc_timeout : timeval }.

(** amqp_connection.c:44-83 (calloc; AMQP_DEFAULT_LOGIN_TIMEOUT_SEC is 12,
    amqp_connection.c:29-31) *)
Definition new_timeouts : timeouts := mkTo true (mkTv 12 0) false (mkTv 0 0).

(** amqp_api.c:331-333, 350-352 *)
Definition amqp_get_handshake_timeout (s : timeouts) : option timeval :=
  if hs_set s then Some (internal_handshake_timeout s) else None.
Definition amqp_get_rpc_timeout (s : timeouts) : option timeval :=
  if rpc_set s then Some (internal_rpc_timeout s) else None.

(** amqp_api.c:335-348 *)
Definition amqp_set_handshake_timeout (s : timeouts) (timeout : option timeval) : Z * timeouts :=
  match timeout with
  | Some tv =>
    if (tv_sec tv <? 0) || (tv_usec tv <? 0) then (AMQP_STATUS_INVALID_PARAMETER, s)
    else (AMQP_STATUS_OK, mkTo true tv (rpc_set s) (internal_rpc_timeout s))
  | None => (AMQP_STATUS_OK, mkTo false (internal_handshake_timeout s) (rpc_set s) (internal_rpc_timeout s))
  end.

(** amqp_api.c:354-366 *)
Definition amqp_set_rpc_timeout (s : timeouts) (timeout : option timeval) : Z * timeouts :=
  match timeout with
  | Some tv =>
    if (tv_sec tv <? 0) || (tv_usec tv <? 0) then (AMQP_STATUS_INVALID_PARAMETER, s)
    else (AMQP_STATUS_OK, mkTo (hs_set s) (internal_handshake_timeout s) true tv)
  | None => (AMQP_STATUS_OK, mkTo (hs_set s) (internal_handshake_timeout s) false (internal_rpc_timeout s))
  end.
