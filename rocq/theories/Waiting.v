(** Model of amqp_poll (librabbitmq/amqp_socket.c:135-231), in both versions: with
    poll() and, on systems without it, with select().  Net.v has the version with
    poll(), with the system call as an event; here the arguments of the system
    calls are visible. *)
From Coq Require Import ZArith List Bool.
From Verif Require Import Base Time.
Import ListNotations.
Local Open Scope Z_scope.

(** amqp_socket.h:18-22 *)
Definition AMQP_SF_POLLIN := 2.
Definition AMQP_SF_POLLOUT := 4.
Definition AMQP_SF_POLLERR := 8.
(** <poll.h>, <errno.h> and <sys/select.h> of Linux *)
Definition POLLIN := 1.
Definition POLLOUT := 4.
Definition EINTR := 4.
Definition FD_SETSIZE := 1024.

(** The system calls.  A fd_set is the list of its members. *)
Inductive ask :=
| Poll (fd events timeout_ms : Z)
| Select (nfds : Z) (readfds writefds exceptfds : option (list Z)) (timeout : option timeval).
(** One round of the loop: what the clock shows (0: it fails), what poll() or
    select() returns and errno, and what select() leaves in the two sets *)
Record round := mkRound { clock : Z; res : Z; errno : Z; left_fds : list Z; left_except : list Z }.
(** [Waits]: after all the rounds it still waits *)
Inductive waited := Returns (st : Z) | Aborts | Undefined | Waits.

(** amqp_socket.c:145-177, from start_poll on *)
Fixpoint poll_rounds (fd event deadline : Z) (rounds : list round) : waited * list ask :=
  match rounds with
  | [] => (Waits, [])
  | r :: rest =>
    let events := if event =? AMQP_SF_POLLIN then POLLIN else POLLOUT in
    let timeout_ms := amqp_time_ms_until (clock r) deadline in
    if timeout_ms <? -1 then (Returns timeout_ms, [])
    else
      let call := Poll fd events timeout_ms in
      if 0 <? res r then (Returns AMQP_STATUS_OK, [call])
      else if 0 =? res r then (Returns AMQP_STATUS_TIMEOUT, [call])
      else if errno r =? EINTR then let '(w, l) := poll_rounds fd event deadline rest in (w, call :: l)
      else (Returns AMQP_STATUS_SOCKET_ERROR, [call])
  end.
(** amqp_socket.c:135-177 *)
Definition amqp_poll_poll (fd event deadline : Z) (rounds : list round) : waited * list ask :=
  if negb ((event =? AMQP_SF_POLLIN) || (event =? AMQP_SF_POLLOUT)) then (Aborts, [])
  else poll_rounds fd event deadline rounds.

(** FD_ZERO; FD_SET (None: it writes outside of the set) *)
Definition FD_ZERO (s : list Z) : list Z := [].
Definition FD_SET (fd : Z) (s : list Z) : option (list Z) :=
  if (0 <=? fd) && (fd <? FD_SETSIZE) then Some (fd :: s) else None.
(** amqp_socket.c:193-227, from start_select on; [fds], [exceptfds]: what the sets
    contain then *)
Fixpoint select_rounds (fd event deadline : Z) (fds exceptfds : list Z) (rounds : list round) : waited * list ask :=
  match rounds with
  | [] => (Waits, [])
  | r :: rest =>
    let fds := FD_ZERO fds in
    match FD_SET fd fds with
    | None => (Undefined, [])
    | Some fds =>
      match (if negb (Z.land event AMQP_SF_POLLERR =? 0)
             then match FD_SET fd (FD_ZERO exceptfds) with Some e => Some (Some e) | None => None end
             else Some None) with
      | None => (Undefined, [])
      | Some exceptfdsp =>
        let '(st, out) := amqp_time_tv_until (clock r) deadline in
        if negb (st =? AMQP_STATUS_OK) then (Returns st, [])
        else
          match out with
          | None => (Undefined, [])
          | Some tvp =>
            let call :=
              if negb (Z.land event AMQP_SF_POLLIN =? 0) then Select (fd + 1) (Some fds) None exceptfdsp tvp
              else Select (fd + 1) None (Some fds) exceptfdsp tvp in
            if 0 <? res r then (Returns AMQP_STATUS_OK, [call])
            else if 0 =? res r then (Returns AMQP_STATUS_TIMEOUT, [call])
            else if errno r =? EINTR
            then let '(w, l) := select_rounds fd event deadline (left_fds r) (left_except r) rest in (w, call :: l)
            else (Returns AMQP_STATUS_SOCKET_ERROR, [call])
          end
      end
    end
  end.
(** amqp_socket.c:178-227 (not Windows); [fds], [exceptfds]: not initialized *)
Definition amqp_poll_select (fd event deadline : Z) (fds exceptfds : list Z) (rounds : list round) : waited * list ask :=
  if (Z.land event AMQP_SF_POLLIN =? 0) && (Z.land event AMQP_SF_POLLOUT =? 0) then (Aborts, [])
  else if negb (Z.land event AMQP_SF_POLLERR =? 0) then (Aborts, [])
  else select_rounds fd event deadline fds exceptfds rounds.
