(** Model of the sockets below Net.v: the send and recv functions of amqp_tcp_socket.c and
    amqp_openssl.c and the BIO of amqp_openssl_bio.c, down to the system calls, their flags
    and errno.  What OpenSSL does with the BIO is arbitrary: a program that reads and writes
    through it. *)
From Coq Require Import ZArith List Bool.
From Verif Require Import Base Time Os Net.
Import ListNotations.
Local Open Scope Z_scope.

(** errno values (Linux; EWOULDBLOCK is EAGAIN) *)
Definition EAGAIN := 11.
Definition EPIPE := 32.
Definition EPROTO := 71.
Definition ENOTCONN := 107.
Definition EALREADY := 114.
(** openssl/ssl.h *)
Definition SSL_ERROR_ZERO_RETURN := 6.

(** send() and recv(); [nosignal]: MSG_NOSIGNAL, [more]: MSG_MORE *)
Inductive io_call := Send (fd : Z) (data : bytes) (nosignal more : bool) | Recv (fd len : Z) (nosignal : bool).
(** what they return, errno, and the bytes that recv has stored *)
Record io_answer := mkIo { io_result : Z; io_errno : Z; io_data : bytes }.
Definition io_entry : Type := io_call * io_answer.
(** [IoWaits]: the last call has not returned (or the bound on the rounds of a loop is
    reached) *)
Inductive io (A : Type) := IoDone (a : A) (rest : list io_answer) (l : list io_entry) | IoWaits (l : list io_entry).
Arguments IoDone {A}. Arguments IoWaits {A}.
Definition io_log {A} (r : io A) : list io_entry := match r with IoDone _ _ l | IoWaits l => l end.
Definition with_log {A} (l : list io_entry) (r : io A) : io A :=
  match r with IoDone a rest l' => IoDone a rest (l ++ l') | IoWaits l' => IoWaits (l ++ l') end.

(** ** amqp_tcp_socket.c *)
(** amqp_tcp_socket.c:74-101 (MSG_NOSIGNAL and MSG_MORE exist: lines 42-49) *)
Fixpoint tcp_send_tries (fuel : nat) (fd : Z) (more : bool) (buf : bytes) (ans : list io_answer) : io Z :=
  match fuel, ans with
  | O, _ | _, [] => IoWaits []
  | S fuel, a :: ans =>
    let l := [(Send fd buf true more, a)] in
    if io_result a <? 0 then
      if io_errno a =? EINTR then with_log l (tcp_send_tries fuel fd more buf ans)
      else if io_errno a =? EAGAIN then IoDone NEEDWRITE ans l
      else IoDone AMQP_STATUS_SOCKET_ERROR ans l
    else IoDone (io_result a) ans l
  end.
(** amqp_tcp_socket.c:32-104 *)
Definition tcp_send (fuel : nat) (fd : Z) (more : bool) (buf : bytes) (ans : list io_answer) : io Z :=
  if fd =? -1 then IoDone AMQP_STATUS_SOCKET_CLOSED ans [] else tcp_send_tries fuel fd more buf ans.
(** amqp_tcp_socket.c:114-143; flags is 0 *)
Fixpoint tcp_recv_tries (fuel : nat) (fd len : Z) (ans : list io_answer) : io (Z * bytes) :=
  match fuel, ans with
  | O, _ | _, [] => IoWaits []
  | S fuel, a :: ans =>
    let l := [(Recv fd len false, a)] in
    if io_result a <? 0 then
      if io_errno a =? EINTR then with_log l (tcp_recv_tries fuel fd len ans)
      else if io_errno a =? EAGAIN then IoDone (NEEDREAD, []) ans l
      else IoDone (AMQP_STATUS_SOCKET_ERROR, []) ans l
    else if io_result a =? 0 then IoDone (AMQP_STATUS_CONNECTION_CLOSED, []) ans l
    else IoDone (io_result a, io_data a) ans l
  end.
(** amqp_tcp_socket.c:106-144 *)
Definition tcp_recv (fuel : nat) (fd len : Z) (ans : list io_answer) : io (Z * bytes) :=
  if fd =? -1 then IoDone (AMQP_STATUS_SOCKET_CLOSED, []) ans [] else tcp_recv_tries fuel fd len ans.

(** ** amqp_openssl_bio.c *)
(** a BIO: its descriptor (BIO_set_fd) and its retry flags *)
Record bio := mkBio { b_fd : Z; b_retry_read : bool; b_retry_write : bool }.
(** amqp_openssl_bio.c:29-60; the names that exist on Linux *)
Definition bio_should_retry (a : io_answer) : bool :=
  (io_result a =? -1) &&
  ((io_errno a =? EAGAIN) || (io_errno a =? ENOTCONN) || (io_errno a =? EINTR) || (io_errno a =? EPROTO) || (io_errno a =? EINPROGRESS) || (io_errno a =? EALREADY)).
(** amqp_openssl_bio.c:62-81 *)
Definition bio_write (b : bio) (data : bytes) (a : io_answer) : Z * bio * io_entry :=
  (io_result a, mkBio (b_fd b) false ((io_result a <=? 0) && bio_should_retry a), (Send (b_fd b) data true false, a)).
(** amqp_openssl_bio.c:83-102 *)
Definition bio_read (b : bio) (len : Z) (a : io_answer) : Z * bytes * bio * io_entry :=
  (io_result a, io_data a, mkBio (b_fd b) ((io_result a <=? 0) && bio_should_retry a) false, (Recv (b_fd b) len true, a)).

(** ** amqp_openssl.c *)
(** A function of OpenSSL: it writes and reads through the BIO (the result and the retry
    flag come back) and returns.  What it writes, when and how often is arbitrary. *)
Inductive tls (A : Type) :=
| TlsDone (a : A)
| TlsWrite (data : bytes) (k : Z -> bool -> tls A)
| TlsRead (len : Z) (k : Z -> bytes -> bool -> tls A).
Arguments TlsDone {A}. Arguments TlsWrite {A}. Arguments TlsRead {A}.
(** It runs: the result and the BIO as it is then *)
Fixpoint tls_run {A} (p : tls A) (b : bio) (ans : list io_answer) : io (A * bio) :=
  match p with
  | TlsDone a => IoDone (a, b) ans []
  | TlsWrite data k =>
    match ans with
    | [] => IoWaits []
    | a :: ans => let '(r, b, e) := bio_write b data a in with_log [e] (tls_run (k r (b_retry_write b)) b ans)
    end
  | TlsRead len k =>
    match ans with
    | [] => IoWaits []
    | a :: ans => let '(r, bs, b, e) := bio_read b len a in with_log [e] (tls_run (k r bs (b_retry_read b)) b ans)
    end
  end.
Definition io_map {A B} (f : A -> B) (r : io A) : io B := match r with IoDone a rest l => IoDone (f a) rest l | IoWaits l => IoWaits l end.
(** amqp_openssl.c:90-104, 130-143: the status for SSL_get_error *)
Definition ssl_status (error : Z) : Z :=
  if error =? SSL_ERROR_WANT_READ then NEEDREAD
  else if error =? SSL_ERROR_WANT_WRITE then NEEDWRITE
  else if error =? SSL_ERROR_ZERO_RETURN then AMQP_STATUS_CONNECTION_CLOSED
  else AMQP_STATUS_SSL_ERROR.
(** amqp_openssl.c:65-112; [ssl_write]: SSL_write, with its result and SSL_get_error *)
Definition ssl_send (ssl_write : bytes -> tls (Z * Z)) (fd : Z) (b : bio) (buf : bytes) (ans : list io_answer) : io (Z * bio) :=
  if fd =? -1 then IoDone (AMQP_STATUS_SOCKET_CLOSED, b) ans []
  else if INT_MAX <? zlen buf then IoDone (AMQP_STATUS_INVALID_PARAMETER, b) ans []
  else io_map (fun p => let '(r, e, b) := p in (if r <=? 0 then ssl_status e else r, b)) (tls_run (ssl_write buf) b ans).
(** amqp_openssl.c:114-147; [ssl_read]: SSL_read, with its result, SSL_get_error and the
    bytes it has stored *)
Definition ssl_recv (ssl_read : Z -> tls (Z * Z * bytes)) (fd : Z) (b : bio) (len : Z) (ans : list io_answer) : io (Z * bytes * bio) :=
  if fd =? -1 then IoDone (AMQP_STATUS_SOCKET_CLOSED, [], b) ans []
  else if INT_MAX <? len then IoDone (AMQP_STATUS_INVALID_PARAMETER, [], b) ans []
  else io_map (fun p => let '(r, e, bs, b) := p in (if r <=? 0 then (ssl_status e, [], b) else (r, bs, b))) (tls_run (ssl_read len) b ans).

(** ** A socket in use *)
(** the calls on a socket: [Talk]: SSL_connect (amqp_openssl.c:204) and SSL_shutdown (280) *)
Inductive socket_op :=
| TcpSend (fd : Z) (more : bool) (buf : bytes)
| TcpRecv (fd len : Z)
| SslSend (ssl_write : bytes -> tls (Z * Z)) (fd : Z) (b : bio) (buf : bytes)
| SslRecv (ssl_read : Z -> tls (Z * Z * bytes)) (fd : Z) (b : bio) (len : Z)
| Talk (p : tls Z) (b : bio).
Definition socket_run (fuel : nat) (o : socket_op) (ans : list io_answer) : io unit :=
  match o with
  | TcpSend fd more buf => io_map (fun _ => tt) (tcp_send fuel fd more buf ans)
  | TcpRecv fd len => io_map (fun _ => tt) (tcp_recv fuel fd len ans)
  | SslSend w fd b buf => io_map (fun _ => tt) (ssl_send w fd b buf ans)
  | SslRecv r fd b len => io_map (fun _ => tt) (ssl_recv r fd b len ans)
  | Talk p b => io_map (fun _ => tt) (tls_run p b ans)
  end.
