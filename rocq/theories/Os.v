(** Opening and closing sockets: models of the connecting half of
    librabbitmq/amqp_socket.c and of the socket objects in amqp_tcp_socket.c and
    amqp_openssl.c.

    The operating system and OpenSSL are an oracle: every call is answered with the
    next element of a list of answers, and the run records each call with its answer.
    A theorem about all lists of answers is about everything the system may do. *)
From Coq Require Import ZArith List Bool.
From Verif Require Import Base Time.
Import ListNotations.
Local Open Scope Z_scope.

(** ** Calls and answers *)
(** the socket options of amqp_socket.c:373-406 *)
Inductive setting := GetFd | SetCloexec | GetFl | SetNonblock | Nodelay | Keepalive.
Inductive call :=
(* operating system *)
| Clock
| Resolve (host : bytes) (port : Z)          (* getaddrinfo *)
| Socket (address : Z)
| Set_ (fd : Z) (s : setting)
| Connect (fd address : Z)
| Poll (fd : Z) (write : bool) (ms : Z)
| SoError (fd : Z)                           (* getsockopt SO_ERROR: answer 0 only if the call succeeds and the pending error is 0 *)
| Close (fd : Z)
| Calloc                                     (* answer 0: NULL *)
(* OpenSSL *)
| CtxNew | CtxVersions | CtxFree             (* SSL_CTX_new, SSL_CTX_set_min/max_proto_version, SSL_CTX_free *)
| SslNew | BioNew | SniName (host : bytes)   (* SSL_new, BIO_new + SSL_set_bio, SSL_set_tlsext_host_name; answer 0: failed *)
| Handshake                                  (* SSL_connect: answer 1: done; otherwise errno is SSL_get_error *)
| PeerCert                                   (* answer 0: the peer presented no certificate *)
| VerifyResult                               (* SSL_get_verify_result: X509_V_OK is 0 *)
| CheckHost (host : bytes)                   (* X509_check_host on that certificate: 1: match *)
| CertFree | Shutdown | SslFree.
Record answer := mkAns { result : Z; err : Z; addresses : option (list Z) }.
Definition entry : Type := call * answer.

(** OUB: undefined behaviour *)
Inductive ostop := OBlocked | OFuel | OUB.
Inductive orun (A : Type) :=
| ODone (a : A) (rest : list answer) (l : list entry)
| OHalt (s : ostop) (l : list entry).
Arguments ODone {A}. Arguments OHalt {A}.
Definition Io (A : Type) := list answer -> orun A.
Definition oret {A} (a : A) : Io A := fun ans => ODone a ans [].
Definition obind {A B} (m : Io A) (k : A -> Io B) : Io B := fun ans =>
  match m ans with
  | OHalt s l => OHalt s l
  | ODone a ans l =>
    match k a ans with
    | OHalt s l' => OHalt s (l ++ l')
    | ODone b ans l' => ODone b ans (l ++ l')
    end
  end.
Declare Scope os_scope.
Notation "x <- m ;; k" := (obind m (fun x => k)) (at level 61, m at next level, right associativity) : os_scope.
Notation "m ;; k" := (obind m (fun _ => k)) (at level 61, right associativity) : os_scope.
Local Open Scope os_scope.
Definition ohalt {A} (s : ostop) : Io A := fun _ => OHalt s [].
Definition ask (c : call) : Io answer := fun ans =>
  match ans with [] => OHalt OBlocked [] | a :: ans => ODone a ans [(c, a)] end.

(** errno values (Linux) and SSL_get_error values (openssl/ssl.h) *)
Definition EINTR := 4.
Definition EINPROGRESS := 115.
Definition SSL_ERROR_WANT_READ := 2.
Definition SSL_ERROR_WANT_WRITE := 3.
Definition X509_V_OK := 0.

(** ** amqp_time.c with the clock as a call *)
(** amqp_time.c:85-114 *)
Definition o_time_from_now (timeout : option timeval) : Io (Z * option Z) :=
  match timeout with
  | None => oret (amqp_time_from_now 0 None)
  | Some tv =>
    if (tv_sec tv <? 0) || (tv_usec tv <? 0) then oret (amqp_time_from_now 0 (Some tv))
    else a <- ask Clock;; oret (amqp_time_from_now (u64 (result a)) (Some tv))
  end.
(** amqp_time.c:146-171 *)
Definition o_time_ms_until (time : Z) : Io Z :=
  if (UINT64_MAX =? time) || (0 =? time) then oret (amqp_time_ms_until 0 time)
  else a <- ask Clock;; oret (amqp_time_ms_until (u64 (result a)) time).

Section Os.
(** bound on the rounds of each loop; the theorems hold for every bound *)
Context (N : nat).

(** amqp_socket.c:135-177 (HAVE_POLL); poll() does not time out if it is told to wait
    for ever *)
Fixpoint o_poll (fuel : nat) (fd : Z) (write : bool) (deadline : Z) : Io Z :=
  match fuel with
  | O => ohalt OFuel
  | S fuel =>
    timeout_ms <- o_time_ms_until deadline;;
    if timeout_ms <? -1 then oret timeout_ms
    else
      a <- ask (Poll fd write timeout_ms);;
      if 0 <? result a then oret AMQP_STATUS_OK
      else if 0 =? result a then (if timeout_ms <? 0 then ohalt OBlocked else oret AMQP_STATUS_TIMEOUT)
      else if err a =? EINTR then o_poll fuel fd write deadline
      else oret AMQP_STATUS_SOCKET_ERROR
  end.

(** ** Connecting *)
(** amqp_socket.c:373-406: the settings in this order, until one fails (-1 for fcntl,
    not 0 for setsockopt; SO_NOSIGPIPE does not exist on Linux) *)
Definition setting_ok (s : setting) (r : Z) : bool :=
  match s with
  | GetFd | SetCloexec | GetFl | SetNonblock => negb (r =? -1)
  | Nodelay | Keepalive => r =? 0
  end.
Fixpoint configure (fd : Z) (settings : list setting) : Io bool :=
  match settings with
  | [] => oret true
  | s :: settings =>
    a <- ask (Set_ fd s);;
    if setting_ok s (result a) then configure fd settings else oret false
  end.
Definition all_settings : list setting := [GetFd; SetCloexec; GetFl; SetNonblock; Nodelay; Keepalive].

(** amqp_socket.c:362-437; the label err is [fail] *)
Definition connect_socket (address deadline : Z) : Io Z :=
  a <- ask (Socket address);;
  let sockfd := if result a <? 0 then -1 else result a in
  if sockfd =? -1 then oret AMQP_STATUS_SOCKET_ERROR
  else
    let fail last_error := ask (Close sockfd);; oret last_error in
    ok <- configure sockfd all_settings;;
    if negb ok then fail AMQP_STATUS_SOCKET_ERROR
    else
      a <- ask (Connect sockfd address);;
      if result a =? 0 then oret sockfd
      else if negb (err a =? EINPROGRESS) then fail AMQP_STATUS_SOCKET_ERROR
      else
        last_error <- o_poll N sockfd true deadline;;
        if negb (last_error =? AMQP_STATUS_OK) then fail last_error
        else
          a <- ask (SoError sockfd);;
          if negb (result a =? 0) then fail AMQP_STATUS_SOCKET_ERROR
          else oret sockfd.

(** amqp_socket.c:467-477: (sockfd, last_error) after the loop *)
Fixpoint try_addresses (addrs : list Z) (deadline sockfd last_error : Z) : Io (Z * Z) :=
  match addrs with
  | [] => oret (sockfd, last_error)
  | a :: addrs =>
    sockfd <- connect_socket a deadline;;
    if 0 <=? sockfd then oret (sockfd, AMQP_STATUS_OK)
    else if sockfd =? AMQP_STATUS_TIMEOUT then oret (sockfd, sockfd)
    else try_addresses addrs deadline sockfd last_error
  end.
(** amqp_socket.c:440-484 (amqp_os_socket_init does nothing: lines 54-71); getaddrinfo
    either fails or yields a list of addresses *)
Definition amqp_open_socket_inner (host : bytes) (port deadline : Z) : Io Z :=
  a <- ask (Resolve host port);;
  match addresses a with
  | None => oret AMQP_STATUS_HOSTNAME_RESOLUTION_FAILED
  | Some addrs =>
    p <- try_addresses addrs deadline (-1) 0;;
    let '(sockfd, last_error) := p in
    if negb (last_error =? AMQP_STATUS_OK) || (sockfd =? -1) then oret last_error else oret sockfd
  end.
(** amqp_socket.c:278-280 *)
Definition amqp_open_socket (host : bytes) (port : Z) : Io Z := amqp_open_socket_inner host port amqp_time_infinite.
(** amqp_socket.c:282-290 *)
Definition amqp_open_socket_noblock (host : bytes) (port : Z) (timeout : option timeval) : Io Z :=
  p <- o_time_from_now timeout;;
  match p with
  | (res, Some deadline) => if negb (res =? AMQP_STATUS_OK) then oret res else amqp_open_socket_inner host port deadline
  | (res, None) => oret res
  end.

(** ** TCP socket objects: the state is [sockfd] (-1: not open) *)
(** amqp_tcp_socket.c:146-160: (status, new sockfd) *)
Definition amqp_tcp_socket_open (sockfd : Z) (host : bytes) (port : Z) (timeout : option timeval) : Io (Z * Z) :=
  if negb (sockfd =? -1) then oret (AMQP_STATUS_SOCKET_INUSE, sockfd)
  else
    fd <- amqp_open_socket_noblock host port timeout;;
    if fd <? 0 then oret (fd, -1) else oret (AMQP_STATUS_OK, fd).
(** amqp_tcp_socket.c:162-174 *)
Definition amqp_tcp_socket_close (sockfd : Z) : Io (Z * Z) :=
  if sockfd =? -1 then oret (AMQP_STATUS_SOCKET_CLOSED, sockfd)
  else
    a <- ask (Close sockfd);;
    if negb (result a =? 0) then oret (AMQP_STATUS_SOCKET_ERROR, sockfd) else oret (AMQP_STATUS_OK, -1).
(** amqp_tcp_socket.c:181-188 (free is not modelled) *)
Definition amqp_tcp_socket_delete (sockfd : Z) : Io unit :=
  amqp_tcp_socket_close sockfd;; oret tt.

(** ** TLS socket objects *)
(** amqp_openssl.c:55-63; s_ssl: the pointer is not NULL; internal_error is not
    modelled *)
Record ssl_socket := mkSsl { s_fd : Z; s_ssl : bool; s_ctx : bool; s_verify_peer : bool; s_verify_hostname : bool }.
Definition set_sfd (s : ssl_socket) (fd : Z) : ssl_socket := mkSsl fd (s_ssl s) (s_ctx s) (s_verify_peer s) (s_verify_hostname s).
Definition set_ssl (s : ssl_socket) (b : bool) : ssl_socket := mkSsl (s_fd s) b (s_ctx s) (s_verify_peer s) (s_verify_hostname s).

(** SSL_shutdown, SSL_write and SSL_read dereference the SSL object (OpenSSL 1.1.1:
    ssl/ssl_lib.c); SSL_free(NULL) does nothing *)
Definition ssl_shutdown (s : ssl_socket) : Io unit := if s_ssl s then ask Shutdown;; oret tt else ohalt OUB.
Definition ssl_free (s : ssl_socket) : Io ssl_socket := if s_ssl s then ask SslFree;; oret (set_ssl s false) else oret s.

(** amqp_openssl.c:198-216: SSL_connect until it is done *)
Fixpoint handshake (fuel : nat) (fd deadline : Z) : Io Z :=
  match fuel with
  | O => ohalt OFuel
  | S fuel =>
    a <- ask Handshake;;
    if result a =? 1 then oret AMQP_STATUS_OK
    else
      status <- (if err a =? SSL_ERROR_WANT_READ then o_poll N fd false deadline
                 else if err a =? SSL_ERROR_WANT_WRITE then o_poll N fd true deadline
                 else oret AMQP_STATUS_SSL_CONNECTION_FAILED);;
      if status =? AMQP_STATUS_OK then handshake fuel fd deadline else oret status
  end.

(** the labels error_out1 .. error_out4, amqp_openssl.c:260-270 *)
Definition error_out1 (s : ssl_socket) (status : Z) : Io (Z * ssl_socket) :=
  s <- ssl_free s;; oret (status, s).
Definition error_out2 (s : ssl_socket) (status : Z) : Io (Z * ssl_socket) :=
  ask (Close (s_fd s));; error_out1 (set_sfd s (-1)) status.
Definition error_out3 (s : ssl_socket) (status : Z) : Io (Z * ssl_socket) :=
  ssl_shutdown s;; error_out2 s status.
Definition error_out4 (s : ssl_socket) (status : Z) : Io (Z * ssl_socket) :=
  ask CertFree;; error_out3 s status.

(** amqp_openssl.c:253-258: X509_free does nothing if there is no certificate *)
Definition open_success (s : ssl_socket) (cert : bool) : Io (Z * ssl_socket) :=
  if cert then ask CertFree;; oret (AMQP_STATUS_OK, s) else oret (AMQP_STATUS_OK, s).
(** amqp_openssl.c:238-251 *)
Definition check_hostname (s : ssl_socket) (host : bytes) (cert : bool) : Io (Z * ssl_socket) :=
  if s_verify_hostname s then
    if negb cert then error_out3 s AMQP_STATUS_SSL_HOSTNAME_VERIFY_FAILED
    else
      a <- ask (CheckHost host);;
      if negb (result a =? 1) then error_out4 s AMQP_STATUS_SSL_HOSTNAME_VERIFY_FAILED
      else open_success s cert
  else open_success s cert.
(** amqp_openssl.c:218-237 *)
Definition check_peer (s : ssl_socket) (host : bytes) : Io (Z * ssl_socket) :=
  a <- ask PeerCert;;
  let cert := negb (result a =? 0) in
  if s_verify_peer s then
    if negb cert then error_out3 s AMQP_STATUS_SSL_PEER_VERIFY_FAILED
    else
      a <- ask VerifyResult;;
      if negb (result a =? X509_V_OK) then error_out4 s AMQP_STATUS_SSL_PEER_VERIFY_FAILED
      else check_hostname s host cert
  else check_hostname s host cert.
(** amqp_openssl.c:149-271 *)
Definition amqp_ssl_socket_open (s : ssl_socket) (host : bytes) (port : Z) (timeout : option timeval) : Io (Z * ssl_socket) :=
  if negb (s_fd s =? -1) then oret (AMQP_STATUS_SOCKET_INUSE, s)
  else
    a <- ask SslNew;;
    if result a =? 0 then oret (AMQP_STATUS_SSL_ERROR, set_ssl s false)
    else
      let s := set_ssl s true in
      p <- o_time_from_now timeout;;
      match p with
      | (status, None) => oret (status, s)
      | (status, Some deadline) =>
        if negb (status =? AMQP_STATUS_OK) then oret (status, s)
        else
          fd <- amqp_open_socket_inner host port deadline;;
          if fd <? 0 then error_out1 (set_sfd s (-1)) fd
          else
            let s := set_sfd s fd in
            a <- ask BioNew;;
            if result a =? 0 then error_out2 s AMQP_STATUS_NO_MEMORY
            else
              a <- ask (SniName host);;
              if result a =? 0 then error_out2 s AMQP_STATUS_SSL_ERROR
              else
                status <- handshake N fd deadline;;
                if negb (status =? AMQP_STATUS_OK) then error_out2 s status else check_peer s host
      end.
(** amqp_openssl.c:273-294; [force]: not AMQP_SC_NONE *)
Definition amqp_ssl_socket_close (s : ssl_socket) (force : bool) : Io (Z * ssl_socket) :=
  if s_fd s =? -1 then oret (AMQP_STATUS_SOCKET_CLOSED, s)
  else
    (if force then oret tt else ssl_shutdown s);;
    s <- ssl_free s;;
    a <- ask (Close (s_fd s));;
    if negb (result a =? 0) then oret (AMQP_STATUS_SOCKET_ERROR, s) else oret (AMQP_STATUS_OK, set_sfd s (-1)).
(** amqp_openssl.c:301-311 (free is not modelled; decrement_ssl_connections: SslGlobal.v) *)
Definition amqp_ssl_socket_delete (s : ssl_socket) : Io unit :=
  p <- amqp_ssl_socket_close s false;;
  if s_ctx (snd p) then ask CtxFree;; oret tt else oret tt.
(** amqp_openssl.c:515-538 *)
Definition amqp_ssl_socket_set_verify_peer (s : ssl_socket) (b : bool) : ssl_socket := mkSsl (s_fd s) (s_ssl s) (s_ctx s) b (s_verify_hostname s).
Definition amqp_ssl_socket_set_verify_hostname (s : ssl_socket) (b : bool) : ssl_socket := mkSsl (s_fd s) (s_ssl s) (s_ctx s) (s_verify_peer s) b.
(** amqp_openssl.c:322-360: a new socket, once its context exists *)
Definition new_ssl_socket : ssl_socket := mkSsl (-1) false true true true.
End Os.
