(** What it means to open a connection properly (C51) and to verify a TLS peer (C49),
    in terms of the calls made to the operating system and to OpenSSL and of their
    answers.  Only the vocabulary of calls and answers is taken from Os.v. *)
From Coq Require Import ZArith List Bool.
From Verif Require Import Base Time Os.
Import ListNotations.
Local Open Scope Z_scope.

(** ** Descriptors and TLS objects in a log *)
(** the descriptors created, in order *)
Fixpoint opened (l : list entry) : list Z :=
  match l with
  | [] => []
  | (Socket _, a) :: l => if 0 <=? result a then result a :: opened l else opened l
  | _ :: l => opened l
  end.
(** the descriptors closed, in order *)
Fixpoint closed (l : list entry) : list Z :=
  match l with
  | [] => []
  | (Close fd, _) :: l => fd :: closed l
  | _ :: l => closed l
  end.
Definition count (f : entry -> Z) (l : list entry) : Z := fold_right (fun e n => f e + n) 0 l.
(** TLS objects and certificates handed out by OpenSSL and not freed *)
Definition ssl_balance : list entry -> Z := count (fun e =>
  match e with
  | (SslNew, a) => if result a =? 0 then 0 else 1
  | (SslFree, _) => -1
  | _ => 0
  end).
Definition cert_balance : list entry -> Z := count (fun e =>
  match e with
  | (PeerCert, a) => if result a =? 0 then 0 else 1
  | (CertFree, _) => -1
  | _ => 0
  end).

(** ** Waiting for a descriptor *)
(** how long the next poll() may take: for ever, or until the deadline *)
Definition patience (deadline : Z) (l : list entry) (ms : Z) : Prop :=
  (deadline = amqp_time_infinite /\ l = [] /\ ms = -1) \/ (deadline = 0 /\ l = [] /\ ms = 0) \/
  exists a, l = [(Clock, a)] /\ ms = amqp_time_ms_until (u64 (result a)) deadline.
(** [waits fd w deadline l r]: the calls [l] wait for [fd] to become writable ([w]) or
    readable, with the result [r] *)
Inductive waits (fd : Z) (w : bool) (deadline : Z) : list entry -> Z -> Prop :=
| W_clock l r : patience deadline l r -> r < -1 -> waits fd w deadline l r
| W_ready l ms p : patience deadline l ms -> -1 <= ms -> 0 < result p -> waits fd w deadline (l ++ [(Poll fd w ms, p)]) AMQP_STATUS_OK
| W_timeout l ms p : patience deadline l ms -> 0 <= ms -> result p = 0 -> waits fd w deadline (l ++ [(Poll fd w ms, p)]) AMQP_STATUS_TIMEOUT
| W_error l ms p : patience deadline l ms -> -1 <= ms -> result p < 0 -> err p <> EINTR -> waits fd w deadline (l ++ [(Poll fd w ms, p)]) AMQP_STATUS_SOCKET_ERROR
| W_again l ms p l' r : patience deadline l ms -> -1 <= ms -> result p < 0 -> err p = EINTR -> waits fd w deadline l' r ->
    waits fd w deadline (l ++ (Poll fd w ms, p) :: l') r.

(** ** One address *)
(** the options an AMQP socket is given; what fcntl() and setsockopt() say when they
    fail *)
Definition settings : list setting := [GetFd; SetCloexec; GetFl; SetNonblock; Nodelay; Keepalive].
Definition refused (s : setting) (a : answer) : Prop :=
  match s with
  | GetFd | SetCloexec | GetFl | SetNonblock => result a = -1
  | Nodelay | Keepalive => result a <> 0
  end.
Definition configured (fd : Z) (done : list setting) (l : list entry) : Prop :=
  Forall2 (fun s e => exists a, e = (Set_ fd s, a) /\ ~ refused s a) done l.
(** [accepts address deadline l fd]: the calls [l] create the descriptor [fd] and
    connect it to [address] *)
Inductive accepts (address deadline : Z) : list entry -> Z -> Prop :=
| A_at_once s fd l k : result s = fd -> 0 <= fd -> configured fd settings l -> result k = 0 ->
    accepts address deadline ((Socket address, s) :: l ++ [(Connect fd address, k)]) fd
| A_later s fd l k w e : result s = fd -> 0 <= fd -> configured fd settings l -> result k <> 0 -> err k = EINPROGRESS ->
    waits fd true deadline w AMQP_STATUS_OK -> result e = 0 ->
    accepts address deadline ((Socket address, s) :: l ++ (Connect fd address, k) :: w ++ [(SoError fd, e)]) fd.
(** [stuck fd address deadline l r]: connecting [fd] to [address] by the calls [l]
    fails; the caller is told [r] *)
Inductive stuck (fd address deadline : Z) : list entry -> Z -> Prop :=
| S_setting done s rest l a : settings = done ++ s :: rest -> configured fd done l -> refused s a ->
    stuck fd address deadline (l ++ [(Set_ fd s, a)]) AMQP_STATUS_SOCKET_ERROR
| S_connect l k : configured fd settings l -> result k <> 0 -> err k <> EINPROGRESS ->
    stuck fd address deadline (l ++ [(Connect fd address, k)]) AMQP_STATUS_SOCKET_ERROR
| S_wait l k w r : configured fd settings l -> result k <> 0 -> err k = EINPROGRESS -> waits fd true deadline w r -> r <> AMQP_STATUS_OK ->
    stuck fd address deadline (l ++ (Connect fd address, k) :: w) r
| S_late l k w e : configured fd settings l -> result k <> 0 -> err k = EINPROGRESS -> waits fd true deadline w AMQP_STATUS_OK -> result e <> 0 ->
    stuck fd address deadline (l ++ (Connect fd address, k) :: w ++ [(SoError fd, e)]) AMQP_STATUS_SOCKET_ERROR.
(** [rejects address deadline l r]: no connection to [address]; the descriptor, if
    there was one, has been closed *)
Inductive rejects (address deadline : Z) : list entry -> Z -> Prop :=
| R_no_socket s : result s < 0 -> rejects address deadline [(Socket address, s)] AMQP_STATUS_SOCKET_ERROR
| R_closed s fd l r c : result s = fd -> 0 <= fd -> stuck fd address deadline l r ->
    rejects address deadline ((Socket address, s) :: l ++ [(Close fd, c)]) r.

(** ** All the addresses of a host *)
(** [tries deadline addresses l r]: the addresses are tried in order; the first that
    accepts ends the search with its descriptor, one that times out ends it with that
    status, and if all of them reject the last reason is the result *)
Inductive tries (deadline : Z) : list Z -> list entry -> Z -> Prop :=
| T_accepts a addrs l fd : accepts a deadline l fd -> tries deadline (a :: addrs) l fd
| T_timeout a addrs l : rejects a deadline l AMQP_STATUS_TIMEOUT -> tries deadline (a :: addrs) l AMQP_STATUS_TIMEOUT
| T_last a l r : rejects a deadline l r -> r < 0 -> tries deadline [a] l r
| T_next a addrs l r l' r' : rejects a deadline l r -> r <> AMQP_STATUS_TIMEOUT -> addrs <> [] -> tries deadline addrs l' r' ->
    tries deadline (a :: addrs) (l ++ l') r'.
(** [opens host port deadline l r]: resolve the name, then try its addresses.
    getaddrinfo() never succeeds with an empty list of addresses (POSIX); the last
    case says what happens if it did. *)
Inductive opens (host : bytes) (port deadline : Z) : list entry -> Z -> Prop :=
| O_unknown a : addresses a = None -> opens host port deadline [(Resolve host port, a)] AMQP_STATUS_HOSTNAME_RESOLUTION_FAILED
| O_tries a addrs l r : addresses a = Some addrs -> addrs <> [] -> tries deadline addrs l r -> opens host port deadline ((Resolve host port, a) :: l) r
| O_no_address a : addresses a = Some [] -> opens host port deadline [(Resolve host port, a)] 0.
(** a name is never resolved to an empty list of addresses *)
Definition resolver_ok (l : list entry) : Prop := forall h p a, In (Resolve h p, a) l -> addresses a <> Some [].
(** every close() succeeded *)
Definition closes_ok (l : list entry) : Prop := forall fd a, In (Close fd, a) l -> result a = 0.

(** ** Deadlines *)
(** a timeout of up to 30 years that is not negative; a clock that works *)
Definition sane_timeout (timeout : option timeval) : Prop :=
  match timeout with None => True | Some tv => 0 <= tv_sec tv <= 1000000000 /\ 0 <= tv_usec tv < 1000000 end.
Definition clock_ok (l : list entry) : Prop := forall a, In (Clock, a) l -> 0 < result a < 2^62.
(** [due timeout l deadline]: the calls [l] compute the deadline; there is none without
    a timeout, and a sane timeout on a clock that works is added to the current time
    (in nanoseconds) *)
Definition due (timeout : option timeval) (l : list entry) (deadline : Z) : Prop :=
  match timeout with
  | None => l = [] /\ deadline = amqp_time_infinite
  | Some tv => exists a, l = [(Clock, a)] /\
      (sane_timeout timeout -> clock_ok l -> deadline = result a + tv_sec tv * 1000000000 + tv_usec tv * 1000)
  end.
(** [untimely timeout l]: the calls [l] show why no deadline could be computed *)
Definition untimely (timeout : option timeval) (l : list entry) : Prop :=
  (l = [] \/ exists a, l = [(Clock, a)]) /\ ~ (sane_timeout timeout /\ clock_ok l).

(** ** Verification of a TLS peer *)
(** the calls after the handshake that a verified connection needs *)
Definition verified (peer hostname : bool) (host : bytes) (l : list entry) : Prop :=
  (peer = true -> exists c v, In (PeerCert, c) l /\ result c <> 0 /\ In (VerifyResult, v) l /\ result v = X509_V_OK) /\
  (hostname = true -> exists c h, In (PeerCert, c) l /\ result c <> 0 /\ In (CheckHost host, h) l /\ result h = 1).

(** ** The TLS handshake *)
Definition wants (h : answer) (write : bool) : Prop := err h = if write then SSL_ERROR_WANT_WRITE else SSL_ERROR_WANT_READ.
(** [shakes fd deadline l r]: SSL_connect is called until it says that it is done; after
    each call that wants to read (write) the descriptor is waited for to become readable
    (writable), up to the deadline; anything else it says is an error *)
Inductive shakes (fd deadline : Z) : list entry -> Z -> Prop :=
| H_done h : result h = 1 -> shakes fd deadline [(Handshake, h)] AMQP_STATUS_OK
| H_error h : result h <> 1 -> err h <> SSL_ERROR_WANT_READ -> err h <> SSL_ERROR_WANT_WRITE -> shakes fd deadline [(Handshake, h)] AMQP_STATUS_SSL_CONNECTION_FAILED
| H_gives_up h w l r : result h <> 1 -> wants h w -> waits fd w deadline l r -> r <> AMQP_STATUS_OK -> shakes fd deadline ((Handshake, h) :: l) r
| H_again h w l l' r : result h <> 1 -> wants h w -> waits fd w deadline l AMQP_STATUS_OK -> shakes fd deadline l' r -> shakes fd deadline ((Handshake, h) :: l ++ l') r.
