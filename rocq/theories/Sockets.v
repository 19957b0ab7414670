(** The socket of a connection: amqp_set_socket, amqp_set_sockfd and amqp_get_sockfd
    (amqp_connection.c), the constructors of socket objects and the functions of
    amqp_socket.c that dispatch on their class.  The objects themselves are in Os.v. *)
From Coq Require Import ZArith List Bool.
From Verif Require Import Base Time Os.
Import ListNotations.
Local Open Scope Z_scope.
Local Open Scope os_scope.

(** an object of class amqp_tcp_socket_class or amqp_ssl_socket_class; the connection has
    one or none (state->socket) *)
Inductive sock := Tcp (fd : Z) | Tls (s : ssl_socket).
Definition slot : Type := option sock.
Section Sockets.
Context (N : nat).

(** amqp_socket.c:122-127; amqp_tcp_socket.c:181-188, amqp_openssl.c:301-311 *)
Definition amqp_socket_delete (s : slot) : Io unit :=
  match s with
  | None => oret tt
  | Some (Tcp fd) => amqp_tcp_socket_delete fd
  | Some (Tls s) => amqp_ssl_socket_delete s
  end.
(** amqp_connection.c:100-103 *)
Definition amqp_set_socket (old : slot) (new : sock) : Io slot := amqp_socket_delete old;; oret (Some new).
(** amqp_tcp_socket.c:200-211: (not NULL, the connection's socket) *)
Definition amqp_tcp_socket_new (old : slot) : Io (bool * slot) :=
  a <- ask Calloc;;
  if result a =? 0 then oret (false, old)
  else s <- amqp_set_socket old (Tcp (-1));; oret (true, s).
(** amqp_openssl.c:322-360.  The second [Calloc] is the memory that
    initialize_ssl_and_increment_connections may need (SslGlobal.v has the global state);
    [CtxVersions] the outcome of amqp_ssl_socket_set_ssl_versions (TlsConfig.v) *)
Definition amqp_ssl_socket_new (old : slot) : Io (bool * slot) :=
  a <- ask Calloc;;
  if result a =? 0 then oret (false, old)
  else
    a <- ask Calloc;;
    if result a =? 0 then amqp_ssl_socket_delete (mkSsl (-1) false false true true);; oret (false, old)
    else
      a <- ask CtxNew;;
      if result a =? 0 then amqp_ssl_socket_delete (mkSsl (-1) false false true true);; oret (false, old)
      else
        a <- ask CtxVersions;;
        if result a =? 0 then amqp_ssl_socket_delete new_ssl_socket;; oret (false, old)
        else s <- amqp_set_socket old (Tls new_ssl_socket);; oret (true, s).
(** amqp_tcp_socket.c:213-220; on a TLS socket: amqp_abort, the process ends *)
Definition amqp_tcp_socket_set_sockfd (s : sock) (fd : Z) : Io slot :=
  match s with
  | Tcp _ => oret (Some (Tcp fd))
  | Tls _ => ohalt OBlocked
  end.
(** amqp_connection.c:92-98; amqp_abort if there is no memory *)
Definition amqp_set_sockfd (old : slot) (fd : Z) : Io slot :=
  p <- amqp_tcp_socket_new old;;
  match p with
  | (true, Some s) => amqp_tcp_socket_set_sockfd s fd
  | _ => ohalt OBlocked
  end.
(** amqp_connection.c:88-90, amqp_socket.c:129-133, amqp_tcp_socket.c:176-179,
    amqp_openssl.c:296-299 *)
Definition amqp_get_sockfd (s : slot) : Z :=
  match s with None => -1 | Some (Tcp fd) => fd | Some (Tls s) => s_fd s end.
(** amqp_socket.c:103-114: the status, the socket *)
Definition amqp_socket_open_noblock (s : sock) (host : bytes) (port : Z) (timeout : option timeval) : Io (Z * slot) :=
  match s with
  | Tcp fd => p <- amqp_tcp_socket_open N fd host port timeout;; oret (fst p, Some (Tcp (snd p)))
  | Tls s => p <- amqp_ssl_socket_open N s host port timeout;; oret (fst p, Some (Tls (snd p)))
  end.
(** amqp_socket.c:96-101 *)
Definition amqp_socket_open (s : sock) (host : bytes) (port : Z) : Io (Z * slot) := amqp_socket_open_noblock s host port None.
(** amqp_socket.c:116-120 *)
Definition amqp_socket_close (s : sock) (force : bool) : Io slot :=
  match s with
  | Tcp fd => p <- amqp_tcp_socket_close fd;; oret (Some (Tcp (snd p)))
  | Tls s => p <- amqp_ssl_socket_close s force;; oret (Some (Tls (snd p)))
  end.

(** What an application (or the library, for [Shut]) does with the socket of a
    connection.  [SetFd] is amqp_set_sockfd, [Assign] amqp_tcp_socket_set_sockfd.  Without
    a socket there is no object to call [Assign] .. [Verify] on: they do nothing. *)
Inductive op :=
| NewTcp | NewTls | SetFd (fd : Z) | Assign (fd : Z)
| Connect_ (host : bytes) (port : Z) (timeout : option timeval) | Shut (force : bool)
| Verify (peer hostname : bool).
Definition on_socket (s : slot) (k : sock -> Io slot) : Io slot := match s with Some x => k x | None => oret s end.
Definition step (s : slot) (o : op) : Io slot :=
  match o with
  | NewTcp => p <- amqp_tcp_socket_new s;; oret (snd p)
  | NewTls => p <- amqp_ssl_socket_new s;; oret (snd p)
  | SetFd fd => amqp_set_sockfd s fd
  | Assign fd => on_socket s (fun x => amqp_tcp_socket_set_sockfd x fd)
  | Connect_ host port timeout => on_socket s (fun x => p <- amqp_socket_open_noblock x host port timeout;; oret (snd p))
  | Shut force => on_socket s (fun x => amqp_socket_close x force)
  | Verify p h => on_socket s (fun x => match x with
      | Tcp _ => ohalt OBlocked  (* amqp_abort *)
      | Tls s => oret (Some (Tls (amqp_ssl_socket_set_verify_hostname (amqp_ssl_socket_set_verify_peer s p) h)))
      end)
  end.
(** the socket at the end, and the socket before each operation *)
Fixpoint steps (s : slot) (ops : list op) : Io (slot * list slot) :=
  match ops with
  | [] => oret (s, [])
  | o :: ops => s1 <- step s o;; p <- steps s1 ops;; oret (fst p, s :: snd p)
  end.
(** amqp_connection.c:157-180, as far as the socket is concerned *)
Definition amqp_destroy_connection (s : slot) : Io unit := amqp_socket_delete s.
End Sockets.
