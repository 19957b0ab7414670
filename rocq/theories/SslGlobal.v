(** The global state of TLS support: models of the creation and deletion of TLS sockets
    in librabbitmq/amqp_openssl.c and of amqp_openssl_bio.c, in any number of threads.
    A thread's calls are cut where it takes or releases the mutex; everything between
    taking and releasing it is one step. *)
From Coq Require Import ZArith List Bool.
From Verif Require Import Base.
Import ListNotations.
Local Open Scope Z_scope.

(** amqp_openssl.c:39-41, amqp_openssl_bio.c:23-27.  [method]: the BIO_METHOD that
    amqp_bio_method points to (None: NULL); methods are numbered in the order of
    BIO_meth_new, [made] is the next number; [freed]: the methods given to
    BIO_meth_free, last first *)
Record globals := mkG {
  bio_initialized : bool;       (* openssl_bio_initialized *)
  connections : Z;              (* openssl_connections *)
  ssl_bio_initialized : bool;   (* amqp_ssl_bio_initialized *)
  method : option Z;            (* amqp_bio_method *)
  made : Z; freed : list Z }.
Definition initial : globals := mkG false 0 false None 0 [].

Section Global.
(** assert() is compiled in (NDEBUG is not defined) *)
Context (asserts : bool).
Definition assert_ok (b : bool) : bool := b || negb asserts.

(** None: abort().  [mem]: BIO_meth_new succeeds *)
(** amqp_openssl_bio.c:105-137: (status, state) *)
Definition amqp_openssl_bio_init (mem : bool) (g : globals) : option (Z * globals) :=
  if negb (assert_ok (negb (ssl_bio_initialized g))) then None
  else if mem then Some (AMQP_STATUS_OK, mkG (bio_initialized g) (connections g) true (Some (made g)) (made g + 1) (freed g))
  else Some (AMQP_STATUS_NO_MEMORY, mkG (bio_initialized g) (connections g) (ssl_bio_initialized g) None (made g) (freed g)).
(** amqp_openssl_bio.c:139-146 (BIO_meth_free(NULL) does nothing) *)
Definition amqp_openssl_bio_destroy (g : globals) : option globals :=
  if negb (assert_ok (ssl_bio_initialized g)) then None
  else Some (mkG (bio_initialized g) (connections g) false None (made g)
                 (match method g with Some m => m :: freed g | None => freed g end)).
(** amqp_openssl_bio.c:148-155 *)
Definition amqp_openssl_bio (g : globals) : option (option Z) :=
  if negb (assert_ok (ssl_bio_initialized g)) then None else Some (method g).

(** amqp_openssl.c:634-651 *)
Definition initialize_ssl_and_increment_connections (mem : bool) (g : globals) : option (Z * globals) :=
  let count g := (AMQP_STATUS_OK, mkG (bio_initialized g) (connections g + 1) (ssl_bio_initialized g) (method g) (made g) (freed g)) in
  if negb (bio_initialized g) then
    match amqp_openssl_bio_init mem g with
    | None => None
    | Some (status, g) =>
      if negb (status =? 0) then Some (status, g)
      else Some (count (mkG true (connections g) (ssl_bio_initialized g) (method g) (made g) (freed g)))
    end
  else Some (count g).
(** amqp_openssl.c:653-667 *)
Definition decrement_ssl_connections (g : globals) : option globals :=
  let n := if 0 <? connections g then connections g - 1 else connections g in
  let g := mkG (bio_initialized g) n (ssl_bio_initialized g) (method g) (made g) (freed g) in
  if n =? 0 then
    match amqp_openssl_bio_destroy g with
    | None => None
    | Some g => Some (mkG false (connections g) (ssl_bio_initialized g) (method g) (made g) (freed g))
    end
  else Some g.

(** A TLS socket's life.  [Born]: allocated by amqp_ssl_socket_new; [Counted]: past
    initialize_ssl_and_increment_connections; [Live bio]: returned to the application,
    with the BIO method its BIO was made from if it has been opened; [Doomed counted]:
    in amqp_ssl_socket_delete, before decrement_ssl_connections ([counted]: it had been
    counted); [Gone]. *)
Inductive phase := Born | Counted | Live (bio : option Z) | Doomed (counted : bool) | Gone.
Definition world : Type := globals * list phase.
(** [Create]: some thread calls amqp_ssl_socket_new and its calloc succeeds; [Step i ok]:
    the thread that is using socket i goes on *)
Inductive action := Create | Step (i : nat) (ok : bool).
Fixpoint set_nth {A} (i : nat) (x : A) (l : list A) : list A :=
  match l, i with
  | [], _ => []
  | _ :: l, O => x :: l
  | y :: l, S i => y :: set_nth i x l
  end.
(** the next step of a socket: amqp_openssl.c:322-360 (amqp_ssl_socket_new; ok: the
    allocations of OpenSSL succeed), 181 (amqp_ssl_socket_open making a BIO; ok: the
    application opens the socket), 301-311 (amqp_ssl_socket_delete; not ok: the
    application deletes it) *)
Definition socket_step (ok : bool) (p : phase) (g : globals) : option (phase * globals) :=
  match p with
  | Born =>
    match initialize_ssl_and_increment_connections ok g with
    | None => None
    | Some (status, g) => Some (if status =? 0 then Counted else Doomed false, g)
    end
  | Counted => Some (if ok then Live None else Doomed true, g)
  | Live _ =>
    if ok then match amqp_openssl_bio g with None => None | Some m => Some (Live m, g) end
    else Some (Doomed true, g)
  | Doomed _ => match decrement_ssl_connections g with None => None | Some g => Some (Gone, g) end
  | Gone => Some (Gone, g)
  end.
Definition act (a : action) (w : world) : option world :=
  let '(g, sockets) := w in
  match a with
  | Create => Some (g, sockets ++ [Born])
  | Step i ok =>
    match nth_error sockets i with
    | None => Some w
    | Some p => match socket_step ok p g with None => None | Some (p, g) => Some (g, set_nth i p sockets) end
    end
  end.
Fixpoint acts (l : list action) (w : world) : option world :=
  match l with
  | [] => Some w
  | a :: l => match act a w with None => None | Some w => acts l w end
  end.
End Global.
