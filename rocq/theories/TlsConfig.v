(** Configuring a TLS socket: models of the settings in librabbitmq/amqp_openssl.c that
    act on the OpenSSL context.  OpenSSL answers every call with success or failure;
    the answers are an argument (an exhausted list: failure). *)
From Coq Require Import ZArith List Bool.
From Verif Require Import Base.
Import ListNotations.
Local Open Scope Z_scope.

(** OpenSSL's <openssl/tls1.h> (OpenSSL 1.1.0 and later) *)
Definition TLS1_2_VERSION : Z := 771.
Definition TLS1_3_VERSION : Z := 772.
(** include/rabbitmq-c/ssl_socket.h:191-197 *)
Definition AMQP_TLSv1 : Z := 1.
Definition AMQP_TLSv1_1 : Z := 2.
Definition AMQP_TLSv1_2 : Z := 3.
Definition AMQP_TLSv1_3 : Z := 4.
Definition AMQP_TLSvLATEST : Z := 65535.

(** Where a private key came from *)
Inductive key_source := KeyFile (name : bytes) | KeyBuffer (pem : bytes).
(** The context (SSL_CTX) as far as the library sets it.  min_proto, max_proto: the
    accepted versions (0: no bound, as SSL_CTX_new makes it); certificate: the chain file
    last loaded with success ([None]: none); private_key; cacert; default_paths; passwd *)
Record ctx := mkCtx { min_proto : Z; max_proto : Z; certificate : option bytes; private_key : option key_source;
  cacert : option bytes; default_paths : bool; passwd : option bytes }.
Definition set_min (v : Z) (c : ctx) := mkCtx v (max_proto c) (certificate c) (private_key c) (cacert c) (default_paths c) (passwd c).
Definition set_max (v : Z) (c : ctx) := mkCtx (min_proto c) v (certificate c) (private_key c) (cacert c) (default_paths c) (passwd c).
Definition set_certificate (n : bytes) (c : ctx) := mkCtx (min_proto c) (max_proto c) (Some n) (private_key c) (cacert c) (default_paths c) (passwd c).
Definition set_private_key (k : key_source) (c : ctx) := mkCtx (min_proto c) (max_proto c) (certificate c) (Some k) (cacert c) (default_paths c) (passwd c).
Definition set_ca (n : bytes) (c : ctx) := mkCtx (min_proto c) (max_proto c) (certificate c) (private_key c) (Some n) (default_paths c) (passwd c).
Definition set_paths (c : ctx) := mkCtx (min_proto c) (max_proto c) (certificate c) (private_key c) (cacert c) true (passwd c).
Definition set_pw (p : option bytes) (c : ctx) := mkCtx (min_proto c) (max_proto c) (certificate c) (private_key c) (cacert c) (default_paths c) p.
(** SSL_CTX_new: no bounds, nothing loaded *)
Definition fresh_ctx : ctx := mkCtx 0 0 None None None false None.

(** Objects of OpenSSL made and freed *)
Inductive object := Bio | Rsa.
Inductive note := Made (o : object) | Freed (o : object).
(** Simplification: a call that OpenSSL refuses leaves the context as it is.  (OpenSSL
    promises this for the versions; a chain file that is refused half way may leave the
    first certificate loaded.) *)
Definition T (A : Type) := ctx -> list bool -> A * ctx * list bool * list note.
Definition tret {A} (a : A) : T A := fun c ans => (a, c, ans, []).
Definition tbind {A B} (m : T A) (k : A -> T B) : T B := fun c ans =>
  let '(a, c, ans, l) := m c ans in let '(b, c, ans, l') := k a c ans in (b, c, ans, l ++ l').
Definition answer (ans : list bool) : bool := hd false ans.
(** a call of OpenSSL that changes the context by [f] if it succeeds *)
Definition call (f : ctx -> ctx) : T bool := fun c ans =>
  (answer ans, if answer ans then f c else c, tl ans, []).
(** a call that makes an object if it succeeds *)
Definition make (o : object) : T bool := fun c ans =>
  (answer ans, c, tl ans, if answer ans then [Made o] else []).
(** BIO_vfree, RSA_free; NULL is ignored *)
Definition free (o : object) (live : bool) : T unit := fun c ans => (tt, c, ans, if live then [Freed o] else []).

(** amqp_openssl.c:541-554; None: unsupported *)
Definition get_tls_version (ver : Z) : option Z :=
  if ver =? AMQP_TLSv1_2 then Some TLS1_2_VERSION
  else if (ver =? AMQP_TLSv1_3) || (ver =? AMQP_TLSvLATEST) then Some TLS1_3_VERSION
  else None.
(** amqp_openssl.c:556-588; the arguments are of an enumeration type: unsigned *)
Definition amqp_ssl_socket_set_ssl_versions (min max : Z) : T Z :=
  if max <? min then tret AMQP_STATUS_INVALID_PARAMETER
  else match get_tls_version min with
  | None => tret AMQP_STATUS_UNSUPPORTED
  | Some min_ver =>
    match get_tls_version max with
    | None => tret AMQP_STATUS_UNSUPPORTED
    | Some max_ver =>
      tbind (call (set_min min_ver)) (fun ok =>
      if negb ok then tret AMQP_STATUS_INVALID_PARAMETER
      else tbind (call (set_max max_ver)) (fun ok =>
      if negb ok then tret AMQP_STATUS_INVALID_PARAMETER
      else tret AMQP_STATUS_OK))
    end
  end.
(** amqp_openssl.c:369-381 *)
Definition amqp_ssl_socket_enable_default_verify_paths : T Z :=
  tbind (call set_paths) (fun ok => tret (if ok then AMQP_STATUS_OK else AMQP_STATUS_SSL_ERROR)).
(** amqp_openssl.c:383-395 *)
Definition amqp_ssl_socket_set_cacert (name : bytes) : T Z :=
  tbind (call (set_ca name)) (fun ok => tret (if ok then AMQP_STATUS_OK else AMQP_STATUS_SSL_ERROR)).
(** amqp_openssl.c:397-414 *)
Definition amqp_ssl_socket_set_key (cert key : bytes) : T Z :=
  tbind (call (set_certificate cert)) (fun ok =>
  if negb ok then tret AMQP_STATUS_SSL_ERROR
  else tbind (call (set_private_key (KeyFile key))) (fun ok =>
  if negb ok then tret AMQP_STATUS_SSL_ERROR else tret AMQP_STATUS_OK)).
(** amqp_openssl.c:451-489.  [pem]: the n bytes at key (a key protected by a password
    makes password_cb abort the program: left out) *)
Definition amqp_ssl_socket_set_key_buffer (cert pem : bytes) : T Z :=
  if INT_MAX <? zlen pem then tret AMQP_STATUS_INVALID_PARAMETER
  else
    tbind (call (set_certificate cert)) (fun ok =>
    if negb ok then tret AMQP_STATUS_SSL_ERROR
    else
      let exit (bio rsa : bool) (status : Z) := tbind (free Bio bio) (fun _ => tbind (free Rsa rsa) (fun _ => tret status)) in
      tbind (make Bio) (fun buf =>
      if negb buf then exit false false AMQP_STATUS_SSL_ERROR
      else tbind (make Rsa) (fun rsa =>
      if negb rsa then exit true false AMQP_STATUS_SSL_ERROR
      else tbind (call (set_private_key (KeyBuffer pem))) (fun ok =>
      if negb ok then exit true true AMQP_STATUS_SSL_ERROR
      else exit true true AMQP_STATUS_OK)))).
(** amqp_openssl.c:491-503 *)
Definition amqp_ssl_socket_set_cert (cert : bytes) : T Z :=
  tbind (call (set_certificate cert)) (fun ok => tret (if ok then AMQP_STATUS_OK else AMQP_STATUS_SSL_ERROR)).
(** amqp_openssl.c:505-512 *)
Definition amqp_ssl_socket_set_key_passwd (p : option bytes) : T Z :=
  fun c ans => (AMQP_STATUS_OK, set_pw p c, ans, []).

(** amqp_openssl.c:322-360, the part that configures the context (the memory and the
    global state: SslGlobal.v).  None: NULL is returned, the context is freed *)
Definition amqp_ssl_socket_new (ans : list bool) : option ctx * list bool :=
  let '(status, c, ans, _) := amqp_ssl_socket_set_ssl_versions AMQP_TLSv1_2 AMQP_TLSvLATEST fresh_ctx ans in
  (if status =? AMQP_STATUS_OK then Some c else None, ans).

(** The settings; every one begins by checking that the socket is a TLS socket and
    calls amqp_abort if not *)
Inductive setting :=
| SetVersions (min max : Z) | DefaultPaths | SetCacert (name : bytes) | SetKey (cert key : bytes)
| SetKeyBuffer (cert pem : bytes) | SetCert (cert : bytes) | SetPasswd (p : option bytes).
Definition apply_setting (s : setting) : T Z :=
  match s with
  | SetVersions min max => amqp_ssl_socket_set_ssl_versions min max
  | DefaultPaths => amqp_ssl_socket_enable_default_verify_paths
  | SetCacert n => amqp_ssl_socket_set_cacert n
  | SetKey c k => amqp_ssl_socket_set_key c k
  | SetKeyBuffer c k => amqp_ssl_socket_set_key_buffer c k
  | SetCert c => amqp_ssl_socket_set_cert c
  | SetPasswd p => amqp_ssl_socket_set_key_passwd p
  end.
Fixpoint apply_settings (l : list setting) : T (list Z) :=
  match l with
  | [] => tret []
  | s :: l => tbind (apply_setting s) (fun r => tbind (apply_settings l) (fun rs => tret (r :: rs)))
  end.
