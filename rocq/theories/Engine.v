(** The OpenSSL engine: models of amqp_set_ssl_engine and amqp_ssl_socket_set_key_engine
    (librabbitmq/amqp_openssl.c), called by any number of threads.  Every access to
    openssl_engine and every call of OpenSSL is one step.  An ENGINE is known by the number
    of the ENGINE_by_id that returned it; each return is a reference of its own, given back
    by one ENGINE_free, after which it may not be used.  The engine list of OpenSSL keeps
    builtin engines alive; this model does not count on that (a dynamic engine is copied
    for each ENGINE_by_id and freed). *)
From Coq Require Import ZArith List Bool Arith.
From Verif Require Import Base.
Import ListNotations.
Local Open Scope Z_scope.

(** amqp_openssl.c:39-43.  [ids]: the id of each engine that ENGINE_by_id has returned, in
    order; [freed]: the engines given to ENGINE_free, last first *)
Record shared := mkShared { mutex : option nat; openssl_engine : option nat; ids : list Z; freed : list nat }.
(** amqp_set_ssl_engine(id or NULL) (amqp_openssl.c:598),
    amqp_ssl_socket_set_key_engine (amqp_openssl.c:416) on a socket of the thread *)
Inductive call := SetEngine (engine : option Z) | SetKey.
(** where a thread is; the line of amqp_openssl.c it is about to run *)
Inductive pc :=
| Idle                              (* in no call *)
| L601 (engine : option Z)          (* pthread_mutex_lock *)
| L603 (engine : option Z)          (* if (openssl_engine != NULL) *)
| L604 (engine : option Z)          (* ENGINE_free(openssl_engine) *)
| L605 (engine : option Z)          (* openssl_engine = NULL *)
| L613 (engine : Z)                 (* openssl_engine = ENGINE_by_id(engine), and its test *)
| L619 (engine : Z)                 (* ENGINE_set_default(openssl_engine, ..) *)
| L620 (engine : Z)                 (* ENGINE_free(openssl_engine) *)
| L621 (engine : Z)                 (* openssl_engine = NULL *)
| L627 (engine : option Z) (status : Z)  (* pthread_mutex_unlock *)
| L426                              (* SSL_CTX_use_certificate_chain_file *)
| L431                              (* reading openssl_engine *)
| L431use (e : option nat)          (* ENGINE_load_private_key(e, key, ..) *)
| L436                              (* SSL_CTX_use_PrivateKey; EVP_PKEY_free *)
| Returned (c : call) (status : Z).
Definition world : Type := shared * list pc.
Definition start : world := (mkShared None None [] [], []).

Section Engines.
(** ENABLE_SSL_ENGINE_API *)
Context (supported : bool).
(** amqp_openssl.c:598-601, 630; 416-426, 444: where a call begins *)
Definition begin (c : call) : pc :=
  if supported then match c with SetEngine e => L601 e | SetKey => L426 end else Returned c AMQP_STATUS_SSL_UNIMPLEMENTED.
(** whether ENGINE_free has been given e (amqp_openssl.c:604, 620) *)
Definition is_freed (s : shared) (e : nat) : bool := existsb (Nat.eqb e) (freed s).
(** ENGINE_free (NULL: nothing).  None: freed before (undefined) *)
Definition ENGINE_free (s : shared) (e : option nat) : option shared :=
  match e with
  | None => Some s
  | Some e => if is_freed s e then None else Some (mkShared (mutex s) (openssl_engine s) (ids s) (e :: freed s))
  end.
(** an assignment to openssl_engine (amqp_openssl.c:605, 613, 621) *)
Definition set_engine (s : shared) (e : option nat) : shared := mkShared (mutex s) e (ids s) (freed s).
(** amqp_openssl.c:608-610 *)
Definition after_clear (engine : option Z) : pc := match engine with None => L627 None AMQP_STATUS_OK | Some id => L613 id end.
(** amqp_openssl.c:416-446, 598-632: one step of thread i; [ok]: the call of OpenSSL in it succeeds.  None: undefined *)
Definition step (i : nat) (ok : bool) (p : pc) (s : shared) : option (pc * shared) :=
  match p with
  | Idle => Some (Idle, s)
  | Returned c st => Some (Returned c st, s)
  | L601 a => match mutex s with None => Some (L603 a, mkShared (Some i) (openssl_engine s) (ids s) (freed s)) | Some _ => Some (L601 a, s) end
  | L603 a => match openssl_engine s with Some _ => Some (L604 a, s) | None => Some (after_clear a, s) end
  | L604 a => match ENGINE_free s (openssl_engine s) with None => None | Some s => Some (L605 a, s) end
  | L605 a => Some (after_clear a, set_engine s None)
  | L613 a =>
    if ok then Some (L619 a, mkShared (mutex s) (Some (length (ids s))) (ids s ++ [a]) (freed s))
    else Some (L627 (Some a) AMQP_STATUS_SSL_SET_ENGINE_FAILED, set_engine s None)
  | L619 a =>
    match openssl_engine s with
    | None => None
    | Some e => if is_freed s e then None else if ok then Some (L627 (Some a) AMQP_STATUS_OK, s) else Some (L620 a, s)
    end
  | L620 a => match ENGINE_free s (openssl_engine s) with None => None | Some s => Some (L621 a, s) end
  | L621 a => Some (L627 (Some a) AMQP_STATUS_SSL_SET_ENGINE_FAILED, set_engine s None)
  | L627 a st => Some (Returned (SetEngine a) st, mkShared None (openssl_engine s) (ids s) (freed s))
  | L426 => Some (if ok then L431 else Returned SetKey AMQP_STATUS_SSL_ERROR, s)
  | L431 => Some (L431use (openssl_engine s), s)
  | L431use e =>
    match e with
    | None => Some (Returned SetKey AMQP_STATUS_SSL_ERROR, s)
    | Some e => if is_freed s e then None else Some (if ok then L436 else Returned SetKey AMQP_STATUS_SSL_ERROR, s)
    end
  | L436 => Some (Returned SetKey (if ok then AMQP_STATUS_OK else AMQP_STATUS_SSL_ERROR), s)
  end.
(** [Start]: a new thread; [Call i c]: thread i, in no call, calls c; [Step i ok]: thread i goes on *)
Inductive action := Start | Call (i : nat) (c : call) | Step (i : nat) (ok : bool).
Fixpoint set_nth {A} (i : nat) (x : A) (l : list A) : list A :=
  match l, i with [], _ => [] | _ :: l, O => x :: l | y :: l, S i => y :: set_nth i x l end.
(** threads calling amqp_openssl.c:416-446 and 598-632 in any order *)
Definition act (a : action) (w : world) : option world :=
  let '(s, ts) := w in
  match a with
  | Start => Some (s, ts ++ [Idle])
  | Call i c =>
    match nth_error ts i with
    | Some Idle | Some (Returned _ _) => Some (s, set_nth i (begin c) ts)
    | _ => Some w
    end
  | Step i ok =>
    match nth_error ts i with
    | None => Some w
    | Some p => match step i ok p s with None => None | Some (p, s) => Some (s, set_nth i p ts) end
    end
  end.
Fixpoint acts (l : list action) (w : world) : option world :=
  match l with [] => Some w | a :: l => match act a w with None => None | Some w => acts l w end end.
End Engines.
