(** Model of the SASL helpers of librabbitmq/amqp_socket.c. *)
From Coq Require Import String ZArith List Bool.
From Verif Require Import Base.
Import ListNotations.
Local Open Scope Z_scope.

(** include/rabbitmq-c/amqp.h:575-581 amqp_sasl_method_enum *)
Inductive sasl_method := AMQP_SASL_METHOD_PLAIN | AMQP_SASL_METHOD_EXTERNAL.

(** amqp_socket.c:507-523 *)
Definition sasl_method_name (m : sasl_method) : bytes :=
  match m with
  | AMQP_SASL_METHOD_PLAIN => [x50; x4c; x41; x49; x4e]                       (* "PLAIN" *)
  | AMQP_SASL_METHOD_EXTERNAL => [x45; x58; x54; x45; x52; x4e; x41; x4c]     (* "EXTERNAL" *)
  end.

(** memcmp(a, b, n) == 0 on n readable bytes *)
Fixpoint bytes_eqb (a b : bytes) : bool :=
  match a, b with
  | [], [] => true
  | x :: a, y :: b => Byte.eqb x y && bytes_eqb a b
  | _, _ => false
  end.

(** amqp_socket.c:525-534; both pointers are non-NULL *)
Definition bytes_equal (l r : bytes) : bool := (zlen l =? zlen r) && bytes_eqb l r.

(** memchr: offset of the first occurrence of [c] in the block *)
Fixpoint memchr (l : bytes) (c : byte) : option Z :=
  match l with
  | [] => None
  | x :: l => if Byte.eqb x c then Some 0 else match memchr l c with Some i => Some (i + 1) | None => None end
  end.

(** Result of the search: found or not, or undefined behaviour, or the model's
    loop bound was too small. *)
Inductive sres := SRes (found : bool) | SUB | SFuel.

(** amqp_socket.c:552-567: the loop, [start] and [current] as offsets *)
Fixpoint sasl_loop (fuel : nat) (mechanisms mechanism : bytes) (start current : Z) : sres :=
  match fuel with
  | O => SFuel
  | S fuel =>
    let stop := zlen mechanisms in
    if current =? stop then SRes false
    else
      match slice mechanisms start (stop - start) with
      | None => SUB
      | Some area =>
        let current := match memchr area x20 with Some i => start + i | None => stop end in
        match slice mechanisms start (current - start) with
        | None => SUB
        | Some supported => if bytes_equal mechanism supported then SRes true
                            else sasl_loop fuel mechanisms mechanism (current + 1) current
        end
      end
  end.

(** amqp_socket.c:536-569.  [mechanisms] comes from a decoded connection.start and
    is never NULL. *)
Definition sasl_mechanism_in_list (mechanisms : bytes) (m : sasl_method) : sres :=
  sasl_loop (S (S (length mechanisms))) mechanisms (sasl_method_name m) 0 0.

(** amqp_mem.c:129-133 amqp_pool_alloc_bytes: None is a NULL pointer.  A request
    for no bytes gives NULL (amqp_mem.c:85-127); [junk] is the content of the
    block. *)
Definition pool_alloc_bytes (nomem : bool) (junk : nat -> byte) (amount : Z) : option bytes :=
  if (amount =? 0) || nomem then None else Some (map junk (seq 0 (Z.to_nat amount))).

Inductive rres := RBytes (b : bytes) | RNull | RUB.

(** amqp_socket.c:571-617, AMQP_SASL_METHOD_PLAIN; username and password are C
    strings *)
Definition sasl_response_plain (nomem : bool) (junk : nat -> byte) (username password : bytes) : rres :=
  match pool_alloc_bytes nomem junk (zlen username + zlen password + 2) with
  | None => RNull
  | Some buf =>
    match write buf 0 [x00] with None => RUB | Some buf =>
    match write buf 1 username with None => RUB | Some buf =>
    match write buf (zlen username + 1) [x00] with None => RUB | Some buf =>
    match write buf (zlen username + 2) password with None => RUB | Some buf =>
    RBytes buf end end end end
  end.

(** amqp_socket.c:571-617, AMQP_SASL_METHOD_EXTERNAL *)
Definition sasl_response_external (nomem : bool) (junk : nat -> byte) (identity : bytes) : rres :=
  match pool_alloc_bytes nomem junk (zlen identity) with
  | None => RNull
  | Some buf => match write buf 0 identity with None => RUB | Some buf => RBytes buf end
  end.
