(** Model of amqp_error_string2 and amqp_error_string, librabbitmq/amqp_api.c. *)
From Coq Require Import String ZArith List Bool.
From Verif Require Import Base.
Import ListNotations.
Local Open Scope string_scope.
Local Open Scope Z_scope.

(** amqp_api.c:23-26 *)
Definition ERROR_MASK := 0x00FF.
Definition ERROR_CATEGORY_MASK := 0xFF00.
Definition EC_base := 0.
Definition EC_tcp := 1.
Definition EC_ssl := 2.

(** amqp_api.c:28-70 *)
Definition base_error_strings : list string := [
  "operation completed successfully"; "could not allocate memory"; "invalid AMQP data"; "unknown AMQP class id";
  "unknown AMQP method id"; "hostname lookup failed"; "incompatible AMQP version"; "connection closed unexpectedly";
  "could not parse AMQP URL"; "a socket error occurred"; "invalid parameter"; "table too large for buffer";
  "unexpected method received"; "request timed out"; "system timer has failed"; "heartbeat timeout, connection closed";
  "unexpected protocol state"; "socket is closed"; "socket already open"; "unsupported sasl method requested";
  "parameter value is unsupported"].
(** amqp_api.c:72-76 *)
Definition tcp_error_strings : list string := ["a socket error occurred"; "socket library initialization failed"].
(** amqp_api.c:78-90 *)
Definition ssl_error_strings : list string := [
  "a SSL error occurred"; "SSL hostname verification failed"; "SSL peer cert verification failed"; "SSL handshake failed";
  "SSL setting engine failed"; "SSL API is not implemented"].
(** amqp_api.c:92 *)
Definition unknown_error_string := "(unknown error)".

(** table[error]; None: index out of bounds *)
Definition index (table : list string) (error : Z) : option string :=
  if (0 <=? error) && (error <? zlen table) then Some (nth (Z.to_nat error) table "") else None.

(** amqp_api.c:94-131.  [code] is an int; None is undefined behaviour (signed
    overflow of -code, or a table index out of bounds). *)
Definition amqp_error_string2 (code : Z) : option string :=
  if code =? - M31 then None
  else
    let category := Z.shiftr (Z.land (- code) ERROR_CATEGORY_MASK) 8 in
    let error := Z.land (- code) ERROR_MASK in
    if category =? EC_base then
      if error <? zlen base_error_strings then index base_error_strings error else Some unknown_error_string
    else if category =? EC_tcp then
      if error <? zlen tcp_error_strings then index tcp_error_strings error else Some unknown_error_string
    else if category =? EC_ssl then
      if error <? zlen ssl_error_strings then index ssl_error_strings error else Some unknown_error_string
    else Some unknown_error_string.

(** amqp_api.c:133-146; the copy made by strdup may fail (Some None) *)
Definition amqp_error_string (nomem : bool) (code : Z) : option (option string) :=
  let code := if 0 <? code then - code else code in
  match amqp_error_string2 code with
  | None => None
  | Some s => Some (if nomem then None else Some s)
  end.
