(** Model of the error reports of the tools: tools/common.c:26-124 (die, die_amqp_error,
    amqp_server_exception_string, amqp_rpc_reply_string, die_rpc).

    Texts are the bytes written to standard error.  Simplified: the context of a report
    ("%s:%d" and so on already expanded) is given as text; snprintf does not fail (the
    formats have no conversion that could) and fprintf to standard error neither. *)
From Coq Require Import String ZArith List Bool.
From Verif Require Import Base Codec TableModel FramingStmt FramingGen FramingModel Frame Sasl Net NetApi ErrStr Tools.
Import ListNotations.
Local Open Scope list_scope.
Local Open Scope Z_scope.

(** snprintf(s, size, ...): the string that is left in s, of at most size - 1 bytes *)
Definition snprintf (size : Z) (text : bytes) : bytes := firstn (Z.to_nat (size - 1)) text.
(** "%.*s" with (int)len and the bytes: they end at a NUL; a length that is negative as an
    int is no limit at all: the bytes are read until a NUL is found somewhere (None) *)
Definition precision_s (b : bytes) : option bytes := if signed M32 (zlen b) <? 0 then None else Some (upto_nul b).
(** one digit for "%X" *)
Definition hex_digit (z : Z) : byte := byte_of_Z (if z <? 10 then 48 + z else 55 + z).
(** "%08X": eight digits of a uint32_t *)
Fixpoint hex_digits (n : nat) (z : Z) : bytes :=
  match n with O => [] | S n => hex_digits n (z / 16) ++ [hex_digit (z mod 16)] end.

(** tools/common.c:63-91; static char s[512].  None: undefined behaviour *)
Definition exception_text (what : string) (m : mstruct) : option bytes :=
  match lookup "reply_code" m, lookup "reply_text" m with
  | Some (VInt code), Some (VBytes text) =>
    match precision_s text with
    | Some text => Some (snprintf 512 (lit what ++ digits 5 code ++ lit ", message: " ++ text))
    | None => None
    end
  | _, _ => None
  end.
Definition amqp_server_exception_string (id : Z) (m : mstruct) : option bytes :=
  if id =? CONNECTION_CLOSE then exception_text "server connection error " m
  else if id =? CHANNEL_CLOSE then exception_text "server channel error " m
  else Some (snprintf 512 (lit "unknown server error, method id 0x" ++ hex_digits 8 id)).
(** tools/common.c:93-110; amqp_error_string2: C32 *)
Definition amqp_rpc_reply_string (r : rpc_reply_t) : option bytes :=
  match r with
  | RNormal _ _ => Some (lit "normal response")
  | RNone => Some (lit "missing RPC reply type")
  | RLibrary st => match amqp_error_string2 st with Some s => Some (lit s) | None => None end
  | RServer id m => amqp_server_exception_string id m
  end.
(** tools/common.c:112-124 die_rpc: it returns for a normal reply (None), else it writes
    and exits with status 1 (Some text); Some None: undefined behaviour *)
Definition is_normal (r : rpc_reply_t) : bool := match r with RNormal _ _ => true | _ => false end.
Definition die_rpc (r : rpc_reply_t) (context : bytes) : option (option bytes) :=
  if is_normal r then None
  else Some (match amqp_rpc_reply_string r with Some s => Some (context ++ lit ": " ++ s ++ [newline]) | None => None end).
(** tools/common.c:49-61 *)
Definition die_amqp_error (err : Z) (context : bytes) : option (option bytes) :=
  if 0 <=? err then None
  else Some (match amqp_error_string2 err with Some s => Some (context ++ lit ": " ++ lit s ++ [newline]) | None => None end).
