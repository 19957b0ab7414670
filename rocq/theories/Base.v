(** Base: bytes, machine integers, memory blocks and status codes.

    Conventions (DESIGN.md section 2): a C memory object is a [list byte], a
    pointer into it is an offset in [Z]; every read and write goes through
    [slice] and [write], whose [None] is undefined behaviour.  Machine integers
    are [Z] with explicit wrap-around; the data model is LP64. *)
From Coq Require Import ZArith List Bool Lia.
From Coq Require Export Strings.Byte.
Import ListNotations.
Local Open Scope Z_scope.

Notation bytes := (list byte).

Definition zlen {A} (l : list A) : Z := Z.of_nat (length l).
Arguments zlen : simpl never.

Definition Z_of_byte (b : byte) : Z := Z.of_N (Byte.to_N b).

(** Conversion to an 8 bit unsigned integer ([uint8_t] cast). *)
Definition byte_of_Z (z : Z) : byte :=
  match Byte.of_N (Z.to_N (z mod 256)) with Some b => b | None => x00 end.

Notation M8 := 0x100 (only parsing).
Notation M16 := 0x10000 (only parsing).
Notation M31 := 0x80000000 (only parsing).
Notation M32 := 0x100000000 (only parsing).
Notation M63 := 0x8000000000000000 (only parsing).
Notation M64 := 0x10000000000000000 (only parsing).

(** Conversions to fixed width unsigned integers (C11 6.3.1.3p2). *)
Definition u8 (z : Z) : Z := z mod M8.
Definition u16 (z : Z) : Z := z mod M16.
Definition u32 (z : Z) : Z := z mod M32.
Definition u64 (z : Z) : Z := z mod M64.

(** Conversion to signed integers of [bits] bits (gcc: modulo 2^bits). *)
Definition signed (m : Z) (z : Z) : Z :=
  if z mod m <? m / 2 then z mod m else z mod m - m.

(** [size_t] arithmetic. *)
Definition add_size (a b : Z) : Z := (a + b) mod M64.
Definition sub_size (a b : Z) : Z := (a - b) mod M64.

(** Reading [n] bytes at offset [o] of a block. [None]: out of bounds. *)
Definition slice (mem : bytes) (o n : Z) : option bytes :=
  if (0 <=? o) && (0 <=? n) && (o + n <=? zlen mem)
  then Some (firstn (Z.to_nat n) (skipn (Z.to_nat o) mem))
  else None.

(** Overwriting part of a block. [None]: out of bounds. *)
Definition write (mem : bytes) (o : Z) (bs : bytes) : option bytes :=
  if (0 <=? o) && (o + zlen bs <=? zlen mem)
  then Some (firstn (Z.to_nat o) mem ++ bs ++
             skipn (Z.to_nat o + length bs) mem)
  else None.

(** ** Status codes: include/rabbitmq-c/amqp.h:604-675 *)
Definition AMQP_STATUS_OK : Z := 0x0.
Definition AMQP_STATUS_NO_MEMORY : Z := -0x0001.
Definition AMQP_STATUS_BAD_AMQP_DATA : Z := -0x0002.
Definition AMQP_STATUS_UNKNOWN_CLASS : Z := -0x0003.
Definition AMQP_STATUS_UNKNOWN_METHOD : Z := -0x0004.
Definition AMQP_STATUS_HOSTNAME_RESOLUTION_FAILED : Z := -0x0005.
Definition AMQP_STATUS_INCOMPATIBLE_AMQP_VERSION : Z := -0x0006.
Definition AMQP_STATUS_CONNECTION_CLOSED : Z := -0x0007.
Definition AMQP_STATUS_BAD_URL : Z := -0x0008.
Definition AMQP_STATUS_SOCKET_ERROR : Z := -0x0009.
Definition AMQP_STATUS_INVALID_PARAMETER : Z := -0x000A.
Definition AMQP_STATUS_TABLE_TOO_BIG : Z := -0x000B.
Definition AMQP_STATUS_WRONG_METHOD : Z := -0x000C.
Definition AMQP_STATUS_TIMEOUT : Z := -0x000D.
Definition AMQP_STATUS_TIMER_FAILURE : Z := -0x000E.
Definition AMQP_STATUS_HEARTBEAT_TIMEOUT : Z := -0x000F.
Definition AMQP_STATUS_UNEXPECTED_STATE : Z := -0x0010.
Definition AMQP_STATUS_SOCKET_CLOSED : Z := -0x0011.
Definition AMQP_STATUS_SOCKET_INUSE : Z := -0x0012.
Definition AMQP_STATUS_BROKER_UNSUPPORTED_SASL_METHOD : Z := -0x0013.
Definition AMQP_STATUS_UNSUPPORTED : Z := -0x0014.
Definition AMQP_STATUS_TCP_ERROR : Z := -0x0100.
Definition AMQP_STATUS_TCP_SOCKETLIB_INIT_ERROR : Z := -0x0101.
Definition AMQP_STATUS_SSL_ERROR : Z := -0x0200.
Definition AMQP_STATUS_SSL_HOSTNAME_VERIFY_FAILED : Z := -0x0201.
Definition AMQP_STATUS_SSL_PEER_VERIFY_FAILED : Z := -0x0202.
Definition AMQP_STATUS_SSL_CONNECTION_FAILED : Z := -0x0203.
Definition AMQP_STATUS_SSL_SET_ENGINE_FAILED : Z := -0x0204.
Definition AMQP_STATUS_SSL_UNIMPLEMENTED : Z := -0x0205.

(** INT_MAX for 32 bit int *)
Notation INT_MAX := 0x7fffffff (only parsing).
