(** Model of the integer and byte-string codec of amqp_private.h.

    Spec part: [be n v] is the n byte big-endian representation of [v], written
    independently of the C code. *)
From Coq Require Import ZArith List Bool Lia.
From Verif Require Import Base.
Import ListNotations.
Local Open Scope Z_scope.

(** ** Host memory representation of an n-byte unsigned integer (memcpy of the
    object representation), for a little- or big-endian host. *)
Inductive host := LittleEndian | BigEndian.

Fixpoint store_le (n : nat) (v : Z) : bytes :=
  match n with
  | O => []
  | S n' => byte_of_Z v :: store_le n' (v / 256)
  end.

Fixpoint load_le (bs : bytes) : Z :=
  match bs with
  | [] => 0
  | b :: r => Z_of_byte b + 256 * load_le r
  end.

Definition store (h : host) (n : nat) (v : Z) : bytes :=
  match h with LittleEndian => store_le n v | BigEndian => rev (store_le n v) end.

Definition load (h : host) (bs : bytes) : Z :=
  match h with LittleEndian => load_le bs | BigEndian => load_le (rev bs) end.

(** amqp_private.h:205-211 is_bigendian: first byte of the object
    representation of 0x01020304. *)
Definition is_bigendian (h : host) : bool :=
  match store h 4 0x01020304 with
  | c0 :: _ => Z_of_byte c0 =? 1
  | [] => false
  end.

(** amqp_private.h:223-248 the 16 bit swap *)
Definition swap16 (val : Z) : Z :=
  u16 (Z.lor (Z.shiftr (Z.land val 0xFF00) 8) (Z.shiftl (Z.land val 0x00FF) 8)).

(** amqp_private.h:241-258 the 32 bit swap; each operand is a uint32_t, so the
    left shifts are truncated to 32 bits. *)
Definition swap32 (val : Z) : Z :=
  u32 (Z.lor (Z.lor (Z.lor
     (Z.shiftr (Z.land val 0xFF000000) 24)
     (Z.shiftr (Z.land val 0x00FF0000) 8))
     (u32 (Z.shiftl (Z.land val 0x0000FF00) 8)))
     (u32 (Z.shiftl (Z.land val 0x000000FF) 24))).

(** amqp_private.h:260-290 the 64 bit swap *)
Definition swap64 (val : Z) : Z :=
  u64 (Z.lor (Z.lor (Z.lor (Z.lor (Z.lor (Z.lor (Z.lor
     (Z.shiftr (Z.land val 0xFF00000000000000) 56)
     (Z.shiftr (Z.land val 0x00FF000000000000) 40))
     (Z.shiftr (Z.land val 0x0000FF0000000000) 24))
     (Z.shiftr (Z.land val 0x000000FF00000000) 8))
     (u64 (Z.shiftl (Z.land val 0x00000000FF000000) 8)))
     (u64 (Z.shiftl (Z.land val 0x0000000000FF0000) 24)))
     (u64 (Z.shiftl (Z.land val 0x000000000000FF00) 40)))
     (u64 (Z.shiftl (Z.land val 0x00000000000000FF) 56))).

(** amqp_private.h:213-221 amqp_e8 / amqp_d8 *)
Definition amqp_e8 (h : host) (val : Z) : bytes := store h 1 val.
Definition amqp_d8 (h : host) (data : bytes) : Z := load h data.

(** amqp_private.h:223-237 amqp_e16 / amqp_d16 *)
Definition amqp_e16 (h : host) (val : Z) : bytes :=
  store h 2 (if negb (is_bigendian h) then swap16 val else val).
Definition amqp_d16 (h : host) (data : bytes) : Z :=
  let val := load h data in if negb (is_bigendian h) then swap16 val else val.

(** amqp_private.h:239-258 amqp_e32 / amqp_d32 *)
Definition amqp_e32 (h : host) (val : Z) : bytes :=
  store h 4 (if negb (is_bigendian h) then swap32 val else val).
Definition amqp_d32 (h : host) (data : bytes) : Z :=
  let val := load h data in if negb (is_bigendian h) then swap32 val else val.

(** amqp_private.h:260-291 amqp_e64 / amqp_d64 *)
Definition amqp_e64 (h : host) (val : Z) : bytes :=
  store h 8 (if negb (is_bigendian h) then swap64 val else val).
Definition amqp_d64 (h : host) (data : bytes) : Z :=
  let val := load h data in if negb (is_bigendian h) then swap64 val else val.

(** Widths of DECLARE_CODEC_BASE_TYPE(8/16/32/64). *)
Inductive width := W8 | W16 | W32 | W64.
Definition wbytes (w : width) : Z :=
  match w with W8 => 1 | W16 => 2 | W32 => 4 | W64 => 8 end.
Definition wmod (w : width) : Z :=
  match w with W8 => M8 | W16 => M16 | W32 => M32 | W64 => M64 end.
Definition amqp_e (h : host) (w : width) : Z -> bytes :=
  match w with W8 => amqp_e8 h | W16 => amqp_e16 h | W32 => amqp_e32 h | W64 => amqp_e64 h end.
Definition amqp_d (h : host) (w : width) : bytes -> Z :=
  match w with W8 => amqp_d8 h | W16 => amqp_d16 h | W32 => amqp_d32 h | W64 => amqp_d64 h end.

(** ** Encoding: state = (contents of [encoded], *offset).  The result is the C
    return value (1 = true, 0 = false) and the new state, or [None] for
    undefined behaviour. *)
Record est := mkE { emem : bytes; eoff : Z }.

(** amqp_private.h:181-191 amqp_encode_##bits.  The conversion of the argument
    to uint##bits##_t is part of the call. *)
Definition amqp_encode_h (h : host) (w : width) (input : Z) (s : est) : option (bool * est) :=
  let o := eoff s in
  let offset := add_size o (wbytes w) in
  if offset <=? zlen (emem s) then
    match write (emem s) o (amqp_e h w (input mod wmod w)) with
    | Some m => Some (true, mkE m offset)
    | None => None
    end
  else Some (false, mkE (emem s) offset).

(** ** Decoding: [encoded] is the readable block, [off] is *offset.  The value of
    *offset after the call is part of the result. *)
Inductive dres (A : Type) :=
| DOk (a : A) (off : Z)       (* success *)
| DErr (st : Z) (off : Z)     (* negative status *)
| DUB                         (* undefined behaviour *)
| DFuel.                      (* model ran out of fuel: must be proved impossible *)
Arguments DOk {A}. Arguments DErr {A}. Arguments DUB {A}. Arguments DFuel {A}.

Definition dbind {A B} (r : dres A) (k : A -> Z -> dres B) : dres B :=
  match r with
  | DOk a o => k a o
  | DErr st o => DErr st o
  | DUB => DUB
  | DFuel => DFuel
  end.

(** amqp_private.h:194-203 amqp_decode_##bits.  Simplification: the C function
    returns 0 on failure and every caller turns this into
    AMQP_STATUS_BAD_AMQP_DATA; the model returns that status directly. *)
Definition amqp_decode_h (h : host) (w : width) (encoded : bytes) (off : Z) : dres Z :=
  let offset := add_size off (wbytes w) in
  if offset <=? zlen encoded then
    match slice encoded off (wbytes w) with
    | Some bs => DOk (amqp_d h w bs) offset
    | None => DUB
    end
  else DErr AMQP_STATUS_BAD_AMQP_DATA offset.

(** The rest of the model uses a little-endian host (theorem C01 shows that the
    host does not matter). *)
Definition amqp_encode := amqp_encode_h LittleEndian.
Definition amqp_decode := amqp_decode_h LittleEndian.

(** amqp_private.h:299-315 amqp_encode_bytes *)
Definition amqp_encode_bytes (input : bytes) (s : est) : option (bool * est) :=
  let o := eoff s in
  if zlen input =? 0 then Some (true, s)
  else
    let offset := add_size o (zlen input) in
    if offset <=? zlen (emem s) then
      match write (emem s) o input with
      | Some m => Some (true, mkE m offset)
      | None => None
      end
    else Some (false, mkE (emem s) offset).

(** amqp_private.h:317-328 amqp_decode_bytes.  The result points into
    [encoded]; the model returns the bytes pointed to (they are not modified
    while the result is in use). *)
Definition amqp_decode_bytes (encoded : bytes) (off : Z) (len : Z) : dres bytes :=
  let offset := add_size off len in
  if offset <=? zlen encoded then
    match slice encoded off len with
    | Some bs => DOk bs offset
    | None => DUB
    end
  else DErr AMQP_STATUS_BAD_AMQP_DATA offset.

(** ** Specification: n byte network byte order, most significant byte first. *)
Fixpoint be (n : nat) (v : Z) : bytes :=
  match n with
  | O => []
  | S n' => byte_of_Z (v / 256 ^ Z.of_nat n') :: be n' v
  end.
Definition wnat (w : width) : nat :=
  match w with W8 => 1 | W16 => 2 | W32 => 4 | W64 => 8 end%nat.

(** value of a big-endian byte string (specification) *)
Fixpoint be_val (acc : Z) (bs : bytes) : Z :=
  match bs with [] => acc | b :: r => be_val (acc * 256 + Z_of_byte b) r end.
