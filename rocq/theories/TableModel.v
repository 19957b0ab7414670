(** Model of librabbitmq/amqp_table.c, encoding and decoding (lines 16-437). *)
From Coq Require Import ZArith List Bool Lia.
From Verif Require Import Base Codec.
Import ListNotations.
Local Open Scope Z_scope.

(** include/rabbitmq-c/amqp.h:384-407 amqp_field_value_t, a tagged union; one
    constructor per kind that the library knows, [FOther] for a value whose
    kind field holds anything else.  Floats are carried as their bit patterns
    (the C code puns them, amqp_table.c:232,236,386,390). *)
Inductive fv : Type :=
| FBool (b : Z)              (* amqp_boolean_t = int *)
| FI8 (z : Z) | FU8 (z : Z)
| FI16 (z : Z) | FU16 (z : Z)
| FI32 (z : Z) | FU32 (z : Z)
| FI64 (z : Z) | FU64 (z : Z)
| FF32 (bits : Z) | FF64 (bits : Z)
| FDecimal (decimals value : Z)
| FUtf8 (s : bytes)
| FBytes (s : bytes)
| FArray (entries : list fv)
| FTimestamp (z : Z)
| FTable (entries : list (bytes * fv))
| FVoid
| FOther (kind : Z).

(** amqp_table_t *)
Definition table := list (bytes * fv).

(** include/rabbitmq-c/amqp.h:426-453 the kind octets *)
Definition AMQP_FIELD_KIND_BOOLEAN := 0x74.   (* 't' *)
Definition AMQP_FIELD_KIND_I8 := 0x62.        (* 'b' *)
Definition AMQP_FIELD_KIND_U8 := 0x42.        (* 'B' *)
Definition AMQP_FIELD_KIND_I16 := 0x73.       (* 's' *)
Definition AMQP_FIELD_KIND_U16 := 0x75.       (* 'u' *)
Definition AMQP_FIELD_KIND_I32 := 0x49.       (* 'I' *)
Definition AMQP_FIELD_KIND_U32 := 0x69.       (* 'i' *)
Definition AMQP_FIELD_KIND_I64 := 0x6c.       (* 'l' *)
Definition AMQP_FIELD_KIND_U64 := 0x4c.       (* 'L' *)
Definition AMQP_FIELD_KIND_F32 := 0x66.       (* 'f' *)
Definition AMQP_FIELD_KIND_F64 := 0x64.       (* 'd' *)
Definition AMQP_FIELD_KIND_DECIMAL := 0x44.   (* 'D' *)
Definition AMQP_FIELD_KIND_UTF8 := 0x53.      (* 'S' *)
Definition AMQP_FIELD_KIND_ARRAY := 0x41.     (* 'A' *)
Definition AMQP_FIELD_KIND_BYTES := 0x78.     (* 'x' *)
Definition AMQP_FIELD_KIND_TIMESTAMP := 0x54. (* 'T' *)
Definition AMQP_FIELD_KIND_TABLE := 0x46.     (* 'F' *)
Definition AMQP_FIELD_KIND_VOID := 0x56.      (* 'V' *)

Definition kind_of (v : fv) : Z :=
  match v with
  | FBool _ => AMQP_FIELD_KIND_BOOLEAN
  | FI8 _ => AMQP_FIELD_KIND_I8
  | FU8 _ => AMQP_FIELD_KIND_U8
  | FI16 _ => AMQP_FIELD_KIND_I16
  | FU16 _ => AMQP_FIELD_KIND_U16
  | FI32 _ => AMQP_FIELD_KIND_I32
  | FU32 _ => AMQP_FIELD_KIND_U32
  | FI64 _ => AMQP_FIELD_KIND_I64
  | FU64 _ => AMQP_FIELD_KIND_U64
  | FF32 _ => AMQP_FIELD_KIND_F32
  | FF64 _ => AMQP_FIELD_KIND_F64
  | FDecimal _ _ => AMQP_FIELD_KIND_DECIMAL
  | FUtf8 _ => AMQP_FIELD_KIND_UTF8
  | FBytes _ => AMQP_FIELD_KIND_BYTES
  | FArray _ => AMQP_FIELD_KIND_ARRAY
  | FTimestamp _ => AMQP_FIELD_KIND_TIMESTAMP
  | FTable _ => AMQP_FIELD_KIND_TABLE
  | FVoid => AMQP_FIELD_KIND_VOID
  | FOther k => k
  end.

(** ** Encoding *)

Definition enc_fun (A : Type) := A -> est -> option (Z * est).

(** amqp_table.c:354-359 macro FIELD_ENCODER(bits, val); success falls through to
    res = AMQP_STATUS_OK, line 432 *)
Definition FIELD_ENCODER (w : width) (val : Z) (s : est) : option (Z * est) :=
  match amqp_encode w val s with
  | None => None
  | Some (false, s') => Some (AMQP_STATUS_TABLE_TOO_BIG, s')
  | Some (true, s') => Some (AMQP_STATUS_OK, s')
  end.

(** the loop of amqp_encode_array, amqp_table.c:293-298 *)
Definition encode_array_entries (ef : enc_fun fv) : enc_fun (list fv) :=
  fix loop (l : list fv) (s : est) {struct l} : option (Z * est) :=
    match l with
    | [] => Some (AMQP_STATUS_OK, s)
    | e :: r =>
      match ef e s with
      | None => None
      | Some (res, s1) => if res <? 0 then Some (res, s1) else loop r s1
      end
    end.

(** the loop of amqp_encode_table, amqp_table.c:318-333 *)
Definition encode_table_entries (ef : enc_fun fv) : enc_fun table :=
  fix loop (l : table) (s : est) {struct l} : option (Z * est) :=
    match l with
    | [] => Some (AMQP_STATUS_OK, s)
    | (key, value) :: r =>
      match amqp_encode W8 (u8 (zlen key)) s with
      | None => None
      | Some (false, s1) => Some (AMQP_STATUS_TABLE_TOO_BIG, s1)
      | Some (true, s1) =>
        match amqp_encode_bytes key s1 with
        | None => None
        | Some (false, s2) => Some (AMQP_STATUS_TABLE_TOO_BIG, s2)
        | Some (true, s2) =>
          match ef value s2 with
          | None => None
          | Some (res, s3) => if res <? 0 then Some (res, s3) else loop r s3
          end
        end
      end
    end.

(** common frame of amqp_encode_array (amqp_table.c:286-309) and
    amqp_encode_table (amqp_table.c:311-344): reserve four bytes, write the
    entries, then fill in the size at [start]. *)
Definition encode_container {A} (entries : enc_fun A) : enc_fun A :=
  fun l s =>
    let start := eoff s in
    match entries l (mkE (emem s) (add_size start 4)) with
    | None => None
    | Some (res, s1) =>
      if res <? 0 then Some (res, s1)
      else
        match amqp_encode W32 (u32 (sub_size (sub_size (eoff s1) start) 4))
                (mkE (emem s1) start) with
        | None => None
        | Some (false, s2) => Some (AMQP_STATUS_TABLE_TOO_BIG, mkE (emem s2) (eoff s1))
        | Some (true, s2) => Some (AMQP_STATUS_OK, mkE (emem s2) (eoff s1))
        end
    end.

(** amqp_table.c:346-436 amqp_encode_field_value *)
Fixpoint amqp_encode_field_value (entry : fv) (s : est) {struct entry} : option (Z * est) :=
  match amqp_encode W8 (kind_of entry) s with
  | None => None
  | Some (false, s1) => Some (AMQP_STATUS_BAD_AMQP_DATA, s1)
  | Some (true, s1) =>
    match entry with
    | FBool b => FIELD_ENCODER W8 (if b =? 0 then 0 else 1) s1
    | FI8 z => FIELD_ENCODER W8 z s1
    | FU8 z => FIELD_ENCODER W8 z s1
    | FI16 z => FIELD_ENCODER W16 z s1
    | FU16 z => FIELD_ENCODER W16 z s1
    | FI32 z => FIELD_ENCODER W32 z s1
    | FU32 z => FIELD_ENCODER W32 z s1
    | FI64 z => FIELD_ENCODER W64 z s1
    | FU64 z => FIELD_ENCODER W64 z s1
    | FF32 z => FIELD_ENCODER W32 z s1
    | FF64 z => FIELD_ENCODER W64 z s1
    | FDecimal d v =>
      match amqp_encode W8 d s1 with
      | None => None
      | Some (false, s2) => Some (AMQP_STATUS_TABLE_TOO_BIG, s2)
      | Some (true, s2) => FIELD_ENCODER W32 v s2
      end
    | FUtf8 b | FBytes b =>
      match amqp_encode W32 (u32 (zlen b)) s1 with
      | None => None
      | Some (false, s2) => Some (AMQP_STATUS_TABLE_TOO_BIG, s2)
      | Some (true, s2) =>
        match amqp_encode_bytes b s2 with
        | None => None
        | Some (false, s3) => Some (AMQP_STATUS_TABLE_TOO_BIG, s3)
        | Some (true, s3) => Some (AMQP_STATUS_OK, s3)
        end
      end
    | FArray l => encode_container (encode_array_entries amqp_encode_field_value) l s1
    | FTimestamp z => FIELD_ENCODER W64 z s1
    | FTable t => encode_container (encode_table_entries amqp_encode_field_value) t s1
    | FVoid => Some (AMQP_STATUS_OK, s1)
    | FOther _ => Some (AMQP_STATUS_INVALID_PARAMETER, s1)
    end
  end.

(** amqp_table.c:311-344 amqp_encode_table *)
Definition amqp_encode_table : enc_fun table :=
  encode_container (encode_table_entries amqp_encode_field_value).

(** ** Decoding *)
Section Decode.
(** [encoded]: the bytes to decode.  [oom site offset]: whether the allocation
    made at source site [site] when *offset is [offset] fails.  As the first
    failing allocation aborts the whole decoding, such a function can express
    every failure pattern. *)
Context (encoded : bytes) (oom : Z -> Z -> bool).

Definition INITIAL_ARRAY_SIZE := 16. (* amqp_table.c:16 *)
Definition INITIAL_TABLE_SIZE := 16. (* amqp_table.c:17 *)
Definition TABLE_DEPTH_LIMIT := 100. (* amqp_table.c:18 *)

(** the growth of the temporary entry array, amqp_table.c:53-64 and 128-139;
    [allocated_entries] is an int: doubling beyond INT_MAX is undefined. *)
Definition grow (site num_entries allocated_entries off : Z) : dres Z :=
  if allocated_entries <=? num_entries then
    if INT_MAX <? allocated_entries * 2 then DUB
    else if oom site off then DErr AMQP_STATUS_NO_MEMORY off
    else DOk (allocated_entries * 2) off
  else DOk allocated_entries off.

(** amqp_table.c:52-73 loop of amqp_decode_array ([df] decodes one value) *)
Fixpoint decode_array_loop (df : Z -> dres fv) (fuel : nat)
    (limit num_entries allocated_entries off : Z) (acc : list fv) : dres (list fv) :=
  match fuel with
  | O => DFuel
  | S fuel' =>
    if off <? limit then
      dbind (grow 1 num_entries allocated_entries off) (fun alloc off =>
      if alloc <=? num_entries then DUB (* &entries[num_entries] outside of the block *)
      else
      dbind (df off) (fun v off =>
      decode_array_loop df fuel' limit (num_entries + 1) alloc off (acc ++ [v])))
    else DOk acc off
  end.

(** amqp_table.c:120-154 loop of amqp_decode_table_internal *)
Fixpoint decode_table_loop (df : Z -> dres fv) (fuel : nat)
    (limit num_entries allocated_entries off : Z) (acc : table) : dres table :=
  match fuel with
  | O => DFuel
  | S fuel' =>
    if off <? limit then
      dbind (amqp_decode W8 encoded off) (fun keylen off =>
      dbind (grow 1 num_entries allocated_entries off) (fun alloc off =>
      if alloc <=? num_entries then DUB (* entries[num_entries] outside of the block *)
      else
      dbind (amqp_decode_bytes encoded off keylen) (fun key off =>
      dbind (df off) (fun v off =>
      decode_table_loop df fuel' limit (num_entries + 1) alloc off (acc ++ [(key, v)])))))
    else DOk acc off
  end.

(** amqp_table.c:29-94 amqp_decode_array and 96-175 amqp_decode_table_internal
    have the same frame: read the 32 bit size, check that it lies inside
    [encoded], allocate, decode entries until the limit is reached, copy the
    entries to the pool (a zero-size pool allocation returns NULL, which is
    accepted). *)
Definition decode_container {A} (init : Z)
    (loop : nat -> Z -> Z -> Z -> Z -> list A -> dres (list A)) (off : Z) : dres (list A) :=
  dbind (amqp_decode W32 encoded off) (fun size off =>
  if zlen encoded <? add_size size off then DErr AMQP_STATUS_BAD_AMQP_DATA off
  else if oom 0 off then DErr AMQP_STATUS_NO_MEMORY off
  else
    let limit := add_size off size in
    dbind (loop (S (length encoded)) limit 0 init off []) (fun entries off =>
    if negb (zlen entries =? 0) && oom 2 off then DErr AMQP_STATUS_NO_MEMORY off
    else DOk entries off)).

(** amqp_table.c:198-204 SIMPLE_FIELD_DECODER, 195-197 TRIVIAL_FIELD_DECODER *)
Definition FIELD_DECODER (w : width) (how : Z -> fv) (off : Z) : dres fv :=
  dbind (amqp_decode w encoded off) (fun val off => DOk (how val) off).

(** amqp_table.c:182-282 amqp_decode_field_value; [fuel] only bounds the model's
    recursion, the C recursion is bounded by [depth]. *)
Fixpoint amqp_decode_field_value (fuel : nat) (depth : Z) (off : Z) : dres fv :=
  match fuel with
  | O => DFuel
  | S fuel' =>
    if TABLE_DEPTH_LIMIT <? depth then DErr AMQP_STATUS_BAD_AMQP_DATA off
    else
      dbind (amqp_decode W8 encoded off) (fun kind off =>
      if kind =? AMQP_FIELD_KIND_BOOLEAN then
        FIELD_DECODER W8 (fun val => FBool (if val =? 0 then 0 else 1)) off
      else if kind =? AMQP_FIELD_KIND_I8 then FIELD_DECODER W8 (fun val => FI8 (signed M8 val)) off
      else if kind =? AMQP_FIELD_KIND_U8 then FIELD_DECODER W8 FU8 off
      else if kind =? AMQP_FIELD_KIND_I16 then FIELD_DECODER W16 (fun val => FI16 (signed M16 val)) off
      else if kind =? AMQP_FIELD_KIND_U16 then FIELD_DECODER W16 FU16 off
      else if kind =? AMQP_FIELD_KIND_I32 then FIELD_DECODER W32 (fun val => FI32 (signed M32 val)) off
      else if kind =? AMQP_FIELD_KIND_U32 then FIELD_DECODER W32 FU32 off
      else if kind =? AMQP_FIELD_KIND_I64 then FIELD_DECODER W64 (fun val => FI64 (signed M64 val)) off
      else if kind =? AMQP_FIELD_KIND_U64 then FIELD_DECODER W64 FU64 off
      else if kind =? AMQP_FIELD_KIND_F32 then FIELD_DECODER W32 FF32 off
      else if kind =? AMQP_FIELD_KIND_F64 then FIELD_DECODER W64 FF64 off
      else if kind =? AMQP_FIELD_KIND_DECIMAL then
        dbind (amqp_decode W8 encoded off) (fun d off =>
        dbind (amqp_decode W32 encoded off) (fun v off => DOk (FDecimal d v) off))
      else if (kind =? AMQP_FIELD_KIND_UTF8) || (kind =? AMQP_FIELD_KIND_BYTES) then
        dbind (amqp_decode W32 encoded off) (fun len off =>
        dbind (amqp_decode_bytes encoded off len) (fun b off =>
        DOk (if kind =? AMQP_FIELD_KIND_UTF8 then FUtf8 b else FBytes b) off))
      else if kind =? AMQP_FIELD_KIND_ARRAY then
        dbind (decode_container INITIAL_ARRAY_SIZE
                 (decode_array_loop (amqp_decode_field_value fuel' (depth + 1))) off)
              (fun l off => DOk (FArray l) off)
      else if kind =? AMQP_FIELD_KIND_TIMESTAMP then FIELD_DECODER W64 FTimestamp off
      else if kind =? AMQP_FIELD_KIND_TABLE then
        dbind (decode_container INITIAL_TABLE_SIZE
                 (decode_table_loop (amqp_decode_field_value fuel' (depth + 1))) off)
              (fun t off => DOk (FTable t) off)
      else if kind =? AMQP_FIELD_KIND_VOID then DOk FVoid off
      else DErr AMQP_STATUS_BAD_AMQP_DATA off)
  end.

(** recursion fuel of the model: one more than the deepest C recursion *)
Definition table_fuel : nat := 102.

(** amqp_table.c:177-180 amqp_decode_table *)
Definition amqp_decode_table (off : Z) : dres table :=
  decode_container INITIAL_TABLE_SIZE
    (decode_table_loop (amqp_decode_field_value table_fuel 0)) off.

End Decode.

Definition no_oom : Z -> Z -> bool := fun _ _ => false.
