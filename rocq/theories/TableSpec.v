(** Specification of AMQP 0-9-1 field tables as used by RabbitMQ (4.2.5.5 with
    the RabbitMQ errata), written independently of the C code. *)
From Coq Require Import ZArith List Bool Lia.
From Verif Require Import Base Codec TableModel.
Import ListNotations.
Local Open Scope Z_scope.
Local Open Scope byte_scope.

(** short string: one length octet; long string: four length octets *)
Definition shortstr (s : bytes) : bytes := be 1 (zlen s) ++ s.
Definition longstr (s : bytes) : bytes := be 4 (zlen s) ++ s.

(** Serialisation of a field value: a type octet and the value. *)
Fixpoint ser_value (v : fv) : bytes :=
  match v with
  | FBool b => "t" :: (if (b =? 0)%Z then [x00] else [x01])
  | FI8 z => "b" :: be 1 z
  | FU8 z => "B" :: be 1 z
  | FI16 z => "s" :: be 2 z
  | FU16 z => "u" :: be 2 z
  | FI32 z => "I" :: be 4 z
  | FU32 z => "i" :: be 4 z
  | FI64 z => "l" :: be 8 z
  | FU64 z => "L" :: be 8 z
  | FF32 z => "f" :: be 4 z
  | FF64 z => "d" :: be 8 z
  | FDecimal d z => "D" :: be 1 d ++ be 4 z
  | FUtf8 s => "S" :: longstr s
  | FBytes s => "x" :: longstr s
  | FArray l => "A" :: longstr (concat (map ser_value l))
  | FTimestamp z => "T" :: be 8 z
  | FTable t => "F" :: longstr (concat (map (fun e => shortstr (fst e) ++ ser_value (snd e)) t))
  | FVoid => ["V"]
  | FOther k => [byte_of_Z k]
  end.

(** A table: a long string made of (short string key, value) pairs. *)
Definition ser_table (t : table) : bytes :=
  longstr (concat (map (fun e => shortstr (fst e) ++ ser_value (snd e)) t)).

Definition all {A} (P : A -> Prop) : list A -> Prop :=
  fix go l := match l with [] => True | x :: r => P x /\ go r end.

(** Values that the C types can hold: every integer in the range of its C type,
    every byte string shorter than 2^63 (an object in memory). *)
Fixpoint c_value (v : fv) : Prop :=
  match v with
  | FBool b => -M31 <= b < M31
  | FI8 z => -0x80 <= z < 0x80
  | FU8 z => 0 <= z < M8
  | FI16 z => -0x8000 <= z < 0x8000
  | FU16 z => 0 <= z < M16
  | FI32 z => -M31 <= z < M31
  | FU32 z | FF32 z => 0 <= z < M32
  | FI64 z => -M63 <= z < M63
  | FU64 z | FF64 z | FTimestamp z => 0 <= z < M64
  | FDecimal d z => 0 <= d < M8 /\ 0 <= z < M32
  | FUtf8 s | FBytes s => zlen s < M63
  | FArray l => all c_value l
  | FTable t => all (fun e => zlen (fst e) < M63 /\ c_value (snd e)) t
  | FVoid => True
  | FOther k => 0 <= k < M8
  end%Z.
Definition c_table (t : table) : Prop :=
  all (fun e => (zlen (fst e) < M63)%Z /\ c_value (snd e)) t.

(** No value of a kind unknown to the library. *)
Fixpoint known_kinds (v : fv) : bool :=
  match v with
  | FArray l => forallb known_kinds l
  | FTable t => forallb (fun e => known_kinds (snd e)) t
  | FOther _ => false
  | _ => true
  end.
Definition known_table (t : table) : bool := forallb (fun e => known_kinds (snd e)) t.

(** Every key, at every level, has at most 255 bytes (AMQP short string). *)
Fixpoint short_keys (v : fv) : Prop :=
  match v with
  | FArray l => all short_keys l
  | FTable t => all (fun e => (zlen (fst e) <= 255)%Z /\ short_keys (snd e)) t
  | _ => True
  end.
Definition short_keys_table (t : table) : Prop :=
  all (fun e => (zlen (fst e) <= 255)%Z /\ short_keys (snd e)) t.

(** Nesting: a value inside [n] tables/arrays (not counting the outermost
    table) is at level [n]; [levels v] is the deepest level below [v]. *)
Definition deepest (l : list Z) : Z :=
  match l with [] => 0 | _ => 1 + fold_right Z.max 0 l end%Z.
Fixpoint levels (v : fv) : Z :=
  match v with
  | FArray l => deepest (map levels l)
  | FTable t => deepest (map (fun e => levels (snd e)) t)
  | _ => 0%Z
  end.
Definition table_levels (t : table) : Z := fold_right Z.max 0%Z (map (fun e => levels (snd e)) t).

(** Booleans are transmitted as 0 or 1. *)
Fixpoint norm (v : fv) : fv :=
  match v with
  | FBool b => FBool (if (b =? 0)%Z then 0 else 1)%Z
  | FArray l => FArray (map norm l)
  | FTable t => FTable (map (fun e => (fst e, norm (snd e))) t)
  | v => v
  end.
Definition norm_table (t : table) : table := map (fun e => (fst e, norm (snd e))) t.
