(** Model of the table operations: amqp_table.c:440-640 (comparison, cloning,
    lookup) and amqp_socket.c:1142-1202 (merging capability tables). *)
From Coq Require Import ZArith List Bool.
From Verif Require Import Base TableModel Sasl.
Import ListNotations.
Local Open Scope Z_scope.

(** memcmp(a, b, n): the sign of the first difference.  Only the sign is specified
    by C; it is modelled as -1, 0 or 1. *)
Fixpoint memcmp (n : nat) (a b : bytes) : Z :=
  match n, a, b with
  | S n, x :: a, y :: b =>
    if Z_of_byte x <? Z_of_byte y then -1 else if Z_of_byte y <? Z_of_byte x then 1 else memcmp n a b
  | _, _, _ => 0
  end.

(** amqp_table.c:440-458 amqp_table_entry_cmp on the keys of the two entries.
    None: the subtraction of the two ints overflows. *)
Definition amqp_table_entry_cmp (k1 k2 : bytes) : option Z :=
  let minlen := if zlen k2 <? zlen k1 then zlen k2 else zlen k1 in
  let d := memcmp (Z.to_nat minlen) k1 k2 in
  if negb (d =? 0) then Some d
  else
    let r := signed M32 (zlen k1) - signed M32 (zlen k2) in
    if (r <? - M31) || (INT_MAX <? r) then None else Some r.

(** ** Cloning.  [oom i]: the i-th allocation from the pool fails; [n] counts the
    allocations made.  As the values are pure, where the copy lives is not
    modelled.  An array value with a non-NULL entries pointer and no entries is not
    representable ([FArray []] is {0, NULL}). *)
Section Clone.
Context (oom : nat -> bool).

(** status other than AMQP_STATUS_OK, or the copy; and the allocations so far *)
Definition cres (A : Type) : Type := (Z + A) * nat.

(** the loop over the entries of an array, amqp_table.c:540-546 *)
Definition clone_values (cl : fv -> nat -> cres fv) : list fv -> nat -> cres (list fv) :=
  fix loop l n :=
    match l with
    | [] => (inr [], n)
    | v :: l =>
      match cl v n with
      | (inl e, n) => (inl e, n)
      | (inr v, n) => match loop l n with (inl e, n) => (inl e, n) | (inr l, n) => (inr (v :: l), n) end
      end
    end.

(** amqp_table.c:564-580 amqp_table_entry_clone and the loop of amqp_table_clone,
    amqp_table.c:599-605 *)
Definition clone_entries (cl : fv -> nat -> cres fv) : table -> nat -> cres table :=
  fix loop l n :=
    match l with
    | [] => (inr [], n)
    | (k, v) :: l =>
      if zlen k =? 0 then (inl AMQP_STATUS_INVALID_PARAMETER, n)
      else if oom n then (inl AMQP_STATUS_NO_MEMORY, S n)
      else
        match cl v (S n) with
        | (inl e, n) => (inl e, n)
        | (inr v, n) => match loop l n with (inl e, n) => (inl e, n) | (inr l, n) => (inr ((k, v) :: l), n) end
        end
    end.

(** amqp_table.c:582-612 amqp_table_clone, given the cloning of values *)
Definition clone_table_with (cl : fv -> nat -> cres fv) (t : table) (n : nat) : cres table :=
  if zlen t =? 0 then (inr [], n)
  else if oom n then (inl AMQP_STATUS_NO_MEMORY, S n)
  else clone_entries cl t (S n).

(** amqp_table.c:460-562 amqp_field_value_clone *)
Fixpoint amqp_field_value_clone (original : fv) (n : nat) {struct original} : cres fv :=
  match original with
  | FBool b => (inr (FBool b), n)
  | FI8 z => (inr (FI8 z), n)
  | FU8 z => (inr (FU8 z), n)
  | FI16 z => (inr (FI16 z), n)
  | FU16 z => (inr (FU16 z), n)
  | FI32 z => (inr (FI32 z), n)
  | FU32 z => (inr (FU32 z), n)
  | FI64 z => (inr (FI64 z), n)
  | FU64 z => (inr (FU64 z), n)
  | FTimestamp z => (inr (FTimestamp z), n)
  | FF32 z => (inr (FF32 z), n)
  | FF64 z => (inr (FF64 z), n)
  | FDecimal d v => (inr (FDecimal d v), n)
  | FUtf8 s =>
    if zlen s =? 0 then (inr (FUtf8 []), n)
    else if oom n then (inl AMQP_STATUS_NO_MEMORY, S n) else (inr (FUtf8 s), S n)
  | FBytes s =>
    if zlen s =? 0 then (inr (FBytes []), n)
    else if oom n then (inl AMQP_STATUS_NO_MEMORY, S n) else (inr (FBytes s), S n)
  | FArray l =>
    if zlen l =? 0 then (inr (FArray []), n)
    else if oom n then (inl AMQP_STATUS_NO_MEMORY, S n)
    else match clone_values amqp_field_value_clone l (S n) with
         | (inl e, n) => (inl e, n) | (inr l, n) => (inr (FArray l), n)
         end
  | FTable t =>
    match clone_table_with amqp_field_value_clone t n with
    | (inl e, n) => (inl e, n) | (inr t, n) => (inr (FTable t), n)
    end
  | FVoid => (inr FVoid, n)
  | FOther _ => (inl AMQP_STATUS_INVALID_PARAMETER, n)
  end.

(** amqp_table.c:582-612 *)
Definition amqp_table_clone : table -> nat -> cres table := clone_table_with amqp_field_value_clone.
End Clone.

(** amqp_table.c:642-652: the first entry with the key, as its value *)
Fixpoint amqp_table_get_entry_by_key (t : table) (key : bytes) : option fv :=
  match t with
  | [] => None
  | (k, v) :: t => if bytes_equal k key then Some v else amqp_table_get_entry_by_key t key
  end.
(** assigning through the pointer found: e->value = v *)
Fixpoint set_entry (t : table) (key : bytes) (v : fv) : table :=
  match t with
  | [] => []
  | (k, v0) :: t => if bytes_equal k key then (k, v) :: t else (k, v0) :: set_entry t key v
  end.

(** ** amqp_merge_capabilities, amqp_socket.c:1142-1202.  None is undefined
    behaviour: following the NULL pointer [be], or reading the table member of an
    entry that holds something else.  num_entries is not limited to int. *)
Section Merge.
Context (oom : nat -> bool).

(** the loop over the entries of [add], lines 1174-1196; [merge] is the recursive call on
    one value of [add] *)
Definition merge_loop (merge : fv -> table -> nat -> option (cres table)) (room : Z) (base : table) :
  table -> table -> nat -> option (cres table) :=
  fix loop add temp n :=
    match add with
    | [] => Some (inr temp, n)
    | (k, v) :: add =>
      match amqp_table_get_entry_by_key temp k with
      | Some e =>
        match v, e with
        | FTable _, FTable _ =>
          match amqp_table_get_entry_by_key base k with
          | Some (FTable b) =>
            match merge v b n with
            | None => None
            | Some (inl s, n) => Some (inl s, n)
            | Some (inr r, n) => loop add (set_entry temp k (FTable r)) n
            end
          | _ => None
          end
        | _, _ => loop add (set_entry temp k v) n
        end
      | None => if room <=? zlen temp then None (* entries[num_entries] outside of the block *) else loop add (temp ++ [(k, v)]) n
      end
    end.

(** the body of amqp_merge_capabilities for a non-NULL [add], which is the content
    of [FTable add] (so that the recursion is on the value merged in).  Allocating an
    array of no entries gives NULL (amqp_mem.c:82-84). *)
Fixpoint merge_value (add : fv) (base : table) (n : nat) {struct add} : option (cres table) :=
  match add with
  | FTable add =>
    if zlen base + zlen add =? 0 then Some (inl AMQP_STATUS_NO_MEMORY, n)
    else if oom n then Some (inl AMQP_STATUS_NO_MEMORY, S n)
    else
      (* temp_result has room for [room] entries (amqp_socket.c:1163-1165); lines 1170-1173 *)
      let room := zlen base + zlen add in
      if room <? zlen base then None
      else
      match merge_loop merge_value room base add base (S n) with
      | None => None
      | Some (inl s, n) => Some (inl s, n)
      | Some (inr temp, n) => Some (amqp_table_clone oom temp n)
      end
  | _ => None
  end.

Definition amqp_merge_capabilities (base : table) (add : option table) (n : nat) : option (cres table) :=
  match add with
  | None => Some (amqp_table_clone oom base n)
  | Some add => merge_value (FTable add) base n
  end.
End Merge.
