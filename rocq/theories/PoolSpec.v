(** Specification side of the pools: histories of calls and what is handed out. *)
From Coq Require Import ZArith List Bool.
From Verif Require Import Base Pool.
Import ListNotations.
Local Open Scope Z_scope.

(** One call on a pool; the booleans are the failures of the system allocator. *)
Inductive pool_op := OAlloc (nomem norec : bool) (amount : Z) | ORecycle.

(** A request that was answered with a pointer: block, offset, requested size. *)
Record handed := mkHanded { hd_blk : blk; hd_off : Z; hd_size : Z }.

(** Running a history: the heap, the pool and what was handed out since the last
    recycle.  None: undefined behaviour. *)
Fixpoint history (h : heap) (p : pool) (out : list handed) (ops : list pool_op) : option (heap * pool * list handed) :=
  match ops with
  | [] => Some (h, p, out)
  | OAlloc nomem norec amount :: ops =>
    match amqp_pool_alloc nomem norec h p amount with
    | None => None
    | Some (Some (b, o), h, p) => history h p (mkHanded b o amount :: out) ops
    | Some (None, h, p) => history h p out ops
    end
  | ORecycle :: ops =>
    match recycle_amqp_pool h p with
    | None => None
    | Some (h, p) => history h p [] ops
    end
  end.

(** Two blocks do not overlap. *)
Definition disjoint (x y : handed) : Prop :=
  hd_blk x <> hd_blk y \/ hd_off x + hd_size x <= hd_off y \/ hd_off y + hd_size y <= hd_off x.

(** Sizes a caller can ask for without wrapping the rounding to 8 bytes. *)
Definition sane (op : pool_op) : Prop :=
  match op with OAlloc _ _ amount => 0 <= amount <= M64 - 8 | ORecycle => True end.
(** The system allocator did not fail. *)
Definition no_failure (op : pool_op) : Prop :=
  match op with OAlloc nomem norec _ => nomem = false /\ norec = false | ORecycle => True end.

Definition no_heap : heap := mkHeap 0 [].
