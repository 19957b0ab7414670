(** Model of librabbitmq/amqp_mem.c: memory pools and the table of channel pools.

    The system allocator: a heap is the list of live blocks with their sizes;
    malloc, calloc and realloc give a block with an identity never used before, or
    fail, as an oracle says; free of a block that is not live is undefined
    behaviour ([None]). *)
From Coq Require Import ZArith List Bool.
From Verif Require Import Base.
Import ListNotations.
Local Open Scope Z_scope.

Definition blk := nat.
Record heap := mkHeap { h_next : nat; h_live : list (blk * Z) }.

Definition sys_malloc (h : heap) (size : Z) : heap * blk :=
  (mkHeap (S (h_next h)) ((h_next h, size) :: h_live h), h_next h).

Fixpoint remove_blk (b : blk) (l : list (blk * Z)) : option (list (blk * Z)) :=
  match l with
  | [] => None
  | (b', n) :: l => if Nat.eqb b b' then Some l
                    else match remove_blk b l with Some l => Some ((b', n) :: l) | None => None end
  end.
Definition sys_free (h : heap) (b : blk) : option heap :=
  match remove_blk b (h_live h) with Some l => Some (mkHeap (h_next h) l) | None => None end.

(** include/rabbitmq-c/amqp.h:460-463 amqp_pool_blocklist_t: the array is itself a
    block from the system ([bl_array], NULL at first), [bl_blocks] its entries
    (num_blocks of them).  num_blocks and next_page are not limited to int. *)
Record blocklist := mkBl { bl_array : option blk; bl_blocks : list blk }.

(** include/rabbitmq-c/amqp.h:470-484 amqp_pool_t *)
Record pool := mkPool {
  p_pagesize : Z;
  p_pages : blocklist;
  p_large : blocklist;
  p_next_page : nat;
  p_alloc_block : option blk;
  p_alloc_used : Z }.

(** amqp_mem.c:20-32 *)
Definition init_amqp_pool (pagesize : Z) : pool :=
  mkPool (if pagesize =? 0 then 4096 else pagesize) (mkBl None []) (mkBl None []) 0 None 0.

(** amqp_mem.c:37-42 *)
Fixpoint free_all (h : heap) (l : list blk) : option heap :=
  match l with
  | [] => Some h
  | b :: l => match sys_free h b with Some h => free_all h l | None => None end
  end.
(** amqp_mem.c:34-45 *)
Definition empty_blocklist (h : heap) (x : blocklist) : option (heap * blocklist) :=
  match bl_array x with
  | Some a =>
    match free_all h (bl_blocks x) with
    | Some h => match sys_free h a with Some h => Some (h, mkBl None []) | None => None end
    | None => None
    end
  | None => Some (h, mkBl None [])
  end.

(** amqp_mem.c:47-52 *)
Definition recycle_amqp_pool (h : heap) (p : pool) : option (heap * pool) :=
  match empty_blocklist h (p_large p) with
  | Some (h, lb) => Some (h, mkPool (p_pagesize p) (p_pages p) lb 0 None 0)
  | None => None
  end.

(** amqp_mem.c:54-57 *)
Definition empty_amqp_pool (h : heap) (p : pool) : option (heap * pool) :=
  match recycle_amqp_pool h p with
  | Some (h, p) =>
    match empty_blocklist h (p_pages p) with
    | Some (h, pg) => Some (h, mkPool (p_pagesize p) pg (p_large p) (p_next_page p) (p_alloc_block p) (p_alloc_used p))
    | None => None
    end
  | None => None
  end.

(** amqp_mem.c:60-79; [fails]: the malloc or realloc of the array fails.
    (success, heap, list) *)
Definition record_pool_block (fails : bool) (h : heap) (x : blocklist) (b : blk) : option (bool * heap * blocklist) :=
  let size := 8 * (zlen (bl_blocks x) + 1) in
  match bl_array x with
  | None =>
    if fails then Some (false, h, x)
    else let (h, a) := sys_malloc h size in Some (true, h, mkBl (Some a) (bl_blocks x ++ [b]))
  | Some old =>
    if fails then Some (false, h, x)
    else
      (* realloc: the old array is released, a new one takes its place *)
      match sys_free h old with
      | None => None
      | Some h => let (h, a) := sys_malloc h size in Some (true, h, mkBl (Some a) (bl_blocks x ++ [b]))
      end
  end.

(** (amount + 7) & ~7 in size_t, amqp_mem.c:86 *)
Definition round8 (amount : Z) : Z := Z.land (u64 (amount + 7)) (M64 - 8).

(** Outcome of one allocation: the pointer (block and offset) or NULL, the new
    heap and pool. *)
Definition ares := option (option (blk * Z) * heap * pool).

(** amqp_mem.c:81-127.  [nomem]: the calloc fails; [norec]: recording the block
    fails. *)
Definition amqp_pool_alloc (nomem norec : bool) (h : heap) (p : pool) (amount : Z) : ares :=
  if amount =? 0 then Some (None, h, p)
  else
    let amount := round8 amount in
    if p_pagesize p <? amount then
      if nomem then Some (None, h, p)
      else
        let (h, b) := sys_malloc h amount in
        match record_pool_block norec h (p_large p) b with
        | None => None
        | Some (false, h, lb) =>
          match sys_free h b with
          | None => None
          | Some h => Some (None, h, mkPool (p_pagesize p) (p_pages p) lb (p_next_page p) (p_alloc_block p) (p_alloc_used p))
          end
        | Some (true, h, lb) =>
          Some (Some (b, 0), h, mkPool (p_pagesize p) (p_pages p) lb (p_next_page p) (p_alloc_block p) (p_alloc_used p))
        end
    else
      let new_page :=
        if Nat.leb (length (bl_blocks (p_pages p))) (p_next_page p) then
          if nomem then Some (None, h, mkPool (p_pagesize p) (p_pages p) (p_large p) (p_next_page p) None (p_alloc_used p))
          else
            let (h, b) := sys_malloc h (p_pagesize p) in
            match record_pool_block norec h (p_pages p) b with
            | None => None
            | Some (false, h, pg) =>
              Some (None, h, mkPool (p_pagesize p) pg (p_large p) (p_next_page p) (Some b) (p_alloc_used p))
            | Some (true, h, pg) =>
              Some (Some (b, 0), h, mkPool (p_pagesize p) pg (p_large p) (length (bl_blocks pg)) (Some b) amount)
            end
        else
          match nth_error (bl_blocks (p_pages p)) (p_next_page p) with
          | None => None
          | Some b => Some (Some (b, 0), h, mkPool (p_pagesize p) (p_pages p) (p_large p) (S (p_next_page p)) (Some b) amount)
          end in
      match p_alloc_block p with
      | Some b =>
        if add_size (p_alloc_used p) amount <=? p_pagesize p then
          Some (Some (b, p_alloc_used p), h,
                mkPool (p_pagesize p) (p_pages p) (p_large p) (p_next_page p) (Some b) (add_size (p_alloc_used p) amount))
        else new_page
      | None => new_page
      end.

(** ** The table of channel pools: amqp_private.h:106-115.  A pool is named by the
    number of its table entry's allocation. *)
Record entry := mkEntry { e_channel : Z; e_pool : nat }.
Record pool_table := mkTable { t_buckets : list (list entry); t_next : nat }.
Definition POOL_TABLE_SIZE := 16.
Definition empty_table : pool_table := mkTable (repeat [] 16) 0.

(** amqp_mem.c:166-172, 193-199: walking a bucket *)
Fixpoint find_entry (channel : Z) (l : list entry) : option nat :=
  match l with
  | [] => None
  | e :: l => if channel =? e_channel e then Some (e_pool e) else find_entry channel l
  end.

Fixpoint set_nth {A} (n : nat) (x : A) (l : list A) : list A :=
  match l, n with
  | [], _ => []
  | _ :: l, O => x :: l
  | y :: l, S n => y :: set_nth n x l
  end.

(** amqp_mem.c:188-202; [channel] is a uint16_t *)
Definition amqp_get_channel_pool (t : pool_table) (channel : Z) : option nat :=
  find_entry channel (nth (Z.to_nat (channel mod POOL_TABLE_SIZE)) (t_buckets t) []).

(** amqp_mem.c:161-186: (the pool or NULL, the new table) *)
Definition amqp_get_or_create_channel_pool (nomem : bool) (t : pool_table) (channel : Z) : option nat * pool_table :=
  let index := Z.to_nat (channel mod POOL_TABLE_SIZE) in
  let bucket := nth index (t_buckets t) [] in
  match find_entry channel bucket with
  | Some p => (Some p, t)
  | None =>
    if nomem then (None, t)
    else (Some (t_next t), mkTable (set_nth index (mkEntry channel (t_next t) :: bucket) (t_buckets t)) (S (t_next t)))
  end.
