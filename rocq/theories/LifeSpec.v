(** Specification for C67: programs that create, use and destroy connections. *)
From Coq Require Import ZArith List Bool.
From Verif Require Import Base Pool Life.
Import ListNotations.
Local Open Scope Z_scope.

(** one thing that happens to the memory of a connection; the booleans are failures of the
    system (clock, malloc, realloc) *)
Inductive mop :=
| MTune (clock fails : bool) (frame_max : Z)
| MAlloc (noentry nomem norec : bool) (channel amount : Z)
| MRecycle (channel : Z)
| MProps (nomem norec : bool) (amount : Z)
| MSocket (fails : bool).
Definition mem_op (h : heap) (m : cmem) (o : mop) : option (heap * cmem) :=
  match o with
  | MTune clock fails fm => match mem_tune clock fails h m fm with Some (_, h, m) => Some (h, m) | None => None end
  | MAlloc noentry nomem norec ch amount => mem_alloc noentry nomem norec h m ch amount
  | MRecycle ch => mem_recycle h m ch
  | MProps nomem norec amount => mem_props nomem norec h m amount
  | MSocket fails => mem_socket fails h m
  end.

(** a program: its connections, and its messages and envelopes, are numbered in the order of
    creation; [None]: creation (or reading) failed, or destroyed.  Calls on those do not
    happen (they would be the program's own mistake; amqp_destroy_connection(NULL) does
    nothing). *)
Inductive item := Message (m : message) | Envelope (e : envelope).
Inductive wop :=
| New (f1 clock f2 f3 : bool) | Do (i : nat) (o : mop) | Destroy (i : nat)
| Read (s : read_script) | Consume (deliver : bool) (tag exchange key : bool * Z) (s : read_script) | DestroyItem (j : nat).
Definition destroy_item (h : heap) (x : item) : option heap :=
  match x with Message m => mem_destroy_message h m | Envelope e => mem_destroy_envelope h e end.
Fixpoint run_world (h : heap) (cs : list (option cmem)) (xs : list (option item)) (ops : list wop)
    : option (heap * list (option cmem) * list (option item)) :=
  match ops with
  | [] => Some (h, cs, xs)
  | New f1 clock f2 f3 :: ops =>
    match mem_new f1 clock f2 f3 h with None => None | Some (m, h) => run_world h (cs ++ [m]) xs ops end
  | Do i o :: ops =>
    match nth i cs None with
    | None => run_world h cs xs ops
    | Some m => match mem_op h m o with None => None | Some (h, m) => run_world h (set_nth i (Some m) cs) xs ops end
    end
  | Destroy i :: ops =>
    match nth i cs None with
    | None => run_world h cs xs ops
    | Some m => match mem_destroy h m with None => None | Some h => run_world h (set_nth i None cs) xs ops end
    end
  | Read s :: ops =>
    match mem_read h s with None => None | Some (m, h) => run_world h cs (xs ++ [option_map Message m]) ops end
  | Consume d t x k s :: ops =>
    match mem_consume h d t x k s with None => None | Some (e, h) => run_world h cs (xs ++ [option_map Envelope e]) ops end
  | DestroyItem j :: ops =>
    match nth j xs None with
    | None => run_world h cs xs ops
    | Some x => match destroy_item h x with None => None | Some h => run_world h cs (set_nth j None xs) ops end
    end
  end.

(** the blocks a connection can still reach, each once *)
Definition opt_list {A} (o : option A) : list A := match o with Some a => [a] | None => [] end.
Definition of_blocklist (x : blocklist) : list blk := bl_blocks x ++ opt_list (bl_array x).
Definition of_pool (p : pool) : list blk := of_blocklist (p_pages p) ++ of_blocklist (p_large p).
Definition of_entry (e : centry) : list blk := ce_blk e :: of_pool (ce_pool e).
Definition of_mem (m : cmem) : list blk :=
  m_state m :: opt_list (m_out m) ++ opt_list (m_sock m) ++ opt_list (m_socket m) ++ flat_map (flat_map of_entry) (m_table m) ++ of_pool (m_props m).
Definition of_message (m : message) : list blk := of_pool (g_pool m) ++ opt_list (g_body m).
Definition of_item (x : item) : list blk :=
  match x with
  | Message m => of_message m
  | Envelope e => of_message (n_message e) ++ opt_list (n_consumer_tag e) ++ opt_list (n_exchange e) ++ opt_list (n_routing_key e)
  end.
Definition of_conn (c : option cmem) : list blk := match c with Some m => of_mem m | None => [] end.

Definition of_slot (x : option item) : list blk := match x with Some x => of_item x | None => [] end.


(** the malloc of the body of a message does not fail *)
Definition body_read (s : read_script) : bool := (rs_body s =? 0) || negb (rs_nomem s).
(** frame sizes other than 0 (realloc(p, 0) frees p: finding 19); the malloc of a body does
    not fail (finding 24) *)
Definition sound (o : wop) : Prop :=
  match o with Do _ (MTune _ _ fm) => fm <> 0 | Read s | Consume _ _ _ _ s => body_read s = true | _ => True end.
(** how many times a failure of malloc or realloc makes the library forget a block: in
    amqp_new_connection (the buffer of the socket), and recording a page of a pool *)
Definition unrecorded (l : list (bool * bool * Z)) : Z := zlen (filter (fun x => snd (fst x)) l).
Definition forgets (o : wop) : Z :=
  match o with
  | New false false false true => 1
  | Do _ (MAlloc _ _ true _ _) | Do _ (MProps _ true _) => 1
  | Read s | Consume _ _ _ _ s => unrecorded (rs_clone s)
  | _ => 0
  end.
Definition forgotten (ops : list wop) : Z := fold_right (fun o n => forgets o + n) 0 ops.
Definition live_blocks (h : heap) : list blk := map fst (h_live h).
