(** Model of the memory of connections: amqp_new_connection, the buffer of
    amqp_tune_connection, the channel pools in the pool table, the properties pool, the
    socket object, and amqp_destroy_connection (amqp_connection.c, amqp_mem.c,
    amqp_tcp_socket.c), on one heap (Pool.v).  Only blocks are modelled, not what is in
    them; the descriptor is in Os.v (C58). *)
From Coq Require Import ZArith List Bool.
From Verif Require Import Base Pool.
Import ListNotations.
Local Open Scope Z_scope.

(** free(NULL) does nothing *)
Definition free_opt (h : heap) (b : option blk) : option heap := match b with None => Some h | Some b => sys_free h b end.
(** realloc(old, size): (the result or NULL, the heap).  realloc(p, 0) frees p and returns
    NULL (glibc); realloc(NULL, 0) is malloc(0), a block.  A failing realloc keeps the
    old block. *)
Definition sys_realloc (fails : bool) (h : heap) (old : option blk) (size : Z) : option (option blk * heap) :=
  match old with
  | None => if fails then Some (None, h) else let (h, b) := sys_malloc h size in Some (Some b, h)
  | Some b =>
    if size =? 0 then match sys_free h b with Some h => Some (None, h) | None => None end
    else if fails then Some (None, h)
    else match sys_free h b with Some h => let (h, b') := sys_malloc h size in Some (Some b', h) | None => None end
  end.

(** amqp_private.h:108-112: an entry of the pool table, its block and its pool *)
Record centry := mkCe { ce_channel : Z; ce_blk : blk; ce_pool : pool }.
(** the pointers of struct amqp_connection_state_t_ (amqp_private.h:114-160); [m_state]:
    the block of the struct itself; a pointer may be NULL *)
Record cmem := mkMem {
  m_state : blk; m_out : option blk; m_sock : option blk; m_socket : option blk;
  m_frame_max : Z; m_table : list (list centry); m_props : pool }.

(** amqp_connection.c:111-142: what it does to the memory.  [clock]: one of the two clock
    readings fails (lines 127-136); then frame_max is changed all the same. *)
Definition mem_tune (clock fails : bool) (h : heap) (m : cmem) (frame_max : Z) : option (bool * heap * cmem) :=
  let m := mkMem (m_state m) (m_out m) (m_sock m) (m_socket m) frame_max (m_table m) (m_props m) in
  if clock then Some (false, h, m)
  else
    match sys_realloc fails h (m_out m) frame_max with
    | None => None
    | Some (None, h) => Some (false, h, m)
    | Some (Some b, h) => Some (true, h, mkMem (m_state m) (Some b) (m_sock m) (m_socket m) frame_max (m_table m) (m_props m))
    end.

(** amqp_connection.c:44-86.  [f1]: calloc fails; [clock], [f2]: see mem_tune; [f3]: the
    malloc of line 67 fails.  The size of the struct does not matter (1000). *)
Definition mem_new (f1 clock f2 f3 : bool) (h : heap) : option (option cmem * heap) :=
  if f1 then Some (None, h)
  else
    let (h, s) := sys_malloc h 1000 in
    let m := mkMem s None None None 0 (repeat [] 16) (init_amqp_pool 0) in
    let out_nomem h m :=
      match free_opt h (m_sock m) with
      | None => None
      | Some h => match sys_free h (m_state m) with Some h => Some (None, h) | None => None end
      end in
    match mem_tune clock f2 h m 65536 with
    | None => None
    | Some (false, h, m) => out_nomem h m
    | Some (true, h, m) =>
      if f3 then out_nomem h m
      else
        let (h, b) := sys_malloc h 131072 in
        Some (Some (mkMem (m_state m) (m_out m) (Some b) (m_socket m) (m_frame_max m) (m_table m) (init_amqp_pool 512)), h)
    end.

(** amqp_mem.c:166-172, 193-199: the entry of a channel, and the entries around it *)
Fixpoint find_ce (channel : Z) (before l : list centry) : option (list centry * centry * list centry) :=
  match l with
  | [] => None
  | e :: l => if channel =? ce_channel e then Some (before, e, l) else find_ce channel (before ++ [e]) l
  end.
Definition bucket (t : list (list centry)) (channel : Z) : list centry := nth (Z.to_nat (channel mod POOL_TABLE_SIZE)) t [].
Definition set_bucket (t : list (list centry)) (channel : Z) (b : list centry) : list (list centry) :=
  set_nth (Z.to_nat (channel mod POOL_TABLE_SIZE)) b t.
Definition set_table (m : cmem) (t : list (list centry)) : cmem :=
  mkMem (m_state m) (m_out m) (m_sock m) (m_socket m) (m_frame_max m) t (m_props m).
(** amqp_mem.c:161-186; the size of an entry does not matter (100).  false: NULL *)
Definition mem_channel_pool (nomem : bool) (h : heap) (m : cmem) (channel : Z) : bool * heap * cmem :=
  match find_ce channel [] (bucket (m_table m) channel) with
  | Some _ => (true, h, m)
  | None =>
    if nomem then (false, h, m)
    else
      let (h, b) := sys_malloc h 100 in
      (true, h, set_table m (set_bucket (m_table m) channel (mkCe channel b (init_amqp_pool (m_frame_max m)) :: bucket (m_table m) channel)))
  end.
(** an allocation from the pool of a channel: amqp_get_or_create_channel_pool, then
    amqp_pool_alloc (amqp_connection.c:277-282, 315-350; amqp_socket.c:707-713, 811-818,
    1056-1062, 1288-1330) *)
Definition mem_alloc (noentry nomem norec : bool) (h : heap) (m : cmem) (channel amount : Z) : option (heap * cmem) :=
  match mem_channel_pool noentry h m channel with
  | (false, h, m) => Some (h, m)
  | (true, h, m) =>
    match find_ce channel [] (bucket (m_table m) channel) with
    | None => None
    | Some (l1, e, l2) =>
      match amqp_pool_alloc nomem norec h (ce_pool e) amount with
      | None => None
      | Some (_, h, p) => Some (h, set_table m (set_bucket (m_table m) channel (l1 ++ mkCe (ce_channel e) (ce_blk e) p :: l2)))
      end
    end
  end.
(** amqp_connection.c:424-428 *)
Definition mem_recycle (h : heap) (m : cmem) (channel : Z) : option (heap * cmem) :=
  match find_ce channel [] (bucket (m_table m) channel) with
  | None => Some (h, m)
  | Some (l1, e, l2) =>
    match recycle_amqp_pool h (ce_pool e) with
    | None => None
    | Some (h, p) => Some (h, set_table m (set_bucket (m_table m) channel (l1 ++ mkCe (ce_channel e) (ce_blk e) p :: l2)))
    end
  end.
(** amqp_socket.c:1264: the server's properties *)
Definition mem_props (nomem norec : bool) (h : heap) (m : cmem) (amount : Z) : option (heap * cmem) :=
  match amqp_pool_alloc nomem norec h (m_props m) amount with
  | None => None
  | Some (_, h, p) => Some (h, mkMem (m_state m) (m_out m) (m_sock m) (m_socket m) (m_frame_max m) (m_table m) p)
  end.
(** amqp_tcp_socket.c:200-211 with amqp_connection.c:100-103 and amqp_tcp_socket.c:181-188 *)
Definition mem_socket (fails : bool) (h : heap) (m : cmem) : option (heap * cmem) :=
  if fails then Some (h, m)
  else
    let (h, b) := sys_malloc h 100 in
    match free_opt h (m_socket m) with
    | None => None
    | Some h => Some (h, mkMem (m_state m) (m_out m) (m_sock m) (Some b) (m_frame_max m) (m_table m) (m_props m))
    end.

(** amqp_connection.c:163-168 *)
Fixpoint destroy_bucket (h : heap) (l : list centry) : option heap :=
  match l with
  | [] => Some h
  | e :: l =>
    match empty_amqp_pool h (ce_pool e) with
    | None => None
    | Some (h, _) => match sys_free h (ce_blk e) with Some h => destroy_bucket h l | None => None end
    end
  end.
(** amqp_connection.c:161-169 *)
Fixpoint destroy_table (h : heap) (t : list (list centry)) : option heap :=
  match t with
  | [] => Some h
  | b :: t => match destroy_bucket h b with Some h => destroy_table h t | None => None end
  end.
(** amqp_connection.c:157-178 *)
Definition mem_destroy (h : heap) (m : cmem) : option heap :=
  match destroy_table h (m_table m) with
  | None => None
  | Some h =>
    match free_opt h (m_out m) with
    | None => None
    | Some h =>
      match free_opt h (m_sock m) with
      | None => None
      | Some h =>
        match free_opt h (m_socket m) with
        | None => None
        | Some h => match empty_amqp_pool h (m_props m) with None => None | Some (h, _) => sys_free h (m_state m) end
        end
      end
    end
  end.

(** ** Messages and envelopes (amqp_consumer.c) *)
(** amqp_message_t: its pool and body; amqp_envelope_t *)
Record message := mkMsg { g_pool : pool; g_body : option blk }.
Record envelope := mkEnv { n_message : message; n_consumer_tag : option blk; n_exchange : option blk; n_routing_key : option blk }.
(** what happens during one amqp_read_message: does a header frame arrive (lines 184-207)?
    the requests to the pool while its properties are cloned; the size of the body; does
    its malloc fail?  do the body frames arrive and fit (lines 239-271)? *)
Record read_script := mkRead {
  rs_header : bool; rs_clone : list (bool * bool * Z); rs_body : Z; rs_nomem : bool; rs_frames : bool }.
(** amqp_consumer.c:11-89, amqp_table.c (amqp_table_clone): the requests, up to the first
    that fails *)
Fixpoint mem_clone (h : heap) (p : pool) (l : list (bool * bool * Z)) : option (bool * heap * pool) :=
  match l with
  | [] => Some (true, h, p)
  | (nomem, norec, amount) :: l =>
    match amqp_pool_alloc nomem norec h p amount with
    | None => None
    | Some (None, h, p) => if amount =? 0 then mem_clone h p l else Some (false, h, p)
    | Some (Some _, h, p) => mem_clone h p l
    end
  end.
(** amqp_consumer.c:278-281 *)
Definition error_out3 (h : heap) (p : pool) : option (option message * heap) :=
  match empty_amqp_pool h p with Some (h, _) => Some (None, h) | None => None end.
(** amqp_consumer.c:170-282; None in the first component: the reply is not
    AMQP_RESPONSE_NORMAL (the message is then not to be used) *)
Definition mem_read (h : heap) (s : read_script) : option (option message * heap) :=
  if negb (rs_header s) then Some (None, h)
  else
    match mem_clone h (init_amqp_pool 4096) (rs_clone s) with
    | None => None
    | Some (false, h, p) => error_out3 h p
    | Some (true, h, p) =>
      if rs_body s =? 0 then Some (Some (mkMsg p None), h)
      else if rs_nomem s then Some (None, h)                             (* lines 225, 232: goto error_out1 *)
      else
        let (h, b) := sys_malloc h (rs_body s) in
        if rs_frames s then Some (Some (mkMsg p (Some b)), h)
        else match sys_free h b with Some h => error_out3 h p | None => None end
    end.
(** amqp_consumer.c:91-94 *)
Definition mem_destroy_message (h : heap) (m : message) : option heap :=
  match empty_amqp_pool h (g_pool m) with Some (h, _) => free_opt h (g_body m) | None => None end.
(** amqp_consumer.c:96-101 *)
Definition mem_destroy_envelope (h : heap) (e : envelope) : option heap :=
  match mem_destroy_message h (n_message e) with
  | None => None
  | Some h =>
    match free_opt h (n_routing_key e) with
    | None => None
    | Some h => match free_opt h (n_exchange e) with None => None | Some h => free_opt h (n_consumer_tag e) end
    end
  end.
(** amqp_mem.c:142-150; [fails]: malloc returns NULL *)
Definition mem_dup (fails : bool) (h : heap) (len : Z) : heap * option blk :=
  if fails then (h, None) else let (h, b) := sys_malloc h len in (h, Some b).
(** amqp_consumer.c:103-108 *)
Definition dup_failed (len : Z) (b : option blk) : bool := negb (len =? 0) && match b with None => true | Some _ => false end.
(** amqp_consumer.c:110-167.  [deliver]: a basic.deliver arrives (lines 122-137); a length
    and a failure for each of consumer tag, exchange and routing key *)
Definition mem_consume (h : heap) (deliver : bool) (tag exchange key : bool * Z) (s : read_script) : option (option envelope * heap) :=
  if negb deliver then Some (None, h)
  else
    let (h, t) := mem_dup (fst tag) h (snd tag) in
    let (h, x) := mem_dup (fst exchange) h (snd exchange) in
    let (h, k) := mem_dup (fst key) h (snd key) in
    let error_out2 h :=
      match free_opt h k with
      | None => None
      | Some h => match free_opt h x with None => None | Some h => match free_opt h t with None => None | Some h => Some (None, h) end end
      end in
    if dup_failed (snd tag) t || dup_failed (snd exchange) x || dup_failed (snd key) k then error_out2 h
    else
      match mem_read h s with
      | None => None
      | Some (Some m, h) => Some (Some (mkEnv m t x k), h)
      | Some (None, h) => error_out2 h
      end.
