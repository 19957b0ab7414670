(** Byte strings: models of amqp_cstring_bytes, amqp_bytes_malloc, amqp_bytes_malloc_dup,
    amqp_bytes_free and amqp_bytes_equal (librabbitmq/amqp_mem.c), and programs that use
    them. *)
From Coq Require Import ZArith List Bool.
From Verif Require Import Base.
Import ListNotations.
Local Open Scope Z_scope.

(** the memory: blocks by number.  [Static]: a constant of the program; [Heap]: from
    malloc; [Freed] *)
Inductive block := Static (bs : bytes) | Heap (bs : bytes) | Freed.
Definition memory := list block.
(** amqp.h: amqp_bytes_t; a pointer is NULL or the beginning of a block *)
Record amqp_bytes_t := mkBytes { len : Z; ptr : option nat }.

Section Strings.
(** what malloc leaves in a block *)
Context (junk : nat -> byte).
(** memcpy and memcmp must not be given NULL, even for no bytes (C11 7.24.1); if not
    [strict], they may *)
Context (strict : bool).
Definition contents (m : memory) (i : nat) : option bytes :=
  match nth_error m i with Some (Static bs) | Some (Heap bs) => Some bs | _ => None end.
(** n bytes at p, as memcpy and memcmp read them.  None: undefined *)
Definition read (m : memory) (p : option nat) (n : Z) : option bytes :=
  match p with
  | None => if (n =? 0) && negb strict then Some [] else None
  | Some i =>
    match contents m i with
    | None => None
    | Some bs => if n <=? zlen bs then Some (firstn (Z.to_nat n) bs) else None
    end
  end.
Fixpoint strlen (bs : bytes) : option Z :=
  match bs with [] => None | c :: bs => if Byte.eqb c x00 then Some 0 else option_map (Z.add 1) (strlen bs) end.
Definition malloc (fails : bool) (m : memory) (n : Z) : memory * option nat :=
  if fails then (m, None) else (m ++ [Heap (map junk (seq 0 (Z.to_nat n)))], Some (length m)).
Fixpoint set_nth {A} (i : nat) (x : A) (l : list A) : list A :=
  match l, i with [], _ => [] | _ :: l, O => x :: l | y :: l, S i => y :: set_nth i x l end.

(** bytes written to the beginning of block i, by memcpy or by the program.  None: undefined *)
Definition fill (m : memory) (i : nat) (bs : bytes) : option memory :=
  match nth_error m i with
  | Some (Heap old) => if zlen bs <=? zlen old then Some (set_nth i (Heap (bs ++ skipn (length bs) old)) m) else None
  | _ => None
  end.

(** amqp_mem.c:135-140.  None: undefined *)
Definition amqp_cstring_bytes (m : memory) (cstr : nat) : option amqp_bytes_t :=
  match contents m cstr with
  | None => None
  | Some bs => match strlen bs with None => None | Some n => Some (mkBytes n (Some cstr)) end
  end.
(** amqp_mem.c:142-150 *)
Definition amqp_bytes_malloc_dup (fails : bool) (m : memory) (src : amqp_bytes_t) : option (amqp_bytes_t * memory) :=
  let (m, p) := malloc fails m (len src) in
  match p with
  | None => Some (mkBytes (len src) None, m)
  | Some i =>
    match read m (ptr src) (len src) with
    | None => None
    | Some bs => match fill m i bs with None => None | Some m => Some (mkBytes (len src) (Some i), m) end
    end
  end.
(** amqp_mem.c:152-157 *)
Definition amqp_bytes_malloc (fails : bool) (m : memory) (amount : Z) : amqp_bytes_t * memory :=
  let (m, p) := malloc fails m amount in (mkBytes amount p, m).
(** amqp_mem.c:159; free(NULL) does nothing *)
Definition amqp_bytes_free (m : memory) (b : amqp_bytes_t) : option memory :=
  match ptr b with
  | None => Some m
  | Some i => match nth_error m i with Some (Heap _) => Some (set_nth i Freed m) | _ => None end
  end.
(** amqp_mem.c:204-210 *)
Definition amqp_bytes_equal (m : memory) (r l : amqp_bytes_t) : option bool :=
  if len r =? len l then
    if match ptr r, ptr l with None, None => true | Some i, Some j => Nat.eqb i j | _, _ => false end then Some true
    else
      match read m (ptr r) (len r), read m (ptr l) (len r) with
      | Some a, Some b => Some (if list_eq_dec Byte.byte_eq_dec a b then true else false)
      | _, _ => None
      end
  else Some false.

(** A program's use of them.  Each creation makes a new variable (numbered from 0).
    [Const s]: amqp_cstring_bytes of a constant, the bytes s and a NUL; [Empty]:
    amqp_empty_bytes; [Malloc fails c]: amqp_bytes_malloc for c, which the program stores
    in it if it got memory; [Dup w fails]; [Store w i b]: the program stores a byte;
    [Free w]; [Equal v w]: an output *)
Inductive op := Const (s : bytes) | Empty | Malloc (fails : bool) (c : bytes) | Dup (w : nat) (fails : bool) | Store (w i : nat) (b : byte)
  | Free (w : nat) | Equal (v w : nat).
Definition state : Type := memory * list amqp_bytes_t.
(** programs using amqp_mem.c:135-159, 204-210 *)
Definition exec (o : op) (s : state) : option (state * list bool) :=
  let '(m, vs) := s in
  match o with
  | Const c =>
    let m := m ++ [Static (c ++ [x00])] in
    match amqp_cstring_bytes m (pred (length m)) with None => None | Some b => Some ((m, vs ++ [b]), []) end
  | Empty => Some ((m, vs ++ [mkBytes 0 None]), [])
  | Malloc fails c =>
    let (b, m) := amqp_bytes_malloc fails m (zlen c) in
    match match ptr b with Some i => fill m i c | None => Some m end with None => None | Some m => Some ((m, vs ++ [b]), []) end
  | Dup w fails =>
    match nth_error vs w with
    | None => None
    | Some src => match amqp_bytes_malloc_dup fails m src with None => None | Some (b, m) => Some ((m, vs ++ [b]), []) end
    end
  | Store w i x =>
    match nth_error vs w with
    | Some (mkBytes _ (Some p)) =>
      match nth_error m p with
      | Some (Heap bs) => if Nat.ltb i (length bs) then Some ((set_nth p (Heap (set_nth i x bs)) m, vs), []) else None
      | _ => None
      end
    | _ => None
    end
  | Free w =>
    match nth_error vs w with
    | None => None
    | Some b => match amqp_bytes_free m b with None => None | Some m => Some ((m, vs), []) end
    end
  | Equal v w =>
    match nth_error vs v, nth_error vs w with
    | Some r, Some l => match amqp_bytes_equal m r l with None => None | Some e => Some ((m, vs), [e]) end
    | _, _ => None
    end
  end.
Fixpoint exec_all (ops : list op) (s : state) : option (state * list bool) :=
  match ops with
  | [] => Some (s, [])
  | o :: ops =>
    match exec o s with
    | None => None
    | Some (s, out) => match exec_all ops s with None => None | Some (s, outs) => Some (s, out ++ outs) end
    end
  end.
End Strings.
