(** The queue of pending frames as the C code keeps it: links in memory, a pointer
    to the first and one to the last (amqp_private.h:146-147; amqp_link_t,
    amqp_private.h:90-95).  Net.v uses a list instead; Prop_Queue.v proves that this
    is the same for every sequence of operations. *)
From Coq Require Import ZArith List Bool.
From Verif Require Import Base Frame.
Import ListNotations.
Local Open Scope Z_scope.

(** An address; None is NULL. *)
Definition ptr := option nat.
Record link := mkLink { l_next : ptr; l_data : frame }.
(** Memory: the links that are allocated. *)
Definition heap := nat -> option link.
Record qstate := mkQ { q_heap : heap; q_first : ptr; q_last : ptr }.
Definition put (h : heap) (a : nat) (l : option link) : heap := fun b => if Nat.eqb b a then l else h b.

(** amqp_connection.c:46 (calloc) *)
Definition empty_queue (h : heap) : qstate := mkQ h None None.

(** p->next = v; None: p is not a valid pointer *)
Definition set_next (h : heap) (p : ptr) (v : ptr) : option heap :=
  match p with
  | None => None
  | Some a => match h a with None => None | Some l => Some (put h a (Some (mkLink v (l_data l)))) end
  end.

(** amqp_socket.c:721-729 and 1070-1078.  [a] is the address of the new link. *)
Definition enqueue (s : qstate) (a : nat) (f : frame) : option qstate :=
  let h := put (q_heap s) a (Some (mkLink None f)) in
  match q_last s with
  | None => Some (mkQ h (Some a) (Some a))
  | Some _ =>
    match set_next h (q_last s) (Some a) with
    | None => None
    | Some h => Some (mkQ h (q_first s) (Some a))
    end
  end.

(** amqp_socket.c:805-846 amqp_queue_frame; [junk] is link->next before it is set *)
Definition queue_frame (s : qstate) (a : nat) (junk : ptr) (f : frame) : option qstate :=
  let h := put (q_heap s) a (Some (mkLink junk f)) in
  match q_first s with
  | None => match set_next h (Some a) None with None => None | Some h => Some (mkQ h (Some a) (Some a)) end
  | Some _ =>
    match set_next h (q_last s) (Some a) with
    | None => None
    | Some h => match set_next h (Some a) None with None => None | Some h => Some (mkQ h (q_first s) (Some a)) end
    end
  end.

(** amqp_socket.c:848-864 amqp_put_back_frame *)
Definition put_back_frame (s : qstate) (a : nat) (junk : ptr) (f : frame) : option qstate :=
  let h := put (q_heap s) a (Some (mkLink junk f)) in
  match q_first s with
  | None => match set_next h (Some a) None with None => None | Some h => Some (mkQ h (Some a) (Some a)) end
  | Some _ => match set_next h (Some a) (q_first s) with None => None | Some h => Some (mkQ h (Some a) (q_last s)) end
  end.

(** amqp_socket.c:921-929, the queue's part of amqp_simple_wait_frame_noblock.
    Outer None: undefined behaviour; inner None: the queue is empty. *)
Definition take_first (s : qstate) : option (option frame * qstate) :=
  match q_first s with
  | None => Some (None, s)
  | Some a =>
    match q_heap s a with
    | None => None
    | Some l => Some (Some (l_data l), mkQ (q_heap s) (l_next l) (match l_next l with None => None | _ => q_last s end))
    end
  end.

(** amqp_socket.c:873-886, the queue's part of amqp_simple_wait_frame_on_channel;
    [fuel] bounds the length of the walk. *)
Fixpoint take_on_channel (fuel : nat) (cur : ptr) (channel : Z) (s : qstate) : option (option frame * qstate) :=
  match cur with
  | None => Some (None, s)
  | Some a =>
    match fuel with
    | O => None
    | S fuel =>
      match q_heap s a with
      | None => None
      | Some l =>
        if channel =? f_chan (l_data l)
        then Some (Some (l_data l), mkQ (q_heap s) (l_next l) (match l_next l with None => None | _ => q_last s end))
        else take_on_channel fuel (l_next l) channel s
      end
    end
  end.

(** amqp_connection.c:413-425: is there a queued frame of the channel?  None:
    undefined behaviour. *)
Fixpoint any_on_channel (fuel : nat) (cur : ptr) (channel : Z) (s : qstate) : option bool :=
  match cur with
  | None => Some false
  | Some a =>
    match fuel with
    | O => None
    | S fuel =>
      match q_heap s a with
      | None => None
      | Some l => if channel =? f_chan (l_data l) then Some true else any_on_channel fuel (l_next l) channel s
      end
    end
  end.

(** amqp_socket.c:618-620 *)
Definition frames_enqueued (s : qstate) : bool := match q_first s with None => false | _ => true end.

(** amqp_connection.c:427-431 recycle_amqp_pool: the links allocated in the
    channel's pool are gone.  A link is allocated in the pool of the channel of its
    frame (lines 707, 810, 1056). *)
Definition recycle (channel : Z) (s : qstate) : qstate :=
  mkQ (fun a => match q_heap s a with Some l => if f_chan (l_data l) =? channel then None else Some l | None => None end)
      (q_first s) (q_last s).
(** amqp_connection.c:405-432 (state IDLE) *)
Definition release_on_channel (fuel : nat) (channel : Z) (s : qstate) : option qstate :=
  match any_on_channel fuel (q_first s) channel s with
  | None => None
  | Some true => Some s
  | Some false => Some (recycle channel s)
  end.

(** ** Sequences of operations *)
Inductive qop :=
| Enqueue (a : nat) (f : frame)                 (* amqp_try_recv, amqp_simple_rpc *)
| QueueFrame (a : nat) (junk : ptr) (f : frame)
| PutBack (a : nat) (junk : ptr) (f : frame)
| TakeFirst
| TakeOn (channel : Z)
| ReleaseOn (channel : Z)
| AnyQueued.
Inductive qres := QDone | QFrame (f : option frame) | QBool (b : bool).
Definition qstep (fuel : nat) (o : qop) (s : qstate) : option (qres * qstate) :=
  match o with
  | Enqueue a f => match enqueue s a f with Some s => Some (QDone, s) | None => None end
  | QueueFrame a j f => match queue_frame s a j f with Some s => Some (QDone, s) | None => None end
  | PutBack a j f => match put_back_frame s a j f with Some s => Some (QDone, s) | None => None end
  | TakeFirst => match take_first s with Some (f, s) => Some (QFrame f, s) | None => None end
  | TakeOn ch => match take_on_channel fuel (q_first s) ch s with Some (f, s) => Some (QFrame f, s) | None => None end
  | ReleaseOn ch => match release_on_channel fuel ch s with Some s => Some (QDone, s) | None => None end
  | AnyQueued => Some (QBool (frames_enqueued s), s)
  end.
Fixpoint qrun (fuel : nat) (ops : list qop) (s : qstate) : option (list qres * qstate) :=
  match ops with
  | [] => Some ([], s)
  | o :: ops =>
    match qstep fuel o s with
    | None => None
    | Some (r, s) => match qrun fuel ops s with None => None | Some (rs, s) => Some (r :: rs, s) end
    end
  end.
(** malloc: the address of a new link is not one in use *)
Definition new_address (o : qop) (s : qstate) : Prop :=
  match o with
  | Enqueue a _ | QueueFrame a _ _ | PutBack a _ _ => q_heap s a = None
  | _ => True
  end.
Fixpoint allocations_ok (fuel : nat) (ops : list qop) (s : qstate) : Prop :=
  match ops with
  | [] => True
  | o :: ops => new_address o s /\ match qstep fuel o s with Some (_, s) => allocations_ok fuel ops s | None => True end
  end.
