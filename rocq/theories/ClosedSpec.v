(** Specification for C66: which system calls are made on a descriptor, and when.
    [fd_use o l]: reading the log [l] of one session from a descriptor that is open ([o = true]) or closed:
    no send, recv, poll or close happens while it is closed; a successful close closes it; a failing
    close leaves it open.  The result says whether it is open at the end. *)
From Coq Require Import ZArith List Bool.
From Verif Require Import Base Net.
Import ListNotations.

Fixpoint fd_use (o : bool) (l : list obs) : option bool :=
  match l with
  | [] => Some o
  | (OSend _ _ | ORecv _ | OPoll _ _ _) :: l => if o then fd_use o l else None
  | OClose ok :: l => if o then fd_use (negb ok) l else None
  | (OClock _ | OAlloc _ | OFrame _ | OBad _ | OLost _) :: l => fd_use o l
  end.

(** an answer of the operating system to a call that takes the descriptor *)
Definition about_socket (e : event) : bool :=
  match e with EvSend _ | EvRecv _ | EvPoll _ | EvClose _ => true | EvClock _ | EvAlloc _ | EvClone _ => false end.
