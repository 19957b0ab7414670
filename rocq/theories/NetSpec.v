(** Vocabulary for the connection layer: what can be read off a run. *)
From Coq Require Import String ZArith List Bool.
From Verif Require Import Base Codec TableModel TableSpec FramingStmt FramingModel MethodSpec Frame FrameSpec Time Net NetApi.
Import ListNotations.
Local Open Scope Z_scope.

(** the bytes handed to the socket / received from it, in order *)
Definition out_bytes (l : list obs) : bytes :=
  flat_map (fun o => match o with OSend _ bs => bs | _ => [] end) l.
Definition in_bytes (l : list obs) : bytes :=
  flat_map (fun o => match o with ORecv bs => bs | _ => [] end) l.
(** the frames decoded, in order *)
Definition frames (l : list obs) : list frame :=
  flat_map (fun o => match o with OFrame f => [f] | _ => [] end) l.
(** amqp_handle_input never failed / no unread bytes were overwritten / all
    allocations (outside of amqp_handle_input) succeeded *)
Definition no_bad (l : list obs) : Prop := Forall (fun o => match o with OBad _ => False | _ => True end) l.
Definition no_lost (l : list obs) : Prop := Forall (fun o => match o with OLost _ => False | _ => True end) l.
Definition no_oom_obs (l : list obs) : Prop := Forall (fun o => match o with OAlloc ok => ok = true | _ => True end) l.
(** nothing was read from the socket or decoded *)
Definition no_input (l : list obs) : Prop :=
  Forall (fun o => match o with ORecv _ | OFrame _ | OBad _ | OLost _ => False | _ => True end) l.
Definition no_output (l : list obs) : Prop := Forall (fun o => match o with OSend _ _ => False | _ => True end) l.

Definition is_heartbeat (f : frame) : bool := f_type f =? 8.
Definition no_hb (l : list frame) : list frame := filter (fun f => negb (is_heartbeat f)) l.
(** the frames waiting in the queue *)
Definition queued (c : conn) : list frame := map fst (c_queue c).

(** The wire image of a frame the library is asked to send. *)
Definition heartbeat_wire : bytes := [x08; x00; x00; x00; x00; x00; x00; xce].

Definition prefix {A} (a b : list A) : Prop := exists r, b = a ++ r.

(** heartbeat frames and nothing else / and perhaps a part of one more *)
Definition whole_beats (out : bytes) : Prop := exists n, out = concat (repeat heartbeat_wire n).
Definition beats (out : bytes) : Prop :=
  exists n p, out = concat (repeat heartbeat_wire n) ++ p /\ prefix p heartbeat_wire.

(** heartbeats are switched off (a new connection; after a login or
    amqp_tune_connection with heartbeat 0) *)
Definition off (c : conn) : Prop := c_hb c = 0 /\ c_next_send c = amqp_time_infinite /\ c_next_recv c = amqp_time_infinite.
(** calls that do not switch them on *)
Definition no_heartbeat (a : api) : Prop :=
  match a with Tune _ _ hb => hb <= 0 | Login _ _ _ _ hb _ _ => hb = 0 | _ => True end.
