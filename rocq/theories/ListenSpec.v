(** What amqp-consume does on its connection (C85). *)
From Coq Require Import String ZArith List Bool.
From Verif Require Import Base Codec TableModel TableSpec FramingStmt FramingModel MethodSpec Frame FrameSpec Net NetApi NetSpec CallSpec
  SpeakSpec Tools ReportSpec ToolConsume ToolQueue ToolListen RunSpec GetSpec.
From Verif Require ToolSpec Prop_ToolQueue.
Import ListNotations.
Local Open Scope string_scope.
Local Open Scope list_scope.
Local Open Scope Z_scope.

Definition flag (b : bool) : mval := VBool (if b then 1 else 0).
(** queue.declare: not passive, not durable, auto-delete *)
Definition declare_auto_delete (queue : bytes) (exclusive : bool) : bytes :=
  ser_frame 1 (AMethod 50 10
    [("ticket", Short); ("queue", ShortStr); ("passive", Bit); ("durable", Bit); ("exclusive", Bit); ("auto_delete", Bit); ("nowait", Bit); ("arguments", Tbl)]
    [("ticket", VInt 0); ("queue", VBytes queue); ("passive", flag false); ("durable", flag false); ("exclusive", flag exclusive); ("auto_delete", flag true); ("nowait", flag false); ("arguments", VTable [])]).
Definition bind_request (queue exchange key : bytes) : bytes :=
  ser_frame 1 (AMethod 50 20
    [("ticket", Short); ("queue", ShortStr); ("exchange", ShortStr); ("routing_key", ShortStr); ("nowait", Bit); ("arguments", Tbl)]
    [("ticket", VInt 0); ("queue", VBytes queue); ("exchange", VBytes exchange); ("routing_key", VBytes key); ("nowait", flag false); ("arguments", VTable [])]).
Definition qos_request (n : Z) : bytes :=
  ser_frame 1 (AMethod 60 10 [("prefetch_size", Long); ("prefetch_count", Short); ("global", Bit)]
    [("prefetch_size", VInt 0); ("prefetch_count", VInt n); ("global", flag false)]).
Definition consume_request (queue : bytes) (no_ack : bool) : bytes :=
  ser_frame 1 (AMethod 60 20
    [("ticket", Short); ("queue", ShortStr); ("consumer_tag", ShortStr); ("no_local", Bit); ("no_ack", Bit); ("exclusive", Bit); ("nowait", Bit); ("arguments", Tbl)]
    [("ticket", VInt 0); ("queue", VBytes queue); ("consumer_tag", VBytes []); ("no_local", flag false); ("no_ack", flag no_ack); ("exclusive", flag false); ("nowait", flag false); ("arguments", VTable [])]).
Definition ack_request (tag : Z) : bytes :=
  ser_frame 1 (AMethod 60 80 [("delivery_tag", Longlong); ("multiple", Bit)] [("delivery_tag", VInt tag); ("multiple", flag false)]).

(** ** Before the first message *)
(** a call: its name in messages, the request, the method that answers it *)
Record step := mkStep { s_name : string; s_request : bytes; s_reply : Z }.
(** the queue is declared unless it is named and nothing else is said about it *)
Definition declares (o : consume_options) : list step :=
  match co_queue o, co_exchange o, co_declare o, co_exclusive o with
  | Some _, None, false, false => []
  | q, _, _, x => [mkStep "queue.declare" (declare_auto_delete (match q with Some q => q | None => [] end) x) (method_id 50 11)]
  end.
(** the keys to bind with: the non-empty parts between the commas, if there is an exchange *)
Definition keys_are (o : consume_options) (keys : list bytes) : Prop :=
  match co_exchange o with
  | None => keys = []
  | Some _ => exists k parts, co_routing_key o = Some k /\ ToolSpec.comma_separated k parts /\ keys = filter (fun p => negb (zlen p =? 0)) parts
  end.
(** --count limits what the server sends in advance, and so does a smaller --prefetch-count,
    if they are numbers of 16 bits *)
Definition counted (z : Z) : bool := (1 <=? z) && (z <=? 65535).
Definition limits (count prefetch_count : Z) : list Z :=
  if counted count then if counted prefetch_count && (prefetch_count <? count) then [count; prefetch_count] else [count]
  else if counted prefetch_count then [prefetch_count] else [].
(** all the calls, in order, for a queue of this name *)
Definition plan (o : consume_options) (no_ack : bool) (count prefetch_count : Z) (queue : bytes) (Q : list step) : Prop :=
  exists keys, keys_are o keys /\
    Q = declares o ++
        map (fun k => mkStep "queue.bind" (bind_request queue (match co_exchange o with Some e => e | None => [] end) k) (method_id 50 21)) keys ++
        map (fun n => mkStep "basic.qos" (qos_request n) (method_id 60 11)) (limits count prefetch_count) ++
        [mkStep "basic.consume" (consume_request queue no_ack) (method_id 60 21)].
(** control characters and DEL as a backslash and three octal digits *)
Definition octal_escape (b : byte) : bytes :=
  let z := Z_of_byte b in
  let digit d := nth (Z.to_nat d) (lit "01234567") x00 in
  if (z <? 32) || (z =? 127) then lit "\" ++ [digit (z / 64); digit (z / 8 mod 8); digit (z mod 8)] else [b].
(** the queue: the one of the options, or the one that the server has named, about which a
    line is written to standard error *)
Definition named (o : consume_options) (queue note : bytes) (l : list obs) : Prop :=
  match co_queue o with
  | Some q => queue = q /\ note = []
  | None => exists m, Prop_ToolQueue.answered (method_id 50 11) m l /\ lookup "queue" m = Some (VBytes queue) /\
      note = lit "Server provided queue name: " ++ concat (map octal_escape queue) ++ [newline]
  end.

(** ** The messages *)
(** [frames] are what was received, [jobs] the runs of the command, [acts] what was done: of
    every message the whole body was given to the command, and then the message was
    acknowledged if the command has exited with status 0 and --no-ack was not given; other
    frames were skipped.  [n] is the number of messages and other frames. *)
Inductive consumed (no_ack : bool) : nat -> list frame -> list job -> list act -> Prop :=
| consumed_none : consumed no_ack 0 [] [] []
| consumed_other n f frames jobs acts :
    (forall tag, ~ ToolSpec.is_delivery f tag) -> consumed no_ack n frames jobs acts -> consumed no_ack (S n) (f :: frames) jobs acts
| consumed_message n f tag D size body j status frames jobs acts :
    ToolSpec.is_delivery f tag -> content D size body -> complete size body -> c_spawned (j_command j) = true -> c_exit (j_command j) = Some status ->
    consumed no_ack n frames jobs acts ->
    consumed no_ack (S n) (f :: D ++ frames) (j :: jobs)
      (Ran body (status =? 0) :: (if (status =? 0) && negb no_ack then [Acked tag] else []) ++ acts).
(** the acknowledgements among the acts *)
Fixpoint acknowledgements (acts : list act) : list bytes :=
  match acts with [] => [] | Acked tag :: acts => ack_request tag :: acknowledgements acts | _ :: acts => acknowledgements acts end.
(** The program has died after that: [D] are the frames used since, [acts] what was done,
    [A] what had to be sent, [err] the reason.  No frame; or the command could not be
    started; or the body could not be given to it completely; or waiting for its end has
    failed; or the acknowledgement could not be sent. *)
Definition interrupted (no_ack : bool) (jobs : list job) (D : list frame) (acts : list act) (A : list bytes) (err : bytes) : Prop :=
  (D = [] /\ acts = [] /\ A = [] /\ exists st, st < 0 /\ err = line "waiting for header frame" (status_text st)) \/
  exists f tag D' j rest, D = f :: D' /\ ToolSpec.is_delivery f tag /\ jobs = j :: rest /\
    ((D' = [] /\ acts = [] /\ A = [] /\ c_spawned (j_command j) = false /\ err = j_report j) \/
     (exists out, acts = [Broken out] /\ A = [] /\ not_copied (j_why j) D' out err) \/
     (exists size body, content D' size body /\ complete size body /\
        ((acts = [Broken body] /\ A = [] /\ c_exit (j_command j) = None /\ err = j_report j) \/
         (acts = [Ran body true] /\ no_ack = false /\ c_exit (j_command j) = Some 0 /\ A = [ack_request tag] /\
          exists st, st < 0 /\ err = line "basic.ack" (status_text st))))).
(** [l] is an interleaving of [a] and [b] *)
Inductive interleaving {A : Type} : list A -> list A -> list A -> Prop :=
| interleaving_nil : interleaving [] [] []
| interleaving_l x a b l : interleaving a b l -> interleaving (x :: a) b (x :: l)
| interleaving_r x a b l : interleaving a b l -> interleaving a (x :: b) (x :: l).
Definition replying (id : Z) (f : frame) : Prop := f_type f = 1 /\ f_chan f = 1 /\ exists m, f_pay f = PMethod id m.
(** The frames [D] come from the server.  And if nothing was lost: what was received,
    except for heartbeats, are the answers [ids] to the calls, in order, and other frames;
    [D] are the first of those that were waiting already ([queue], received earlier) and of
    these others, in the order in which they came. *)
Definition in_turn (seen : list frame) (ids : list Z) (D : list frame) (l : list obs) : Prop :=
  (forall f, In f D -> In f (seen ++ frames l)) /\
  (no_lost l -> no_oom_obs l ->
   exists queue replies others rest, (forall f, In f queue -> In f seen) /\
     interleaving replies others (no_hb (frames l)) /\ Forall2 replying ids replies /\ no_hb (queue ++ others) = no_hb D ++ rest).
(** In [l] all the calls before the first message have been answered, and then [frames]
    were handled, [D] are further frames *)
Definition progress (o : consume_options) (no_ack : bool) (count prefetch_count : Z) (jobs : list job) (seen : list frame)
    (Q : list step) (note : bytes) (n : nat) (D : list frame) (left : list job) (acts : list act) (l : list obs) : Prop :=
  exists queue frames used, named o queue note l /\ plan o no_ack count prefetch_count queue Q /\
    jobs = used ++ left /\ consumed no_ack n frames used acts /\ (0 <= count -> Z.of_nat n <= count) /\ in_turn seen (map s_reply Q) (frames ++ D) l.
(** Exit status 0: [count] messages and other frames were handled (see C63); everything was
    sent, nothing is on standard output.  Failure: nothing was done because of the options; or a
    call before the first message has failed; or a message could not be handled; or closing
    has failed. *)
Definition heard (o : consume_options) (no_ack : bool) (count prefetch_count : Z) (jobs : list job) (_ : Z) (seen : list frame) (F : list bytes) (r : listened) (l : list obs) : Prop :=
  let '(exit, out, err, acts) := r in
  let finished l1 l2 note := l = l1 ++ l2 /\ exists Q left C, progress o no_ack count prefetch_count jobs seen Q note (Z.to_nat count) [] left acts l1 /\ 0 <= count /\
    Prop_ToolQueue.closes C /\ F = map s_request Q ++ acknowledgements acts ++ C in
  out = [] /\
  match exit with
  | Returns z => z = 0 /\ exists l1 l2, finished l1 l2 err
  | _ =>
      (l = [] /\ F = [] /\ acts = [] /\ co_exchange o = None /\ co_routing_key o <> None /\
       err = lit "--routing-key option requires an exchange name to be provided with --exchange" ++ [newline]) \/
      (acts = [] /\ exists Q1 s note text, F = map s_request (Q1 ++ [s]) /\ err = note ++ line (s_name s) text /\ explained 1 (frames l) text /\
        ((Q1 = [] /\ declares o = [s] /\ note = []) \/ exists queue Q2, named o queue note l /\ plan o no_ack count prefetch_count queue (Q1 ++ s :: Q2))) \/
      (exists Q note n D left t t' A reason, acts = t ++ t' /\ err = note ++ reason /\
        progress o no_ack count prefetch_count jobs seen Q note n D left t l /\ interrupted no_ack left D t' A reason /\
        F = map s_request Q ++ acknowledgements t ++ A) \/
      (exists l1 l2 note reason, finished l1 l2 note /\ err = note ++ reason /\ blamed [] reason l2)
  end.
(** while it runs: in the calls before the first message, or a number of messages was
    handled (the acknowledgement of the last one may be on its way), or it is closing *)
Definition hearing (o : consume_options) (no_ack : bool) (count prefetch_count : Z) (jobs : list job) (_ : Z) (seen : list frame) (F : list bytes) (l : list obs) : Prop :=
  F = map s_request (declares o) \/
  (exists queue note Q, named o queue note l /\ plan o no_ack count prefetch_count queue Q /\ F = map s_request Q) \/
  (exists l1 l2 Q note n left t C, l = l1 ++ l2 /\ progress o no_ack count prefetch_count jobs seen Q note n [] left t l1 /\
     (C = [] \/ (Z.of_nat n = count /\ Prop_ToolQueue.closes C)) /\ F = map s_request Q ++ acknowledgements t ++ C).
