(** Vocabulary of the properties about the programs amqp-publish and amqp-consume (C62,
    C63, C64): what the user asks for. *)
From Coq Require Import String ZArith List Bool.
From Verif Require Import Base Codec TableModel FramingStmt FramingGen FramingModel MethodSpec Frame FrameSpec Net NetApi Tools ToolPublish ToolConsume.
Import ListNotations.
Local Open Scope list_scope.
Local Open Scope Z_scope.

(** ** amqp-publish *)
(** the lines of a text, with their newlines; the last one may have none *)
Inductive lines : bytes -> list bytes -> Prop :=
| lines_none : lines [] []
| lines_last l : l <> [] -> ~ In newline l -> lines l [l]
| lines_more l text ls : ~ In newline l -> lines text ls -> lines (l ++ newline :: text) ((l ++ [newline]) :: ls).
(** the messages: the argument of --body, or the lines of standard input, or all of it *)
Definition messages (o : publish_options) (input : bytes) (l : list bytes) : Prop :=
  match body o with
  | Some b => l = [b]
  | None => if line_buffered o then lines input l else l = [input]
  end.
(** the argument of --header: "key: value", any number of blanks *)
Definition header_is (h key value : bytes) : Prop :=
  ~ In colon key /\ hd_error value <> Some blank /\ exists n, h = key ++ colon :: repeat blank n ++ value.
Definition no_colon (h : bytes) : Prop := ~ In colon h.
(** the table of headers: the ones with a colon *)
Inductive headers_are : list bytes -> table -> Prop :=
| headers_none : headers_are [] []
| headers_ignored h l t : no_colon h -> headers_are l t -> headers_are (h :: l) t
| headers_more h l t key value : header_is h key value -> headers_are l t -> headers_are (h :: l) ((key, FUtf8 value) :: t).
(** the properties: flag bit, and what is sent, in the order of the wire format *)
Definition when {A} (o : option A) (f : A -> Z * (string * dom * mval)) : list (Z * (string * dom * mval)) :=
  match o with Some a => [f a] | None => [] end.
Definition properties (o : publish_options) (t : table) : list (Z * (string * dom * mval)) :=
  when (content_type o) (fun s => (32768, ("content_type", ShortStr, VBytes s)))%string ++
  when (content_encoding o) (fun s => (16384, ("content_encoding", ShortStr, VBytes s)))%string ++
  when (match headers o with [] => None | _ => Some t end) (fun t => (8192, ("headers", Tbl, VTable t)))%string ++
  [(4096, ("delivery_mode"%string, Octet, VInt (if persistent o then 2 else 1)))] ++
  when (reply_to o) (fun s => (512, ("reply_to", ShortStr, VBytes s)))%string.
Definition header_of (o : publish_options) (t : table) (message : bytes) : aframe :=
  AContent (zlen message) (fold_right Z.add 0 (map fst (properties o t))) [] (map snd (properties o t)).

(** ** amqp-consume *)
Definition is_delivery (f : frame) (tag : Z) : Prop :=
  f_type f = 1 /\ exists m, f_pay f = PMethod (method_id 60 60) m /\ lookup "delivery_tag"%string m = Some (VInt tag).
(** the frames of a content: a header that announces the size, then body frames *)
Definition header_frame (rf : Z * frame) (size : Z) : Prop :=
  0 <= fst rf /\ f_type (snd rf) = 2 /\ exists class props raw, f_pay (snd rf) = PHeader class size props raw.
Definition body_frame (rf : Z * frame) (b : bytes) : Prop := 0 <= fst rf /\ f_type (snd rf) = 3 /\ f_pay (snd rf) = PBody b.
Definition content (frames : list (Z * frame)) (body : bytes) : Prop :=
  exists h rest parts, frames = h :: rest /\ header_frame h (zlen body) /\ Forall2 body_frame rest parts /\ body = concat parts.
(** The frames [frames] have been handled with these runs of the command, and what was
    done is [acts]: every message was given to the command completely, and acknowledged
    if the command exited with status 0 and --no-ack was not given; other frames were
    skipped.  [n] is the number of messages and other frames. *)
Inductive handled (no_ack : bool) : nat -> list (Z * frame) -> list command -> list act -> Prop :=
| handled_none : handled no_ack 0 [] [] []
| handled_other n rf frames cmds acts :
    0 <= fst rf -> (forall tag, ~ is_delivery (snd rf) tag) -> handled no_ack n frames cmds acts ->
    handled no_ack (S n) (rf :: frames) cmds acts
| handled_message n rf tag cont body p status frames cmds acts :
    0 <= fst rf -> is_delivery (snd rf) tag -> content cont body -> c_exit p = Some status -> handled no_ack n frames cmds acts ->
    handled no_ack (S n) (rf :: cont ++ frames) (p :: cmds)
      (Ran body (status =? 0) :: (if (status =? 0) && negb no_ack then [Acked tag] else []) ++ acts).
(** the last message, which was not finished: nothing was done, or a beginning of the body
    was given to the command, or all of it and the acknowledgement failed *)
Fixpoint bodies (frames : list (Z * frame)) : bytes :=
  match frames with
  | [] => []
  | (_, f) :: frames => match f_pay f with PBody b => b ++ bodies frames | _ => bodies frames end
  end.
Definition interrupted (frames : list (Z * frame)) (acts : list act) : Prop :=
  acts = [] \/
  exists rf tag rest, frames = rf :: rest /\ is_delivery (snd rf) tag /\
    ((exists part more, part ++ more = bodies (tl rest) /\ acts = [Broken part]) \/ exists cont body rest', rest = cont ++ rest' /\ content cont body /\ acts = [Ran body true]).

(** a text in parts separated by commas *)
Inductive comma_separated : bytes -> list bytes -> Prop :=
| comma_one k : ~ In comma k -> comma_separated k [k]
| comma_more k s ks : ~ In comma k -> comma_separated s ks -> comma_separated (k ++ comma :: s) (k :: ks).
