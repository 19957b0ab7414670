(** What amqp-get and amqp-consume do with the content of a message (C84, C85). *)
From Coq Require Import String ZArith List Bool.
From Verif Require Import Base Codec TableModel TableSpec FramingStmt FramingModel MethodSpec Frame FrameSpec Net NetApi NetSpec CallSpec
  SpeakSpec Tools ReportSpec ToolQueue RunSpec.
From Verif Require Prop_ToolQueue.
Import ListNotations.
Local Open Scope string_scope.
Local Open Scope list_scope.
Local Open Scope Z_scope.

(** a header frame that announces [size] bytes, and body frames with [body] in them *)
Definition content (D : list frame) (size : Z) (body : bytes) : Prop :=
  exists h class props raw bodies fragments, D = h :: bodies /\ f_type h = 2 /\ f_pay h = PHeader class size props raw /\
    Forall2 (fun f b => f_type f = 3 /\ f_pay f = PBody b) bodies fragments /\ body = concat fragments.
(** the whole body has been received (its size is a 64 bit number) *)
Definition complete (size : Z) (body : bytes) : Prop := zlen body mod 2 ^ 64 = size.
(** a byte in upper case hexadecimal, without a leading zero *)
Definition hexadecimal (z : Z) : bytes :=
  let digit d := nth (Z.to_nat d) (lit "0123456789ABCDEF") x00 in
  lit "0x" ++ (if z <? 16 then [] else [digit (z / 16 mod 16)]) ++ [digit (z mod 16)].
(** The content could not be copied: [D] are the frames that were used, [out] is what has
    been written.  No header: a status of the library, or another frame; no body frame: the
    same; or a write() has failed, its reason is [why]. *)
Definition not_copied (why : bytes) (D : list frame) (out err : bytes) : Prop :=
  let not_a what f := err = lit "expected " ++ lit what ++ lit ", got frame type " ++ hexadecimal (f_type f) ++ [newline] in
  (D = [] /\ out = [] /\ exists st, st < 0 /\ err = line "waiting for header frame" (status_text st)) \/
  (exists f, D = [f] /\ out = [] /\ f_type f <> 2 /\ not_a "header" f) \/
  (exists size, content D size out /\ ~ complete size out /\ exists st, st < 0 /\ err = line "waiting for body frame" (status_text st)) \/
  (exists D' f size, D = D' ++ [f] /\ content D' size out /\ ~ complete size out /\ f_type f <> 3 /\ not_a "body" f) \/
  (exists size more, content D size (out ++ more) /\ err = line "write" why).

(** [basic.get] on channel 1, without acknowledgement *)
Definition get_request (queue : bytes) : bytes :=
  ser_frame 1 (AMethod 60 70 [("ticket", Short); ("queue", ShortStr); ("no_ack", Bit)] [("ticket", VInt 0); ("queue", VBytes queue); ("no_ack", VBool 1)]).
(** The frames [D] come from the server.  And if nothing was lost: in [l] the answer
    basic.get-ok on channel 1 was received, and [D] are the first frames other than
    heartbeats that came with it: those that were waiting already ([queue], received
    earlier), those before the answer, those after it. *)
Definition arrived (seen D : list frame) (l : list obs) : Prop :=
  (forall f, In f D -> In f (seen ++ frames l)) /\
  (no_lost l -> no_oom_obs l ->
   exists queue before reply after rest m, (forall f, In f queue -> In f seen) /\
     no_hb (frames l) = before ++ reply :: after /\ f_type reply = 1 /\ f_chan reply = 1 /\ f_pay reply = PMethod (method_id 60 71) m /\
     no_hb (queue ++ before ++ after) = no_hb D ++ rest).
(** Exit status 0: the queue had a message, standard output is its body, exactly.
    Exit status 2: the server has said that the queue is empty, nothing is printed.
    Failure: what is printed is a beginning of the content that was received (nothing if
    there was none), and one line says what went wrong.  [l1]: up to the end of the
    content; [l2]: closing. *)
Definition got (queue why : bytes) (_ : Z) (seen : list frame) (F : list bytes) (r : ToolQueue.result) (l : list obs) : Prop :=
  (exists C, Prop_ToolQueue.closes C /\ F = get_request queue :: C) /\
  let ok m l := Prop_ToolQueue.answered (method_id 60 71) m l in
  let empty m l := Prop_ToolQueue.answered (method_id 60 72) m l in
  match r with
  | (Returns z, out, err) =>
      err = [] /\ exists m l1 l2, l = l1 ++ l2 /\
      ((z = 2 /\ out = [] /\ empty m l1) \/
       (z = 0 /\ ok m l1 /\ exists D size, content D size out /\ complete size out /\ arrived seen D l1))
  | (_, out, err) =>
      (out = [] /\ blamed [("basic.get", 1)] err l) \/
      (exists m l1 l2 D, l = l1 ++ l2 /\ ok m l1 /\ arrived seen D l1 /\
        ((l2 = [] /\ not_copied why D out err) \/
         (blamed [] err l2 /\ exists size, content D size out /\ complete size out)))
  end.
Definition getting (queue : bytes) (_ : Z) (_ : list frame) (F : list bytes) (_ : list obs) : Prop :=
  exists C, Prop_ToolQueue.closes C /\ F = get_request queue :: C.
