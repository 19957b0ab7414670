(** What a command line tool should say when a call to the library has failed (C80). *)
From Coq Require Import String ZArith List Bool.
From Verif Require Import Base Codec TableModel FramingStmt FramingModel MethodSpec Frame FrameSpec Net NetApi NetSpec Prop_Calls Tools.
From Verif Require Prop_ErrStr.
Import ListNotations.
Local Open Scope string_scope.
Local Open Scope list_scope.
Local Open Scope Z_scope.

(** the text for a status of amqp.h (Prop_ErrStr.documented) *)
Definition status_text (st : Z) : bytes := lit (match Prop_ErrStr.lookup st with Some msg => msg | None => "(unknown error)" end).
(** a text up to its first NUL, if it has one *)
Definition up_to_nul (text shown : bytes) : Prop :=
  ~ In x00 shown /\ exists rest, text = shown ++ rest /\ (rest = [] \/ exists r, rest = x00 :: r).
(** the report of a close: its code in decimal, its text *)
Definition close_report (what : string) (m : mstruct) (report : bytes) : Prop :=
  exists code text dec shown, lookup "reply_code" m = Some (VInt code) /\ lookup "reply_text" m = Some (VBytes text) /\
    0 <= code <= 65535 /\ zlen text <= 255 /\ decimal_of dec code /\ up_to_nul text shown /\
    report = lit what ++ dec ++ lit ", message: " ++ shown.
(** The explanation is that of a library status, or the close that was received, for the
    channel [ch] or for the connection. *)
Definition explained (ch : Z) (fs : list frame) (text : bytes) : Prop :=
  (exists st, st < 0 /\ text = status_text st) \/
  (exists f m, In f fs /\ f_type f = 1 /\ f_chan f = ch /\ f_pay f = PMethod (method_id 20 40) m /\ close_report "server channel error " m text) \/
  (exists f m, In f fs /\ f_type f = 1 /\ f_chan f = 0 /\ f_pay f = PMethod (method_id 10 50) m /\ close_report "server connection error " m text).
(** one line: the context, a colon, the explanation *)
Definition line (context : string) (text : bytes) : bytes := lit context ++ lit ": " ++ text ++ [newline].
