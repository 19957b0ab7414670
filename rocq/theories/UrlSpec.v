(** Specification of AMQP URLs: amqp[s]://[user[:password]@][host][:port][/vhost],
    with percent-encoding, written independently of the parser. *)
From Coq Require Import String ZArith List Bool.
From Verif Require Import Base.
Import ListNotations.
Local Open Scope list_scope.
Local Open Scope Z_scope.

Notation "'str' s" := (list_byte_of_string s%string) (at level 9, only parsing).

(** [c] is the hexadecimal (decimal) digit with the value [n] *)
Definition is_hex (c : byte) (n : nat) : Prop :=
  nth_error (str "0123456789abcdef") n = Some c \/ nth_error (str "0123456789ABCDEF") n = Some c.
Definition is_dec (c : byte) (n : nat) : Prop := nth_error (str "0123456789") n = Some c.

(** characters that stand for themselves; inside brackets also ':' and '@' *)
Definition literal (brackets : bool) (c : byte) : Prop :=
  c <> x00 /\ ~ In c (str "/?#[]%") /\ (brackets = false -> ~ In c (str ":@")).

(** [encodes b d e]: [e] is a percent-encoding of [d]; [cm] is the largest character code *)
Inductive encodes (cm : Z) (brackets : bool) : bytes -> bytes -> Prop :=
| enc_nil : encodes cm brackets [] []
| enc_lit c d e : literal brackets c -> encodes cm brackets d e -> encodes cm brackets (c :: d) (c :: e)
| enc_pct c h l a b d e : is_hex h a -> is_hex l b -> Z_of_byte c = 16 * Z.of_nat a + Z.of_nat b -> c <> x00 -> Z_of_byte c <= cm ->
    encodes cm brackets d e -> encodes cm brackets (c :: d) (x25 :: h :: l :: e).

Definition scheme (ssl : bool) : bytes := if ssl then str "amqps://" else str "amqp://".

Inductive user_part (cm : Z) : bytes -> bytes -> bytes -> Prop :=
| up_none : user_part cm (str "guest") (str "guest") []
| up_user u e : encodes cm false u e -> user_part cm u (str "guest") (e ++ str "@")
| up_both u e p f : encodes cm false u e -> encodes cm false p f -> user_part cm u p (e ++ str ":" ++ f ++ str "@").

Inductive host_part (cm : Z) : bytes -> bytes -> Prop :=
| hp_none : host_part cm (str "localhost") []
| hp_name h e : h <> [] -> encodes cm false h e -> host_part cm h e
| hp_v6 h e : encodes cm true h e -> host_part cm h (str "[" ++ e ++ str "]").

Inductive decimal : Z -> bytes -> Prop :=
| dec_one c n : is_dec c n -> decimal (Z.of_nat n) [c]
| dec_more v s c n : decimal v s -> is_dec c n -> decimal (10 * v + Z.of_nat n) (s ++ [c]).

Inductive port_part (ssl : bool) : Z -> bytes -> Prop :=
| pp_none : port_part ssl (if ssl then 5671 else 5672) []
| pp_port p s : decimal p s -> p <= 65535 -> port_part ssl p (str ":" ++ s).

Inductive vhost_part (cm : Z) : bytes -> bytes -> Prop :=
| vp_none : vhost_part cm (str "/") []
| vp_vhost v e : encodes cm false v e -> vhost_part cm v (str "/" ++ e).

(** ** What the parser accepts in addition *)
(** Escapes: two hexadecimal digits; but also a sign or a white space character and one
    digit, and (with some C libraries) "0x". *)
Definition blank (c : byte) : Prop := In c [x09; x0a; x0b; x0c; x0d; x20].
Definition lenient_escape (h l : byte) : Prop :=
  ((exists a, is_hex h a) \/ h = x2b \/ h = x2d \/ blank h) /\ (exists b, is_hex l b) \/
  h = x30 /\ (l = x78 \/ l = x58).

(** the text of a component *)
Inductive component (brackets : bool) : bytes -> Prop :=
| co_nil : component brackets []
| co_lit c e : literal brackets c -> component brackets e -> component brackets (c :: e)
| co_pct h l e : lenient_escape h l -> component brackets e -> component brackets (x25 :: h :: l :: e).

(** a component whose text is empty, or that starts with an escaped NUL *)
Definition void (e : bytes) : Prop := component false e /\ (e = [] \/ exists h l r, e = x25 :: h :: l :: r).

Inductive user_text : bytes -> Prop :=
| ut_none : user_text []
| ut_user e : component false e -> user_text (e ++ str "@")
| ut_both e f : component false e -> component false f -> user_text (e ++ str ":" ++ f ++ str "@").
Inductive host_text : bytes -> Prop :=
| ht_name e : component false e -> host_text e
| ht_v6 j e k : void j -> component true e -> void k -> host_text (j ++ str "[" ++ e ++ str "]" ++ k).
Inductive port_text : bytes -> Prop :=
| pt_none : port_text []
| pt_port e : component false e -> port_text (str ":" ++ e)
| pt_two e f : component false e -> component false f -> port_text (str ":" ++ e ++ str ":" ++ f).
Inductive vhost_text : bytes -> Prop :=
| vt_none : vhost_text []
| vt_vhost e : component false e -> vhost_text (str "/" ++ e).
