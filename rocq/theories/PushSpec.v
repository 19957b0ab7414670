(** Specification for C75: bytes that the system may hold back (MSG_MORE). *)
From Coq Require Import ZArith List.
From Verif Require Import Base Net NetSpec.
Import ListNotations.

(** every call of send() had (had not) the flag *)
Definition all_flagged (b : bool) (l : list obs) : Prop := Forall (fun o => match o with OSend more _ => more = b | _ => True end) l.
(** the last bytes were given to the system without the flag: it transmits them, and all
    that it held back before *)
Definition pushed (l : list obs) : Prop :=
  exists l1 bs l2, l = l1 ++ OSend false bs :: l2 /\ bs <> [] /\ out_bytes l2 = [].
