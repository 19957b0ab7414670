(** A small tactic for goals [Permutation l l'] between appends of the same pieces. *)
From Coq Require Import List Permutation.
Import ListNotations.

Lemma pl_here {A} (X R : list A) : Permutation (X ++ R) (X ++ R).
Proof. reflexivity. Qed.
Lemma pl_last {A} (X : list A) : Permutation X (X ++ []).
Proof. rewrite app_nil_r. reflexivity. Qed.
Lemma pl_skip {A} (X Y R R' : list A) : Permutation R (X ++ R') -> Permutation (Y ++ R) (X ++ Y ++ R').
Proof. intros H. rewrite H. rewrite !app_assoc. apply Permutation_app_tail. apply Permutation_app_comm. Qed.
Lemma pl_step {A} (X L R R' : list A) : Permutation R (X ++ R') -> Permutation L R' -> Permutation (X ++ L) R.
Proof. intros H K. rewrite H. apply Permutation_app_head. exact K. Qed.
Lemma pl_cons {A} (x : A) l : x :: l = [x] ++ l.
Proof. reflexivity. Qed.
Ltac perm_pull := first [apply pl_here | apply pl_last | apply pl_skip; perm_pull].
Ltac perm_cons := repeat match goal with
  | |- context [?a :: ?l] => lazymatch l with nil => fail | _ => rewrite (pl_cons a l) end end.
Ltac perm := perm_cons; rewrite <- ?app_assoc; cbn [app]; perm_cons; rewrite ?app_nil_r;
  repeat first [reflexivity | eapply pl_step; [perm_pull|]]; rewrite ?app_nil_r; try reflexivity.
