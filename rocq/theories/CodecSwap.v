From Coq Require Import ZArith List Bool Lia.
From Verif Require Import Base BaseFacts Codec.
Import ListNotations.
Local Open Scope Z_scope.

Lemma length_be n v : length (be n v) = n.
Proof. induction n; cbn; auto. Qed.

Lemma zlen_be n v : zlen (be n v) = Z.of_nat n.
Proof. unfold zlen; rewrite length_be; auto. Qed.

Lemma zlen_be_w w v : zlen (be (wnat w) v) = wbytes w.
Proof. rewrite zlen_be. destruct w; reflexivity. Qed.

Lemma is_big_true : is_bigendian BigEndian = true. Proof. reflexivity. Qed.
Lemma is_big_false : is_bigendian LittleEndian = false. Proof. reflexivity. Qed.

Lemma byte_of_Z_eq a b : a mod 256 = b mod 256 -> byte_of_Z a = byte_of_Z b.
Proof. intros; unfold byte_of_Z; rewrite H; auto. Qed.

(** byte k of an integer, by bits *)
Lemma byte_bits a b i j : 0 <= i -> 0 <= j ->
  (forall n, 0 <= n < 8 -> Z.testbit a (n + i) = Z.testbit b (n + j)) ->
  byte_of_Z (a / 2 ^ i) = byte_of_Z (b / 2 ^ j).
Proof.
  intros Hi Hj H. apply byte_of_Z_eq.
  rewrite <- !Z.shiftr_div_pow2 by auto.
  change 256 with (2 ^ 8). rewrite <- !Z.land_ones by lia.
  apply Z.bits_inj'. intros n Hn. rewrite !Z.land_spec, !Z.shiftr_spec by auto.
  destruct (Z.lt_ge_cases n 8).
  - rewrite H by lia. reflexivity.
  - rewrite Z.ones_spec_high by lia. rewrite !andb_false_r. reflexivity.
Qed.

Ltac cases8 n H :=
  assert (n = 0 \/ n = 1 \/ n = 2 \/ n = 3 \/ n = 4 \/ n = 5 \/ n = 6 \/ n = 7) by lia;
  clear H; repeat match goal with X : _ \/ _ |- _ => destruct X as [X|X] end; subst n.

Ltac evalbits :=
  repeat match goal with
  | |- context [Z.testbit (Zpos ?p) ?k] =>
     let b := eval vm_compute in (Z.testbit (Zpos p) k) in
     change (Z.testbit (Zpos p) k) with b
  end.

Ltac nrm :=
  repeat match goal with
  | |- context [?a + ?b] => let c := eval vm_compute in (a + b) in change (a+b) with c
  | |- context [?a - ?b] => let c := eval vm_compute in (a - b) in change (a-b) with c
  end.

Lemma mod_testbit a k n : 0 <= k -> Z.testbit (a mod 2 ^ k) n = (n <? k) && Z.testbit a n.
Proof.
  intros. destruct (Z.ltb_spec n k).
  - rewrite Z.mod_pow2_bits_low by lia. reflexivity.
  - rewrite Z.mod_pow2_bits_high by lia. reflexivity.
Qed.

Ltac bits :=
  unfold swap16, swap32, swap64, u16, u32, u64;
  change M16 with (2 ^ 16); change M32 with (2 ^ 32); change M64 with (2 ^ 64);
  repeat (rewrite ?mod_testbit, ?Z.lor_spec, ?Z.land_spec by lia;
          rewrite ?Z.shiftr_spec, ?Z.shiftl_spec by lia; nrm);
  evalbits; rewrite ?mod_testbit by lia;
  repeat match goal with
  | |- context [Z.ltb ?a ?b] => let c := eval vm_compute in (Z.ltb a b) in change (Z.ltb a b) with c
  end;
  cbn [andb orb]; rewrite ?andb_true_r, ?andb_false_r, ?orb_false_r, ?orb_false_l;
  cbn [andb orb]; try reflexivity.

Lemma testbit_neg' a n : n < 0 -> Z.testbit a n = false.
Proof. intros. destruct n; try lia. reflexivity. Qed.

Ltac fin := rewrite ?testbit_neg' by lia; rewrite ?andb_true_r, ?andb_false_r, ?orb_false_r, ?orb_false_l; cbn [andb orb]; try reflexivity.

Lemma store_le_2 v : store_le 2 v = [byte_of_Z (v / 2^0); byte_of_Z (v / 2^8)].
Proof. cbn [store_le]. rewrite Z.div_1_r. reflexivity. Qed.

Lemma store_le_4 v : store_le 4 v =
  [byte_of_Z (v / 2^0); byte_of_Z (v / 2^8); byte_of_Z (v / 2^16); byte_of_Z (v / 2^24)].
Proof. cbn [store_le]. rewrite Z.div_1_r, !Z.div_div by lia. reflexivity. Qed.

Lemma store_le_8 v : store_le 8 v =
  [byte_of_Z (v / 2^0); byte_of_Z (v / 2^8); byte_of_Z (v / 2^16); byte_of_Z (v / 2^24);
   byte_of_Z (v / 2^32); byte_of_Z (v / 2^40); byte_of_Z (v / 2^48); byte_of_Z (v / 2^56)].
Proof. cbn [store_le]. rewrite Z.div_1_r, !Z.div_div by lia. reflexivity. Qed.

Lemma be_1 v : be 1 v = [byte_of_Z v].
Proof. cbn. rewrite Z.div_1_r. reflexivity. Qed.

Lemma be_2 v : be 2 v = [byte_of_Z (v / 2^8); byte_of_Z (v / 2^0)].
Proof. reflexivity. Qed.
Lemma be_4 v : be 4 v =
  [byte_of_Z (v / 2^24); byte_of_Z (v / 2^16); byte_of_Z (v / 2^8); byte_of_Z (v / 2^0)].
Proof. reflexivity. Qed.
Lemma be_8 v : be 8 v =
  [byte_of_Z (v / 2^56); byte_of_Z (v / 2^48); byte_of_Z (v / 2^40); byte_of_Z (v / 2^32);
   byte_of_Z (v / 2^24); byte_of_Z (v / 2^16); byte_of_Z (v / 2^8); byte_of_Z (v / 2^0)].
Proof. reflexivity. Qed.

Ltac swapproof :=
  repeat (f_equal; []); repeat f_equal;
  match goal with |- ?l = ?r => idtac end.

Lemma cons_eq {A} (a b : A) l m : a = b -> l = m -> a :: l = b :: m.
Proof. congruence. Qed.

Ltac eachbyte :=
  repeat apply cons_eq; try reflexivity;
  apply byte_bits; try lia;
  let n := fresh "n" in let Hn := fresh "Hn" in intros n Hn; cases8 n Hn; bits; fin.

Lemma swap16_be v : store_le 2 (swap16 v) = be 2 v.
Proof. rewrite store_le_2, be_2. eachbyte. Qed.

Lemma swap32_be v : store_le 4 (swap32 v) = be 4 v.
Proof. rewrite store_le_4, be_4. eachbyte. Qed.

Lemma swap64_be v : store_le 8 (swap64 v) = be 8 v.
Proof. rewrite store_le_8, be_8. eachbyte. Qed.

Lemma amqp_e_be h w v : amqp_e h w v = be (wnat w) v.
Proof.
  destruct w; cbn [amqp_e wnat].
  - unfold amqp_e8. destruct h; cbn; rewrite Z.div_1_r; reflexivity.
  - unfold amqp_e16. destruct h; rewrite ?is_big_true, ?is_big_false; cbn [negb store].
    + apply swap16_be.
    + rewrite store_le_2, be_2. reflexivity.
  - unfold amqp_e32. destruct h; rewrite ?is_big_true, ?is_big_false; cbn [negb store].
    + apply swap32_be.
    + rewrite store_le_4, be_4. reflexivity.
  - unfold amqp_e64. destruct h; rewrite ?is_big_true, ?is_big_false; cbn [negb store].
    + apply swap64_be.
    + rewrite store_le_8, be_8. reflexivity.
Qed.

