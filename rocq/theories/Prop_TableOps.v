(** Operations on tables: C21 (comparison), C22 (cloning), C23 (merging). *)
From Coq Require Import ZArith List Bool Lia.
From Verif Require Import Base BaseFacts TableModel TableSpec TableEnc Sasl Prop_Sasl TableOps.
Import ListNotations.
Local Open Scope Z_scope.

(** ** C21 *)
(** Byte strings in dictionary order: a proper prefix comes first. *)
Definition key_lt (a b : bytes) : Prop :=
  (exists c, c <> [] /\ b = a ++ c) \/
  (exists p x y s t, a = p ++ x :: s /\ b = p ++ y :: t /\ Z_of_byte x < Z_of_byte y).

Lemma Z_of_byte_inj x y : Z_of_byte x = Z_of_byte y -> x = y.
Proof.
  unfold Z_of_byte. intros H. apply N2Z.inj in H. pose proof (Byte.of_to_N x) as A. pose proof (Byte.of_to_N y) as B. congruence.
Qed.

Lemma key_lt_cons x a b : key_lt (x :: a) (x :: b) <-> key_lt a b.
Proof.
  split.
  - intros [(c & N & E)|(p & y & z & s & t & E1 & E2 & L)].
    + cbn in E. injection E as E. left. exists c. auto.
    + destruct p as [|w p]; cbn in E1, E2.
      * injection E1 as -> ->. injection E2 as <- _. lia.
      * injection E1 as -> ->. injection E2 as ->. right. exists p, y, z, s, t. auto.
  - intros [(c & N & ->)|(p & y & z & s & t & -> & -> & L)].
    + left. exists c. auto.
    + right. exists (x :: p), y, z, s, t. auto.
Qed.

(** comparison without lengths in the result *)
Fixpoint compare_keys (a b : bytes) : comparison :=
  match a, b with
  | [], [] => Eq
  | [], _ => Lt
  | _, [] => Gt
  | x :: a, y :: b => match Z_of_byte x ?= Z_of_byte y with Eq => compare_keys a b | c => c end
  end.

Lemma compare_keys_spec a b : match compare_keys a b with Eq => a = b | Lt => key_lt a b | Gt => key_lt b a end.
Proof.
  revert b. induction a as [|x a IH]; intros [|y b]; cbn.
  - reflexivity.
  - left. exists (y :: b). split; [discriminate|reflexivity].
  - left. exists (x :: a). split; [discriminate|reflexivity].
  - destruct (Z.compare_spec (Z_of_byte x) (Z_of_byte y)) as [E|L|L].
    + apply Z_of_byte_inj in E. subst y. specialize (IH b). destruct (compare_keys a b); [congruence|apply key_lt_cons; auto|apply key_lt_cons; auto].
    + right. exists [], x, y, a, b. auto.
    + right. exists [], y, x, b, a. auto.
Qed.

Lemma key_lt_irrefl a : ~ key_lt a a.
Proof.
  induction a as [|x a IH].
  - intros [(c & N & E)|(p & x & y & s & t & E & _)]; [cbn in E; congruence|destruct p; discriminate].
  - rewrite key_lt_cons. exact IH.
Qed.
Lemma key_lt_trans a b c : key_lt a b -> key_lt b c -> key_lt a c.
Proof.
  revert b c. induction a as [|x a IH]; intros b c H1 H2.
  - destruct c as [|z c].
    + destruct H2 as [(d & N & E)|(p & u & v & s & t & _ & E & _)]; [|destruct p; discriminate].
      destruct b; [|discriminate]. exfalso. exact (key_lt_irrefl [] H1).
    + left. exists (z :: c). split; [discriminate|reflexivity].
  - destruct b as [|y b].
    { destruct H1 as [(d & N & E)|(p & u & v & s & t & _ & E & _)]; [discriminate|destruct p; discriminate]. }
    destruct c as [|z c].
    { destruct H2 as [(d & N & E)|(p & u & v & s & t & _ & E & _)]; [discriminate|destruct p; discriminate]. }
    assert (HD : forall u v a b, key_lt (u :: a) (v :: b) -> Z_of_byte u < Z_of_byte v \/ (u = v /\ key_lt a b)).
    { clear. intros u v a b H. assert (K := H). destruct H as [(d & N & E)|(p & m & n & s & t & E1 & E2 & L)].
      - cbn in E. injection E as -> E. right. split; [reflexivity|]. apply key_lt_cons in K. exact K.
      - destruct p as [|w p]; cbn in E1, E2; injection E1 as -> ->; injection E2 as -> ->; [auto|].
        right. split; [reflexivity|]. apply key_lt_cons in K. exact K. }
    destruct (HD _ _ _ _ H1) as [L1|[-> K1]]; destruct (HD _ _ _ _ H2) as [L2|[-> K2]].
    + right. exists [], x, z, a, c. repeat split; auto. lia.
    + right. exists [], x, z, a, c. auto.
    + right. exists [], y, z, a, c. auto.
    + apply key_lt_cons. eauto.
Qed.

Lemma memcmp_compare : forall a b, match compare_keys a b with
  | Eq => memcmp (Nat.min (length a) (length b)) a b = 0 /\ length a = length b
  | Lt => memcmp (Nat.min (length a) (length b)) a b = -1 \/ (memcmp (Nat.min (length a) (length b)) a b = 0 /\ (length a < length b)%nat)
  | Gt => memcmp (Nat.min (length a) (length b)) a b = 1 \/ (memcmp (Nat.min (length a) (length b)) a b = 0 /\ (length b < length a)%nat)
  end.
Proof.
  induction a as [|x a IH]; intros [|y b]; cbn [compare_keys length Nat.min memcmp]; auto; try (right; split; [reflexivity|lia]).
  destruct (Z.compare_spec (Z_of_byte x) (Z_of_byte y)) as [E|L|L].
  - apply Z_of_byte_inj in E. subst y. rewrite !Z.ltb_irrefl. specialize (IH b).
    destruct (compare_keys a b); intuition lia.
  - left. destruct (Z.ltb_spec (Z_of_byte x) (Z_of_byte y)); [reflexivity|lia].
  - left. destruct (Z.ltb_spec (Z_of_byte x) (Z_of_byte y)); [lia|]. destruct (Z.ltb_spec (Z_of_byte y) (Z_of_byte x)); [reflexivity|lia].
Qed.

(** C21.  For keys shorter than 2^31 bytes the comparison is defined, negative exactly
    when the first key comes first in dictionary order, zero exactly for equal keys,
    positive exactly when the second key comes first. *)
Theorem C21_dictionary_order : forall k1 k2, zlen k1 < M31 -> zlen k2 < M31 ->
  exists r, amqp_table_entry_cmp k1 k2 = Some r /\ (r < 0 <-> key_lt k1 k2) /\ (r = 0 <-> k1 = k2) /\ (0 < r <-> key_lt k2 k1).
Proof.
  intros k1 k2 L1 L2. unfold amqp_table_entry_cmp.
  assert (M : Z.to_nat (if zlen k2 <? zlen k1 then zlen k2 else zlen k1) = Nat.min (length k1) (length k2)).
  { unfold zlen in *. destruct (Z.ltb_spec (Z.of_nat (length k2)) (Z.of_nat (length k1))); lia. }
  rewrite M. clear M.
  assert (S1 : forall k : bytes, zlen k < M31 -> signed M32 (zlen k) = zlen k).
  { intros k H. pose proof (zlen_nonneg k). unfold signed. rewrite Z.mod_small by lia.
    destruct (Z.ltb_spec (zlen k) (M32 / 2)) as [|K]; [reflexivity|]. change (M32 / 2) with M31 in K. lia. }
  rewrite !S1 by assumption. pose proof (zlen_nonneg k1) as N1. pose proof (zlen_nonneg k2) as N2.
  assert (OV : (zlen k1 - zlen k2 <? - M31) || (INT_MAX <? zlen k1 - zlen k2) = false).
  { apply orb_false_iff. split; apply Z.ltb_ge; lia. }
  rewrite OV. pose proof (memcmp_compare k1 k2) as MC. pose proof (compare_keys_spec k1 k2) as CS.
  assert (K : exists r, (if negb (memcmp (Nat.min (length k1) (length k2)) k1 k2 =? 0) then Some (memcmp (Nat.min (length k1) (length k2)) k1 k2)
                        else Some (zlen k1 - zlen k2)) = Some r /\
              match compare_keys k1 k2 with Eq => r = 0 | Lt => r < 0 | Gt => 0 < r end).
  { unfold zlen. destruct (compare_keys k1 k2).
    - destruct MC as [-> E]. eexists. split; [reflexivity|]. lia.
    - destruct MC as [->|[-> E]]; eexists; (split; [reflexivity|lia]).
    - destruct MC as [->|[-> E]]; eexists; (split; [reflexivity|lia]). }
  destruct K as (r & E & R). exists r. split; [exact E|]. clear E MC.
  pose proof (key_lt_irrefl k1) as I1. pose proof (key_lt_irrefl k2) as I2.
  destruct (compare_keys k1 k2).
  - subst k2. split; [|split]; split; intros; try lia; try tauto.
  - assert (~ key_lt k2 k1) by (intros K; exact (I1 (key_lt_trans _ _ _ CS K))).
    split; [|split]; split; intros K; try lia; try tauto. subst. tauto.
  - assert (~ key_lt k1 k2) by (intros K; exact (I1 (key_lt_trans _ _ _ K CS))).
    split; [|split]; split; intros K; try lia; try tauto. subst. tauto.
Qed.

(** So it is a total order: what qsort requires of the comparison. *)
Theorem C21_total_order : forall a b c, zlen a < M31 -> zlen b < M31 -> zlen c < M31 ->
  exists ab ba bc ac, amqp_table_entry_cmp a b = Some ab /\ amqp_table_entry_cmp b a = Some ba /\
    amqp_table_entry_cmp b c = Some bc /\ amqp_table_entry_cmp a c = Some ac /\
    (ab < 0 <-> 0 < ba) /\ (ab = 0 <-> a = b) /\ (ab <= 0 -> bc <= 0 -> ac <= 0) /\ amqp_table_entry_cmp a a = Some 0.
Proof.
  intros a b c La Lb Lc.
  destruct (C21_dictionary_order a b La Lb) as (ab & E1 & A1 & A2 & A3).
  destruct (C21_dictionary_order b a Lb La) as (ba & E2 & B1 & B2 & B3).
  destruct (C21_dictionary_order b c Lb Lc) as (bc & E3 & D1 & D2 & D3).
  destruct (C21_dictionary_order a c La Lc) as (ac & E4 & F1 & F2 & F3).
  destruct (C21_dictionary_order a a La La) as (aa & E5 & G1 & G2 & G3).
  exists ab, ba, bc, ac. repeat (split; [assumption|]). split; [tauto|]. split; [tauto|]. split.
  - intros H1 H2. assert (~ 0 < ac); [|lia]. rewrite F3. intros K.
    destruct (Z.eq_dec ab 0) as [Z1|Z1]; [apply A2 in Z1; subst b; rewrite <- D3 in K; lia|].
    assert (K1 : key_lt a b) by (apply A1; lia).
    assert (K2 : key_lt c b) by (eapply key_lt_trans; eauto). apply D3 in K2. lia.
  - rewrite E5. f_equal. apply G2. reflexivity.
Qed.

(** The bound is needed: a key of 2^31 zero bytes sorts before the empty key. *)
Theorem C21_gigantic_keys_refuted : exists k, zlen k = M31 /\ amqp_table_entry_cmp k [] = Some (- M31) /\ key_lt [] k.
Proof.
  assert (H : exists k : bytes, zlen k = M31).
  { exists (repeat x00 (Z.to_nat M31)). unfold zlen. rewrite repeat_length, Z2Nat.id; [reflexivity|discriminate]. }
  destruct H as [k L]. exists k. split; [exact L|]. split.
  - unfold amqp_table_entry_cmp. rewrite L. change (zlen (@nil byte)) with 0.
    change (0 <? M31) with true. cbv iota. change (Z.to_nat 0) with O. cbn [memcmp]. reflexivity.
  - left. exists k. split; [|reflexivity]. intros K. rewrite K in L. discriminate L.
Qed.

(** ** C22 *)
(** No empty key and no value of an unknown kind, at any level. *)
Fixpoint cloneable (v : fv) : bool :=
  match v with
  | FArray l => forallb cloneable l
  | FTable t => forallb (fun e => negb (zlen (fst e) =? 0) && cloneable (snd e)) t
  | FOther _ => false
  | _ => true
  end.
Definition cloneable_table (t : table) : bool := forallb (fun e => negb (zlen (fst e) =? 0) && cloneable (snd e)) t.

Definition clone_ok (oom : nat -> bool) {A} (can : bool) (x : A) (r : cres A) : Prop :=
  match fst r with
  | inr y => y = x /\ can = true
  | inl s => (s = AMQP_STATUS_NO_MEMORY /\ exists i, oom i = true) \/ (s = AMQP_STATUS_INVALID_PARAMETER /\ can = false)
  end.

Lemma zlen_0 {A} (l : list A) : (zlen l =? 0) = true -> l = [].
Proof. destruct l; [reflexivity|]. intros H. apply Z.eqb_eq in H. rewrite zlen_cons in H. pose proof (zlen_nonneg l). lia. Qed.

Lemma clone_entries_ok oom t : Forall (fun e => forall n, clone_ok oom (cloneable (snd e)) (snd e) (amqp_field_value_clone oom (snd e) n)) t ->
  forall n, clone_ok oom (cloneable_table t) t (clone_entries oom (amqp_field_value_clone oom) t n).
Proof.
  induction 1 as [|[k v] t H F IH]; intros n; cbn [clone_entries].
  - split; reflexivity.
  - cbn [cloneable_table forallb fst snd]. fold (cloneable_table t). destruct (zlen k =? 0) eqn:K; [right; cbn; auto|].
    destruct (oom n) eqn:O; [left; eauto|]. cbn [negb andb snd] in *.
    specialize (H (S n)). destruct (amqp_field_value_clone oom v (S n)) as [[s|v'] n1]; unfold clone_ok in H; cbn [fst] in H.
    { unfold clone_ok; cbn [fst]. destruct H as [H|[-> ->]]; [auto|right; auto]. }
    destruct H as [-> ->]. specialize (IH n1). destruct (clone_entries oom (amqp_field_value_clone oom) t n1) as [[s|t'] n2]; unfold clone_ok in *; cbn [fst] in *.
    + destruct IH as [IH|[-> ->]]; auto.
    + destruct IH as [-> ->]. auto.
Qed.
Lemma clone_values_ok oom l : Forall (fun v => forall n, clone_ok oom (cloneable v) v (amqp_field_value_clone oom v n)) l ->
  forall n, clone_ok oom (forallb cloneable l) l (clone_values (amqp_field_value_clone oom) l n).
Proof.
  induction 1 as [|v l H F IH]; intros n; cbn [clone_values].
  - split; reflexivity.
  - cbn [forallb]. specialize (H n). destruct (amqp_field_value_clone oom v n) as [[s|v'] n1]; unfold clone_ok in H; cbn [fst] in H.
    { unfold clone_ok; cbn [fst]. destruct H as [H|[-> ->]]; [auto|right; auto]. }
    destruct H as [-> ->]. specialize (IH n1). destruct (clone_values (amqp_field_value_clone oom) l n1) as [[s|t'] n2]; unfold clone_ok in *; cbn [fst] in *.
    + destruct IH as [IH|[-> ->]]; auto.
    + destruct IH as [-> ->]. auto.
Qed.
Lemma clone_table_with_ok oom t : Forall (fun e => forall n, clone_ok oom (cloneable (snd e)) (snd e) (amqp_field_value_clone oom (snd e) n)) t ->
  forall n, clone_ok oom (cloneable_table t) t (clone_table_with oom (amqp_field_value_clone oom) t n).
Proof.
  intros F n. unfold clone_table_with. destruct (zlen t =? 0) eqn:Z; [rewrite (zlen_0 t Z); split; reflexivity|].
  destruct (oom n) eqn:O; [left; eauto|]. apply clone_entries_ok. exact F.
Qed.

Lemma clone_value_ok oom v : forall n, clone_ok oom (cloneable v) v (amqp_field_value_clone oom v n).
Proof.
  induction v as [l IH|t IH|v Ha Ht] using fv_ind'; intros n.
  - cbn [amqp_field_value_clone cloneable]. destruct (zlen l =? 0) eqn:Z; [rewrite (zlen_0 l Z); split; reflexivity|].
    destruct (oom n) eqn:O; [left; eauto|].
    pose proof (clone_values_ok oom l IH (S n)) as H.
    destruct (clone_values (amqp_field_value_clone oom) l (S n)) as [[s|l'] n1]; unfold clone_ok in *; cbn [fst] in *; [auto|].
    destruct H as [-> H]. auto.
  - cbn [amqp_field_value_clone cloneable]. fold (cloneable_table t). pose proof (clone_table_with_ok oom t IH n) as H.
    destruct (clone_table_with oom (amqp_field_value_clone oom) t n) as [[s|l'] n1]; unfold clone_ok in *; cbn [fst] in *; [auto|].
    destruct H as [-> H]. auto.
  - destruct v; try (split; reflexivity); try (exfalso; apply (Ha _ eq_refl)); try (exfalso; apply (Ht _ eq_refl)).
    + cbn [amqp_field_value_clone]. destruct (zlen s =? 0) eqn:Z; [rewrite (zlen_0 s Z); split; reflexivity|].
      destruct (oom n) eqn:O; [left; eauto|split; reflexivity].
    + cbn [amqp_field_value_clone]. destruct (zlen s =? 0) eqn:Z; [rewrite (zlen_0 s Z); split; reflexivity|].
      destruct (oom n) eqn:O; [left; eauto|split; reflexivity].
    + right. auto.
Qed.

Lemma clone_table_ok oom t n : clone_ok oom (cloneable_table t) t (amqp_table_clone oom t n).
Proof. apply clone_table_with_ok. apply Forall_forall. intros e _. apply clone_value_ok. Qed.

(** C22.  Without allocation failures a table is cloned exactly when it has no empty
    key and no value of an unknown kind, and the clone equals it; otherwise the
    result is AMQP_STATUS_INVALID_PARAMETER. *)
Theorem C22_clone : forall oom t n, (forall i, oom i = false) ->
  fst (amqp_table_clone oom t n) = if cloneable_table t then inr t else inl AMQP_STATUS_INVALID_PARAMETER.
Proof.
  intros oom t n O. pose proof (clone_table_ok oom t n) as H. unfold clone_ok in H.
  destruct (fst (amqp_table_clone oom t n)) as [s|t'].
  - destruct H as [(_ & i & K)|(-> & ->)]; [rewrite O in K; discriminate|reflexivity].
  - destruct H as [-> ->]. reflexivity.
Qed.
(** With failing allocations a success still is a faithful copy. *)
Theorem C22_clone_faithful : forall oom t n t', fst (amqp_table_clone oom t n) = inr t' -> t' = t /\ cloneable_table t = true.
Proof. intros oom t n t' E. pose proof (clone_table_ok oom t n) as H. unfold clone_ok in H. rewrite E in H. exact H. Qed.

Example C22_example : fst (amqp_table_clone (fun _ => false) [([x61], FTable [([x62], FArray [FBool 1; FUtf8 []])]); ([x63], FBytes [x00])] 0) =
  inr [([x61], FTable [([x62], FArray [FBool 1; FUtf8 []])]); ([x63], FBytes [x00])].
Proof. vm_compute. reflexivity. Qed.
Example C22_empty_key : fst (amqp_table_clone (fun _ => false) [([x61], FTable [([], FVoid)])] 0) = inl AMQP_STATUS_INVALID_PARAMETER.
Proof. vm_compute. reflexivity. Qed.

(** ** C23 *)
(** The value of a key: that of its first entry. *)
Fixpoint lookup (k : bytes) (t : table) : option fv :=
  match t with
  | [] => None
  | (k', v) :: t => if list_eq_dec Byte.byte_eq_dec k' k then Some v else lookup k t
  end.

(** [r] is the merge of [base] and [add]: keys of [add] have the added value, merged with
    the old one if both are tables; other keys keep the value of [base]. *)
Inductive is_merge (base add r : table) : Prop :=
| IsMerge :
  (forall k a b, lookup k add = Some (FTable a) -> lookup k base = Some (FTable b) ->
     exists m, lookup k r = Some (FTable m) /\ is_merge b a m) ->
  (forall k v, lookup k add = Some v -> (forall a b, ~ (v = FTable a /\ lookup k base = Some (FTable b))) -> lookup k r = Some v) ->
  (forall k, lookup k add = None -> lookup k r = lookup k base) ->
  NoDup (map fst r) -> is_merge base add r.

(** Distinct keys in a table and in the tables it maps keys to. *)
Fixpoint distinct (v : fv) : Prop :=
  match v with
  | FTable t => NoDup (map fst t) /\ all (fun e => distinct (snd e)) t
  | _ => True
  end.

Lemma get_lookup t k : amqp_table_get_entry_by_key t k = lookup k t.
Proof.
  induction t as [|[k' v] t IH]; cbn; [reflexivity|]. destruct (list_eq_dec Byte.byte_eq_dec k' k) as [->|N].
  - assert (bytes_equal k k = true) as -> by (apply bytes_equal_eq; reflexivity). reflexivity.
  - destruct (bytes_equal k' k) eqn:E; [apply bytes_equal_eq in E; contradiction|exact IH].
Qed.
Lemma lookup_set t k v k' : lookup k t <> None -> lookup k' (set_entry t k v) = if list_eq_dec Byte.byte_eq_dec k k' then Some v else lookup k' t.
Proof.
  induction t as [|[k0 v0] t IH]; cbn [lookup set_entry]; [congruence|]. intros H.
  destruct (list_eq_dec Byte.byte_eq_dec k0 k) as [->|N].
  - assert (bytes_equal k k = true) as -> by (apply bytes_equal_eq; reflexivity). cbn [lookup]. destruct (list_eq_dec Byte.byte_eq_dec k k'); reflexivity.
  - destruct (bytes_equal k0 k) eqn:E; [apply bytes_equal_eq in E; contradiction|]. cbn [lookup].
    destruct (list_eq_dec Byte.byte_eq_dec k0 k') as [->|N']; [destruct (list_eq_dec Byte.byte_eq_dec k k'); [congruence|reflexivity]|]. apply IH. exact H.
Qed.
Lemma keys_set t k v : map fst (set_entry t k v) = map fst t.
Proof. induction t as [|[k0 v0] t IH]; cbn; [reflexivity|]. destruct (bytes_equal k0 k); cbn; congruence. Qed.
Lemma lookup_app t k v k' : lookup k' (t ++ [(k, v)]) = match lookup k' t with Some x => Some x | None => if list_eq_dec Byte.byte_eq_dec k k' then Some v else None end.
Proof. induction t as [|[k0 v0] t IH]; cbn; [destruct (list_eq_dec Byte.byte_eq_dec k k'); reflexivity|]. destruct (list_eq_dec Byte.byte_eq_dec k0 k'); auto. Qed.
Lemma lookup_None t k : lookup k t = None <-> ~ In k (map fst t).
Proof.
  induction t as [|[k0 v0] t IH]; cbn; [tauto|]. destruct (list_eq_dec Byte.byte_eq_dec k0 k) as [->|N]; [split; [discriminate|tauto]|].
  rewrite IH. tauto.
Qed.
Lemma NoDup_snoc {A} (l : list A) x : NoDup l -> ~ In x l -> NoDup (l ++ [x]).
Proof.
  induction l as [|y l IH]; cbn; intros N H; [constructor; [tauto|constructor]|]. inversion N; subst. constructor.
  - rewrite in_app_iff. cbn. intuition congruence.
  - apply IH; tauto.
Qed.

Lemma lookup_in t k v : lookup k t = Some v -> In (k, v) t.
Proof.
  induction t as [|[k0 v0] t IH]; cbn; [discriminate|]. destruct (list_eq_dec Byte.byte_eq_dec k0 k) as [->|N]; [intros E; injection E as ->; auto|auto].
Qed.
Lemma distinct_lookup t k v : all (fun e => distinct (snd e)) t -> lookup k t = Some v -> distinct v.
Proof. intros A L. apply lookup_in in L. rewrite all_Forall, Forall_forall in A. exact (A _ L). Qed.

(** while the loop runs: [done] are the entries of [add] already merged *)
Definition progress (base done temp : table) : Prop :=
  (forall k a b, lookup k done = Some (FTable a) -> lookup k base = Some (FTable b) -> exists m, lookup k temp = Some (FTable m) /\ is_merge b a m) /\
  (forall k v, lookup k done = Some v -> (forall a b, ~ (v = FTable a /\ lookup k base = Some (FTable b))) -> lookup k temp = Some v) /\
  (forall k, lookup k done = None -> lookup k temp = lookup k base) /\
  NoDup (map fst temp).

Lemma progress_put base done temp k v x : NoDup (map fst base) -> progress base done temp -> lookup k done = None ->
  (forall a b, v = FTable a -> lookup k base = Some (FTable b) -> exists m, x = FTable m /\ is_merge b a m) ->
  ((forall a b, ~ (v = FTable a /\ lookup k base = Some (FTable b))) -> x = v) ->
  progress base (done ++ [(k, v)]) (match lookup k temp with Some _ => set_entry temp k x | None => temp ++ [(k, x)] end).
Proof.
  intros ND (P1 & P2 & P3 & P4) LD H1 H2.
  assert (LT : forall k', lookup k' (match lookup k temp with Some _ => set_entry temp k x | None => temp ++ [(k, x)] end) =
               if list_eq_dec Byte.byte_eq_dec k k' then Some x else lookup k' temp).
  { intros k'. destruct (lookup k temp) eqn:E; [apply lookup_set; congruence|]. rewrite lookup_app.
    destruct (list_eq_dec Byte.byte_eq_dec k k') as [<-|N]; [rewrite E; reflexivity|]. destruct (lookup k' temp); reflexivity. }
  assert (LDN : forall k', lookup k' (done ++ [(k, v)]) = if list_eq_dec Byte.byte_eq_dec k k' then Some v else lookup k' done).
  { intros k'. rewrite lookup_app. destruct (list_eq_dec Byte.byte_eq_dec k k') as [<-|N]; [rewrite LD; reflexivity|]. destruct (lookup k' done); reflexivity. }
  repeat split.
  - intros k' a b. rewrite LDN, LT. destruct (list_eq_dec Byte.byte_eq_dec k k') as [<-|N]; [|apply P1].
    intros E1 E2. injection E1 as E1. destruct (H1 a b E1 E2) as (m & -> & M). eauto.
  - intros k' w. rewrite LDN, LT. destruct (list_eq_dec Byte.byte_eq_dec k k') as [<-|N]; [|apply P2].
    intros E1 E2. injection E1 as <-. rewrite H2 by exact E2. reflexivity.
  - intros k'. rewrite LDN, LT. destruct (list_eq_dec Byte.byte_eq_dec k k') as [<-|N]; [discriminate|apply P3].
  - destruct (lookup k temp) eqn:E; [rewrite keys_set; exact P4|]. rewrite map_app. cbn. apply NoDup_snoc; [exact P4|]. apply lookup_None. exact E.
Qed.

(** two empty tables cannot be merged: recursively, no table of [add] meets an empty
    table while being empty *)
Fixpoint mergeable (add : fv) (base : table) {struct add} : Prop :=
  match add with
  | FTable add =>
    (base <> [] \/ add <> []) /\
    all (fun e => match snd e with
                  | FTable _ => forall b, lookup (fst e) base = Some (FTable b) -> mergeable (snd e) b
                  | _ => True
                  end) add
  | _ => True
  end.

Section MergeProof.
Context (oom : nat -> bool).

Definition merge_sound (add : fv) : Prop := forall base n t, add = FTable t -> distinct (FTable t) -> distinct (FTable base) ->
  exists r n', merge_value oom (FTable t) base n = Some (r, n') /\
    match r with
    | inr m => is_merge base t m
    | inl s => (exists i, oom i = true) \/ ~ mergeable (FTable t) base \/ cloneable_table base = false \/ cloneable_table t = false
    end /\
    (forall m, r = inr m -> cloneable_table m = true).

Lemma cloneable_lookup t k v : cloneable_table t = true -> lookup k t = Some v -> cloneable v = true.
Proof.
  intros C L. apply lookup_in in L. unfold cloneable_table in C. rewrite forallb_forall in C. specialize (C _ L). cbn in C.
  apply andb_true_iff in C. tauto.
Qed.
Lemma cloneable_set t k v : cloneable v = true -> cloneable_table t = true -> cloneable_table (set_entry t k v) = true.
Proof.
  intros V. induction t as [|[k0 v0] t IH]; cbn; [auto|]. rewrite !andb_true_iff. intros ((A & B) & C).
  destruct (bytes_equal k0 k); cbn; rewrite !andb_true_iff; tauto.
Qed.

Lemma merge_loop_sound room base : distinct (FTable base) -> forall add done temp n, zlen temp + zlen add <= room ->
  Forall (fun e => merge_sound (snd e)) add -> NoDup (map fst (done ++ add)) -> all (fun e => distinct (snd e)) add ->
  progress base done temp ->
  exists r n', merge_loop (merge_value oom) room base add temp n = Some (r, n') /\
    match r with
    | inr m => progress base (done ++ add) m
    | inl s => (exists i, oom i = true) \/
               (exists k v b, In (k, FTable v) add /\ lookup k base = Some (FTable b) /\ ~ mergeable (FTable v) b) \/
               cloneable_table base = false \/ cloneable_table add = false
    end /\
    (forall m, r = inr m -> cloneable_table temp = true -> cloneable_table add = true -> cloneable_table m = true).
Proof.
  intros DB. pose proof DB as DB'. cbn [distinct] in DB'. destruct DB' as [NDB DVB].
  induction add as [|[k v] add IH]; intros done temp n RM FS ND DA PR.
  - cbn [merge_loop]. exists (inr temp), n. rewrite app_nil_r. split; [reflexivity|]. split; [exact PR|]. intros m E. injection E as ->. auto.
  - inversion FS as [|? ? MS FS']; subst. cbn [snd] in MS. cbn [all snd] in DA. destruct DA as [DV DA].
    assert (EL : done ++ (k, v) :: add = (done ++ [(k, v)]) ++ add) by (rewrite <- app_assoc; reflexivity).
    assert (LD : lookup k done = None).
    { apply lookup_None. intros K. rewrite map_app in ND. cbn in ND. apply NoDup_remove_2 in ND. apply ND. apply in_or_app. auto. }
    rewrite EL in ND. rewrite EL.
    assert (LB : lookup k temp = lookup k base) by (apply PR; exact LD).
    assert (PUT : forall x n1, 
      (forall a b, v = FTable a -> lookup k base = Some (FTable b) -> exists m, x = FTable m /\ is_merge b a m) ->
      ((forall a b, ~ (v = FTable a /\ lookup k base = Some (FTable b))) -> x = v) ->
      (cloneable_table temp = true -> cloneable v = true -> cloneable x = true) ->
      exists r n', merge_loop (merge_value oom) room base add (match lookup k temp with Some _ => set_entry temp k x | None => temp ++ [(k, x)] end) n1 = Some (r, n') /\
        match r with
        | inr m => progress base ((done ++ [(k, v)]) ++ add) m
        | inl s => (exists i, oom i = true) \/
                   (exists k0 v0 b, In (k0, FTable v0) ((k, v) :: add) /\ lookup k0 base = Some (FTable b) /\ ~ mergeable (FTable v0) b) \/
                   cloneable_table base = false \/ cloneable_table ((k, v) :: add) = false
        end /\
        (forall m, r = inr m -> cloneable_table temp = true -> cloneable_table ((k, v) :: add) = true -> cloneable_table m = true)).
    { intros x n1 H1 H2 HC.
      assert (zlen (match lookup k temp with Some _ => set_entry temp k x | None => temp ++ [(k, x)] end) + zlen add <= room) as RM'.
      { rewrite zlen_cons in RM. destruct (lookup k temp); [unfold zlen in *; rewrite <- (map_length fst (set_entry temp k x)), keys_set, map_length; lia|rewrite zlen_app, zlen_cons, zlen_nil; lia]. }
      destruct (IH (done ++ [(k, v)]) (match lookup k temp with Some _ => set_entry temp k x | None => temp ++ [(k, x)] end) n1 RM' FS' ND DA
                  (progress_put base done temp k v x NDB PR LD H1 H2)) as (r & n' & E & R & C).
      exists r, n'. split; [exact E|]. split.
      - destruct r as [s|m]; [|exact R]. destruct R as [R|[(k0 & v0 & b & I & L & M)|[R|R]]]; auto.
        + right. left. exists k0, v0, b. split; [right; exact I|auto].
        + right. right. right. unfold cloneable_table in *. cbn [forallb]. rewrite R. rewrite !andb_false_r. reflexivity.
      - intros m Em CT CA. cbn [cloneable_table forallb fst snd] in CA. apply andb_true_iff in CA. destruct CA as [CA1 CA2].
        apply andb_true_iff in CA1. destruct CA1 as [CA0 CA1]. apply (C m Em); [|exact CA2].
        specialize (HC CT CA1). destruct (lookup k temp); [apply cloneable_set; auto|].
        unfold cloneable_table in *. rewrite forallb_app, CT. cbn. rewrite CA0, HC. reflexivity. }
    cbn [merge_loop]. rewrite !get_lookup. destruct (lookup k temp) as [e|] eqn:LT.
    2:{ destruct (Z.leb_spec room (zlen temp)) as [G|_]; [rewrite zlen_cons in RM; pose proof (zlen_nonneg add); lia|]. apply PUT; auto. intros a b _ K. congruence. }
    assert (OTHER : (forall a b, ~ (v = FTable a /\ lookup k base = Some (FTable b))) ->
      exists r n', merge_loop (merge_value oom) room base add (set_entry temp k v) n = Some (r, n') /\
        match r with
        | inr m => progress base ((done ++ [(k, v)]) ++ add) m
        | inl s => (exists i, oom i = true) \/
                   (exists k0 v0 b, In (k0, FTable v0) ((k, v) :: add) /\ lookup k0 base = Some (FTable b) /\ ~ mergeable (FTable v0) b) \/
                   cloneable_table base = false \/ cloneable_table ((k, v) :: add) = false
        end /\
        (forall m, r = inr m -> cloneable_table temp = true -> cloneable_table ((k, v) :: add) = true -> cloneable_table m = true)).
    { intros N. apply PUT; auto. intros a b E1 E2. exfalso. exact (N a b (conj E1 E2)). }
    destruct v as [| | | | | | | | | | | | | | | |ta| |]; try (apply OTHER; intros ? ? [K _]; discriminate).
    destruct e as [| | | | | | | | | | | | | | | |te| |]; try (apply OTHER; intros ? ? [_ K]; congruence).
    rewrite ?get_lookup. rewrite <- LB. assert (DT : distinct (FTable te)) by (apply (distinct_lookup base k); [exact DVB|congruence]).
    destruct (MS te n ta eq_refl DV DT) as (r & n1 & E & R & C). rewrite E.
    destruct r as [s|m].
    + exists (inl s), n1. split; [reflexivity|]. split; [|discriminate].
      destruct R as [R|[R|[R|R]]]; auto.
      * right. left. exists k, ta, te. split; [left; reflexivity|]. split; [congruence|exact R].
      * right. right. left. destruct (cloneable_table base) eqn:CB; [|reflexivity].
        assert (K : cloneable (FTable te) = true) by (apply (cloneable_lookup base k); [exact CB|congruence]). cbn in K. fold (cloneable_table te) in K. congruence.
      * right. right. right. unfold cloneable_table in *. cbn [forallb snd fst cloneable]. rewrite R. rewrite andb_false_r. reflexivity.
    + apply PUT.
      * intros a b E1 E2. injection E1 as <-. assert (b = te) by congruence. subst b. exists m. auto.
      * intros N. exfalso. apply (N ta te). split; [reflexivity|congruence].
      * intros CT _. exact (C m eq_refl).
Qed.

Lemma progress_init base : NoDup (map fst base) -> progress base [] base.
Proof. intros N. repeat split; try discriminate; auto. Qed.

Lemma merge_value_sound add : merge_sound add.
Proof.
  induction add as [l IH|t IH|v Ha Ht] using fv_ind'; intros base n t0 E; [discriminate| |exfalso; exact (Ht _ E)].
  injection E as <-. intros DT DB. cbn [distinct] in DT. destruct DT as [NDT DVT].
  cbn [merge_value]. destruct (Z.eqb_spec (zlen base + zlen t) 0) as [Z|NZ].
  { exists (inl AMQP_STATUS_NO_MEMORY), n. split; [reflexivity|]. split; [|discriminate]. right. left. cbn [mergeable].
    pose proof (zlen_nonneg base). pose proof (zlen_nonneg t). intros [[K|K] _]; apply K; apply zlen_0; apply Z.eqb_eq; lia. }
  destruct (oom n) eqn:O.
  { exists (inl AMQP_STATUS_NO_MEMORY), (S n). split; [reflexivity|]. split; [|discriminate]. eauto. }
  cbv zeta. destruct (Z.ltb_spec (zlen base + zlen t) (zlen base)) as [G|_]; [pose proof (zlen_nonneg t); lia|].
  destruct (merge_loop_sound (zlen base + zlen t) base DB t [] base (S n) ltac:(lia) IH NDT DVT (progress_init base (proj1 DB))) as (r & n1 & E & R & C).
  rewrite E. destruct r as [s|m].
  - exists (inl s), n1. split; [reflexivity|]. split; [|discriminate].
    destruct R as [R|[(k & v & b & I & L & M)|R]]; auto. right. left. cbn [mergeable]. intros [_ K]. apply M.
    rewrite all_Forall, Forall_forall in K. specialize (K _ I). cbn in K. apply K. exact L.
  - destruct (amqp_table_clone oom m n1) as [r2 n2] eqn:E2. exists r2, n2. split; [reflexivity|].
    pose proof (clone_table_ok oom m n1) as H. unfold clone_ok in H. rewrite E2 in H. cbn [fst] in H. destruct r2 as [s|m2].
    + split; [|discriminate]. destruct H as [(_ & K)|(_ & K)]; [auto|].
      destruct (cloneable_table base) eqn:CB; [|auto]. destruct (cloneable_table t) eqn:CT; [|auto].
      rewrite (C m eq_refl eq_refl eq_refl) in K. discriminate.
    + destruct H as [-> CM]. split; [|intros m' K; injection K as <-; exact CM].
      destruct R as (P1 & P2 & P3 & P4). constructor; auto.
Qed.
End MergeProof.

(** C23, part 1.  For tables whose keys are distinct, merging never runs into undefined
    behaviour, whatever allocations fail, and a success is the documented merge. *)
Theorem C23_merge_sound : forall oom base add n, distinct (FTable base) -> distinct (FTable add) ->
  exists r n', amqp_merge_capabilities oom base (Some add) n = Some (r, n') /\ forall m, r = inr m -> is_merge base add m.
Proof.
  intros oom base add n DB DA. destruct (merge_value_sound oom (FTable add) base n add eq_refl DA DB) as (r & n' & E & R & _).
  exists r, n'. split; [exact E|]. intros m ->. exact R.
Qed.

(** Part 2.  It succeeds when the allocations do, the tables have no empty keys or
    unknown kinds, and nowhere two empty tables have to be merged. *)
Theorem C23_merge_succeeds_partial : forall oom base add n, distinct (FTable base) -> distinct (FTable add) ->
  (forall i, oom i = false) -> cloneable_table base = true -> cloneable_table add = true -> mergeable (FTable add) base ->
  exists m n', amqp_merge_capabilities oom base (Some add) n = Some (inr m, n') /\ is_merge base add m.
Proof.
  intros oom base add n DB DA O CB CA M. destruct (merge_value_sound oom (FTable add) base n add eq_refl DA DB) as (r & n' & E & R & _).
  destruct r as [s|m]; [|eauto]. exfalso. destruct R as [(i & K)|[K|[K|K]]]; [rewrite O in K; discriminate|tauto|congruence|congruence].
Qed.

(** No table to add: the base is copied. *)
Theorem C23_nothing_to_add : forall oom base n, (forall i, oom i = false) -> cloneable_table base = true ->
  exists n', amqp_merge_capabilities oom base None n = Some (inr base, n').
Proof.
  intros oom base n O C. pose proof (C22_clone oom base n O) as H. rewrite C in H. cbn.
  destruct (amqp_table_clone oom base n) as [r n']. cbn in H. subst r. eauto.
Qed.

(** Two empty tables: the merge, which is empty, is refused as out of memory. *)
Theorem C23_empty_tables_refuted : exists n', amqp_merge_capabilities (fun _ => false) [] (Some []) 0 = Some (inl AMQP_STATUS_NO_MEMORY, n').
Proof. eexists. vm_compute. reflexivity. Qed.

(** Keys must be distinct: the same new table key twice follows a NULL pointer. *)
Theorem C23_duplicate_keys_refuted : amqp_merge_capabilities (fun _ => false) [] (Some [([x61], FTable []); ([x61], FTable [])]) 0 = None.
Proof. vm_compute. reflexivity. Qed.

Example C23_example : exists n', amqp_merge_capabilities (fun _ => false)
    [([x61], FBool 1); ([x63], FTable [([x78], FBool 1); ([x79], FBool 0)])]
    (Some [([x63], FTable [([x79], FBool 1); ([x7a], FVoid)]); ([x64], FUtf8 [x71])]) 0 =
  Some (inr [([x61], FBool 1); ([x63], FTable [([x78], FBool 1); ([x79], FBool 1); ([x7a], FVoid)]); ([x64], FUtf8 [x71])], n').
Proof. eexists. vm_compute. reflexivity. Qed.

Print Assumptions C21_dictionary_order.
Print Assumptions C21_total_order.
Print Assumptions C21_gigantic_keys_refuted.
Print Assumptions C22_clone.
Print Assumptions C22_clone_faithful.
Print Assumptions C23_merge_sound.
Print Assumptions C23_merge_succeeds_partial.
Print Assumptions C23_nothing_to_add.
Print Assumptions C23_empty_tables_refuted.
Print Assumptions C23_duplicate_keys_refuted.
