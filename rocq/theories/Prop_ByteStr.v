(** C92: Byte strings are values.

    Whatever a program does with byte strings, it is as if every variable had its own
    contents: a duplicate is equal to its source when it is made and independent of it
    from then on, amqp_bytes_equal compares contents, and freeing frees exactly the
    string's own memory. *)
From Coq Require Import ZArith List Bool Lia.
From Verif Require Import Base BaseFacts ByteStr.
Import ListNotations.
Local Open Scope Z_scope.

(** ** Specification *)
(** a variable: bytes that it does not own, bytes of its own, the result of a failed
    allocation of n bytes, and a variable that has been freed *)
Inductive value := Borrowed (bs : bytes) | Owned (bs : bytes) | Failed (n : Z) | Gone.
(** what may be read (a failed allocation of no bytes is an empty string) *)
Definition readable (v : value) : option bytes :=
  match v with Borrowed bs | Owned bs => Some bs | Failed n => if n =? 0 then Some [] else None | Gone => None end.
Fixpoint up_to_nul (s : bytes) : bytes := match s with [] => [] | c :: s => if Byte.eqb c x00 then [] else c :: up_to_nul s end.
(** None: the program breaks the rules (uses a freed or failed string, frees a string that
    it does not own, or frees twice, stores outside) *)
Definition meaning (o : op) (vs : list value) : option (list value * list bool) :=
  match o with
  | Const s => Some (vs ++ [Borrowed (up_to_nul s)], [])
  | Empty => Some (vs ++ [Borrowed []], [])
  | Malloc fails c => Some (vs ++ [if fails then Failed (zlen c) else Owned c], [])
  | Dup w fails =>
    match nth_error vs w with
    | Some v => match readable v with Some bs => Some (vs ++ [if fails then Failed (zlen bs) else Owned bs], []) | None => None end
    | None => None
    end
  | Store w i b =>
    match nth_error vs w with
    | Some (Owned bs) => if Nat.ltb i (length bs) then Some (set_nth w (Owned (set_nth i b bs)) vs, []) else None
    | _ => None
    end
  | Free w => match nth_error vs w with Some (Owned _) | Some (Failed _) => Some (set_nth w Gone vs, []) | _ => None end
  | Equal v w =>
    match nth_error vs v, nth_error vs w with
    | Some a, Some b =>
      match readable a, readable b with
      | Some a, Some b => Some (vs, [if list_eq_dec Byte.byte_eq_dec a b then true else false])
      | _, _ => None
      end
    | _, _ => None
    end
  end.
Fixpoint meaning_all (ops : list op) (vs : list value) : option (list value * list bool) :=
  match ops with
  | [] => Some (vs, [])
  | o :: ops =>
    match meaning o vs with
    | None => None
    | Some (vs, out) => match meaning_all ops vs with None => None | Some (vs, outs) => Some (vs, out ++ outs) end
    end
  end.

(** ** Proof *)
(** the memory holds what the variable stands for *)
Definition holds (m : memory) (b : amqp_bytes_t) (v : value) : Prop :=
  match v with
  | Borrowed bs => len b = zlen bs /\ (bs = [] /\ ptr b = None \/ exists i s, ptr b = Some i /\ nth_error m i = Some (Static (bs ++ s)))
  | Owned bs => len b = zlen bs /\ exists i, ptr b = Some i /\ nth_error m i = Some (Heap bs)
  | Failed n => len b = n /\ ptr b = None
  | Gone => True
  end.
Definition owns (b : amqp_bytes_t) (v : value) (i : nat) : Prop := exists bs, v = Owned bs /\ ptr b = Some i.
Definition inv (s : state) (vs : list value) : Prop :=
  let '(m, bs) := s in
  length bs = length vs /\
  (forall k b v, nth_error bs k = Some b -> nth_error vs k = Some v -> holds m b v) /\
  (forall k k' b b' v v' i, nth_error bs k = Some b -> nth_error vs k = Some v -> nth_error bs k' = Some b' -> nth_error vs k' = Some v' ->
     owns b v i -> owns b' v' i -> k = k') /\
  (forall i c, nth_error m i = Some (Heap c) -> exists k b v, nth_error bs k = Some b /\ nth_error vs k = Some v /\ owns b v i).

Lemma nth_set_same {A} i (x z : A) : forall l, nth_error l i = Some z -> nth_error (set_nth i x l) i = Some x.
Proof. induction i as [|i IH]; intros [|y l] H; cbn in *; try discriminate; [reflexivity|apply IH; exact H]. Qed.
Lemma nth_set_other {A} i j (x : A) : i <> j -> forall l, nth_error (set_nth i x l) j = nth_error l j.
Proof. revert j. induction i as [|i IH]; intros [|j] N [|y l]; cbn; try reflexivity; try (contradiction N; reflexivity). apply IH. congruence. Qed.
Lemma length_set {A} i (x : A) : forall l, length (set_nth i x l) = length l.
Proof. induction i as [|i IH]; intros [|y l]; cbn; auto. Qed.
Lemma set_last {A} (x y : A) l : set_nth (length l) x (l ++ [y]) = l ++ [x].
Proof. induction l as [|z l IH]; cbn; [reflexivity|]. rewrite IH. reflexivity. Qed.
Lemma nth_last {A} (x : A) l : nth_error (l ++ [x]) (length l) = Some x.
Proof. rewrite nth_error_app2 by lia. rewrite Nat.sub_diag. reflexivity. Qed.
Lemma nth_snoc {A} (l : list A) x k y : nth_error (l ++ [x]) k = Some y -> (k < length l)%nat /\ nth_error l k = Some y \/ k = length l /\ y = x.
Proof.
  intros H. destruct (Nat.lt_ge_cases k (length l)) as [G|G]; [left; rewrite nth_error_app1 in H by exact G; auto|].
  right. rewrite nth_error_app2 in H by exact G. destruct (k - length l)%nat as [|d] eqn:E; [|destruct d; discriminate]. split; [lia|]. cbn in H. congruence.
Qed.
Lemma nth_old {A} (l : list A) x k y : nth_error l k = Some y -> nth_error (l ++ [x]) k = Some y.
Proof. intros H. rewrite nth_error_app1; [exact H|]. apply nth_error_Some. congruence. Qed.
Lemma holds_more m x b v : holds m b v -> holds (m ++ [x]) b v.
Proof.
  destruct v; cbn; auto.
  - intros (L & [H|(i & s & P & N)]); split; auto. right. exists i, s. split; [exact P|]. apply nth_old, N.
  - intros (L & i & P & N). split; [exact L|]. exists i. split; [exact P|]. apply nth_old, N.
Qed.
(** a new variable that owns nothing, with perhaps a new static block *)
Lemma inv_plain m bs vs b v (new : list bytes) : inv (m, bs) vs -> holds (m ++ map Static new) b v -> (forall i, ~ owns b v i) -> inv (m ++ map Static new, bs ++ [b]) (vs ++ [v]).
Proof.
  intros (L & H & U & K) Hb No. assert (forall b0 v0, holds m b0 v0 -> holds (m ++ map Static new) b0 v0) as More.
  { revert Hb. clear. intros _. revert m. induction new as [|x new IH]; intros m b0 v0 A; cbn [map]; [rewrite app_nil_r; exact A|].
    change (Static x :: map Static new) with ([Static x] ++ map Static new). rewrite app_assoc. apply IH. apply holds_more. exact A. }
  split; [rewrite !app_length; cbn; lia|]. split; [|split].
  - intros k b0 v0 B V. apply nth_snoc in B. apply nth_snoc in V. destruct B as [(G & B)|(-> & ->)], V as [(G' & V)|(E & ->)]; try lia; [|exact Hb]. apply More. eapply H; eassumption.
  - intros k k' b0 b' v0 v' i B V B' V' O O'. apply nth_snoc in B, V, B', V'.
    destruct B as [(G & B)|(-> & ->)], V as [(G1 & V)|(E & ->)]; try lia; [|destruct (No i O)].
    destruct B' as [(G' & B')|(-> & ->)], V' as [(G1' & V')|(E & ->)]; try lia; [|destruct (No i O')]. eapply U; eassumption.
  - intros i c N. destruct (Nat.lt_ge_cases i (length m)) as [G|G].
    + rewrite nth_error_app1 in N by exact G. destruct (K i c N) as (k & b0 & v0 & B & V & O). exists k, b0, v0. repeat split; try (apply nth_old; assumption). exact O.
    + rewrite nth_error_app2 in N by exact G. apply nth_error_In in N. apply in_map_iff in N. destruct N as (x & N & _). discriminate.
Qed.
(** a new variable that owns a new block *)
Lemma inv_new m bs vs c : inv (m, bs) vs -> inv (m ++ [Heap c], bs ++ [mkBytes (zlen c) (Some (length m))]) (vs ++ [Owned c]).
Proof.
  intros (L & H & U & K). assert (forall k b v, nth_error bs k = Some b -> nth_error vs k = Some v -> ~ owns b v (length m)) as Old.
  { intros k b v B V (x & -> & P). specialize (H k b _ B V). cbn in H. destruct H as (_ & i & P' & N). assert (i = length m) by congruence. subst i.
    assert (length m < length m)%nat; [|lia]. apply nth_error_Some. congruence. }
  split; [rewrite !app_length; cbn; lia|]. split; [|split].
  - intros k b0 v0 B V. apply nth_snoc in B. apply nth_snoc in V. destruct B as [(G & B)|(-> & ->)], V as [(G' & V)|(E & ->)]; try lia.
    + apply holds_more. eapply H; eassumption.
    + cbn. split; [reflexivity|]. exists (length m). split; [reflexivity|apply nth_last].
  - intros k k' b0 b' v0 v' i B V B' V' O O'. apply nth_snoc in B, V, B', V'.
    destruct B as [(G & B)|(-> & ->)], V as [(G1 & V)|(E & ->)]; try lia; destruct B' as [(G' & B')|(-> & ->)], V' as [(G1' & V')|(E' & ->)]; try lia.
    + eapply U; eassumption.
    + destruct O' as (x & _ & P). cbn in P. injection P as <-. destruct (Old _ _ _ B V O).
    + destruct O as (x & _ & P). cbn in P. injection P as <-. destruct (Old _ _ _ B' V' O').
  - intros i x N. apply nth_snoc in N. destruct N as [(G & N)|(-> & N)].
    + destruct (K i x N) as (k & b0 & v0 & B & V & O). exists k, b0, v0. repeat split; try (apply nth_old; assumption). exact O.
    + exists (length bs), (mkBytes (zlen c) (Some (length m))), (Owned c). split; [apply nth_last|]. split; [rewrite L; apply nth_last|]. exists c. auto.
Qed.
(** an owner changes its block, or gives it back *)
Lemma inv_change m bs vs k b c i v' x : inv (m, bs) vs -> nth_error bs k = Some b -> nth_error vs k = Some (Owned c) -> ptr b = Some i ->
  (x = Freed /\ v' = Gone \/ exists c', x = Heap c' /\ v' = Owned c' /\ zlen c' = zlen c) -> inv (set_nth i x m, bs) (set_nth k v' vs).
Proof.
  intros (L & H & U & K) Bk Vk P X. pose proof (H k b _ Bk Vk) as (Lb & i' & P' & Ni). assert (i' = i) by congruence. subst i'.
  assert (owns b (Owned c) i) as Ow by (exists c; auto).
  assert (forall k' v, k' <> k -> nth_error (set_nth k v' vs) k' = Some v -> nth_error vs k' = Some v) as Oth.
  { intros k' v Ne. rewrite nth_set_other by congruence. auto. }
  assert (forall v, nth_error (set_nth k v' vs) k = Some v -> v = v') as Same.
  { intros v. rewrite (nth_set_same _ _ _ _ Vk). congruence. }
  split; [rewrite length_set; exact L|]. split; [|split].
  - intros k' b0 v0 B V. destruct (Nat.eq_dec k' k) as [->|Ne].
    + apply Same in V. subst v0. assert (b0 = b) by congruence. subst b0. destruct X as [(_ & ->)|(c' & -> & -> & Z)]; cbn; [auto|].
      split; [congruence|]. exists i. split; [exact P|]. eapply nth_set_same, Ni.
    + apply (Oth k' v0 Ne) in V. pose proof (H k' b0 v0 B V) as A. destruct v0 as [s|s|n|]; cbn in *; auto.
      * destruct A as (A & [E|(j & t & Pj & Nj)]); split; auto. right. exists j, t. split; [exact Pj|]. rewrite nth_set_other; [exact Nj|]. intros <-. congruence.
      * destruct A as (A & j & Pj & Nj). split; [exact A|]. exists j. split; [exact Pj|]. rewrite nth_set_other; [exact Nj|].
        intros <-. apply Ne. eapply (U k' k b0 b (Owned s) (Owned c) i); eauto. exists s. auto.
  - assert (forall v, owns b v' v -> owns b (Owned c) v) as Back.
    { intros j (y & E & Pj). exists c. auto. }
    intros k1 k2 b1 b2 v1 v2 j B1 V1 B2 V2 O1 O2. destruct (Nat.eq_dec k1 k) as [->|N1], (Nat.eq_dec k2 k) as [->|N2]; auto.
    + apply Same in V1. subst v1. assert (b1 = b) by congruence. subst b1. apply (Oth k2 v2 N2) in V2. eapply (U k k2 b b2 (Owned c) v2 j); eauto.
    + apply Same in V2. subst v2. assert (b2 = b) by congruence. subst b2. apply (Oth k1 v1 N1) in V1. eapply (U k1 k b1 b v1 (Owned c) j); eauto.
    + apply (Oth k1 v1 N1) in V1. apply (Oth k2 v2 N2) in V2. eapply U; eassumption.
  - intros j y N. destruct (Nat.eq_dec i j) as [<-|Ne].
    + rewrite (nth_set_same _ _ _ _ Ni) in N. destruct X as [(-> & _)|(c' & -> & -> & _)]; [discriminate|].
      exists k, b, (Owned c'). split; [exact Bk|]. split; [eapply nth_set_same, Vk|]. exists c'. auto.
    + rewrite nth_set_other in N by exact Ne. destruct (K j y N) as (k' & b' & w & B & V & O). exists k', b', w. split; [exact B|]. split; [|exact O].
      destruct (Nat.eq_dec k' k) as [->|Nk]; [|rewrite nth_set_other by congruence; exact V]. exfalso. assert (b' = b) by congruence. subst b'. destruct O as (z & _ & Pz). congruence.
Qed.
Lemma strlen_nul s : strlen (s ++ [x00]) = Some (zlen (up_to_nul s)).
Proof.
  induction s as [|c s IH]; cbn; [reflexivity|]. destruct (Byte.eqb c x00); [reflexivity|]. rewrite IH. cbn [option_map]. rewrite zlen_cons. f_equal. lia.
Qed.
Lemma up_to_nul_prefix s : exists t, s = up_to_nul s ++ t.
Proof. induction s as [|c s (t & E)]; cbn; [exists []; reflexivity|]. destruct (Byte.eqb c x00); [exists (c :: s); reflexivity|]. exists t. cbn. rewrite <- E. reflexivity. Qed.
Lemma firstn_zlen {A} (a b : list A) : firstn (Z.to_nat (zlen a)) (a ++ b) = a.
Proof. unfold zlen. rewrite Nat2Z.id. rewrite firstn_app, Nat.sub_diag, firstn_all. cbn. apply app_nil_r. Qed.
Lemma read_ok m b v bs : holds m b v -> readable v = Some bs -> len b = zlen bs /\ read false m (ptr b) (len b) = Some bs.
Proof.
  destruct v as [s|s|n|]; cbn; intros H E; try discriminate.
  - injection E as ->. destruct H as (-> & [(-> & ->)|(i & t & -> & N)]); (split; [reflexivity|]); cbn [read]; [reflexivity|]. unfold contents. rewrite N.
    rewrite zlen_app. pose proof (zlen_nonneg t). destruct (Z.leb_spec (zlen bs) (zlen bs + zlen t)); [|lia]. rewrite firstn_zlen. reflexivity.
  - injection E as ->. destruct H as (-> & i & -> & N). split; [reflexivity|]. cbn [read]. unfold contents. rewrite N. rewrite Z.leb_refl. rewrite <- (app_nil_r bs) at 2. rewrite firstn_zlen. reflexivity.
  - destruct H as (-> & ->). destruct (Z.eqb_spec n 0) as [->|]; [|discriminate]. injection E as <-. split; reflexivity.
Qed.
(** the same pointer and length: the same contents *)
Lemma same_ptr m b1 b2 v1 v2 a c : holds m b1 v1 -> holds m b2 v2 -> readable v1 = Some a -> readable v2 = Some c -> len b1 = len b2 -> ptr b1 = ptr b2 -> a = c.
Proof.
  intros H1 H2 R1 R2 L P. destruct (read_ok m b1 v1 a H1 R1) as (_ & E1). destruct (read_ok m b2 v2 c H2 R2) as (_ & E2). rewrite L, P in E1. congruence.
Qed.

Lemma fill_last junk (m : memory) (c : bytes) n : n = zlen c -> fill (m ++ [Heap (map junk (seq 0 (Z.to_nat n)))]) (length m) c = Some (m ++ [Heap c]).
Proof.
  intros ->. unfold fill. rewrite nth_last. assert (length (map junk (seq 0 (Z.to_nat (zlen c)))) = length c) as L by (rewrite map_length, seq_length; unfold zlen; lia).
  destruct (Z.leb_spec (zlen c) (zlen (map junk (seq 0 (Z.to_nat (zlen c)))))) as [_|H]; [|unfold zlen in *; lia].
  rewrite <- L, skipn_all, app_nil_r, set_last. reflexivity.
Qed.
Lemma read_more strict m x p n bs : read strict m p n = Some bs -> read strict (m ++ [x]) p n = Some bs.
Proof.
  destruct p as [i|]; cbn; auto. unfold contents. destruct (nth_error m i) as [y|] eqn:N; [|discriminate]. rewrite (nth_old _ x _ _ N). auto.
Qed.
Lemma exec_ok junk o s vs : inv s vs -> forall vs' out, meaning o vs = Some (vs', out) -> exists s', exec junk false o s = Some (s', out) /\ inv s' vs'.
Proof.
  destruct s as [m bs]. intros I vs' out E. pose proof I as (L & H & U & K).
  assert (forall k v, nth_error vs k = Some v -> exists b, nth_error bs k = Some b /\ holds m b v) as Get.
  { intros k v V. destruct (nth_error bs k) as [b|] eqn:B; [exists b; eauto|]. exfalso. apply nth_error_None in B. assert (nth_error vs k = None) by (apply nth_error_None; lia). congruence. }
  destruct o as [c| |fails c|w fails|w i x|w|v w]; cbn [meaning exec] in *.
  - injection E as <- <-. rewrite app_length. cbn [length]. replace (pred (length m + 1)) with (length m) by lia.
    unfold amqp_cstring_bytes, contents. rewrite nth_last, strlen_nul. eexists. split; [reflexivity|].
    apply (inv_plain m bs vs _ _ [c ++ [x00]] I); [|intros i (x & F & _); discriminate]. cbn. split; [reflexivity|]. right.
    destruct (up_to_nul_prefix c) as (t & Et). exists (length m), (t ++ [x00]). split; [reflexivity|]. rewrite nth_last. rewrite app_assoc, <- Et. reflexivity.
  - injection E as <- <-. eexists. split; [reflexivity|]. pose proof (inv_plain m bs vs (mkBytes 0 None) (Borrowed []) [] I) as A. cbn [map] in A. rewrite app_nil_r in A.
    apply A; [cbn; auto|intros i (x & F & _); discriminate].
  - injection E as <- <-. unfold amqp_bytes_malloc, malloc. destruct fails; cbn [ptr].
    + eexists. split; [reflexivity|]. pose proof (inv_plain m bs vs (mkBytes (zlen c) None) (Failed (zlen c)) [] I) as A. cbn [map] in A. rewrite app_nil_r in A.
      apply A; [cbn; auto|intros i (x & F & _); discriminate].
    + rewrite (fill_last junk m c _ eq_refl). eexists. split; [reflexivity|]. apply inv_new, I.
  - destruct (nth_error vs w) as [v|] eqn:V; [|discriminate]. destruct (readable v) as [c|] eqn:R; [|discriminate]. injection E as <- <-.
    destruct (Get w v V) as (b & B & Hb). rewrite B. destruct (read_ok m b v c Hb R) as (Lb & Rb). unfold amqp_bytes_malloc_dup, malloc. destruct fails.
    + eexists. split; [reflexivity|]. rewrite Lb. pose proof (inv_plain m bs vs (mkBytes (zlen c) None) (Failed (zlen c)) [] I) as A. cbn [map] in A. rewrite app_nil_r in A.
      apply A; [cbn; auto|intros i (x & F & _); discriminate].
    + rewrite (read_more false m _ _ _ _ Rb), (fill_last junk m c _ Lb). eexists. split; [reflexivity|]. rewrite Lb. apply inv_new, I.
  - destruct (nth_error vs w) as [[s|s|n|]|] eqn:V; try discriminate. destruct (Nat.ltb i (length s)) eqn:G; [|discriminate]. injection E as <- <-.
    destruct (Get w _ V) as (b & B & Lb & p & P & N). rewrite B. destruct b as [lb pb]. cbn in P, Lb. subst pb. rewrite N, G. eexists. split; [reflexivity|].
    eapply inv_change; try eassumption; [reflexivity|]. right. eexists. repeat split. unfold zlen. rewrite length_set. reflexivity.
  - destruct (nth_error vs w) as [[s|s|n|]|] eqn:V; try discriminate; injection E as <- <-.
    + destruct (Get w _ V) as (b & B & Lb & p & P & N). rewrite B. unfold amqp_bytes_free. rewrite P, N. eexists. split; [reflexivity|]. eapply inv_change; try eassumption. left. auto.
    + destruct (Get w _ V) as (b & B & Lb & P). rewrite B. unfold amqp_bytes_free. rewrite P. eexists. split; [reflexivity|].
      assert (forall k v, nth_error (set_nth w Gone vs) k = Some v -> v = Gone \/ nth_error vs k = Some v) as Old.
      { intros k v. destruct (Nat.eq_dec k w) as [->|Ne]; [rewrite (nth_set_same _ _ _ _ V); left; congruence|rewrite nth_set_other by congruence; auto]. }
      split; [rewrite length_set; exact L|]. split; [|split].
      * intros k b0 v0 B0 V0. destruct (Old k v0 V0) as [->|V1]; [exact Logic.I|eapply H; eassumption].
      * intros k k' b0 b' v0 v' i B0 V0 B' V' (x & -> & P0) (y & -> & P'). destruct (Old k _ V0) as [?|V1]; [discriminate|]. destruct (Old k' _ V') as [?|V1']; [discriminate|].
        eapply (U k k' b0 b' _ _ i); eauto; [exists x|exists y]; auto.
      * intros i x N. destruct (K i x N) as (k & b0 & v0 & B0 & V0 & O). exists k, b0, v0. split; [exact B0|]. split; [|exact O].
        rewrite nth_set_other; [exact V0|]. intros <-. destruct O as (y & -> & _). congruence.
  - destruct (nth_error vs v) as [va|] eqn:Va; [|discriminate]. destruct (nth_error vs w) as [vb|] eqn:Vb; [|discriminate].
    destruct (readable va) as [a|] eqn:Ra; [|discriminate]. destruct (readable vb) as [b|] eqn:Rb; [|discriminate]. injection E as <- <-.
    destruct (Get v va Va) as (b1 & B1 & H1). destruct (Get w vb Vb) as (b2 & B2 & H2). rewrite B1, B2.
    destruct (read_ok m b1 va a H1 Ra) as (L1 & R1). destruct (read_ok m b2 vb b H2 Rb) as (L2 & R2). unfold amqp_bytes_equal.
    destruct (Z.eqb_spec (len b1) (len b2)) as [El|El].
    + destruct (match ptr b1, ptr b2 with None, None => true | Some i, Some j => Nat.eqb i j | _, _ => false end) eqn:Ep.
      * assert (ptr b1 = ptr b2) as Ep' by (destruct (ptr b1), (ptr b2); try discriminate; [apply Nat.eqb_eq in Ep; congruence|reflexivity]).
        rewrite (same_ptr m b1 b2 va vb a b H1 H2 Ra Rb El Ep'). destruct (list_eq_dec Byte.byte_eq_dec b b); [|congruence]. eauto.
      * rewrite R1, El, R2. eauto.
    + destruct (list_eq_dec Byte.byte_eq_dec a b) as [->|]; [congruence|]. eauto.
Qed.
Lemma inv_start : inv ([], []) [].
Proof. split; [reflexivity|]. split; [intros [|k] b v B; discriminate|]. split; [intros [|k] k' b b' v v' i B; discriminate|intros [|i] c N; discriminate]. Qed.

(** ** C92 *)
(** A program that follows the rules never runs into undefined behaviour, and observes
    what the specification says; its strings are in the memory as specified. *)
Theorem C92_values_partial : forall junk ops vs outs, meaning_all ops [] = Some (vs, outs) ->
  exists m bs, exec_all junk false ops ([], []) = Some ((m, bs), outs) /\
    (forall k v c, nth_error vs k = Some v -> readable v = Some c ->
       exists b, nth_error bs k = Some b /\ len b = zlen c /\ read false m (ptr b) (len b) = Some c) /\
    (forall k n, nth_error vs k = Some (Failed n) -> nth_error bs k = Some (mkBytes n None)).
Proof.
  intros junk ops vs outs. assert (forall ops s vs0 vs outs, inv s vs0 -> meaning_all ops vs0 = Some (vs, outs) -> exists s', exec_all junk false ops s = Some (s', outs) /\ inv s' vs) as G.
  { clear. induction ops as [|o ops IH]; intros s vs0 vs outs I E; cbn [meaning_all exec_all] in *.
    - injection E as <- <-. eauto.
    - destruct (meaning o vs0) as [[vs1 out]|] eqn:Em; [|discriminate]. destruct (exec_ok junk o s vs0 I vs1 out Em) as (s1 & -> & I1).
      destruct (meaning_all ops vs1) as [[vs2 outs2]|] eqn:E2; [|discriminate]. injection E as <- <-. destruct (IH s1 vs1 vs2 outs2 I1 E2) as (s2 & -> & I2). eauto. }
  intros E. destruct (G ops ([], []) [] vs outs inv_start E) as ([m bs] & X & (L & H & _)). exists m, bs. split; [exact X|].
  assert (forall k v, nth_error vs k = Some v -> exists b, nth_error bs k = Some b /\ holds m b v) as Get.
  { intros k v V. destruct (nth_error bs k) as [b|] eqn:B; [exists b; eauto|]. exfalso. apply nth_error_None in B. assert (nth_error vs k = None) by (apply nth_error_None; lia). congruence. }
  split.
  - intros k v c V R. destruct (Get k v V) as (b & B & Hb). exists b. split; [exact B|]. eapply read_ok; eassumption.
  - intros k n V. destruct (Get k _ V) as (b & B & Lb & P). rewrite B. destruct b as [l p]. cbn in *. congruence.
Qed.
(** Nothing leaks: when no variable owns anything, no memory is left. *)
Theorem C92_all_freed : forall junk ops vs outs m bs, meaning_all ops [] = Some (vs, outs) -> exec_all junk false ops ([], []) = Some ((m, bs), outs) ->
  (forall c, ~ In (Owned c) vs) -> forall c, ~ In (Heap c) m.
Proof.
  intros junk ops vs outs m bs E X No c Hc.
  assert (forall ops s vs0 vs outs, inv s vs0 -> meaning_all ops vs0 = Some (vs, outs) -> exists s', exec_all junk false ops s = Some (s', outs) /\ inv s' vs) as G.
  { clear. induction ops as [|o ops IH]; intros s vs0 vs outs I E; cbn [meaning_all exec_all] in *.
    - injection E as <- <-. eauto.
    - destruct (meaning o vs0) as [[vs1 out]|] eqn:Em; [|discriminate]. destruct (exec_ok junk o s vs0 I vs1 out Em) as (s1 & -> & I1).
      destruct (meaning_all ops vs1) as [[vs2 outs2]|] eqn:E2; [|discriminate]. injection E as <- <-. destruct (IH s1 vs1 vs2 outs2 I1 E2) as (s2 & -> & I2). eauto. }
  destruct (G ops ([], []) [] vs outs inv_start E) as (s' & X' & I'). rewrite X in X'. injection X' as <-. destruct I' as (_ & _ & _ & K).
  apply In_nth_error in Hc. destruct Hc as (i & N). destruct (K i c N) as (k & b & v & _ & V & (y & -> & _)). exact (No y (nth_error_In _ _ V)).
Qed.
(** By the letter of the C standard, duplicating amqp_empty_bytes is undefined: memcpy is
    given NULL (with every implementation in use it copies nothing). *)
Theorem C92_empty_refuted : forall junk, meaning_all [Empty; Dup 0 false] [] <> None /\ exec_all junk true [Empty; Dup 0 false] ([], []) = None.
Proof. intros junk. split; [discriminate|reflexivity]. Qed.

(** ** Non-vacuity *)
Example C92_example : forall junk,
  let ops := [Const [x61; x62; x63]; Dup 0 false; Equal 0 1; Store 1 0 x41; Equal 0 1; Dup 1 false; Equal 1 2; Free 1; Malloc false [x41; x62; x63]; Equal 2 3; Const [x61; x00; x63]; Const [x61]; Equal 4 5;
              Empty; Dup 6 false; Equal 6 7; Malloc true [x61]; Free 8; Free 2; Free 3; Free 7] in
  meaning_all ops [] = Some ([Borrowed [x61; x62; x63]; Gone; Gone; Gone; Borrowed [x61]; Borrowed [x61]; Borrowed []; Gone; Gone], [true; false; true; true; true; true]) /\
  match exec_all junk false ops ([], []) with Some (_, outs) => outs = [true; false; true; true; true; true] | None => False end.
Proof. intros junk. split; reflexivity. Qed.

Print Assumptions C92_values_partial.
Print Assumptions C92_all_freed.
Print Assumptions C92_empty_refuted.
