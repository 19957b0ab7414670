(** Facts about the definitions of Base.v. *)
From Coq Require Import ZArith List Bool Lia.
From Verif Require Import Base.
Import ListNotations.
Local Open Scope Z_scope.

Lemma zlen_nonneg {A} (l : list A) : 0 <= zlen l.
Proof. unfold zlen; lia. Qed.

Lemma zlen_nil {A} : zlen (@nil A) = 0.
Proof. reflexivity. Qed.

Lemma zlen_cons {A} (x : A) l : zlen (x :: l) = zlen l + 1.
Proof. unfold zlen; cbn [length]; lia. Qed.

Lemma zlen_app {A} (a b : list A) : zlen (a ++ b) = zlen a + zlen b.
Proof. unfold zlen; rewrite app_length; lia. Qed.

Lemma zlen_length {A} (l : list A) : Z.to_nat (zlen l) = length l.
Proof. unfold zlen; lia. Qed.

Lemma zlen_0_nil {A} (l : list A) : zlen l = 0 -> l = [].
Proof. destruct l; auto. rewrite zlen_cons. pose proof (zlen_nonneg l); lia. Qed.

Lemma zlen_firstn {A} n (l : list A) :
  0 <= n <= zlen l -> zlen (firstn (Z.to_nat n) l) = n.
Proof. unfold zlen; intros; rewrite firstn_length; lia. Qed.

Lemma zlen_skipn {A} n (l : list A) :
  0 <= n <= zlen l -> zlen (skipn (Z.to_nat n) l) = zlen l - n.
Proof. unfold zlen; intros; rewrite skipn_length; lia. Qed.

Lemma Z_of_byte_range b : 0 <= Z_of_byte b < 256.
Proof.
  unfold Z_of_byte. pose proof (Byte.to_N_bounded b). lia.
Qed.

Lemma byte_of_Z_to b : byte_of_Z (Z_of_byte b) = b.
Proof. destruct b; reflexivity. Qed.

Lemma Z_of_byte_of_Z z : Z_of_byte (byte_of_Z z) = z mod 256.
Proof.
  unfold byte_of_Z, Z_of_byte.
  assert (H : 0 <= z mod 256 < 256) by (apply Z.mod_pos_bound; lia).
  destruct (Byte.of_N (Z.to_N (z mod 256))) as [b|] eqn:E.
  - apply Byte.to_of_N in E. rewrite E. lia.
  - apply Byte.of_N_None_iff in E. lia.
Qed.

Lemma byte_of_Z_mod z : byte_of_Z (z mod 256) = byte_of_Z z.
Proof. unfold byte_of_Z. rewrite Z.mod_mod by lia. reflexivity. Qed.

Lemma Z_of_byte_inj a b : Z_of_byte a = Z_of_byte b -> a = b.
Proof.
  intros H. rewrite <- (byte_of_Z_to a), <- (byte_of_Z_to b), H; reflexivity.
Qed.

Lemma slice_Some mem o n :
  0 <= o -> 0 <= n -> o + n <= zlen mem ->
  slice mem o n = Some (firstn (Z.to_nat n) (skipn (Z.to_nat o) mem)).
Proof.
  intros. unfold slice.
  destruct (Z.leb_spec 0 o); [|lia].
  destruct (Z.leb_spec 0 n); [|lia].
  destruct (Z.leb_spec (o+n) (zlen mem)); [|lia]. reflexivity.
Qed.

Lemma slice_inv mem o n bs : slice mem o n = Some bs ->
  0 <= o /\ 0 <= n /\ o + n <= zlen mem /\ zlen bs = n /\
  bs = firstn (Z.to_nat n) (skipn (Z.to_nat o) mem).
Proof.
  unfold slice.
  destruct (Z.leb_spec 0 o); cbn [andb]; [|discriminate].
  destruct (Z.leb_spec 0 n); cbn [andb]; [|discriminate].
  destruct (Z.leb_spec (o+n) (zlen mem)); cbn [andb]; [|discriminate].
  intros E; inversion E; subst. repeat split; try lia.
  rewrite zlen_firstn; [lia|]. rewrite zlen_skipn; lia.
Qed.

Lemma slice_app pre bs post :
  slice (pre ++ bs ++ post) (zlen pre) (zlen bs) = Some bs.
Proof.
  rewrite slice_Some.
  - rewrite zlen_length, zlen_length, skipn_app, skipn_all, Nat.sub_diag.
    cbn [skipn app]. rewrite firstn_app, firstn_all, Nat.sub_diag. cbn [firstn].
    rewrite app_nil_r. reflexivity.
  - apply zlen_nonneg.
  - apply zlen_nonneg.
  - rewrite !zlen_app. pose proof (zlen_nonneg post); lia.
Qed.

Lemma slice_app' mem pre bs post o n :
  mem = pre ++ bs ++ post -> o = zlen pre -> n = zlen bs ->
  slice mem o n = Some bs.
Proof. intros; subst; apply slice_app. Qed.

(** [patch mem o bs]: [mem] with [bs] at offset [o] (in bounds). *)
Definition patch (mem : bytes) (o : Z) (bs : bytes) : bytes :=
  firstn (Z.to_nat o) mem ++ bs ++ skipn (Z.to_nat o + length bs) mem.

Lemma write_Some mem o bs :
  0 <= o -> o + zlen bs <= zlen mem -> write mem o bs = Some (patch mem o bs).
Proof.
  intros. unfold write, patch.
  destruct (Z.leb_spec 0 o); [|lia].
  destruct (Z.leb_spec (o+zlen bs) (zlen mem)); [|lia]. reflexivity.
Qed.

Lemma write_inv mem o bs m : write mem o bs = Some m ->
  0 <= o /\ o + zlen bs <= zlen mem /\ m = patch mem o bs.
Proof.
  unfold write.
  destruct (Z.leb_spec 0 o); cbn [andb]; [|discriminate].
  destruct (Z.leb_spec (o+zlen bs) (zlen mem)); cbn [andb]; [|discriminate].
  intros E; inversion E; subst. auto.
Qed.

Lemma length_patch mem o bs :
  0 <= o -> o + zlen bs <= zlen mem -> length (patch mem o bs) = length mem.
Proof.
  unfold patch, zlen; intros. rewrite !app_length, firstn_length, skipn_length. lia.
Qed.

Lemma zlen_patch mem o bs :
  0 <= o -> o + zlen bs <= zlen mem -> zlen (patch mem o bs) = zlen mem.
Proof. intros; unfold zlen at 1; rewrite length_patch by auto; reflexivity. Qed.

Lemma patch_nil mem o : patch mem o [] = mem.
Proof. unfold patch; cbn. rewrite Nat.add_0_r. apply firstn_skipn. Qed.

Lemma skipn_skipn' {A} n m (l : list A) : skipn n (skipn m l) = skipn (m + n) l.
Proof.
  revert l; induction m; intros; cbn; [reflexivity|].
  destruct l; [apply skipn_nil | apply IHm].
Qed.

Lemma patch_decomp mem o bs :
  exists pre old post, mem = pre ++ old ++ post /\
   (0 <= o -> o + zlen bs <= zlen mem ->
   zlen pre = o /\ length old = length bs /\ patch mem o bs = pre ++ bs ++ post).
Proof.
  exists (firstn (Z.to_nat o) mem),
         (firstn (length bs) (skipn (Z.to_nat o) mem)),
         (skipn (Z.to_nat o + length bs) mem).
  split.
  - rewrite <- skipn_skipn', firstn_skipn, firstn_skipn. reflexivity.
  - intros. split; [|split].
    + apply zlen_firstn. pose proof (zlen_nonneg bs); lia.
    + rewrite firstn_length, skipn_length. unfold zlen in *; lia.
    + reflexivity.
Qed.

Lemma patch_app_eq pre old post bs o :
  o = zlen pre -> length old = length bs ->
  patch (pre ++ old ++ post) o bs = pre ++ bs ++ post.
Proof.
  intros -> H. unfold patch. rewrite zlen_length.
  rewrite firstn_app, firstn_all, Nat.sub_diag. cbn [firstn]. rewrite app_nil_r.
  rewrite <- skipn_skipn', skipn_app, skipn_all, Nat.sub_diag. cbn [skipn app].
  rewrite <- H, skipn_app, skipn_all, Nat.sub_diag. reflexivity.
Qed.

(** Splitting a block at three places. *)
Lemma split3 (mem : bytes) o n : 0 <= o -> 0 <= n -> o + n <= zlen mem ->
  exists pre old post, mem = pre ++ old ++ post /\ zlen pre = o /\ zlen old = n.
Proof.
  intros.
  exists (firstn (Z.to_nat o) mem),
         (firstn (Z.to_nat n) (skipn (Z.to_nat o) mem)),
         (skipn (Z.to_nat o + Z.to_nat n) mem).
  split; [|split].
  - rewrite <- skipn_skipn', firstn_skipn, firstn_skipn. reflexivity.
  - apply zlen_firstn; lia.
  - apply zlen_firstn. rewrite zlen_skipn; lia.
Qed.

Lemma patch_patch_after mem o a b :
  0 <= o -> o + zlen a + zlen b <= zlen mem ->
  patch (patch mem o a) (o + zlen a) b = patch mem o (a ++ b).
Proof.
  intros Ho Hb.
  pose proof (zlen_nonneg a) as Ha0. pose proof (zlen_nonneg b) as Hb0.
  destruct (split3 mem o (zlen a + zlen b)) as (pre & old & post & -> & <- & Hn);
    try lia.
  destruct (split3 old 0 (zlen a)) as (p0 & oa & ob & -> & Hp0 & Hoa); try lia.
  apply zlen_0_nil in Hp0. subst p0. cbn [app] in *.
  assert (Hob : length ob = length b).
  { rewrite zlen_app in Hn. unfold zlen in *; lia. }
  assert (Hoa' : length oa = length a) by (unfold zlen in *; lia).
  rewrite <- !app_assoc.
  rewrite (patch_app_eq pre oa (ob ++ post)) by auto.
  replace (pre ++ a ++ ob ++ post) with ((pre ++ a) ++ ob ++ post)
    by (rewrite !app_assoc; reflexivity).
  rewrite (patch_app_eq (pre ++ a) ob post) by (rewrite ?zlen_app; auto).
  replace (pre ++ oa ++ ob ++ post) with (pre ++ (oa ++ ob) ++ post)
    by (rewrite !app_assoc; reflexivity).
  rewrite patch_app_eq by (rewrite ?app_length; auto; lia).
  rewrite !app_assoc; reflexivity.
Qed.

Lemma patch_patch_before mem o a b :
  0 <= o -> o + zlen a + zlen b <= zlen mem ->
  patch (patch mem (o + zlen a) b) o a = patch mem o (a ++ b).
Proof.
  intros Ho Hb.
  pose proof (zlen_nonneg a) as Ha0. pose proof (zlen_nonneg b) as Hb0.
  destruct (split3 mem o (zlen a + zlen b)) as (pre & old & post & -> & <- & Hn);
    try lia.
  destruct (split3 old 0 (zlen a)) as (p0 & oa & ob & -> & Hp0 & Hoa); try lia.
  apply zlen_0_nil in Hp0. subst p0. cbn [app] in *.
  assert (Hob : length ob = length b).
  { rewrite zlen_app in Hn. unfold zlen in *; lia. }
  assert (Hoa' : length oa = length a) by (unfold zlen in *; lia).
  rewrite <- !app_assoc.
  replace (pre ++ oa ++ ob ++ post) with ((pre ++ oa) ++ ob ++ post)
    by (rewrite !app_assoc; reflexivity).
  rewrite (patch_app_eq (pre ++ oa) ob post)
    by (rewrite ?zlen_app; auto; unfold zlen in *; lia).
  replace ((pre ++ oa) ++ b ++ post) with (pre ++ oa ++ (b ++ post))
    by (rewrite !app_assoc; reflexivity).
  rewrite (patch_app_eq pre oa (b ++ post)) by auto.
  replace ((pre ++ oa) ++ ob ++ post) with (pre ++ (oa ++ ob) ++ post)
    by (rewrite !app_assoc; reflexivity).
  rewrite patch_app_eq by (rewrite ?app_length; auto; lia).
  rewrite !app_assoc; reflexivity.
Qed.

Lemma firstn_patch mem o bs n :
  0 <= n <= o -> o + zlen bs <= zlen mem ->
  firstn (Z.to_nat n) (patch mem o bs) = firstn (Z.to_nat n) mem.
Proof.
  intros H Hb. pose proof (zlen_nonneg bs).
  unfold patch. rewrite firstn_app.
  rewrite firstn_firstn. replace (Nat.min (Z.to_nat n) (Z.to_nat o)) with (Z.to_nat n) by lia.
  rewrite firstn_length. unfold zlen in *.
  replace (Z.to_nat n - Nat.min (Z.to_nat o) (length mem))%nat with 0%nat by lia.
  cbn [firstn]. apply app_nil_r.
Qed.

Lemma slice_patch mem o bs :
  0 <= o -> o + zlen bs <= zlen mem ->
  slice (patch mem o bs) o (zlen bs) = Some bs.
Proof.
  intros. destruct (patch_decomp mem o bs) as (pre & old & post & E & K).
  destruct (K H H0) as (K1 & K2 & ->). apply (slice_app' _ pre bs post); auto.
Qed.

Lemma firstn_zlen {A} (l : list A) : firstn (Z.to_nat (zlen l)) l = l.
Proof. rewrite zlen_length. apply firstn_all. Qed.

Lemma add_size_small a b : 0 <= a + b < M64 -> add_size a b = a + b.
Proof. intros; unfold add_size. apply Z.mod_small; lia. Qed.

Lemma sub_size_small a b : 0 <= a - b < M64 -> sub_size a b = a - b.
Proof. intros; unfold sub_size. apply Z.mod_small; lia. Qed.
