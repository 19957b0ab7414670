From Coq Require Import ZArith List Bool Lia.
From Verif Require Import Base BaseFacts Codec.
From Verif Require Export CodecSwap.
Import ListNotations.
Local Open Scope Z_scope.

Lemma load_store_le n v : load_le (store_le n v) = v mod 256 ^ Z.of_nat n.
Proof.
  revert v; induction n; intros v.
  - cbn. rewrite Z.mod_1_r. reflexivity.
  - cbn [store_le load_le]. rewrite IHn, Z_of_byte_of_Z.
    rewrite Nat2Z.inj_succ, Z.pow_succ_r by lia.
    symmetry. rewrite Z.rem_mul_r by (try apply Z.pow_nonzero; lia). reflexivity.
Qed.


Lemma be_val_app a x y : be_val a (x ++ y) = be_val (be_val a x) y.
Proof. revert a; induction x; cbn; intros; auto. Qed.

Lemma load_le_rev bs : load_le (rev bs) = be_val 0 bs.
Proof.
  assert (G : forall bs a, be_val a bs = a * 256 ^ zlen bs + be_val 0 bs).
  { clear. induction bs as [|b r IH]; intros a.
    - cbn. change (zlen (@nil byte)) with 0. cbn. lia.
    - cbn [be_val]. rewrite (IH (a * 256 + Z_of_byte b)), (IH (0 * 256 + Z_of_byte b)).
      rewrite zlen_cons. rewrite Z.pow_add_r by (try apply zlen_nonneg; lia). lia. }
  assert (L : forall a b, load_le (a ++ b) = load_le a + 256 ^ zlen a * load_le b).
  { clear. induction a as [|x a IH]; intros b.
    - cbn [app load_le]. change (zlen (@nil byte)) with 0. lia.
    - cbn [app load_le]. rewrite IH, zlen_cons.
      rewrite Z.pow_add_r by (try apply zlen_nonneg; lia). lia. }
  induction bs as [|b r IH]; [reflexivity|].
  cbn [rev be_val]. rewrite L, IH, (G r (0*256 + Z_of_byte b)).
  unfold zlen. rewrite rev_length. cbn [load_le]. lia.
Qed.

Lemma be_val_be n v : be_val 0 (be n v) = v mod 256 ^ Z.of_nat n.
Proof.
  assert (G : forall n a, be_val a (be n v) = a * 256 ^ Z.of_nat n + v mod 256 ^ Z.of_nat n).
  { clear; induction n; intros a.
    - cbn. rewrite Z.mod_1_r. lia.
    - cbn [be be_val]. rewrite IHn, Z_of_byte_of_Z.
      rewrite Nat2Z.inj_succ, Z.pow_succ_r by lia.
      rewrite (Z.mul_comm 256).
      rewrite (Z.rem_mul_r v (256 ^ Z.of_nat n) 256) by (try apply Z.pow_nonzero; lia). lia. }
  rewrite G. lia.
Qed.

Lemma load_le_range bs : 0 <= load_le bs < 256 ^ zlen bs.
Proof.
  induction bs; cbn [load_le].
  - change (zlen (@nil byte)) with 0. lia.
  - rewrite zlen_cons, Z.pow_add_r by (try apply zlen_nonneg; lia).
    pose proof (Z_of_byte_range a). lia.
Qed.

Lemma store_load_le bs : store_le (length bs) (load_le bs) = bs.
Proof.
  induction bs; cbn [length store_le load_le]; [reflexivity|].
  pose proof (Z_of_byte_range a). f_equal.
  - rewrite <- (byte_of_Z_to a) at 2. apply byte_of_Z_eq.
    rewrite (Z.mul_comm 256), Z.mod_add by lia. reflexivity.
  - rewrite (Z.mul_comm 256), Z.div_add by lia.
    rewrite (Z.div_small (Z_of_byte a)) by lia. exact IHbs.
Qed.

Lemma be_store n v : be n v = rev (store_le n v).
Proof.
  assert (G: forall n v, store_le (S n) v = store_le n v ++ [byte_of_Z (v / 256 ^ Z.of_nat n)]).
  { clear; induction n; intros.
    - cbn. rewrite Z.div_1_r. reflexivity.
    - change (store_le (S (S n)) v) with (byte_of_Z v :: store_le (S n) (v/256)).
      rewrite IHn. cbn [store_le app]. rewrite Z.div_div by lia.
      rewrite Nat2Z.inj_succ, Z.pow_succ_r by lia. reflexivity. }
  induction n; [reflexivity|].
  rewrite G, rev_app_distr. cbn [rev app be]. rewrite IHn. reflexivity.
Qed.

Lemma be_load bs : be (length bs) (be_val 0 bs) = bs.
Proof.
  rewrite be_store, <- load_le_rev. rewrite <- (rev_length bs), store_load_le.
  apply rev_involutive.
Qed.

Lemma be_val_range bs : 0 <= be_val 0 bs < 256 ^ zlen bs.
Proof.
  rewrite <- load_le_rev. pose proof (load_le_range (rev bs)).
  unfold zlen in *. rewrite rev_length in H. auto.
Qed.

Lemma wmod_pow w : wmod w = 256 ^ wbytes w.
Proof. destruct w; reflexivity. Qed.

Lemma wmod_pos w : 0 < wmod w.
Proof. destruct w; reflexivity. Qed.


Lemma swap16_load bs : length bs = 2%nat -> swap16 (load_le bs) = be_val 0 bs.
Proof.
  intros H. transitivity (load_le (store_le 2 (swap16 (load_le bs)))).
  - rewrite load_store_le. unfold swap16, u16. rewrite Z.mod_mod by lia. reflexivity.
  - rewrite swap16_be, be_store, <- H, store_load_le. apply load_le_rev.
Qed.
Lemma swap32_load bs : length bs = 4%nat -> swap32 (load_le bs) = be_val 0 bs.
Proof.
  intros H. transitivity (load_le (store_le 4 (swap32 (load_le bs)))).
  - rewrite load_store_le. unfold swap32, u32 at 1 4. rewrite Z.mod_mod by lia. reflexivity.
  - rewrite swap32_be, be_store, <- H, store_load_le. apply load_le_rev.
Qed.
Lemma swap64_load bs : length bs = 8%nat -> swap64 (load_le bs) = be_val 0 bs.
Proof.
  intros H. transitivity (load_le (store_le 8 (swap64 (load_le bs)))).
  - rewrite load_store_le. unfold swap64, u64 at 1 6. rewrite Z.mod_mod by lia. reflexivity.
  - rewrite swap64_be, be_store, <- H, store_load_le. apply load_le_rev.
Qed.

Lemma amqp_d_be h w bs : length bs = wnat w -> amqp_d h w bs = be_val 0 bs.
Proof.
  intros H. destruct w; cbn [amqp_d wnat] in *;
    unfold amqp_d8, amqp_d16, amqp_d32, amqp_d64;
    destruct h; rewrite ?is_big_true, ?is_big_false; cbn [negb load].
  - destruct bs as [|b [|]]; try discriminate. cbn [load_le be_val]. lia.
  - apply load_le_rev.
  - apply swap16_load; auto.
  - apply load_le_rev.
  - apply swap32_load; auto.
  - apply load_le_rev.
  - apply swap64_load; auto.
  - apply load_le_rev.
Qed.

Lemma wnat_bytes w : Z.of_nat (wnat w) = wbytes w.
Proof. destruct w; reflexivity. Qed.

Lemma wbytes_range w : 1 <= wbytes w <= 8.
Proof. destruct w; cbn; lia. Qed.

Lemma be_mod n v : be n (v mod 256 ^ Z.of_nat n) = be n v.
Proof.
  rewrite <- (be_val_be n v). rewrite <- (length_be n v) at 1. apply be_load.
Qed.

Lemma be_mod_w w v : be (wnat w) (v mod wmod w) = be (wnat w) v.
Proof. rewrite wmod_pow, <- wnat_bytes. apply be_mod. Qed.

Lemma be_val_be_w w v : be_val 0 (be (wnat w) v) = v mod wmod w.
Proof. rewrite be_val_be, wmod_pow, wnat_bytes. reflexivity. Qed.

(** ** Encoding: closed forms *)

Lemma encode_ok h w v m o :
  0 <= o -> o + wbytes w <= zlen m -> zlen m < M63 ->
  amqp_encode_h h w v (mkE m o) =
    Some (true, mkE (patch m o (be (wnat w) v)) (o + wbytes w)).
Proof.
  intros. unfold amqp_encode_h; cbn [emem eoff].
  pose proof (wbytes_range w).
  rewrite add_size_small by lia.
  destruct (Z.leb_spec (o + wbytes w) (zlen m)); [|lia].
  rewrite amqp_e_be, be_mod_w.
  rewrite write_Some by (rewrite ?zlen_be_w; lia). reflexivity.
Qed.

Lemma encode_fail h w v m o :
  0 <= o < M63 -> o + wbytes w > zlen m ->
  amqp_encode_h h w v (mkE m o) = Some (false, mkE m (o + wbytes w)).
Proof.
  intros. unfold amqp_encode_h; cbn [emem eoff].
  pose proof (wbytes_range w).
  rewrite add_size_small by lia.
  destruct (Z.leb_spec (o + wbytes w) (zlen m)); [lia|]. reflexivity.
Qed.

Lemma encode_bytes_ok bs m o :
  0 <= o -> o + zlen bs <= zlen m -> zlen m < M63 ->
  amqp_encode_bytes bs (mkE m o) = Some (true, mkE (patch m o bs) (o + zlen bs)).
Proof.
  intros. unfold amqp_encode_bytes; cbn [emem eoff].
  pose proof (zlen_nonneg bs).
  destruct (Z.eqb_spec (zlen bs) 0) as [E|E].
  - apply zlen_0_nil in E; subst. rewrite patch_nil, zlen_nil, Z.add_0_r. reflexivity.
  - rewrite add_size_small by lia.
    destruct (Z.leb_spec (o + zlen bs) (zlen m)); [|lia].
    rewrite write_Some by lia. reflexivity.
Qed.

Lemma encode_bytes_fail bs m o :
  0 <= o < M63 -> 0 < zlen bs < M63 -> o + zlen bs > zlen m ->
  amqp_encode_bytes bs (mkE m o) = Some (false, mkE m (o + zlen bs)).
Proof.
  intros. unfold amqp_encode_bytes; cbn [emem eoff].
  destruct (Z.eqb_spec (zlen bs) 0) as [E|E]; [lia|].
  rewrite add_size_small by lia.
  destruct (Z.leb_spec (o + zlen bs) (zlen m)); [lia|]. reflexivity.
Qed.

(** ** Decoding: closed forms *)

Lemma decode_cases h w m o :
  0 <= o < M63 -> zlen m < M63 ->
  (o + wbytes w <= zlen m /\    exists bs, slice m o (wbytes w) = Some bs /\ zlen bs = wbytes w /\      amqp_decode_h h w m o = DOk (be_val 0 bs) (o + wbytes w) /\      0 <= be_val 0 bs < wmod w)
  \/ (o + wbytes w > zlen m /\       amqp_decode_h h w m o = DErr AMQP_STATUS_BAD_AMQP_DATA (o + wbytes w)).
Proof.
  intros. unfold amqp_decode_h. pose proof (wbytes_range w).
  rewrite add_size_small by lia.
  destruct (Z.leb_spec (o + wbytes w) (zlen m)); [left|right; split; [lia|reflexivity]].
  split; [lia|].
  rewrite slice_Some by lia. eexists; split; [reflexivity|].
  assert (L : zlen (firstn (Z.to_nat (wbytes w)) (skipn (Z.to_nat o) m)) = wbytes w).
  { apply zlen_firstn. rewrite zlen_skipn; lia. }
  split; [exact L|]. rewrite amqp_d_be.
  - split; [reflexivity|]. rewrite wmod_pow. pose proof (be_val_range (firstn (Z.to_nat (wbytes w)) (skipn (Z.to_nat o) m))) as R.
    rewrite L in R. exact R.
  - apply Nat2Z.inj. rewrite wnat_bytes. exact L.
Qed.

Lemma decode_at h w pre v post :
  zlen (pre ++ be (wnat w) v ++ post) < M63 ->
  amqp_decode_h h w (pre ++ be (wnat w) v ++ post) (zlen pre) =
    DOk (v mod wmod w) (zlen pre + wbytes w).
Proof.
  intros. unfold amqp_decode_h. pose proof (wbytes_range w).
  rewrite !zlen_app, zlen_be_w in *.
  pose proof (zlen_nonneg pre). pose proof (zlen_nonneg post).
  rewrite add_size_small by lia.
  destruct (Z.leb_spec (zlen pre + wbytes w) (zlen pre + (wbytes w + zlen post))); [|lia].
  rewrite (slice_app' _ pre (be (wnat w) v) post) by (rewrite ?zlen_be_w; auto).
  rewrite amqp_d_be by apply length_be. rewrite be_val_be_w. reflexivity.
Qed.

Lemma decode_bytes_cases m o n :
  0 <= o < M63 -> zlen m < M63 -> 0 <= n < M63 ->
  (o + n <= zlen m /\    exists bs, slice m o n = Some bs /\ zlen bs = n /\      amqp_decode_bytes m o n = DOk bs (o + n))
  \/ (o + n > zlen m /\       amqp_decode_bytes m o n = DErr AMQP_STATUS_BAD_AMQP_DATA (o + n)).
Proof.
  intros. unfold amqp_decode_bytes.
  rewrite add_size_small by lia.
  destruct (Z.leb_spec (o + n) (zlen m)); [left|right; split; [lia|reflexivity]].
  split; [lia|].
  rewrite slice_Some by lia. eexists; split; [reflexivity|].
  split; [|reflexivity]. apply zlen_firstn. rewrite zlen_skipn; lia.
Qed.

Lemma decode_bytes_at pre bs post n :
  n = zlen bs ->
  zlen (pre ++ bs ++ post) < M63 ->
  amqp_decode_bytes (pre ++ bs ++ post) (zlen pre) n = DOk bs (zlen pre + zlen bs).
Proof.
  intros -> H. unfold amqp_decode_bytes.
  pose proof (zlen_nonneg pre). pose proof (zlen_nonneg post). pose proof (zlen_nonneg bs).
  rewrite !zlen_app in *.
  rewrite add_size_small by lia.
  destruct (Z.leb_spec (zlen pre + zlen bs) (zlen pre + (zlen bs + zlen post))); [|lia].
  rewrite slice_app. reflexivity.
Qed.

Lemma be_app_val n v : length (be n v) = n. Proof. apply length_be. Qed.
