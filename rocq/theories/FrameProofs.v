(** amqp_handle_input in closed form: it only depends on the bytes of the
    current frame seen so far followed by the new data. *)
From Coq Require Import String ZArith List Bool Lia.
From Verif Require Import Base BaseFacts Codec CodecProofs TableModel FramingStmt FramingGen FramingModel Frame FrameSpec.
Import ListNotations.
Local Open Scope Z_scope.

Lemma zlen_fresh e n : 0 <= n -> zlen (fresh_block e n) = n.
Proof. intros. unfold fresh_block, zlen. rewrite map_length, seq_length. lia. Qed.

Lemma sub_size_ok a b : 0 <= b <= a -> a < M64 -> sub_size a b = a - b.
Proof. intros. unfold sub_size. apply Z.mod_small. lia. Qed.
Lemma add_size_ok a b : 0 <= a -> 0 <= b -> a + b < M64 -> add_size a b = a + b.
Proof. intros. unfold add_size. apply Z.mod_small. lia. Qed.
Lemma signed32_ok a : 0 <= a < M31 -> signed M32 a = a.
Proof.
  intros. unfold signed. rewrite (Z.mod_small a) by lia. change (M32 / 2) with M31.
  destruct (Z.ltb_spec a M31); lia.
Qed.

Lemma d_at_nth w mem o : 0 <= o -> o + wbytes w <= zlen mem ->
  d_at w mem o = Some (be_val 0 (firstn (wnat w) (skipn (Z.to_nat o) mem))).
Proof.
  intros. pose proof (wbytes_range w). unfold d_at. rewrite slice_Some by lia. f_equal.
  replace (Z.to_nat (wbytes w)) with (wnat w) by (destruct w; reflexivity).
  apply amqp_d_be. rewrite firstn_length, skipn_length. rewrite <- wnat_bytes in *. unfold zlen in *. lia.
Qed.
Lemma d_at_none w mem o : 0 <= o -> o + wbytes w > zlen mem -> d_at w mem o = None.
Proof.
  intros. unfold d_at, slice. destruct (Z.leb_spec (o + wbytes w) (zlen mem)); [lia|].
  rewrite andb_false_r. reflexivity.
Qed.

(** fields of a frame header *)
Definition size_of (w : bytes) : Z := be_val 0 (firstn 4 (skipn 3 w)).
Definition chan_of (w : bytes) : Z := be_val 0 (firstn 2 (skipn 1 w)).
Definition ftype_of (w : bytes) : Z := be_val 0 (firstn 1 w).

Lemma size_of_range w : 0 <= size_of w < M32.
Proof.
  unfold size_of. pose proof (be_val_range (firstn 4 (skipn 3 w))) as H.
  assert (L : zlen (firstn 4 (skipn 3 w)) <= 4) by (unfold zlen; rewrite firstn_length; lia).
  pose proof (zlen_nonneg (firstn 4 (skipn 3 w))).
  assert (256 ^ zlen (firstn 4 (skipn 3 w)) <= 256 ^ 4) by (apply Z.pow_le_mono_r; lia).
  change (256 ^ 4) with M32 in *. lia.
Qed.

Lemma firstn_sub {A} n m (l : list A) : (n <= m)%nat -> firstn n (firstn m l) = firstn n l.
Proof. intros. rewrite firstn_firstn. f_equal. lia. Qed.
Lemma firstn_skipn_sub {A} n k m (l : list A) : (k + n <= m)%nat ->
  firstn n (skipn k (firstn m l)) = firstn n (skipn k l).
Proof. intros. rewrite skipn_firstn_comm. apply firstn_sub. lia. Qed.
Lemma size_of_firstn n w : (7 <= n)%nat -> size_of (firstn n w) = size_of w.
Proof. intros. unfold size_of. rewrite firstn_skipn_sub by lia. reflexivity. Qed.
Lemma chan_of_firstn n w : (3 <= n)%nat -> chan_of (firstn n w) = chan_of w.
Proof. intros. unfold chan_of. rewrite firstn_skipn_sub by lia. reflexivity. Qed.
Lemma size_of_app w x : 7 <= zlen w -> size_of (w ++ x) = size_of w.
Proof.
  intros. unfold zlen in *. rewrite <- (size_of_firstn (length w) (w ++ x)) by lia.
  rewrite firstn_app, Nat.sub_diag, firstn_all, firstn_O, app_nil_r. reflexivity.
Qed.
Lemma chan_of_app w x : 3 <= zlen w -> chan_of (w ++ x) = chan_of w.
Proof.
  intros. unfold zlen in *. rewrite <- (chan_of_firstn (length w) (w ++ x)) by lia.
  rewrite firstn_app, Nat.sub_diag, firstn_all, firstn_O, app_nil_r. reflexivity.
Qed.

(** what stays fixed while a frame is being received *)
Record base := mkB { b_fm : Z; b_hdr : bytes; b_gens : Z -> nat; b_nf : nat }.

Section Closed.
Variable E : nat -> aenv.

Definition st_hdr (B : base) (a : bytes) : inst :=
  mkIn HEADER (b_fm B) (patch (b_hdr B) 0 (firstn 7 a)) IHdr 7 7 (b_gens B) (b_nf B).
Definition st_nomem (B : base) (a : bytes) : inst :=
  mkIn HEADER (b_fm B) (patch (b_hdr B) 0 (firstn 7 a)) INull 7 7 (b_gens B) (b_nf B).
Definition st_body (B : base) (a : bytes) : inst :=
  mkIn BODY (b_fm B) (patch (b_hdr B) 0 (firstn 7 a))
    (IBlock (chan_of a) (b_gens B (chan_of a)) (patch (fresh_block (E (b_nf B)) (size_of a + 8)) 0 a))
    (zlen a) (size_of a + 8) (b_gens B) (b_nf B).
Definition st_of (B : base) (a : bytes) : inst :=
  if zlen a =? 0 then mkIn IDLE (b_fm B) (b_hdr B) IHdr 0 7 (b_gens B) (b_nf B)
  else if zlen a <? 7 then mkIn HEADER (b_fm B) (patch (b_hdr B) 0 a) IHdr (zlen a) 7 (b_gens B) (b_nf B)
  else st_body B a.

(** a frame that the library accepts to receive *)
Definition accepted (B : base) (w : bytes) : Prop :=
  size_of w < INT_MAX /\ size_of w + 8 <= u64 (b_fm B) /\
  ae_nopool (E (b_nf B)) = false /\ ae_noblock (E (b_nf B)) = false.
Definition incomplete (B : base) (a : bytes) : Prop :=
  zlen a < 7 \/ (7 <= zlen a /\ accepted B a /\ zlen a < size_of a + 8).

(** the closed form: [w] is everything received of the current frame (and
    possibly more), [k] how much of it was already there before the call *)
Definition step (B : base) (w : bytes) (k : Z) : hres :=
  if zlen w <? 7 then HRet (zlen w - k) no_frame (st_of B w)
  else if INT_MAX <=? size_of w then HRet AMQP_STATUS_BAD_AMQP_DATA no_frame (st_hdr B w)
  else if u64 (b_fm B) <? size_of w + 8 then HRet AMQP_STATUS_BAD_AMQP_DATA no_frame (st_hdr B w)
  else if ae_nopool (E (b_nf B)) then HRet AMQP_STATUS_NO_MEMORY no_frame (st_hdr B w)
  else if ae_noblock (E (b_nf B)) then HRet AMQP_STATUS_NO_MEMORY no_frame (st_nomem B w)
  else if zlen w <? size_of w + 8 then HRet (zlen w - k) no_frame (st_of B w)
  else handle_body E (size_of w + 8 - k) (st_body B (firstn (Z.to_nat (size_of w + 8)) w)).

Lemma patch0 mem a : zlen a <= zlen mem -> patch mem 0 a = a ++ skipn (length a) mem.
Proof. intros. unfold patch. reflexivity. Qed.

Lemma slice_patch0 mem w n : 0 <= n <= zlen w -> zlen w <= zlen mem ->
  slice (patch mem 0 w) 0 n = Some (firstn (Z.to_nat n) w).
Proof.
  intros. pose proof (zlen_nonneg w). rewrite slice_Some by (try rewrite zlen_patch; lia).
  change (Z.to_nat 0) with 0%nat. cbn [skipn]. rewrite patch0 by lia. f_equal.
  rewrite firstn_app. unfold zlen in *. replace (Z.to_nat n - length w)%nat with 0%nat by lia.
  rewrite firstn_O. apply app_nil_r.
Qed.

Lemma patch_same_prefix mem a b : zlen a <= zlen b -> zlen b <= zlen mem ->
  patch (patch mem 0 a) 0 b = patch mem 0 b.
Proof.
  intros. rewrite (patch0 mem a), (patch0 (_ ++ _)), (patch0 mem b).
  - rewrite skipn_app. f_equal. rewrite skipn_all2 by (unfold zlen in *; lia). cbn [app].
    rewrite skipn_skipn'. f_equal. unfold zlen in *; lia.
  - lia.
  - unfold zlen in *. rewrite app_length, skipn_length. lia.
  - lia.
Qed.

Lemma patch_append mem a b : zlen a + zlen b <= zlen mem ->
  patch (patch mem 0 a) (zlen a) b = patch mem 0 (a ++ b).
Proof. intros. rewrite <- (patch_patch_after mem 0 a b) by lia. reflexivity. Qed.

(** consume_data into the header buffer *)
Lemma consume_hdr st fm hdr off tgt gens nf d :
  0 <= off -> off <= tgt -> tgt <= zlen hdr -> zlen hdr <= 8 -> zlen d < M31 ->
  consume_data (mkIn st fm hdr IHdr off tgt gens nf) d =
    let n := Z.min (zlen d) (tgt - off) in
    Some (n, mkIn st fm (patch hdr off (firstn (Z.to_nat n) d)) IHdr (off + n) tgt gens nf, skipn (Z.to_nat n) d).
Proof.
  intros. pose proof (zlen_nonneg d). unfold consume_data.
  cbn [i_target i_off i_buf i_hdr i_state i_frame_max i_gens i_nf].
  rewrite sub_size_ok by lia.
  assert (N : (if zlen d <? tgt - off then zlen d else tgt - off) = Z.min (zlen d) (tgt - off)).
  { destruct (Z.ltb_spec (zlen d) (tgt - off)); lia. }
  rewrite N. cbv zeta. rewrite add_size_ok by lia.
  rewrite write_Some; [reflexivity|lia|]. rewrite zlen_firstn; lia.
Qed.

Lemma consume_block st fm hdr c g bs off tgt gens nf d :
  g = gens c -> 0 <= off -> off <= tgt -> tgt = zlen bs -> tgt < M63 -> zlen d < M31 ->
  consume_data (mkIn st fm hdr (IBlock c g bs) off tgt gens nf) d =
    let n := Z.min (zlen d) (tgt - off) in
    Some (n, mkIn st fm hdr (IBlock c g (patch bs off (firstn (Z.to_nat n) d))) (off + n) tgt gens nf, skipn (Z.to_nat n) d).
Proof.
  intros. pose proof (zlen_nonneg d). unfold consume_data.
  cbn [i_target i_off i_buf i_hdr i_state i_frame_max i_gens i_nf].
  rewrite sub_size_ok by lia. subst g. rewrite Nat.eqb_refl.
  assert (N : (if zlen d <? tgt - off then zlen d else tgt - off) = Z.min (zlen d) (tgt - off)).
  { destruct (Z.ltb_spec (zlen d) (tgt - off)); lia. }
  rewrite N. cbv zeta. rewrite add_size_ok by lia.
  rewrite write_Some; [reflexivity|lia|]. rewrite zlen_firstn; lia.
Qed.

Lemma firstn_app_min (a d : bytes) t : zlen a <= t ->
  a ++ firstn (Z.to_nat (Z.min (zlen d) (t - zlen a))) d = firstn (Z.to_nat t) (a ++ d).
Proof.
  intros. rewrite (firstn_app (Z.to_nat t) a d). rewrite (@firstn_all2 _ (Z.to_nat t) a) by (unfold zlen in *; lia). f_equal.
  destruct (Z_le_gt_dec (zlen d) (t - zlen a)).
  - rewrite Z.min_l by lia. rewrite zlen_length. rewrite !firstn_all2; unfold zlen in *; auto; lia.
  - rewrite Z.min_r by lia. f_equal. unfold zlen in *; lia.
Qed.


Lemma handle_header_closed B (w : bytes) (k : Z) :
  zlen (b_hdr B) = 8 -> 7 <= zlen w -> 0 <= k <= 7 -> zlen w - k < M31 ->
  handle_header E (7 - k)
     (mkIn HEADER (b_fm B) (patch (b_hdr B) 0 (firstn 7 w)) IHdr 7 7 (b_gens B) (b_nf B)) (skipn 7 w) = step B w k.
Proof.
  intros HB HW HK HL. pose proof (size_of_range w) as HS.
  assert (L7 : zlen (firstn 7 w) = 7) by (apply (zlen_firstn 7); lia).
  unfold handle_header, step. destruct (Z.ltb_spec (zlen w) 7); [lia|].
  cbn [i_nf raw_bytes i_buf i_hdr i_gens i_frame_max i_off i_target i_state].
  assert (P8 : zlen (patch (b_hdr B) 0 (firstn 7 w)) = 8) by (rewrite zlen_patch; lia).
  assert (PE : patch (b_hdr B) 0 (firstn 7 w) = firstn 7 w ++ skipn 7 (b_hdr B)).
  { rewrite patch0 by lia. do 2 f_equal. unfold zlen in L7; lia. }
  rewrite (d_at_nth W16) by (rewrite ?P8; cbn; lia). rewrite (d_at_nth W32) by (rewrite ?P8; cbn; lia).
  cbn [wnat]. change (Z.to_nat 1) with 1%nat. change (Z.to_nat 3) with 3%nat.
  fold (chan_of (patch (b_hdr B) 0 (firstn 7 w))) (size_of (patch (b_hdr B) 0 (firstn 7 w))).
  assert (SO : size_of (patch (b_hdr B) 0 (firstn 7 w)) = size_of w).
  { rewrite PE, size_of_app by lia. apply size_of_firstn. lia. }
  assert (CO : chan_of (patch (b_hdr B) 0 (firstn 7 w)) = chan_of w).
  { rewrite PE, chan_of_app by lia. apply chan_of_firstn. lia. }
  rewrite SO, CO. unfold HEADER_SIZE, FOOTER_SIZE in *.
  destruct (Z.leb_spec INT_MAX (size_of w)); [reflexivity|].
  assert (SZ : u32 (size_of w + 7 + 1) = size_of w + 8) by (unfold u32; rewrite Z.mod_small; lia).
  rewrite SZ. destruct (Z.ltb_spec (u64 (b_fm B)) (size_of w + 8)); [reflexivity|].
  destruct (ae_nopool (E (b_nf B))) eqn:NP; [reflexivity|].
  destruct (ae_noblock (E (b_nf B))) eqn:NB; [reflexivity|].
  rewrite slice_patch0 by lia. change (Z.to_nat 7) with 7%nat. rewrite firstn_sub by lia.
  assert (FL : zlen (fresh_block (E (b_nf B)) (size_of w + 8)) = size_of w + 8) by (apply zlen_fresh; lia).
  rewrite write_Some by lia.
  assert (SK : zlen (skipn 7 w) = zlen w - 7) by (apply (zlen_skipn 7); lia).
  rewrite consume_block; [|reflexivity|lia|lia|rewrite zlen_patch; lia|lia|lia].
  cbv zeta. cbn [i_off i_target].
  set (n := Z.min (zlen (skipn 7 w)) (size_of w + 8 - 7)).
  assert (Hn : 0 <= n) by lia.
  assert (PB : patch (patch (fresh_block (E (b_nf B)) (size_of w + 8)) 0 (firstn 7 w)) 7 (firstn (Z.to_nat n) (skipn 7 w))
             = patch (fresh_block (E (b_nf B)) (size_of w + 8)) 0 (firstn (Z.to_nat (7 + n)) w)).
  { rewrite <- L7 at 1. rewrite patch_append.
    - f_equal. replace (Z.to_nat (7 + n)) with (7 + Z.to_nat n)%nat by lia.
      rewrite <- (firstn_skipn 7 w) at 3. rewrite firstn_app, firstn_firstn.
      replace (Nat.min (7 + Z.to_nat n) 7) with 7%nat by lia. do 2 f_equal.
      unfold zlen in L7; lia.
    - rewrite (zlen_firstn n) by lia. lia. }
  rewrite PB.
  destruct (Z.ltb_spec (zlen w) (size_of w + 8)) as [Hs|Hs].
  - assert (n = zlen w - 7) by lia. destruct (Z.ltb_spec (7 + n) (size_of w + 8)); [|lia].
    rewrite add_size_ok by lia. rewrite signed32_ok by lia. f_equal; [lia|].
    unfold st_of. destruct (Z.eqb_spec (zlen w) 0); [lia|]. destruct (Z.ltb_spec (zlen w) 7); [lia|].
    unfold st_body. replace (7 + n) with (zlen w) by lia. rewrite zlen_length, firstn_all. reflexivity.
  - assert (n = size_of w + 1) by lia. destruct (Z.ltb_spec (7 + n) (size_of w + 8)); [lia|].
    rewrite add_size_ok by lia. replace (7 - k + n) with (size_of w + 8 - k) by lia.
    f_equal. unfold st_body. replace (7 + n) with (size_of w + 8) by lia.
    rewrite size_of_firstn, chan_of_firstn by lia. rewrite firstn_sub by lia.
    rewrite zlen_firstn by lia. reflexivity.
Qed.

Lemma handle_input_closed B a d :
  zlen (b_hdr B) = 8 -> incomplete B a -> d <> [] -> zlen d < M31 ->
  amqp_handle_input E (st_of B a) d = step B (a ++ d) (zlen a).
Proof.
  intros HB HI HD HL. pose proof (zlen_nonneg a).
  assert (0 < zlen d). { destruct d; [congruence|]. rewrite zlen_cons. pose proof (zlen_nonneg d). lia. }
  unfold amqp_handle_input. destruct (Z.eqb_spec (zlen d) 0) as [?|_]; [lia|].
  destruct (Z_lt_ge_dec (zlen a) 7) as [L7|L7].
  - assert (X : (match i_state (st_of B a) with
             | IDLE => mkIn HEADER (i_frame_max (st_of B a)) (i_hdr (st_of B a)) (i_buf (st_of B a)) (i_off (st_of B a))
                        (i_target (st_of B a)) (i_gens (st_of B a)) (i_nf (st_of B a))
             | _ => st_of B a end) = mkIn HEADER (b_fm B) (patch (b_hdr B) 0 a) IHdr (zlen a) 7 (b_gens B) (b_nf B)).
    { unfold st_of. destruct (Z.eqb_spec (zlen a) 0) as [Z0|Z0].
      - apply zlen_0_nil in Z0. subst a. cbn [i_state i_frame_max i_hdr i_buf i_off i_target i_gens i_nf].
        rewrite patch_nil. reflexivity.
      - destruct (Z.ltb_spec (zlen a) 7); [reflexivity|lia]. }
    rewrite X. clear X.
    rewrite consume_hdr by (rewrite ?zlen_patch; lia). cbv zeta. cbn [i_off i_target i_state].
    set (n := Z.min (zlen d) (7 - zlen a)).
    rewrite patch_append by (rewrite (zlen_firstn n) by lia; lia).
    unfold n. rewrite firstn_app_min by lia. fold n. change (Z.to_nat 7) with 7%nat.
    destruct (Z.ltb_spec (zlen a + n) 7) as [S7|S7].
    + assert (n = zlen d) by lia. rewrite signed32_ok by lia. unfold step. rewrite zlen_app.
      destruct (Z.ltb_spec (zlen a + zlen d) 7); [|lia]. f_equal; [lia|].
      unfold st_of. rewrite zlen_app. destruct (Z.eqb_spec (zlen a + zlen d) 0); [lia|].
      destruct (Z.ltb_spec (zlen a + zlen d) 7); [|lia]. f_equal; [|lia].
      rewrite (@firstn_all2 _ 7 (a ++ d)) by (unfold zlen in *; rewrite app_length; lia). reflexivity.
    + assert (n = 7 - zlen a) by lia. replace (zlen a + n) with 7 by lia.
      rewrite <- (handle_header_closed B (a ++ d) (zlen a)); try lia; try (rewrite zlen_app; lia).
      f_equal; try lia. rewrite (skipn_app 7 a d). rewrite (@skipn_all2 _ 7 a) by (unfold zlen in *; lia). cbn [app].
      f_equal. unfold zlen in *; lia.
  - destruct HI as [HI|(H7 & (A1 & A2 & A3 & A4) & HC)]; [lia|]. pose proof (size_of_range a).
    assert (SE : st_of B a = st_body B a).
    { unfold st_of. destruct (Z.eqb_spec (zlen a) 0); [lia|]. destruct (Z.ltb_spec (zlen a) 7); [lia|]. reflexivity. }
    rewrite SE. unfold st_body at 1. cbn [i_state].
    assert (FL : zlen (fresh_block (E (b_nf B)) (size_of a + 8)) = size_of a + 8) by (apply zlen_fresh; lia).
    unfold st_body. rewrite consume_block; [|reflexivity|lia|lia|rewrite zlen_patch; lia|lia|lia].
    cbv zeta. cbn [i_off i_target i_state].
    set (n := Z.min (zlen d) (size_of a + 8 - zlen a)).
    rewrite patch_append by (rewrite (zlen_firstn n) by lia; lia).
    unfold n. rewrite firstn_app_min by lia. fold n.
    unfold step. rewrite size_of_app, zlen_app by lia.
    destruct (Z.ltb_spec (zlen a + zlen d) 7); [lia|].
    destruct (Z.leb_spec INT_MAX (size_of a)); [lia|].
    destruct (Z.ltb_spec (u64 (b_fm B)) (size_of a + 8)); [lia|].
    rewrite A3, A4.
    destruct (Z.ltb_spec (zlen a + zlen d) (size_of a + 8)) as [Hs|Hs].
    + destruct (Z.ltb_spec (zlen a + n) (size_of a + 8)); [|lia]. assert (n = zlen d) by lia.
      rewrite signed32_ok by lia. f_equal; [lia|].
      unfold st_of. rewrite zlen_app. destruct (Z.eqb_spec (zlen a + zlen d) 0); [lia|].
      destruct (Z.ltb_spec (zlen a + zlen d) 7); [lia|]. unfold st_body.
      rewrite size_of_app, chan_of_app by lia. rewrite zlen_app.
      rewrite (firstn_app 7 a d). replace (7 - length a)%nat with 0%nat by (unfold zlen in *; lia).
      rewrite firstn_O, app_nil_r. f_equal; try lia. f_equal. f_equal.
      rewrite firstn_all2; [reflexivity|]. unfold zlen in *. rewrite app_length. lia.
    + destruct (Z.ltb_spec (zlen a + n) (size_of a + 8)); [lia|]. assert (n = size_of a + 8 - zlen a) by lia.
      f_equal; [lia|]. unfold st_body.
      rewrite size_of_firstn, chan_of_firstn, size_of_app, chan_of_app by lia.
      rewrite firstn_sub by lia. rewrite zlen_firstn by (rewrite zlen_app; lia).
      rewrite (firstn_app 7 a d). replace (7 - length a)%nat with 0%nat by (unfold zlen in *; lia).
      rewrite firstn_O, app_nil_r. f_equal; lia.
Qed.
End Closed.
