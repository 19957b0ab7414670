(** Complete frames and streams of frames. *)
From Coq Require Import String ZArith List Bool Lia.
From Verif Require Import Base BaseFacts Codec CodecProofs TableModel TableSpec TableEnc TableDec TableRT
  FramingStmt FramingGen FramingModel MethodSpec FramingEnc FramingDec FramingProps Prop_Method Frame FrameSpec FrameProofs.
Import ListNotations.
Local Open Scope Z_scope.

(** A complete frame as header, payload and end marker. *)
Lemma frame_split x : zlen x = size_of x + 8 ->
  exists t payload z, x = be 1 t ++ be 2 (chan_of x) ++ be 4 (size_of x) ++ payload ++ [z] /\
    0 <= t < 256 /\ t = ftype_of x /\ 0 <= chan_of x < 65536 /\ zlen payload = size_of x.
Proof.
  intros H. pose proof (size_of_range x) as S.
  exists (ftype_of x), (firstn (Z.to_nat (size_of x)) (skipn 7 x)), (last (skipn 7 x) x00).
  assert (B1 : be 1 (ftype_of x) = firstn 1 x).
  { unfold ftype_of. rewrite <- (be_load (firstn 1 x)) at 2. f_equal. rewrite firstn_length. unfold zlen in *; lia. }
  assert (B2 : be 2 (chan_of x) = firstn 2 (skipn 1 x)).
  { unfold chan_of. rewrite <- (be_load (firstn 2 (skipn 1 x))) at 2. f_equal. rewrite firstn_length, skipn_length. unfold zlen in *; lia. }
  assert (B3 : be 4 (size_of x) = firstn 4 (skipn 3 x)).
  { unfold size_of. rewrite <- (be_load (firstn 4 (skipn 3 x))) at 2. f_equal. rewrite firstn_length, skipn_length. unfold zlen in *; lia. }
  assert (R : forall l, 0 <= be_val 0 l < 256 ^ zlen l) by (apply be_val_range).
  split; [|split; [|split; [reflexivity|split]]].
  - rewrite B1, B2, B3.
    transitivity (firstn 1 x ++ skipn 1 x); [symmetry; apply firstn_skipn|]. f_equal.
    transitivity (firstn 2 (skipn 1 x) ++ skipn 2 (skipn 1 x)); [symmetry; apply firstn_skipn|]. f_equal.
    rewrite skipn_skipn'. change (1 + 2)%nat with 3%nat.
    transitivity (firstn 4 (skipn 3 x) ++ skipn 4 (skipn 3 x)); [symmetry; apply firstn_skipn|]. f_equal.
    rewrite skipn_skipn'. change (3 + 4)%nat with 7%nat.
    set (y := skipn 7 x). assert (Y : zlen y = size_of x + 1) by (unfold y, zlen in *; rewrite skipn_length; lia).
    assert (YN : y <> []) by (intros ->; change (zlen (@nil byte)) with 0 in Y; lia).
    rewrite (app_removelast_last x00 YN) at 1. f_equal.
    rewrite removelast_firstn_len. f_equal. unfold zlen in Y; lia.
  - unfold ftype_of. pose proof (R (firstn 1 x)). rewrite (zlen_firstn 1) in H0 by lia. change (256 ^ 1) with 256 in *. lia.
  - unfold chan_of. pose proof (R (firstn 2 (skipn 1 x))).
    rewrite (zlen_firstn 2) in H0 by (rewrite (zlen_skipn 1); lia). change (256 ^ 2) with 65536 in *. lia.
  - apply zlen_firstn. unfold zlen in *. rewrite skipn_length. lia.
Qed.

Lemma d_at_app w pre bs post o : length bs = wnat w -> o = zlen pre ->
  d_at w (pre ++ bs ++ post) o = Some (be_val 0 bs).
Proof.
  intros H ->. unfold d_at. rewrite (slice_app' _ pre bs post) by (auto; unfold zlen; rewrite H; symmetry; apply wnat_bytes).
  f_equal. apply amqp_d_be. exact H.
Qed.

(** no method number ends in 0xCE *)
Lemma no_method_ends_in_ce id : id mod 256 = 206 -> switch id dec_table = None.
Proof.
  intros H. destruct (switch id dec_table) as [b|] eqn:S; [|reflexivity]. exfalso.
  assert (I : In id (map fst dec_table)).
  { clear H. revert S. induction dec_table as [|[k v] l IH]; cbn [switch map fst]; [discriminate|].
    destruct (Z.eqb_spec id k); [left; auto|right; auto]. }
  assert (A : forallb (fun k => negb (k mod 256 =? 206)) (map fst dec_table) = true) by (vm_compute; reflexivity).
  rewrite forallb_forall in A. specialize (A id I). rewrite H in A. discriminate.
Qed.

Inductive bres := BErr (st : Z) (f : frame) | BDone (f : frame) | BUB.
Definition of_dres {A} (r : dres A) (err : Z -> bres) (ok : A -> bres) : bres :=
  match r with DOk a _ => ok a | DErr st _ => err st | DUB | DFuel => BUB end.

(** the closed form of handle_body for a frame with type t, channel c, payload p
    and last byte z *)
Definition body_res (e : aenv) (gen : nat) (t c : Z) (p : bytes) (z : byte) : bres :=
  if negb (Z_of_byte z =? 206) then BErr AMQP_STATUS_BAD_AMQP_DATA no_frame
  else if ae_nopool e then BErr AMQP_STATUS_NO_MEMORY (mkFrame t c PNone 0)
  else
    let err st := BErr st (mkFrame t c PNone 0) in
    if t =? 1 then
      if zlen p <? 3 then BUB
      else if zlen p <? 4 then err AMQP_STATUS_UNKNOWN_METHOD
      else of_dres (amqp_decode_method (be_val 0 (firstn 4 p)) (skipn 4 p) (ae_oom e)) err
             (fun m => BDone (mkFrame 1 c (PMethod (be_val 0 (firstn 4 p)) m) gen))
    else if t =? 2 then
      if zlen p <? 12 then BUB
      else of_dres (amqp_decode_properties (be_val 0 (firstn 2 p)) (skipn 12 p) (ae_oom e)) err
             (fun q => BDone (mkFrame 2 c (PHeader (be_val 0 (firstn 2 p)) (be_val 0 (firstn 8 (skipn 4 p))) q (skipn 12 p)) gen))
    else if t =? 3 then BDone (mkFrame 3 c (PBody p) gen)
    else if t =? 8 then BDone (mkFrame 8 c PNone gen)
    else BDone (mkFrame 0 c PNone gen).

Section Body.
Variable E : nat -> aenv.
Lemma handle_body_closed B n x t c p z s :
  x = be 1 t ++ be 2 c ++ be 4 (zlen p) ++ p ++ [z] -> 0 <= t < 256 -> 0 <= c < 65536 -> zlen p < M31 ->
  s = st_body E B x ->
  handle_body E n s =
  match body_res (E (b_nf B)) (b_gens B c) t c p z with
  | BErr st f => HRet st f s
  | BDone f => HRet (signed M32 n) f (return_to_idle s)
  | BUB => HUB
  end.
Proof.
  intros Hx Ht Hc Hp Hs. pose proof (zlen_nonneg p) as Hp0.
  assert (LX : zlen x = zlen p + 8) by (rewrite Hx, !zlen_app, !zlen_be; change (zlen [z]) with 1; lia).
  assert (SX : size_of x = zlen p).
  { unfold size_of. rewrite Hx. cbn [be app skipn]. change (firstn 4 _) with (be 4 (zlen p)).
    rewrite be_val_be. apply Z.mod_small. cbn; lia. }
  assert (CX : chan_of x = c).
  { unfold chan_of. rewrite Hx. cbn [be app skipn]. change (firstn 2 _) with (be 2 c).
    rewrite be_val_be. apply Z.mod_small. cbn; lia. }
  assert (PX : patch (fresh_block (E (b_nf B)) (size_of x + 8)) 0 x = x).
  { rewrite patch0 by (rewrite zlen_fresh; lia).
    assert (L : length (fresh_block (E (b_nf B)) (size_of x + 8)) = length x).
    { pose proof (zlen_fresh (E (b_nf B)) (size_of x + 8)). unfold zlen in *; lia. }
    rewrite <- L, skipn_all. apply app_nil_r. }
  assert (ST : i_target s = zlen p + 8 /\ i_nf s = b_nf B /\ i_gens s = b_gens B /\ raw_bytes s = Some x).
  { rewrite Hs. unfold st_body, raw_bytes. cbn [i_target i_nf i_gens i_buf]. rewrite Nat.eqb_refl, PX, SX. auto. }
  destruct ST as (ST & SN & SG & SR). clear PX SX CX Hs.
  unfold handle_body. rewrite SR, SN, SG, ST. rewrite sub_size_ok by lia.
  replace (zlen p + 8 - 1) with (zlen p + 7) by lia.
  assert (F0 : d_at W8 x (zlen p + 7) = Some (Z_of_byte z)).
  { replace x with ((be 1 t ++ be 2 c ++ be 4 (zlen p) ++ p) ++ [z] ++ []) by (rewrite Hx, <- !app_assoc; reflexivity).
    etransitivity; [apply d_at_app; [reflexivity|rewrite !zlen_app, !zlen_be; lia]|]. reflexivity. }
  assert (F1 : d_at W8 x 0 = Some t).
  { rewrite Hx. etransitivity; [apply (d_at_app W8 [] (be 1 t)); reflexivity|]. rewrite be_val_be. f_equal. apply Z.mod_small. cbn; lia. }
  assert (F2 : d_at W16 x 1 = Some c).
  { rewrite Hx. etransitivity; [apply (d_at_app W16 (be 1 t) (be 2 c)); reflexivity|]. rewrite be_val_be. f_equal. apply Z.mod_small. cbn; lia. }
  rewrite F0, F1, F2. unfold AMQP_FRAME_END, body_res.
  destruct (Z.eqb_spec (Z_of_byte z) 206) as [Hz|]; cbn [negb]; [|reflexivity].
  destruct (ae_nopool (E (b_nf B))); [reflexivity|].
  unfold AMQP_FRAME_METHOD, AMQP_FRAME_HEADER, AMQP_FRAME_BODY, AMQP_FRAME_HEARTBEAT.
  set (pre := be 1 t ++ be 2 c ++ be 4 (zlen p)).
  assert (XP : x = pre ++ p ++ [z]) by (rewrite Hx; unfold pre; rewrite <- !app_assoc; reflexivity).
  assert (LP : zlen pre = 7) by (unfold pre; rewrite !zlen_app, !zlen_be; reflexivity).
  assert (XN : forall k, (7 <= k)%nat -> (k <= 7 + length p)%nat -> skipn k x = skipn (k - 7) p ++ [z]).
  { intros k K1 K2. rewrite XP, skipn_app. rewrite skipn_all2 by (unfold zlen in LP; lia). cbn [app].
    replace (k - length pre)%nat with (k - 7)%nat by (unfold zlen in LP; lia).
    rewrite skipn_app. replace (k - 7 - length p)%nat with 0%nat by lia. reflexivity. }
  assert (FA : forall k m, (k + m <= length p)%nat -> firstn m (skipn k p ++ [z]) = firstn m (skipn k p)).
  { intros k m K. rewrite firstn_app, skipn_length. replace (m - (length p - k))%nat with 0%nat by lia. apply app_nil_r. }
  destruct (Z.eqb_spec t 1) as [->|N1].
  - destruct (Z.ltb_spec (zlen p) 3).
    { rewrite d_at_none by (unfold HEADER_SIZE; cbn [wbytes]; lia). reflexivity. }
    rewrite d_at_nth by (unfold HEADER_SIZE; cbn [wbytes]; lia). unfold HEADER_SIZE, FOOTER_SIZE. cbn [wnat].
    change (Z.to_nat 7) with 7%nat. rewrite XN by lia. cbn [Nat.sub].
    destruct (Z.ltb_spec (zlen p) 4).
    + assert (SL : slice x (7 + 4) (sub_size (zlen p + 8) (7 + 4 + 1)) = None).
      { unfold slice, sub_size. replace (zlen p + 8 - (7 + 4 + 1)) with (-1) by lia. change ((-1) mod M64) with (M64 - 1).
        destruct (Z.leb_spec (7 + 4 + (M64 - 1)) (zlen x)); [lia|]. apply andb_false_r || (rewrite andb_false_r; reflexivity). }
      rewrite SL. rewrite no_method_ends_in_ce; [reflexivity|].
      assert (exists p1 p2 p3, p = [p1; p2; p3]) as (p1 & p2 & p3 & ->).
      { destruct p as [|p1 [|p2 [|p3 [|? ?]]]]; unfold zlen in *; cbn [length] in *; try lia. eauto. }
      cbn [skipn app firstn be_val]. rewrite Hz. rewrite Z.add_comm, Z.mod_add by lia. reflexivity.
    + rewrite (FA 0%nat 4%nat) by (unfold zlen in *; lia). cbn [skipn].
      rewrite sub_size_ok by lia. rewrite slice_Some by lia.
      change (Z.to_nat (7 + 4)) with 11%nat. rewrite XN by (unfold zlen in *; lia). cbn [Nat.sub].
      rewrite FA by (unfold zlen in *; lia).
      rewrite (@firstn_all2 _ _ (skipn 4 p)) by (rewrite skipn_length; unfold zlen in *; lia).
      destruct (amqp_decode_method _ _ _); reflexivity.
  - destruct (Z.eqb_spec t 2) as [->|N2].
    + unfold HEADER_SIZE, FOOTER_SIZE.
      destruct (Z.ltb_spec (zlen p) 12).
      * destruct (d_at W16 x 7); [|reflexivity].
        destruct (Z_lt_ge_dec (zlen p) 11).
        { rewrite d_at_none by (cbn [wbytes]; lia). reflexivity. }
        destruct (d_at W64 x (7 + 4)); [|reflexivity].
        assert (SL : slice x (7 + 12) (sub_size (zlen p + 8) (7 + 12 + 1)) = None).
        { unfold slice, sub_size. replace (zlen p + 8 - (7 + 12 + 1)) with (-1) by lia. change ((-1) mod M64) with (M64 - 1).
          destruct (Z.leb_spec (7 + 12 + (M64 - 1)) (zlen x)); [lia|]. apply andb_false_r || (rewrite andb_false_r; reflexivity). }
        rewrite SL. reflexivity.
      * rewrite !d_at_nth by (cbn [wbytes]; lia). cbn [wnat].
        change (Z.to_nat 7) with 7%nat. change (Z.to_nat (7 + 4)) with 11%nat.
        rewrite !XN by (unfold zlen in *; lia). cbn [Nat.sub].
        rewrite (FA 0%nat 2%nat), (FA 4%nat 8%nat) by (unfold zlen in *; lia).
        rewrite sub_size_ok by lia. rewrite slice_Some by lia. change (Z.to_nat (7 + 12)) with 19%nat.
        rewrite XN by (unfold zlen in *; lia). cbn [Nat.sub]. rewrite FA by (unfold zlen in *; lia).
        rewrite (@firstn_all2 _ _ (skipn 12 p)) by (rewrite skipn_length; unfold zlen in *; lia).
        cbn [skipn]. destruct (amqp_decode_properties _ _ _); reflexivity.
    + destruct (Z.eqb_spec t 3) as [->|N3].
      * unfold HEADER_SIZE, FOOTER_SIZE. rewrite sub_size_ok by lia. rewrite slice_Some by lia.
        change (Z.to_nat 7) with 7%nat. rewrite XN by lia. cbn [Nat.sub].
        rewrite (FA 0%nat) by (unfold zlen in *; lia). cbn [skipn].
        rewrite firstn_all2 by (unfold zlen in *; lia). reflexivity.
      * destruct (Z.eqb_spec t 8) as [->|N8]; reflexivity.
Qed.
End Body.

(** ** Streams *)
Section Stream.
Variable E : nat -> aenv.

Definition next_base (B : base) (w : bytes) : base :=
  mkB (b_fm B) (patch (b_hdr B) 0 (firstn 7 w)) (b_gens B) (S (b_nf B)).

Lemma next_base_ok B w : zlen (b_hdr B) = 8 -> zlen (b_hdr (next_base B w)) = 8.
Proof.
  intros. cbn [next_base b_hdr]. rewrite zlen_patch; [lia|lia|].
  unfold zlen in *. rewrite firstn_length. lia.
Qed.

(** What can happen with the bytes [w] received since the last frame. *)
Inductive wres :=
| WMore                                  (* the frame is not complete *)
| WErr (st : Z) (f : frame) (s : inst)               (* refused *)
| WFrame (f : frame)                     (* complete; size_of w + 8 bytes *)
| WUB.

Definition wstep (B : base) (w : bytes) : wres :=
  if zlen w <? 7 then WMore
  else if INT_MAX <=? size_of w then WErr AMQP_STATUS_BAD_AMQP_DATA no_frame (st_hdr B w)
  else if u64 (b_fm B) <? size_of w + 8 then WErr AMQP_STATUS_BAD_AMQP_DATA no_frame (st_hdr B w)
  else if ae_nopool (E (b_nf B)) then WErr AMQP_STATUS_NO_MEMORY no_frame (st_hdr B w)
  else if ae_noblock (E (b_nf B)) then WErr AMQP_STATUS_NO_MEMORY no_frame (st_nomem B w)
  else if zlen w <? size_of w + 8 then WMore
  else
    let x := firstn (Z.to_nat (size_of w + 8)) w in
    match body_res (E (b_nf B)) (b_gens B (chan_of w)) (ftype_of w) (chan_of w)
            (firstn (Z.to_nat (size_of w)) (skipn 7 w)) (nth (Z.to_nat (size_of w + 7)) w x00) with
    | BErr st f => WErr st f (st_body E B x)
    | BDone f => WFrame f
    | BUB => WUB
    end.

Definition small (B : base) : Prop := 0 <= b_fm B < M30 /\ zlen (b_hdr B) = 8.

Lemma decode_method_status id enc oom st n : zlen enc < M30 -> amqp_decode_method id enc oom = DErr st n -> st < 0.
Proof.
  intros He H. destruct (C08_method_decoding_total_and_safe id enc oom He) as [(?&?&?&?&?&_&_&D&_)|(st' & o & D & C)]; [congruence|].
  rewrite H in D. injection D as <- <-. destruct C as [->|[->|[-> _]]]; reflexivity.
Qed.

Lemma decode_flags_status fuel : forall enc off flags idx st n, decode_flags fuel enc off flags idx = DErr st n -> st < 0.
Proof.
  induction fuel as [|fuel IH]; intros enc off flags idx st n; cbn [decode_flags]; [discriminate|].
  unfold amqp_decode, amqp_decode_h. destruct (_ <=? zlen enc); [|cbn; intros H; injection H as <- <-; reflexivity].
  destruct (slice enc off (wbytes W16)); [|discriminate]. cbn [dbind].
  destruct (32 <=? idx * 16); [discriminate|]. destruct (Z.land _ 1 =? 0); [discriminate|apply IH].
Qed.

Lemma decode_properties_status id enc oom st n : zlen enc < M30 -> amqp_decode_properties id enc oom = DErr st n -> st < 0.
Proof.
  intros He H.
  destruct (decode_flags_cases enc ltac:(lia)) as [(A & B & C & D)|(N & _)].
  - unfold amqp_decode_properties in H. rewrite D in H. discriminate.
  - destruct (C15_properties_decoding_safe_partial id enc oom He N) as [(?&?&?&D&_)|(st' & o & D & C)]; [congruence|].
    rewrite H in D. injection D as <- <-. destruct C as [->|[->|[-> _]]]; reflexivity.
Qed.

Lemma body_res_status e gen t c p z st f : zlen p < M30 -> body_res e gen t c p z = BErr st f -> st < 0.
Proof.
  intros Hp. unfold body_res.
  destruct (negb _); [intros H; injection H as <- <-; reflexivity|].
  destruct (ae_nopool e); [intros H; injection H as <- <-; reflexivity|].
  destruct (t =? 1).
  - destruct (zlen p <? 3); [discriminate|]. destruct (Z.ltb_spec (zlen p) 4); [intros H'; injection H' as <- <-; reflexivity|].
    assert (zlen (skipn 4 p) < M30) by (unfold zlen in *; rewrite skipn_length; lia).
    destruct (amqp_decode_method _ _ _) eqn:D; cbn [of_dres]; try discriminate.
    intros H'; injection H' as <- <-. eapply decode_method_status; eauto.
  - destruct (t =? 2).
    + destruct (Z.ltb_spec (zlen p) 12); [discriminate|].
      assert (zlen (skipn 12 p) < M30) by (unfold zlen in *; rewrite skipn_length; lia).
      destruct (amqp_decode_properties _ _ _) eqn:D; cbn [of_dres]; try discriminate.
      intros H'; injection H' as <- <-. eapply decode_properties_status; eauto.
    + destruct (t =? 3); [discriminate|]. destruct (t =? 8); discriminate.
Qed.

(** a complete frame inside [w] *)
Lemma whole_frame w : 7 <= zlen w -> size_of w < M31 -> size_of w + 8 <= zlen w ->
  let x := firstn (Z.to_nat (size_of w + 8)) w in
  let p := firstn (Z.to_nat (size_of w)) (skipn 7 w) in
  x = be 1 (ftype_of w) ++ be 2 (chan_of w) ++ be 4 (zlen p) ++ p ++ [nth (Z.to_nat (size_of w + 7)) w x00] /\
  0 <= ftype_of w < 256 /\ 0 <= chan_of w < 65536 /\ zlen p = size_of w.
Proof.
  intros H7 HS HL x p. pose proof (size_of_range w) as R.
  assert (SX : size_of x = size_of w) by (apply size_of_firstn; lia).
  assert (CX : chan_of x = chan_of w) by (apply chan_of_firstn; lia).
  assert (LX : zlen x = size_of w + 8) by (apply zlen_firstn; lia).
  assert (LP : zlen p = size_of w).
  { apply zlen_firstn. unfold zlen in *. rewrite skipn_length. lia. }
  destruct (frame_split x) as (t & p' & z & Hx & Ht & Ht' & Hc & Hp'); [lia|].
  rewrite SX, CX in *.
  assert (FT : ftype_of x = ftype_of w) by (unfold ftype_of, x; rewrite firstn_sub by lia; reflexivity).
  rewrite FT in Ht'. subst t. split; [|auto].
  rewrite Hx, LP. do 3 f_equal.
  assert (EP : p' = p).
  { assert (SK : skipn 7 x = p' ++ [z]) by (rewrite Hx; reflexivity).
    assert (firstn (Z.to_nat (size_of w)) (skipn 7 x) = p').
    { rewrite SK, firstn_app. rewrite <- Hp'. rewrite zlen_length, firstn_all, Nat.sub_diag. apply app_nil_r. }
    rewrite <- H. unfold x, p. rewrite firstn_skipn_sub by lia. reflexivity. }
  rewrite EP. f_equal. f_equal.
  assert (NX : nth (Z.to_nat (size_of w + 7)) x x00 = z).
  { rewrite Hx. rewrite !app_nth2; rewrite ?length_be; try (unfold zlen in *; lia).
    replace (Z.to_nat (size_of w + 7) - 1 - 2 - 4 - length p')%nat with 0%nat by (unfold zlen in *; lia). reflexivity. }
  rewrite <- NX. pose proof (firstn_skipn (Z.to_nat (size_of w + 8)) w) as FS. fold x in FS.
  assert (NA : forall k y, (k < length x)%nat -> nth k (x ++ y) x00 = nth k x x00) by (intros; apply app_nth1; auto).
  rewrite <- (NA _ (skipn (Z.to_nat (size_of w + 8)) w)) by (unfold zlen in *; lia). rewrite FS. reflexivity.
Qed.

Lemma u64_small fm : 0 <= fm < M30 -> u64 fm = fm.
Proof. intros. unfold u64. apply Z.mod_small. lia. Qed.

(** [step] in terms of [wstep] *)
Lemma step_wstep B w k : small B -> 0 <= k -> zlen w - k < M31 -> (7 <= zlen w -> k <= size_of w + 8) ->
  step E B w k =
  match wstep B w with
  | WMore => HRet (zlen w - k) no_frame (st_of E B w)
  | WErr st f s => HRet st f s
  | WFrame f => HRet (size_of w + 8 - k) f (st_of E (next_base B w) [])
  | WUB => HUB
  end.
Proof.
  intros [HF HB] HK HL HK2. unfold wstep.
  destruct (Z.ltb_spec (zlen w) 7). { unfold step. destruct (Z.ltb_spec (zlen w) 7); [reflexivity|lia]. }
  unfold step. destruct (Z.ltb_spec (zlen w) 7); [lia|].
  destruct (Z.leb_spec INT_MAX (size_of w)); [reflexivity|].
  destruct (Z.ltb_spec (u64 (b_fm B)) (size_of w + 8)) as [|HS]; [reflexivity|].
  destruct (ae_nopool (E (b_nf B))); [reflexivity|].
  destruct (ae_noblock (E (b_nf B))); [reflexivity|].
  destruct (Z.ltb_spec (zlen w) (size_of w + 8)); [reflexivity|].
  pose proof (size_of_range w).
  destruct (whole_frame w) as (Hx & Ht & Hc & Hp); [lia|lia|lia|].
  rewrite (handle_body_closed E B _ _ _ _ _ _ _ Hx Ht Hc) by (auto; lia).
  destruct (body_res _ _ _ _ _ _) as [st f|f|]; try reflexivity.
  rewrite signed32_ok by (specialize (HK2 ltac:(lia)); lia). f_equal.
  unfold return_to_idle, st_body, st_of, next_base. cbn [i_frame_max i_hdr i_gens i_nf b_fm b_hdr b_gens b_nf].
  change (zlen (@nil byte) =? 0) with true. cbn iota. rewrite firstn_sub by lia. reflexivity.
Qed.

Lemma wstep_more B w : wstep B w = WMore -> incomplete E B w.
Proof.
  unfold wstep, incomplete, accepted. destruct (Z.ltb_spec (zlen w) 7); [left; lia|].
  destruct (Z.leb_spec INT_MAX (size_of w)); [discriminate|].
  destruct (Z.ltb_spec (u64 (b_fm B)) (size_of w + 8)); [discriminate|].
  destruct (ae_nopool (E (b_nf B))); [discriminate|].
  destruct (ae_noblock (E (b_nf B))); [discriminate|].
  destruct (Z.ltb_spec (zlen w) (size_of w + 8)); [right; repeat split; auto; lia|].
  destruct (body_res _ _ _ _ _ _); discriminate.
Qed.
Lemma wstep_incomplete B w : incomplete E B w -> wstep B w = WMore.
Proof.
  unfold wstep. intros [H|(H7 & (A1 & A2 & A3 & A4) & H)].
  - destruct (Z.ltb_spec (zlen w) 7); [reflexivity|lia].
  - destruct (Z.ltb_spec (zlen w) 7); [reflexivity|].
    destruct (Z.leb_spec INT_MAX (size_of w)); [lia|].
    destruct (Z.ltb_spec (u64 (b_fm B)) (size_of w + 8)); [lia|].
    rewrite A3, A4. destruct (Z.ltb_spec (zlen w) (size_of w + 8)); [reflexivity|lia].
Qed.
Lemma wstep_frame B w f : wstep B w = WFrame f -> 7 <= zlen w /\ size_of w + 8 <= zlen w /\ size_of w < INT_MAX /\
  size_of w + 8 <= u64 (b_fm B).
Proof.
  unfold wstep. destruct (Z.ltb_spec (zlen w) 7); [discriminate|].
  destruct (Z.leb_spec INT_MAX (size_of w)); [discriminate|].
  destruct (Z.ltb_spec (u64 (b_fm B)) (size_of w + 8)); [discriminate|].
  destruct (ae_nopool (E (b_nf B))); [discriminate|].
  destruct (ae_noblock (E (b_nf B))); [discriminate|].
  destruct (Z.ltb_spec (zlen w) (size_of w + 8)); [discriminate|]. lia.
Qed.
Lemma wstep_err B w st f s : small B -> wstep B w = WErr st f s -> st < 0.
Proof.
  intros [HF HB]. unfold wstep. destruct (Z.ltb_spec (zlen w) 7); [discriminate|].
  destruct (Z.leb_spec INT_MAX (size_of w)); [intros X; injection X as <- <- <-; reflexivity|].
  destruct (Z.ltb_spec (u64 (b_fm B)) (size_of w + 8)); [intros X; injection X as <- <- <-; reflexivity|].
  rewrite u64_small in * by auto.
  destruct (ae_nopool (E (b_nf B))); [intros X; injection X as <- <- <-; reflexivity|].
  destruct (ae_noblock (E (b_nf B))); [intros X; injection X as <- <- <-; reflexivity|].
  destruct (Z.ltb_spec (zlen w) (size_of w + 8)); [discriminate|].
  destruct (body_res _ _ _ _ _ _) eqn:Q; try discriminate. intros X; injection X as <- <- <-.
  eapply body_res_status; [|exact Q]. unfold zlen in *. rewrite firstn_length. pose proof (size_of_range w). lia.
Qed.

(** more data does not change the outcome *)
Lemma wstep_app B w x : wstep B w <> WMore -> wstep B (w ++ x) = wstep B w /\ firstn 7 (w ++ x) = firstn 7 w.
Proof.
  intros H.
  assert (H7 : 7 <= zlen w).
  { unfold wstep in H. destruct (Z.ltb_spec (zlen w) 7); [congruence|lia]. }
  assert (F7 : firstn 7 (w ++ x) = firstn 7 w).
  { rewrite firstn_app. replace (7 - length w)%nat with 0%nat by (unfold zlen in *; lia). rewrite firstn_O. apply app_nil_r. }
  split; [|exact F7]. unfold wstep in *. pose proof (zlen_nonneg x). pose proof (size_of_range w).
  rewrite size_of_app, chan_of_app, zlen_app by lia.
  assert (SH : st_hdr B (w ++ x) = st_hdr B w) by (unfold st_hdr; rewrite F7; reflexivity).
  assert (SN : st_nomem B (w ++ x) = st_nomem B w) by (unfold st_nomem; rewrite F7; reflexivity).
  rewrite SH, SN.
  destruct (Z.ltb_spec (zlen w) 7); [lia|]. destruct (Z.ltb_spec (zlen w + zlen x) 7); [lia|].
  destruct (INT_MAX <=? size_of w); [reflexivity|].
  destruct (u64 (b_fm B) <? size_of w + 8); [reflexivity|].
  destruct (ae_nopool (E (b_nf B))); [reflexivity|].
  destruct (ae_noblock (E (b_nf B))); [reflexivity|].
  destruct (Z.ltb_spec (zlen w) (size_of w + 8)); [congruence|].
  destruct (Z.ltb_spec (zlen w + zlen x) (size_of w + 8)); [lia|].
  assert (F : forall n, n <= zlen w -> firstn (Z.to_nat n) (w ++ x) = firstn (Z.to_nat n) w).
  { intros n Hn. rewrite firstn_app. replace (Z.to_nat n - length w)%nat with 0%nat by (unfold zlen in *; lia).
    rewrite firstn_O. apply app_nil_r. }
  rewrite F by lia.
  assert (FT : ftype_of (w ++ x) = ftype_of w) by (unfold ftype_of; pose proof (F 1 ltac:(lia)) as F1; change (Z.to_nat 1) with 1%nat in F1; rewrite F1; reflexivity).
  rewrite FT. rewrite app_nth1 by (unfold zlen in *; lia).
  assert (FP : firstn (Z.to_nat (size_of w)) (skipn 7 (w ++ x)) = firstn (Z.to_nat (size_of w)) (skipn 7 w)).
  { rewrite (skipn_app 7 w x). replace (7 - length w)%nat with 0%nat by (unfold zlen in *; lia). rewrite skipn_O.
    rewrite firstn_app, (skipn_length 7 w). replace (Z.to_nat (size_of w) - (length w - 7))%nat with 0%nat by (unfold zlen in *; lia).
    rewrite firstn_O. apply app_nil_r. }
  rewrite FP. reflexivity.
Qed.

(** The specification of a whole stream, without any notion of pieces. *)
Fixpoint parse (fuel : nat) (B : base) (w : bytes) : list frame * outcome :=
  match fuel with
  | O => ([], NoFuel)
  | S fuel =>
    match wstep B w with
    | WMore => ([], NeedMore (st_of E B w))
    | WErr st _ s => ([], Failed st s)
    | WUB => ([], Undefined)
    | WFrame f => emit f (parse fuel (next_base B w) (skipn (Z.to_nat (size_of w + 8)) w))
    end
  end.

Lemma parse_fuel : forall f1 f2 B w, (length w < f1)%nat -> (length w < f2)%nat -> parse f1 B w = parse f2 B w.
Proof.
  induction f1 as [|f1 IH]; intros f2 B w H1 H2; [lia|]. destruct f2 as [|f2]; [lia|].
  cbn [parse]. destruct (wstep B w) eqn:W; try reflexivity.
  apply wstep_frame in W. f_equal. apply IH; rewrite skipn_length; pose proof (size_of_range w); unfold zlen in *; lia.
Qed.
Definition stream (B : base) (w : bytes) := parse (S (length w)) B w.

Lemma feed_closed : forall fuel B a d, small B -> incomplete E B a -> zlen d < M31 -> (length d <= fuel)%nat ->
  feed fuel E (st_of E B a) d = stream B (a ++ d).
Proof.
  induction fuel as [|fuel IH]; intros B a d HB HI HD HF.
  - destruct d; [|cbn in HF; lia]. rewrite app_nil_r. unfold stream. cbn [parse feed].
    rewrite wstep_incomplete by auto. reflexivity.
  - destruct d as [|d0 d'].
    + rewrite app_nil_r. unfold stream. cbn [parse feed]. rewrite wstep_incomplete by auto. reflexivity.
    + set (d := d0 :: d') in *. assert (HN : d <> []) by discriminate.
      assert (D1 : 1 <= zlen d) by (unfold d; rewrite zlen_cons; pose proof (zlen_nonneg d'); lia).
      change (feed (S fuel) E (st_of E B a) d) with
        (match amqp_handle_input E (st_of E B a) d with
         | HRet res f s => if res <? 0 then ([], Failed res s) else emit f (feed fuel E s (skipn (Z.to_nat res) d))
         | HUB => ([], Undefined) | HAbort => ([], Aborted) end).
      pose proof (zlen_nonneg a) as Ha. destruct HB as [HB1 HB2].
      rewrite handle_input_closed by auto.
      assert (KA : 7 <= zlen (a ++ d) -> zlen a < size_of (a ++ d) + 8).
      { intros. pose proof (size_of_range (a ++ d)). destruct HI as [|(A7 & _ & A8)]; [lia|]. rewrite size_of_app; lia. }
      rewrite step_wstep; [|split; auto|lia|rewrite zlen_app; lia|lia].
      unfold stream. cbn [parse]. destruct (wstep B (a ++ d)) as [|st f s|f|] eqn:W.
      * rewrite zlen_app. destruct (Z.ltb_spec (zlen a + zlen d - zlen a) 0); [lia|].
        replace (zlen a + zlen d - zlen a) with (zlen d) by lia. rewrite zlen_length, skipn_all.
        destruct fuel; reflexivity.
      * pose proof (wstep_err B (a ++ d) st f s (conj HB1 HB2) W) as Neg.
        destruct (Z.ltb_spec st 0); [reflexivity|lia].
      * pose proof (wstep_frame _ _ _ W) as (W7 & W8 & W9 & W10).
        set (r := size_of (a ++ d) + 8 - zlen a). rewrite zlen_app in *.
        assert (R : 1 <= r <= zlen d) by lia.
        destruct (Z.ltb_spec r 0); [lia|]. f_equal.
        rewrite IH.
        -- unfold stream. cbn [app].
           assert (SK : skipn (Z.to_nat r) d = skipn (Z.to_nat (size_of (a ++ d) + 8)) (a ++ d)).
           { rewrite skipn_app. rewrite (@skipn_all2 _ _ a) by (unfold zlen in *; lia). cbn [app].
             f_equal. unfold zlen in *; lia. }
           rewrite SK. apply parse_fuel; [lia|]. rewrite skipn_length, app_length. unfold zlen in *; lia.
        -- split; [exact HB1|apply next_base_ok; auto].
        -- left. reflexivity.
        -- unfold zlen in *. rewrite skipn_length. lia.
        -- unfold zlen in *. rewrite skipn_length. lia.
      * reflexivity.
Qed.

(** what has been received of the current frame when a stream ends *)
Lemma stream_app : forall (n : nat) (B : base) (a d : bytes), (length a <= n)%nat -> small B ->
  match stream B a with
  | (fs, NeedMore s) => exists B' a', s = st_of E B' a' /\ small B' /\ incomplete E B' a' /\ stream B (a ++ d) = (fs ++ fst (stream B' (a' ++ d)), snd (stream B' (a' ++ d)))
  | (fs, o) => stream B (a ++ d) = (fs, o)
  end.
Proof.
  induction n as [|n IH]; intros B a d HL HB.
  - destruct a; [|cbn in HL; lia]. unfold stream at 1. cbn [parse]. rewrite wstep_incomplete by (left; reflexivity).
    exists B, []. split; [reflexivity|]. split; [auto|]. split; [left; reflexivity|]. cbn [app].
    destruct (stream B d); reflexivity.
  - unfold stream at 1. cbn [parse]. destruct (wstep B a) as [|st f s|f|] eqn:W.
    + exists B, a. split; [reflexivity|]. split; [auto|]. split; [apply wstep_more; auto|]. cbn [app].
      destruct (stream B (a ++ d)); reflexivity.
    + destruct (wstep_app B a d) as [WA _]; [congruence|]. unfold stream. cbn [parse]. rewrite WA, W. reflexivity.
    + destruct (wstep_app B a d) as [WA F7]; [congruence|].
      pose proof (wstep_frame _ _ _ W) as (W7 & W8 & W9 & W10). pose proof (size_of_range a) as SR.
      set (m := Z.to_nat (size_of a + 8)) in *.
      assert (NB : next_base B (a ++ d) = next_base B a) by (unfold next_base; rewrite F7; reflexivity).
      assert (SK : skipn (Z.to_nat (size_of (a ++ d) + 8)) (a ++ d) = skipn m a ++ d).
      { rewrite size_of_app by lia. fold m. rewrite skipn_app. replace (m - length a)%nat with 0%nat by (unfold m, zlen in *; lia). reflexivity. }
      assert (LM : (length (skipn m a) < length a)%nat) by (rewrite skipn_length; unfold m, zlen in *; lia).
      assert (HB' : small (next_base B a)) by (destruct HB; split; [auto|apply next_base_ok; auto]).
      specialize (IH (next_base B a) (skipn m a) d ltac:(lia) HB').
      assert (P1 : parse (length a) (next_base B a) (skipn m a) = stream (next_base B a) (skipn m a)) by (apply parse_fuel; lia).
      assert (P2 : parse (length (a ++ d)) (next_base B a) (skipn m a ++ d) = stream (next_base B a) (skipn m a ++ d)).
      { apply parse_fuel; [|lia]. rewrite !app_length. lia. }
      assert (SE : stream B (a ++ d) = emit f (stream (next_base B a) (skipn m a ++ d))).
      { unfold stream at 1. cbn [parse]. rewrite WA, W, NB, SK, P2. reflexivity. }
      rewrite P1, SE. destruct (stream (next_base B a) (skipn m a)) as [fs o].
      unfold emit. cbn [fst snd]. destruct o as [s|st s| | |]; [|rewrite IH; reflexivity ..].
      destruct IH as (B' & a' & H1 & H2 & H3 & H4). exists B', a'. split; [exact H1|]. split; [auto|]. split; [auto|].
      rewrite H4. cbn [fst snd]. destruct (f_type f =? 0); reflexivity.
    + destruct (wstep_app B a d) as [WA _]; [congruence|]. unfold stream. cbn [parse]. rewrite WA, W. reflexivity.
Qed.

(** any sequence of pieces is equivalent to the whole stream *)
Lemma feed_all_closed : forall pieces B a, small B -> incomplete E B a ->
  Forall (fun d => zlen d < M31) pieces ->
  feed_all E (st_of E B a) pieces = stream B (a ++ concat pieces).
Proof.
  induction pieces as [|d r IH]; intros B a HB HI HF.
  - cbn [feed_all concat]. rewrite app_nil_r. unfold stream. cbn [parse]. rewrite wstep_incomplete by auto. reflexivity.
  - inversion HF as [|? ? H1 H2]; subst. cbn [feed_all concat]. rewrite feed_closed by auto.
    rewrite app_assoc. pose proof (stream_app (length (a ++ d)) B (a ++ d) (concat r) (le_n _) HB) as S.
    destruct (stream B (a ++ d)) as [fs [s|st s| | |]]; try (symmetry; exact S).
    destruct S as (B' & a' & -> & HB' & HI' & S). rewrite (IH B' a' HB' HI' H2). symmetry. exact S.
Qed.
End Stream.
