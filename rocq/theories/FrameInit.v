(** Receiving well-formed frames; errors stay; the first frame. *)
From Coq Require Import String ZArith List Bool Lia.
From Verif Require Import Base BaseFacts Codec CodecProofs TableModel TableSpec TableEnc TableDec TableRT
  FramingStmt FramingGen FramingModel MethodSpec FramingEnc FramingDec FramingProps Prop_Method
  Frame FrameSpec FrameProofs FrameStream FrameFacts.
Import ListNotations.
Local Open Scope Z_scope.

Lemma body_res_received e gen chan a : aframe_ok a -> aframe_representable a = true -> aframe_tables_ok a ->
  ae_nopool e = false -> ae_oom e = no_oom -> zlen (ser_payload a) < M30 ->
  body_res e gen (type_of a) chan (ser_payload a) xce = BDone (received_frame gen chan a).
Proof.
  intros Ha Hr Ht Hp Ho Hl. unfold body_res. change (Z_of_byte xce =? 206) with true. cbn [negb]. rewrite Hp, Ho.
  destruct a as [c i fs args|size flags ms pl|b|]; cbn [type_of ser_payload aframe_ok aframe_representable aframe_tables_ok received_frame] in *.
  - destruct Ha as [Hin Hty]. destruct (catalogue_ids c i fs Hin) as [Hc Hi].
    assert (X : be 2 c ++ be 2 i ++ ser_method fs args = be 4 (method_id c i) ++ ser_method fs args)
      by (rewrite be4_split by auto; rewrite <- app_assoc; reflexivity).
    rewrite X in *. rewrite zlen_app, zlen_be in *. pose proof (zlen_nonneg (ser_method fs args)).
    change (1 =? 1) with true. cbn iota.
    destruct (Z.ltb_spec (Z.of_nat 4 + zlen (ser_method fs args)) 3); [lia|].
    destruct (Z.ltb_spec (Z.of_nat 4 + zlen (ser_method fs args)) 4); [lia|].
    assert (F : firstn 4 (be 4 (method_id c i) ++ ser_method fs args) = be 4 (method_id c i)) by reflexivity.
    assert (S : skipn 4 (be 4 (method_id c i) ++ ser_method fs args) = ser_method fs args) by reflexivity.
    rewrite F, S, be_val_be. rewrite Z.mod_small by (unfold method_id; cbn; lia).
    pose proof (decode_method_rt (c, i, fs) args [] Hin Hty Hr Ht) as D. rewrite app_nil_r in D. cbn [snd] in D.
    change (entry_id (c, i, fs)) with (method_id c i) in D. rewrite D by lia. reflexivity.
  - destruct Ha as (Hsz & Hfl & Hpr & Hpt). change (2 =? 1) with false. change (2 =? 2) with true. cbn iota.
    rewrite !zlen_app, !zlen_be in *. pose proof (zlen_nonneg (ser_props flags pl)).
    destruct (Z.ltb_spec (Z.of_nat 2 + (Z.of_nat 2 + (Z.of_nat 8 + zlen (ser_props flags pl)))) 12); [lia|].
    assert (F : firstn 2 (be 2 60 ++ be 2 0 ++ be 8 size ++ ser_props flags pl) = be 2 60) by reflexivity.
    assert (F2 : firstn 8 (skipn 4 (be 2 60 ++ be 2 0 ++ be 8 size ++ ser_props flags pl)) = be 8 size) by reflexivity.
    assert (S : skipn 12 (be 2 60 ++ be 2 0 ++ be 8 size ++ ser_props flags pl) = ser_props flags pl) by reflexivity.
    rewrite F, F2, S, !be_val_be. rewrite (Z.mod_small size) by (cbn; lia). change (60 mod 256 ^ Z.of_nat 2) with 60.
    pose proof (decode_properties_rt flags ms pl [] Hfl Hpr Hpt Hr Ht) as D. rewrite app_nil_r in D. rewrite D by lia. reflexivity.
  - reflexivity.
  - reflexivity.
Qed.

Lemma type_of_range a : 0 <= type_of a < 256.
Proof. destruct a; cbn; lia. Qed.

Section Init.
Variable E : nat -> aenv.

Definition idle_base (s : inst) : base := mkB (i_frame_max s) (i_hdr s) (i_gens s) (i_nf s).
Lemma idle_st s : idle s -> s = st_of E (idle_base s) [] /\ zlen (b_hdr (idle_base s)) = 8.
Proof.
  intros (H1 & H2 & H3 & H4 & H5). split; [|exact H5].
  destruct s as [a b c d e f g h]. cbn in *. subst. reflexivity.
Qed.
Lemma idle_small s : idle s -> 0 <= i_frame_max s < M30 -> small (idle_base s).
Proof. intros (H1 & H2 & H3 & H4 & H5) H. split; auto. Qed.

(** a sequence of well-formed frames, then anything *)
Lemma stream_frames : forall (l : list (Z * aframe)) B rest, small B -> never_fails E ->
  Forall (fun ca => 0 <= fst ca < 65536 /\ aframe_ok (snd ca) /\ aframe_representable (snd ca) = true /\
                    aframe_tables_ok (snd ca) /\ zlen (ser_frame (fst ca) (snd ca)) <= b_fm B) l ->
  exists B', small B' /\ b_fm B' = b_fm B /\ b_gens B' = b_gens B /\ b_nf B' = (b_nf B + length l)%nat /\
  stream E B (concat (map (fun ca => ser_frame (fst ca) (snd ca)) l) ++ rest) =
    (map (fun ca => received_frame (b_gens B (fst ca)) (fst ca) (snd ca)) l ++ fst (stream E B' rest), snd (stream E B' rest)).
Proof.
  induction l as [|[c a] l IH]; intros B rest HB HE HF.
  - exists B. cbn [map concat app length]. rewrite Nat.add_0_r. repeat (split; [auto|]). destruct (stream E B rest); reflexivity.
  - inversion HF as [|? ? (H1 & H2 & H3 & H4 & H5) HF']; subst. cbn [fst snd] in *.
    destruct (HE (b_nf B)) as (Np & Nb & No). destruct HB as [HB1 HB2].
    unfold ser_frame in H5. rewrite zlen_wire in H5.
    set (w := concat (map (fun ca => ser_frame (fst ca) (snd ca)) ((c, a) :: l)) ++ rest).
    set (w' := concat (map (fun ca => ser_frame (fst ca) (snd ca)) l) ++ rest).
    assert (Hw : w = be 1 (type_of a) ++ be 2 c ++ be 4 (zlen (ser_payload a)) ++ ser_payload a ++ [xce] ++ w').
    { unfold w, w'. cbn [map concat fst snd]. unfold ser_frame at 1, wire. rewrite <- !app_assoc. reflexivity. }
    destruct (wstep_wire E B (type_of a) c (ser_payload a) xce w' w (type_of_range a) H1) as (S1 & S2 & S3); auto;
      try (rewrite ?u64_small by auto; lia).
    rewrite body_res_received in S3 by (auto; lia).
    assert (HB' : small (next_base B w)) by (split; [auto|apply next_base_ok; auto]).
    destruct (IH (next_base B w) rest HB' HE HF') as (B' & K1 & K2 & K3 & K4 & K5).
    exists B'. split; [auto|]. split; [auto|]. split; [auto|]. split; [cbn [length]; cbn [next_base b_nf] in K4; lia|].
    unfold stream at 1. cbn [parse]. rewrite S3, S2.
    assert (LL : (length w' < length w)%nat) by (rewrite Hw; rewrite !app_length, !length_be; cbn [length]; lia).
    rewrite (parse_fuel E (length w) (S (length w'))) by lia. fold (stream E (next_base B w) w').
    unfold w'. rewrite K5. unfold emit. cbn [fst snd map app].
    assert (T : f_type (received_frame (b_gens B c) c a) =? 0 = false) by (destruct a; reflexivity).
    rewrite T. reflexivity.
Qed.

(** ** Errors stay *)
Lemma bad_stays B w f s d : small B -> wstep E B w = WErr AMQP_STATUS_BAD_AMQP_DATA f s -> d <> [] -> zlen d < M31 ->
  exists f', amqp_handle_input E s d = HRet AMQP_STATUS_BAD_AMQP_DATA f' s.
Proof.
  intros [HB1 HB2] W HN HD.
  assert (D1 : 1 <= zlen d) by (destruct d; [congruence|]; rewrite zlen_cons; pose proof (zlen_nonneg d); lia).
  pose proof (size_of_range w) as SR.
  assert (H7 : 7 <= zlen w) by (unfold wstep in W; destruct (Z.ltb_spec (zlen w) 7); [discriminate|lia]).
  assert (L7 : zlen (firstn 7 w) = 7) by (apply (zlen_firstn 7); lia).
  assert (CASE : (s = st_hdr B w /\ (INT_MAX <= size_of w \/ u64 (b_fm B) < size_of w + 8)) \/
     (size_of w < INT_MAX /\ size_of w + 8 <= u64 (b_fm B) /\ size_of w + 8 <= zlen w /\
       s = st_body E B (firstn (Z.to_nat (size_of w + 8)) w) /\
       exists f0, body_res (E (b_nf B)) (b_gens B (chan_of w)) (ftype_of w) (chan_of w)
            (firstn (Z.to_nat (size_of w)) (skipn 7 w)) (nth (Z.to_nat (size_of w + 7)) w x00) = BErr AMQP_STATUS_BAD_AMQP_DATA f0)).
  { unfold wstep in W. destruct (Z.ltb_spec (zlen w) 7); [discriminate|].
    destruct (Z.leb_spec INT_MAX (size_of w)); [injection W as _ <-; auto|].
    destruct (Z.ltb_spec (u64 (b_fm B)) (size_of w + 8)); [injection W as _ <-; auto|].
    destruct (ae_nopool (E (b_nf B))); [discriminate|]. destruct (ae_noblock (E (b_nf B))); [discriminate|].
    destruct (Z.ltb_spec (zlen w) (size_of w + 8)); [discriminate|].
    destruct (body_res _ _ _ _ _ _) as [st g| |] eqn:BR; try discriminate.
    injection W as -> <- <-. right. repeat (split; [auto; lia|]). eauto. }
  destruct CASE as [(-> & Hbig)|(S1 & S2 & S3 & -> & f0 & BR)].
  - exists no_frame. unfold amqp_handle_input. destruct (Z.eqb_spec (zlen d) 0); [lia|].
    cbn [st_hdr i_state]. unfold st_hdr. rewrite consume_hdr by (rewrite ?zlen_patch; lia). cbv zeta.
    rewrite Z.min_r by lia. change (Z.to_nat (7 - 7)) with 0%nat. rewrite firstn_O. change (skipn 0 d) with d. rewrite patch_nil.
    cbn [i_off i_target i_state]. change (7 + (7 - 7) <? 7) with false. cbn iota. change (7 + (7 - 7)) with 7.
    set (v := firstn 7 w ++ d).
    assert (F7 : firstn 7 w = firstn 7 v).
    { unfold v. rewrite (firstn_app 7 (firstn 7 w) d). replace (7 - length (firstn 7 w))%nat with 0%nat by (unfold zlen in L7; lia).
      rewrite firstn_O, app_nil_r, firstn_firstn. reflexivity. }
    assert (S7 : d = skipn 7 v).
    { unfold v. rewrite (skipn_app 7 (firstn 7 w) d). rewrite (@skipn_all2 _ 7 (firstn 7 w)) by (unfold zlen in L7; lia).
      replace (7 - length (firstn 7 w))%nat with 0%nat by (unfold zlen in L7; lia). reflexivity. }
    assert (LV : zlen v = 7 + zlen d) by (unfold v; rewrite zlen_app; lia).
    rewrite F7. rewrite S7 at 1. change (7 - 7) with (7 - 7). rewrite (handle_header_closed E B v 7) by lia.
    assert (SZ : size_of v = size_of w) by (unfold v; rewrite size_of_app by lia; apply size_of_firstn; lia).
    unfold step. destruct (Z.ltb_spec (zlen v) 7); [lia|]. rewrite SZ.
    assert (SH : st_hdr B v = mkIn HEADER (b_fm B) (patch (b_hdr B) 0 (firstn 7 v)) IHdr 7 7 (b_gens B) (b_nf B)) by reflexivity.
    destruct (Z.leb_spec INT_MAX (size_of w)); [rewrite SH; reflexivity|].
    destruct (Z.ltb_spec (u64 (b_fm B)) (size_of w + 8)); [rewrite SH; reflexivity|lia].
  - set (x := firstn (Z.to_nat (size_of w + 8)) w).
    destruct (whole_frame w) as (Hx & Ht & Hc & Hp); [lia|lia|lia|]. fold x in Hx.
    assert (LX : zlen x = size_of w + 8) by (apply zlen_firstn; lia).
    assert (SX : size_of x = size_of w) by (apply size_of_firstn; lia).
    exists f0. unfold amqp_handle_input. destruct (Z.eqb_spec (zlen d) 0); [lia|].
    cbn [st_body i_state].
    assert (CD : consume_data (st_body E B x) d = Some (0, st_body E B x, d)).
    { unfold st_body at 1. rewrite consume_block; [|reflexivity|lia|lia| |lia|lia].
      2:{ rewrite zlen_patch; [rewrite zlen_fresh; lia|lia|rewrite zlen_fresh; lia]. }
      cbv zeta. rewrite Z.min_r by lia. replace (size_of x + 8 - zlen x) with 0 by lia.
      change (Z.to_nat 0) with 0%nat. cbn [firstn skipn]. rewrite patch_nil, Z.add_0_r. reflexivity. }
    rewrite CD. cbn [st_body i_off i_target i_state].
    destruct (Z.ltb_spec (zlen x) (size_of x + 8)); [lia|].
    rewrite (handle_body_closed E B 0 x _ _ _ _ _ Hx Ht Hc) by (auto; lia). rewrite BR. reflexivity.
Qed.

Lemma stream_failed : forall n B w fs st s, (length w <= n)%nat -> small B -> stream E B w = (fs, Failed st s) ->
  exists B' w' f, small B' /\ wstep E B' w' = WErr st f s.
Proof.
  induction n as [|n IH]; intros B w fs st s HL HB; unfold stream; cbn [parse].
  - destruct w; [|cbn in HL; lia]. rewrite wstep_incomplete by (left; reflexivity). discriminate.
  - destruct (wstep E B w) as [|st' f s'|f|] eqn:W; try discriminate.
    + intros H. injection H as _ -> ->. eauto.
    + intros H. pose proof (wstep_frame _ _ _ _ W) as (W7 & W8 & W9 & W10). pose proof (size_of_range w) as SR.
      assert (HB' : small (next_base B w)) by (destruct HB; split; [auto|apply next_base_ok; auto]).
      set (w' := skipn (Z.to_nat (size_of w + 8)) w) in *.
      assert (LR : (length w' <= n)%nat) by (unfold w'; rewrite skipn_length; unfold zlen in *; lia).
      rewrite (parse_fuel E (length w) (S (length w'))) in H by (try lia; unfold w'; rewrite skipn_length; unfold zlen in *; lia).
      fold (stream E (next_base B w) w') in H. destruct (stream E (next_base B w) w') as [fs' o] eqn:S.
      unfold emit in H. cbn [fst snd] in H. injection H as _ ->. eapply IH; eauto.
Qed.

(** ** The first bytes of a connection *)
Definition init_of (B : base) (a : bytes) : inst :=
  mkIn INITIAL (b_fm B) (patch (b_hdr B) 0 a) IHdr (zlen a) 8 (b_gens B) (b_nf B).

(** the stream as the library sees it when the first frame is not a protocol
    header: the eighth byte is replaced *)
Definition garbled (e : aenv) (w : bytes) : bytes := firstn 7 w ++ [ae_junk e 7] ++ skipn 8 w.
Definition init_base (B : base) (w : bytes) : base := mkB (b_fm B) (firstn 8 w) (b_gens B) (b_nf B).

Definition refused (B : base) (w : bytes) : bool :=
  (INT_MAX <=? size_of w) || (u64 (b_fm B) <? size_of w + 8).

Lemma fresh_nth e n : 8 <= n -> exists l, fresh_block e n = l /\ nth 7 l x00 = ae_junk e 7.
Proof.
  intros. eexists. split; [reflexivity|]. unfold fresh_block.
  replace (Z.to_nat n) with (8 + (Z.to_nat n - 8))%nat by lia. reflexivity.
Qed.

Lemma garbled_patch e n w k : 8 <= n -> 8 <= zlen w -> 0 <= k -> 8 + k <= n -> 8 + k <= zlen w ->
  patch (patch (fresh_block e n) 0 (firstn 7 w)) 8 (firstn (Z.to_nat k) (skipn 8 w)) =
  patch (fresh_block e n) 0 (firstn (Z.to_nat (8 + k)) (garbled e w)).
Proof.
  intros H1 H2 H3 H4 H5.
  assert (FL : zlen (fresh_block e n) = n) by (apply zlen_fresh; lia).
  destruct (fresh_nth e n H1) as (l & El & Nl). rewrite El in *. clear El.
  destruct l as [|l0 [|l1 [|l2 [|l3 [|l4 [|l5 [|l6 [|l7 l]]]]]]]]; try (unfold zlen in FL; cbn [length] in FL; lia).
  destruct w as [|w0 [|w1 [|w2 [|w3 [|w4 [|w5 [|w6 [|w7 w]]]]]]]]; try (unfold zlen in H2; cbn [length] in H2; lia).
  cbn [nth] in Nl. subst l7. unfold garbled. cbn [firstn skipn app].
  replace (Z.to_nat (8 + k)) with (8 + Z.to_nat k)%nat by lia. cbn [Nat.add firstn].
  unfold patch. change (Z.to_nat 0) with 0%nat. change (Z.to_nat 8) with 8%nat. cbn [firstn skipn length Nat.add app].
  reflexivity.
Qed.

Lemma size_garbled e w : 8 <= zlen w -> size_of (garbled e w) = size_of w /\ chan_of (garbled e w) = chan_of w /\
  zlen (garbled e w) = zlen w /\ firstn 7 (garbled e w) = firstn 7 w.
Proof.
  intros H. destruct w as [|w0 [|w1 [|w2 [|w3 [|w4 [|w5 [|w6 [|w7 w]]]]]]]]; try (unfold zlen in H; cbn [length] in H; lia).
  repeat split. 
Qed.

Definition is_magic (w : bytes) : bool := if list_eq_dec Byte.byte_eq_dec (firstn 4 w) [x41; x4d; x51; x50] then true else false.

Lemma handle_initial B a d : zlen (b_hdr B) = 8 -> zlen a < 8 -> d <> [] -> zlen d < M31 ->
  let w := a ++ d in
  amqp_handle_input E (init_of B a) d =
  if zlen w <? 8 then HRet (zlen d) no_frame (init_of B w)
  else if is_magic w then
    HRet (8 - zlen a)
      (mkFrame 65 0 (PProto (Z_of_byte (nth 4 w x00)) (Z_of_byte (nth 5 w x00)) (Z_of_byte (nth 6 w x00)) (Z_of_byte (nth 7 w x00))) 0)
      (st_of E (mkB (b_fm B) (firstn 8 w) (b_gens B) (S (b_nf B))) [])
  else if refused B w then HRet AMQP_STATUS_BAD_AMQP_DATA no_frame (init_of B (firstn 8 w))
  else if ae_nopool (E (b_nf B)) then HRet AMQP_STATUS_NO_MEMORY no_frame (init_of B (firstn 8 w))
  else if ae_noblock (E (b_nf B)) then
    HRet AMQP_STATUS_NO_MEMORY no_frame (mkIn INITIAL (b_fm B) (patch (b_hdr B) 0 (firstn 8 w)) INull 8 8 (b_gens B) (b_nf B))
  else step E (init_base B w) (garbled (E (b_nf B)) w) (zlen a).
Proof.
  intros HB HA HN HD w. pose proof (zlen_nonneg a) as HA0.
  assert (D1 : 1 <= zlen d) by (destruct d; [congruence|]; rewrite zlen_cons; pose proof (zlen_nonneg d); lia).
  assert (LW : zlen w = zlen a + zlen d) by apply zlen_app.
  unfold amqp_handle_input. destruct (Z.eqb_spec (zlen d) 0); [lia|].
  cbn [init_of i_state]. unfold init_of at 1. rewrite consume_hdr by (rewrite ?zlen_patch; lia). cbv zeta.
  cbn [i_off i_target i_state].
  rewrite patch_append by (rewrite (zlen_firstn (Z.min (zlen d) (8 - zlen a))) by lia; lia).
  rewrite firstn_app_min by lia. change (Z.to_nat 8) with 8%nat. fold w.
  destruct (Z.ltb_spec (zlen w) 8) as [L8|L8].
  { replace (Z.min (zlen d) (8 - zlen a)) with (zlen d) by lia.
    destruct (Z.ltb_spec (zlen a + zlen d) 8); [|lia]. rewrite signed32_ok by lia. f_equal.
    unfold init_of. rewrite (@firstn_all2 _ 8 w) by (unfold zlen in *; lia). f_equal. lia. }
  replace (Z.min (zlen d) (8 - zlen a)) with (8 - zlen a) by lia.
  destruct (Z.ltb_spec (zlen a + (8 - zlen a)) 8); [lia|]. replace (zlen a + (8 - zlen a)) with 8 by lia.
  assert (SK : skipn (Z.to_nat (8 - zlen a)) d = skipn 8 w).
  { unfold w. rewrite (skipn_app 8 a d). rewrite (@skipn_all2 _ 8 a) by (unfold zlen in *; lia). cbn [app]. f_equal. unfold zlen in *; lia. }
  rewrite SK. cbn [raw_bytes i_buf i_hdr].
  assert (L8' : zlen (firstn 8 w) = 8) by (apply (zlen_firstn 8); lia).
  assert (PH : patch (b_hdr B) 0 (firstn 8 w) = firstn 8 w).
  { rewrite patch0 by lia. rewrite skipn_all2 by (unfold zlen in *; lia). apply app_nil_r. }
  assert (IO : init_of B (firstn 8 w) = mkIn INITIAL (b_fm B) (firstn 8 w) IHdr 8 8 (b_gens B) (b_nf B)).
  { unfold init_of. rewrite PH, L8'. reflexivity. }
  rewrite IO, PH.
  rewrite slice_Some by lia. change (Z.to_nat 4) with 4%nat. change (Z.to_nat 0) with 0%nat. rewrite ?skipn_O.
  rewrite firstn_sub by lia. unfold is_magic.
  assert (WD : exists w0 w1 w2 w3 w4 w5 w6 w7 w', w = w0 :: w1 :: w2 :: w3 :: w4 :: w5 :: w6 :: w7 :: w').
  { clear -L8. destruct w as [|w0 [|w1 [|w2 [|w3 [|w4 [|w5 [|w6 [|w7 w]]]]]]]]; try (unfold zlen in L8; cbn [length] in L8; lia).
    do 9 eexists. reflexivity. }
  destruct (list_eq_dec Byte.byte_eq_dec (firstn 4 w) [x41; x4d; x51; x50]) as [M|M].
  { destruct WD as (w0 & w1 & w2 & w3 & w4 & w5 & w6 & w7 & w' & WE). rewrite WE in *. cbn [firstn] in *.
    rewrite !d_at_nth by (cbn [wbytes]; lia).
    change (Z.to_nat 4) with 4%nat. change (Z.to_nat 5) with 5%nat. change (Z.to_nat 6) with 6%nat. change (Z.to_nat 7) with 7%nat.
    cbn [wnat skipn firstn be_val nth]. rewrite signed32_ok by lia. unfold AMQP_PSEUDOFRAME_PROTOCOL_HEADER. f_equal. }
  destruct (size_garbled (E (b_nf B)) w L8) as (G1 & G2 & G3 & G4).
  unfold handle_header. cbn [raw_bytes i_buf i_hdr i_nf i_frame_max i_gens i_off i_target i_state].
  rewrite (d_at_nth W16) by (cbn [wbytes]; lia). rewrite (d_at_nth W32) by (cbn [wbytes]; lia).
  cbn [wnat]. change (Z.to_nat 1) with 1%nat. change (Z.to_nat 3) with 3%nat.
  fold (chan_of (firstn 8 w)) (size_of (firstn 8 w)). rewrite size_of_firstn, chan_of_firstn by lia.
  unfold refused, HEADER_SIZE, FOOTER_SIZE. pose proof (size_of_range w) as SR.
  destruct (Z.leb_spec INT_MAX (size_of w)) as [|S1]; [reflexivity|]. cbn [orb].
  assert (SZ : u32 (size_of w + 7 + 1) = size_of w + 8) by (unfold u32; rewrite Z.mod_small; lia).
  rewrite SZ. destruct (Z.ltb_spec (u64 (b_fm B)) (size_of w + 8)) as [|S2]; [reflexivity|].
  destruct (ae_nopool (E (b_nf B))) eqn:Np; [reflexivity|].
  destruct (ae_noblock (E (b_nf B))) eqn:Nb; [reflexivity|].
  rewrite slice_Some by lia. change (Z.to_nat 7) with 7%nat. change (Z.to_nat 0) with 0%nat. rewrite ?skipn_O.
  rewrite firstn_sub by lia.
  assert (L7 : zlen (firstn 7 w) = 7) by (apply (zlen_firstn 7); lia).
  assert (FL : zlen (fresh_block (E (b_nf B)) (size_of w + 8)) = size_of w + 8) by (apply zlen_fresh; lia).
  rewrite write_Some by lia.
  assert (SKL : zlen (skipn 8 w) = zlen w - 8) by (apply (zlen_skipn 8); lia).
  rewrite consume_block; [|reflexivity|lia|lia|rewrite zlen_patch; lia|lia|lia].
  cbv zeta. cbn [i_off i_target]. set (k := Z.min (zlen (skipn 8 w)) (size_of w + 8 - 8)).
  rewrite garbled_patch by lia.
  unfold step. rewrite G1, G3. cbn [init_base b_fm b_nf]. rewrite Np, Nb.
  destruct (Z.ltb_spec (zlen w) 7); [lia|]. destruct (Z.leb_spec INT_MAX (size_of w)); [lia|].
  destruct (Z.ltb_spec (u64 (b_fm B)) (size_of w + 8)); [lia|].
  assert (PB : forall v, zlen v = 7 -> v = firstn 7 w -> patch (firstn 8 w) 0 v = firstn 8 w).
  { intros v _ ->. destruct WD as (w0 & w1 & w2 & w3 & w4 & w5 & w6 & w7 & w' & ->). reflexivity. }
  destruct (Z.ltb_spec (zlen w) (size_of w + 8)) as [Hs|Hs].
  - assert (k = zlen w - 8) by lia. destruct (Z.ltb_spec (8 + k) (size_of w + 8)); [|lia].
    rewrite add_size_ok by lia. rewrite signed32_ok by lia. f_equal; [lia|].
    unfold st_of. rewrite G3. destruct (Z.eqb_spec (zlen w) 0); [lia|]. destruct (Z.ltb_spec (zlen w) 7); [lia|].
    unfold st_body. cbn [init_base b_fm b_hdr b_gens b_nf]. rewrite G1, G2, G3, G4, PB by auto.
    replace (8 + k) with (zlen w) by lia. rewrite <- G3 at 1. rewrite zlen_length, firstn_all. reflexivity.
  - assert (k = size_of w) by lia. destruct (Z.ltb_spec (8 + k) (size_of w + 8)); [lia|].
    rewrite add_size_ok by lia. f_equal; [lia|]. unfold st_body. cbn [init_base b_fm b_hdr b_gens b_nf].
    rewrite size_of_firstn, chan_of_firstn, G1, G2 by lia. rewrite firstn_sub by lia. rewrite G4, PB by auto.
    rewrite zlen_firstn by (rewrite G3; lia). replace (8 + k) with (size_of w + 8) by lia. reflexivity.
Qed.
End Init.
