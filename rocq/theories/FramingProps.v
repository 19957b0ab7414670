(** Proofs: content properties. *)
From Coq Require Import String ZArith List Bool Lia.
From Verif Require Import Base BaseFacts Codec CodecProofs TableModel TableSpec TableEnc TableDec TableRT
  FramingStmt FramingGen FramingModel MethodSpec FramingEnc FramingDec.
Import ListNotations.
Local Open Scope Z_scope.

Definition prop_code (p : Z * string * dom) : Z * stmt := (fst (fst p), stmt_of (snd (fst p)) (snd p)).
Lemma enc_props_catalogue : enc_props_basic = map prop_code basic_catalogue.
Proof. reflexivity. Qed.
Lemma dec_props_catalogue : dec_props_basic = map prop_code basic_catalogue.
Proof. reflexivity. Qed.
Definition prop_fine (p : Z * string * dom) : Prop := 2 <= fst (fst p) < 16 /\ snd p <> Bit.
Lemma basic_fine : Forall prop_fine basic_catalogue.
Proof. unfold prop_fine. repeat constructor; cbn; try lia; discriminate. Qed.

Lemma testbit_land_pow flags k : 0 <= k -> (Z.land flags (Z.shiftl 1 k) =? 0) = negb (Z.testbit flags k).
Proof. apply land_shift_test. Qed.

Lemma enc_props_ok flags ms l : Forall prop_fine l -> forall pl,
  present flags l ms = Some pl -> props_typed pl ->
  forall m o, 0 <= o <= zlen m -> zlen m < M32 ->
  enc_spec (props_representable pl) (concat (map (fun p => ser_arg (snd (fst p)) (snd p)) pl)) m o
    (exec_enc_props (map prop_code l) flags ms (mkE m o)).
Proof.
  induction 1 as [|[[k n] d] l [Hk Hd] _ IH]; intros pl Hp Ht m o Ho Hm; cbn [fst snd] in *.
  - cbn in Hp. injection Hp as <-. cbn. apply enc_spec_ok_nil; lia.
  - cbn [map prop_code fst snd exec_enc_props]. rewrite testbit_land_pow by lia.
    cbn [present] in Hp. destruct (Z.testbit flags k); cbn [negb]; [|eapply IH; eauto].
    destruct (lookup n ms) as [v|] eqn:L; [|discriminate].
    destruct (present flags l ms) as [t|]; [|discriminate]. injection Hp as <-.
    inversion Ht; subst. cbn [fst snd] in *. cbn [map concat props_representable forallb fst snd].
    apply enc_bind; [lia|apply stmt_enc_ok; auto|].
    intros Hf. pose proof (zlen_nonneg (ser_arg d v)).
    apply IH; auto; rewrite zlen_patch by lia; lia.
Qed.

Lemma dec_props_rt flags' flags ms l : Forall prop_fine l ->
  (forall k, 2 <= k < 16 -> Z.testbit flags' k = Z.testbit flags k) -> forall pl,
  present flags l ms = Some pl -> props_typed pl -> props_representable pl = true -> props_tables_ok pl ->
  forall enc pre post acc,
  enc = (pre ++ concat (map (fun p => ser_arg (snd (fst p)) (snd p)) pl) ++ post)%list -> zlen enc < M30 ->
  exec_dec_props (map prop_code l) enc no_oom flags' (zlen pre) acc =
    DOk (acc ++ received_props pl)%list (zlen pre + zlen (concat (map (fun p => ser_arg (snd (fst p)) (snd p)) pl))).
Proof.
  intros Hl Hf. induction Hl as [|[[k n] d] l [Hk Hd] _ IH]; intros pl Hp Ht Hr Htb enc pre post acc He Hz; cbn [fst snd] in *.
  - cbn in Hp. injection Hp as <-. cbn. rewrite app_nil_r. f_equal. change (zlen (@nil byte)) with 0. lia.
  - cbn [map prop_code fst snd exec_dec_props]. rewrite testbit_land_pow, Hf by lia.
    cbn [present] in Hp. destruct (Z.testbit flags k); cbn [negb]; [|eapply IH; eauto].
    destruct (lookup n ms) as [v|] eqn:L; [|discriminate].
    destruct (present flags l ms) as [t|]; [|discriminate]. injection Hp as <-.
    inversion Ht; subst x l0. inversion Htb; subst x l0. cbn [fst snd] in *.
    cbn [map concat props_representable forallb fst snd] in *.
    apply andb_true_iff in Hr. destruct Hr as [Hr1 Hr2].
    rewrite <- app_assoc in He.
    rewrite (stmt_dec_rt n d v enc pre _ Hd ltac:(unfold rt_ok; auto) He Hz). cbn [dbind].
    rewrite app_assoc in He.
    replace (zlen pre + zlen (ser_arg d v)) with (zlen (pre ++ ser_arg d v)%list) by apply zlen_app.
    rewrite (IH t eq_refl ltac:(auto) Hr2 ltac:(auto) enc _ post _ He Hz).
    f_equal; [rewrite <- app_assoc; reflexivity|]. rewrite !zlen_app. lia.
Qed.

(** ** Flag words *)
Lemma land_fffe f : Z.land f 0xFFFE = Z.clearbit (f mod 65536) 0.
Proof.
  apply Z.bits_inj'. intros k Hk. rewrite Z.land_spec, Z.clearbit_eqb by lia.
  change 65536 with (2 ^ 16). destruct (Z.ltb_spec k 16).
  - rewrite Z.mod_pow2_bits_low by lia. f_equal.
    assert (C : k = 0 \/ k = 1 \/ k = 2 \/ k = 3 \/ k = 4 \/ k = 5 \/ k = 6 \/ k = 7 \/ k = 8 \/ k = 9 \/
      k = 10 \/ k = 11 \/ k = 12 \/ k = 13 \/ k = 14 \/ k = 15) by lia.
    repeat destruct C as [->|C]; try reflexivity. subst; reflexivity.
  - rewrite Z.mod_pow2_bits_high by lia. cbn [andb]. 
    rewrite (Z.bits_above_log2 0xFFFE k); [apply andb_false_r|lia|]. change (Z.log2 0xFFFE) with 15. lia.
Qed.

Lemma clearbit_mod f : Z.clearbit (f mod 65536) 0 mod 65536 = Z.clearbit (f mod 65536) 0.
Proof.
  change 65536 with (2 ^ 16). apply Z.bits_inj'. intros k Hk.
  destruct (Z.ltb_spec k 16).
  - rewrite Z.mod_pow2_bits_low by lia. reflexivity.
  - rewrite Z.mod_pow2_bits_high, Z.clearbit_eqb, Z.mod_pow2_bits_high by lia. reflexivity.
Qed.

Lemma be2_mod z : be 2 (z mod 65536) = be 2 z.
Proof. apply (be_mod 2). Qed.

Lemma encode_flags_ok f m : 0 <= f < M32 -> zlen m < M63 ->
  enc_spec true (ser_flags f) m 0 (encode_flags 3 f (mkE m 0)).
Proof.
  intros Hf Hm. pose proof (zlen_nonneg m) as Hm0. unfold ser_flags. cbn [encode_flags].
  rewrite (Z.shiftr_div_pow2 f 16) by lia. change (2 ^ 16) with 65536. rewrite land_fffe.
  assert (F1 : forall w o mm, 0 <= o <= zlen mm -> zlen mm < M63 -> enc_spec true (be 2 w) mm o (enc_int W16 w (mkE mm o))).
  { intros. apply (enc_int_ok W16); lia. }
  destruct (Z.ltb_spec f 65536) as [G|G].
  - rewrite (Z.div_small f) by lia. cbn [Z.eqb]. rewrite (Z.mod_small f) by lia.
    specialize (F1 (Z.clearbit f 0) 0 m ltac:(lia) Hm). unfold enc_int in F1.
    destruct (amqp_encode W16 _ _) as [[[|] s]|]; exact F1.
  - assert (D : 1 <= f / 65536 < 65536).
    { split; [apply Z.div_le_lower_bound; lia|apply Z.div_lt_upper_bound; lia]. }
    destruct (Z.eqb_spec (f / 65536) 0); [lia|].
    replace (Z.lor (Z.clearbit (f mod 65536) 0) 1) with (Z.setbit (f mod 65536) 0).
    2:{ apply Z.bits_inj'. intros k Hk. rewrite Z.lor_spec, Z.setbit_eqb, Z.clearbit_eqb by lia.
        change 1 with (2 ^ 0). rewrite Z.pow2_bits_eqb by lia. destruct (0 =? k); cbn; [rewrite orb_true_r|rewrite andb_true_r, orb_false_r]; reflexivity. }
    pose proof (F1 (Z.setbit (f mod 65536) 0) 0 m ltac:(lia) Hm) as F.
    assert (K : forall mm o, 0 <= o <= zlen mm -> zlen mm < M63 ->
       enc_spec true (be 2 (Z.clearbit (f / 65536) 0)) mm o (encode_flags 2 (f / 65536) (mkE mm o))).
    { intros mm o Ho Hmm. cbn [encode_flags].
      rewrite (Z.shiftr_div_pow2 _ 16) by lia. change (2 ^ 16) with 65536. rewrite (Z.div_small (f / 65536)) by lia.
      rewrite land_fffe. cbn [Z.eqb]. rewrite (Z.mod_small (f / 65536)) by lia.
      specialize (F1 (Z.clearbit (f / 65536) 0) o mm Ho Hmm). unfold enc_int in F1.
      destruct (amqp_encode W16 _ _) as [[[|] s]|]; exact F1. }
    pose proof (enc_bind true true _ (be 2 (Z.clearbit (f / 65536) 0)) m 0 _ (encode_flags 2 (f / 65536)) ltac:(lia) F) as B.
    assert (B2 : enc_spec true (be 2 (Z.setbit (f mod 65536) 0) ++ be 2 (Z.clearbit (f / 65536) 0)) m 0
       (match enc_int W16 (Z.setbit (f mod 65536) 0) (mkE m 0) with
        | None => None
        | Some (res, s') => if res <? 0 then Some (res, s') else encode_flags 2 (f / 65536) s' end)).
    { apply B. intros Hfit. pose proof (zlen_nonneg (be 2 (Z.setbit (f mod 65536) 0))).
      apply K; rewrite zlen_patch by lia; lia. }
    unfold enc_int in B2. destruct (amqp_encode W16 _ _) as [[[|] s]|]; exact B2.
Qed.

Lemma clearbit_range f : 0 <= f < 65536 -> 0 <= Z.clearbit f 0 < 65536.
Proof.
  intros. assert (E : Z.clearbit f 0 = Z.clearbit f 0 mod 65536); [|rewrite E; apply Z.mod_pos_bound; lia].
  rewrite <- (Z.mod_small f 65536) by lia. symmetry. apply clearbit_mod.
Qed.
Lemma setbit_range f : 0 <= f < 65536 -> 0 <= Z.setbit f 0 < 65536.
Proof.
  intros. assert (E : Z.setbit f 0 = Z.setbit f 0 mod 65536); [|rewrite E; apply Z.mod_pos_bound; lia].
  rewrite <- (Z.mod_small f 65536) at 1 by lia. change 65536 with (2 ^ 16).
  apply Z.bits_inj'. intros k Hk. destruct (Z.ltb_spec k 16).
  - rewrite Z.mod_pow2_bits_low, !Z.setbit_eqb, Z.mod_pow2_bits_low by lia. reflexivity.
  - rewrite Z.mod_pow2_bits_high, Z.setbit_eqb, Z.mod_pow2_bits_high by lia.
    destruct (Z.eqb_spec 0 k); [lia|reflexivity].
Qed.

Lemma land1 z : (Z.land z 1 =? 0) = negb (Z.testbit z 0).
Proof. apply (land_shift_test z 0). lia. Qed.

Lemma div_bits f k : 0 <= k -> Z.testbit (f / 65536) k = Z.testbit f (k + 16).
Proof. intros. change 65536 with (2 ^ 16). rewrite Z.div_pow2_bits by lia. reflexivity. Qed.

Lemma decode_flags_rt f rest : 0 <= f < M32 -> zlen (ser_flags f ++ rest) < M63 ->
  forall fuel, (2 <= fuel)%nat ->
  decode_flags fuel (ser_flags f ++ rest) 0 0 0 = DOk (wire_flags f) (zlen (ser_flags f)).
Proof.
  intros Hf Hl fuel Hfuel. destruct fuel as [|[|fuel]]; try lia.
  unfold ser_flags, wire_flags in *. destruct (Z.ltb_spec f 65536) as [G|G].
  - cbn [decode_flags]. unfold amqp_decode.
    assert (E : amqp_decode_h LittleEndian W16 (be 2 (Z.clearbit f 0) ++ rest) 0 = DOk (Z.clearbit f 0 mod M16) 2).
    { apply (decode_at LittleEndian W16 [] (Z.clearbit f 0) rest). exact Hl. }
    rewrite E. cbn [dbind]. pose proof (clearbit_range f ltac:(lia)). rewrite Z.mod_small by lia.
    rewrite land1, Z.clearbit_eqb by lia. cbn [Z.eqb negb andb]. rewrite andb_false_r. cbn [negb].
    f_equal. cbn [Z.mul Z.leb Z.compare]. rewrite Z.shiftl_0_r. unfold u32.
    rewrite (Z.mod_small (Z.clearbit f 0)), Z.lor_0_l, Z.mod_small by lia. reflexivity.
  - assert (D : 1 <= f / 65536 < 65536).
    { split; [apply Z.div_le_lower_bound; lia|apply Z.div_lt_upper_bound; lia]. }
    pose proof (Z.mod_pos_bound f 65536 ltac:(lia)) as Hmod.
    pose proof (setbit_range (f mod 65536) Hmod). pose proof (clearbit_range (f / 65536) ltac:(lia)).
    cbn [decode_flags]. unfold amqp_decode. rewrite <- app_assoc in *.
    set (w0 := Z.setbit (f mod 65536) 0) in *. set (w1 := Z.clearbit (f / 65536) 0) in *.
    assert (E : amqp_decode_h LittleEndian W16 (be 2 w0 ++ be 2 w1 ++ rest) 0 = DOk (w0 mod M16) 2).
    { apply (decode_at LittleEndian W16 [] w0 (be 2 w1 ++ rest)). exact Hl. }
    assert (E1 : amqp_decode_h LittleEndian W16 (be 2 w0 ++ be 2 w1 ++ rest) 2 = DOk (w1 mod M16) 4).
    { apply (decode_at LittleEndian W16 (be 2 w0) w1 rest). exact Hl. }
    rewrite E. cbn [dbind]. rewrite (Z.mod_small w0) by lia.
    assert (T0 : Z.testbit w0 0 = true) by (unfold w0; rewrite Z.setbit_eqb by lia; reflexivity).
    assert (T1 : Z.testbit w1 0 = false) by (unfold w1; rewrite Z.clearbit_eqb by lia; apply andb_false_r).
    rewrite land1, T0. cbn [negb].
    cbn [Z.mul Z.leb Z.compare]. rewrite E1. cbn [dbind]. rewrite (Z.mod_small w1) by lia.
    rewrite land1, T1. cbn [negb].
    change (32 <=? (0 + 1) * 16) with false. cbn iota. change ((0 + 1) * 16) with 16.
    rewrite Z.shiftl_0_r, Z.lor_0_l. unfold u32. rewrite !(Z.mod_small w0) by lia.
    rewrite Z.shiftl_mul_pow2 by lia. change (2 ^ 16) with 65536.
    rewrite (Z.mod_small (w1 * 65536)) by lia.
    f_equal. apply Z.bits_inj'. intros k Hk.
    change 65536 with (2 ^ 16). rewrite <- Z.shiftl_mul_pow2 by lia.
    change M32 with (2 ^ 32).
    rewrite Z.clearbit_eqb, Z.setbit_eqb by lia.
    destruct (Z.ltb_spec k 32).
    + rewrite Z.mod_pow2_bits_low, Z.lor_spec, Z.shiftl_spec by lia.
      unfold w0. rewrite Z.setbit_eqb by lia.
      destruct (Z.ltb_spec k 16).
      * rewrite (Z.testbit_neg_r w1) by lia. change 65536 with (2 ^ 16). rewrite Z.mod_pow2_bits_low by lia.
        destruct (Z.eqb_spec 16 k); [lia|]. cbn. rewrite orb_false_r, andb_true_r. reflexivity.
      * change 65536 with (2 ^ 16). rewrite Z.mod_pow2_bits_high by lia.
        destruct (Z.eqb_spec 0 k); [lia|]. cbn [orb]. unfold w1.
        rewrite Z.clearbit_eqb, div_bits by lia. replace (k - 16 + 16) with k by lia.
        f_equal. destruct (Z.eqb_spec 0 (k - 16)), (Z.eqb_spec 16 k); try lia; reflexivity.
    + rewrite Z.mod_pow2_bits_high by lia. destruct (Z.eqb_spec 0 k); [lia|]. cbn [orb].
      assert (T : Z.testbit f k = false); [|rewrite T; reflexivity].
      destruct (Z.eq_dec f 0) as [->|]; [apply Z.bits_0|]. apply Z.bits_above_log2; [lia|].
      assert (Z.log2 f < 32) by (apply Z.log2_lt_pow2; lia). lia.
Qed.

Lemma wire_flags_bits f k : 0 <= f -> 2 <= k < 16 -> Z.testbit (wire_flags f) k = Z.testbit f k.
Proof.
  intros Hf Hk. unfold wire_flags. destruct (f <? 65536).
  - rewrite Z.clearbit_neq by lia. reflexivity.
  - rewrite Z.clearbit_neq, Z.setbit_neq by lia. reflexivity.
Qed.

Lemma encode_properties_ok flags ms pl m :
  0 <= flags < M32 -> present flags basic_catalogue ms = Some pl -> props_typed pl -> zlen m < M31 ->
  exists st m', amqp_encode_properties 60 (mkProps flags ms) m = Some (st, m') /\ zlen m' = zlen m /\
    ((st = zlen (ser_props flags pl) /\ props_representable pl = true /\ zlen (ser_props flags pl) <= zlen m /\
      m' = (ser_props flags pl ++ skipn (List.length (ser_props flags pl)) m)%list)
     \/ (st < 0 /\ (props_representable pl = false \/ zlen (ser_props flags pl) > zlen m))).
Proof.
  intros Hf Hp Ht Hm. unfold amqp_encode_properties. cbn [pflags pfields].
  pose proof (zlen_nonneg m).
  pose proof (encode_flags_ok flags m Hf ltac:(lia)) as F.
  set (B := concat (map (fun p => ser_arg (snd (fst p)) (snd p)) pl)).
  assert (K : enc_spec (true && props_representable pl) (ser_flags flags ++ B) m 0
    (match encode_flags 3 flags (mkE m 0) with None => None | Some (res, s') =>
      if res <? 0 then Some (res, s') else exec_enc_props enc_props_basic flags ms s' end)).
  { apply enc_bind; [lia|exact F|]. intros Hfit. pose proof (zlen_nonneg (ser_flags flags)).
    rewrite enc_props_catalogue. apply enc_props_ok; auto using basic_fine; rewrite zlen_patch by lia; lia. }
  change (ser_flags flags ++ B)%list with (ser_props flags pl) in K. cbn [andb] in K.
  change (existsb (Z.eqb 60) enc_props_classes) with true. change (60 =? 60) with true. cbn iota.
  destruct (encode_flags 3 flags (mkE m 0)) as [[res s]|] eqn:E0.
  2:{ destruct K as (? & ? & ? & ? & _). discriminate. }
  destruct K as (st & m' & o' & Er & L & _ & C).
  destruct (res <? 0) eqn:Eres.
  - injection Er as -> ->. cbn [emem]. exists st, m'. split; [reflexivity|]. split; [exact L|].
    right. destruct C as [(G & Bd & -> & _)|[G S]]; [discriminate|]. split; auto.
  - rewrite Er. destruct C as [(G & Bd & -> & -> & ->)|[G S]].
    + cbn [Z.ltb Z.compare AMQP_STATUS_OK emem eoff]. do 2 eexists. split; [reflexivity|]. split; [exact L|].
      left. pose proof (zlen_nonneg (ser_props flags pl)). rewrite signed_small by lia. repeat split; auto; lia.
    + destruct (Z.ltb_spec st 0); [|lia]. cbn [emem]. do 2 eexists. split; [reflexivity|]. split; [exact L|]. right; auto.
Qed.

Lemma decode_properties_rt flags ms pl post :
  0 <= flags < M32 -> present flags basic_catalogue ms = Some pl -> props_typed pl ->
  props_representable pl = true -> props_tables_ok pl ->
  zlen (ser_props flags pl ++ post) < M30 ->
  amqp_decode_properties 60 (ser_props flags pl ++ post) no_oom =
    DOk (mkProps (wire_flags flags) (received_props pl)) (zlen (ser_props flags pl)).
Proof.
  intros Hf Hp Ht Hr Htb Hl. unfold amqp_decode_properties.
  assert (LF : 2 <= zlen (ser_flags flags)).
  { unfold ser_flags. destruct (flags <? 65536); rewrite ?zlen_app, !zlen_be; lia. }
  assert (LT : (2 <= S (List.length (ser_props flags pl ++ post)))%nat).
  { unfold ser_props. rewrite !app_length. unfold zlen in LF. lia. }
  unfold ser_props at 2. rewrite <- app_assoc.
  rewrite (decode_flags_rt flags (concat (map (fun p => ser_arg (snd (fst p)) (snd p)) pl) ++ post)); auto.
  2:{ rewrite app_assoc. fold (ser_props flags pl). lia. }
  cbn [dbind]. change (existsb (Z.eqb 60) dec_props_classes) with true. cbn iota.
  unfold no_oom at 1. change (60 =? 60) with true. cbn iota.
  rewrite dec_props_catalogue.
  rewrite (dec_props_rt (wire_flags flags) flags ms basic_catalogue basic_fine
     (fun k Hk => wire_flags_bits flags k ltac:(lia) Hk) pl Hp Ht Hr Htb
     (ser_props flags pl ++ post) (ser_flags flags) post []); auto.
  - cbn [dbind app]. f_equal. unfold ser_props. rewrite zlen_app. reflexivity.
  - unfold ser_props. rewrite <- app_assoc. reflexivity.
Qed.

(** ** Arbitrary data *)
Lemma decode16_word enc off : 0 <= off -> off + 2 <= zlen enc -> zlen enc < M63 ->
  amqp_decode W16 enc off =
    DOk (Z_of_byte (nth (Z.to_nat off) enc x00) * 256 + Z_of_byte (nth (Z.to_nat off + 1) enc x00)) (off + 2).
Proof.
  intros Ho Hf Hl. destruct (split3 enc off 2 Ho ltac:(lia) Hf) as (pre & old & post & -> & Lp & Lo).
  destruct old as [|a [|b [|]]]; try (unfold zlen in Lo; cbn in Lo; lia).
  assert (P : Z.to_nat off = List.length pre) by (unfold zlen in Lp; lia). rewrite P.
  rewrite app_nth2, Nat.sub_diag by lia.
  rewrite (app_nth2 pre) by lia. replace (List.length pre + 1 - List.length pre)%nat with 1%nat by lia. cbn [nth app].
  assert (E : [a; b] = be 2 (Z_of_byte a * 256 + Z_of_byte b)).
  { pose proof (be_load [a; b]) as B. cbn [List.length be_val] in B. rewrite Z.mul_0_l, Z.add_0_l in B. symmetry. exact B. }
  pose proof (Z_of_byte_range a). pose proof (Z_of_byte_range b).
  change (a :: b :: post)%list with ([a; b] ++ post)%list in *. rewrite E in *. subst off.
  unfold amqp_decode. etransitivity; [apply (decode_at LittleEndian W16 pre _ post Hl)|]. cbn [wmod wbytes].
  f_equal. apply Z.mod_small. lia.
Qed.

Lemma decode16_short enc off : 0 <= off < M63 -> off + 2 > zlen enc -> zlen enc < M63 ->
  amqp_decode W16 enc off = DErr AMQP_STATUS_BAD_AMQP_DATA (off + 2).
Proof.
  intros. unfold amqp_decode. destruct (decode_cases LittleEndian W16 enc off) as [(A & _)|(_ & B)]; try lia.
  cbn [wbytes] in A; lia. exact B.
Qed.

(** bit 0 of the flag word at byte offset [off] *)
Definition continues (enc : bytes) (off : nat) : bool := Z.odd (Z_of_byte (nth (off + 1) enc x00)).

Lemma word_odd a b : negb (Z.testbit (a * 256 + b) 0) = negb (Z.odd b).
Proof.
  rewrite Z.bit0_odd, Z.add_comm. f_equal.
  replace (b + a * 256) with (b + 2 * (a * 128)) by lia. rewrite Z.odd_add_mul_2. reflexivity.
Qed.

Lemma decode_flags_cases enc : zlen enc < M63 ->
  (zlen enc >= 6 /\ continues enc 0 = true /\ continues enc 2 = true /\
   decode_flags (S (List.length enc)) enc 0 0 0 = DUB)
  \/ (~ (zlen enc >= 6 /\ continues enc 0 = true /\ continues enc 2 = true) /\
      dec_good enc 0 (fun f n => 0 <= f < M32 /\ (n = 2 \/ n = 4)) (decode_flags (S (List.length enc)) enc 0 0 0)).
Proof.
  intros Hl. pose proof (zlen_nonneg enc).
  assert (U : forall z, 0 <= u32 z < M32) by (intros; apply Z.mod_pos_bound; lia).
  destruct (Z_lt_ge_dec (zlen enc) 2) as [L2|L2].
  { right. split; [lia|]. cbn [decode_flags]. rewrite decode16_short by lia. left; reflexivity. }
  assert (F1 : exists f1, List.length enc = S (S f1)) by (unfold zlen in *; exists (List.length enc - 2)%nat; lia).
  destruct F1 as [f1 F1]. rewrite F1.
  cbn [decode_flags]. rewrite (decode16_word enc 0) by lia. cbn [dbind]. change (Z.to_nat 0) with 0%nat.
  change (32 <=? 0 * 16) with false. cbn iota. rewrite land1, word_odd. 
  change (Z.odd (Z_of_byte (nth (0 + 1) enc x00))) with (continues enc 0).
  destruct (continues enc 0) eqn:C0; cbn [negb].
  2:{ right. split; [intros (_ & ? & _); discriminate|]. cbn. split; [lia|]. split; [apply U|lia]. }
  destruct (Z_lt_ge_dec (zlen enc) 4) as [L4|L4].
  { right. split; [lia|]. rewrite decode16_short by lia. left; reflexivity. }
  rewrite (decode16_word enc (0 + 2)) by lia. cbn [dbind]. change (Z.to_nat (0 + 2)) with 2%nat.
  change (32 <=? (0 + 1) * 16) with false. cbn iota. rewrite land1, word_odd.
  change (Z.odd (Z_of_byte (nth (2 + 1) enc x00))) with (continues enc 2).
  destruct (continues enc 2) eqn:C2; cbn [negb].
  2:{ right. split; [intros (_ & _ & ?); discriminate|]. cbn [dec_good]. split; [lia|]. split; [apply U|lia]. }
  destruct (Z_lt_ge_dec (zlen enc) 6) as [L6|L6].
  - right. split; [lia|].
    destruct f1 as [|f1]; cbn [decode_flags]; [unfold zlen in *; lia|].
    rewrite decode16_short by lia. left; reflexivity.
  - left. repeat split; auto. cbn [decode_flags].
    destruct f1 as [|f1]; cbn [decode_flags]; [unfold zlen in *; lia|].
    rewrite (decode16_word enc (0 + 2 + 2)) by lia. reflexivity.
Qed.

Lemma dec_props_safe enc oom flags l : zlen enc < M30 -> Forall prop_fine l ->
  forall off acc, 0 <= off <= zlen enc ->
  dec_good enc off (fun ms k => exists pl,
      ms = (acc ++ received_props pl)%list /\ props_typed pl /\ props_representable pl = true /\ props_tables_ok pl /\
      map fst pl = map (fun p => (snd (fst p), snd p)) (filter (fun p => Z.testbit flags (fst (fst p))) l) /\
      k = zlen (concat (map (fun p => ser_arg (snd (fst p)) (snd p)) pl)))
    (exec_dec_props (map prop_code l) enc oom flags off acc).
Proof.
  intros He. induction 1 as [|[[k n] d] l [Hk Hd] _ IH]; intros off acc Ho.
  - cbn. split; [lia|]. exists []. cbn. rewrite app_nil_r, Z.sub_diag. repeat split; constructor.
  - cbn [fst snd] in *. cbn [map prop_code fst snd exec_dec_props filter]. rewrite testbit_land_pow by lia.
    destruct (Z.testbit flags k) eqn:T; cbn [negb]; [|apply IH; auto].
    eapply dbind_good; [lia|apply stmt_dec_safe; auto|]. cbn beta.
    intros ms1 off2 Ho2 (v & -> & ((A & B & C) & D) & E2).
    eapply (dec_good_weaken enc oom); [|apply IH; lia]. cbn beta.
    intros ms k2 (pl & -> & P1 & P2 & P3 & P4 & E3).
    exists ((n, d, v) :: pl). split; [|split; [|split; [|split; [|split]]]].
    + cbn [received_props map fst snd]. rewrite D, <- app_assoc. reflexivity.
    + constructor; auto.
    + cbn [props_representable forallb fst snd]. rewrite B. exact P2.
    + constructor; auto.
    + cbn [map fst snd]. rewrite P4. reflexivity.
    + cbn [map concat fst snd]. rewrite zlen_app. lia.
Qed.
