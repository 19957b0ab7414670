(** Facts about complete frames: soundness of delivered frames, errors, undefined
    behaviour, outgoing frames, and the first frame of a connection. *)
From Coq Require Import String ZArith List Bool Lia.
From Verif Require Import Base BaseFacts Codec CodecProofs TableModel TableSpec TableEnc TableDec TableRT
  FramingStmt FramingGen FramingModel MethodSpec FramingEnc FramingDec FramingProps Prop_Method
  Frame FrameSpec FrameProofs FrameStream.
Import ListNotations.
Local Open Scope Z_scope.

Lemma ce_byte z : Z_of_byte z = 206 -> z = xce.
Proof. intros H. apply Z_of_byte_inj. exact H. Qed.

Lemma be_firstn n l : length (firstn n l) = n -> be n (be_val 0 (firstn n l)) = firstn n l.
Proof. intros H. rewrite <- H at 1. apply be_load. Qed.

Lemma be_val_bound n l : (n <= length l)%nat -> 0 <= be_val 0 (firstn n l) < 256 ^ Z.of_nat n.
Proof.
  intros H. pose proof (be_val_range (firstn n l)) as R.
  assert (L : zlen (firstn n l) = Z.of_nat n) by (unfold zlen; rewrite firstn_length; lia).
  rewrite L in R. exact R.
Qed.

Lemma body_done_is_frame e gen t c p z f : 0 <= t < 256 -> 0 <= c < 65536 -> zlen p < M31 ->
  body_res e gen t c p z = BDone f ->
  z = xce /\ is_frame (ae_oom e) gen (wire t c p) f /\ f_chan f = c /\ f_gen f = gen.
Proof.
  intros Ht Hc Hp. unfold body_res.
  destruct (Z.eqb_spec (Z_of_byte z) 206) as [Hz|]; cbn [negb]; [|discriminate].
  apply ce_byte in Hz. subst z. intros H. split; [reflexivity|].
  destruct (ae_nopool e); [discriminate|].
  assert (G : is_frame (ae_oom e) gen (wire t c p) f /\ f_chan f = c /\ f_gen f = gen); [|exact G].
  assert (K : (f_chan f = c /\ f_gen f = gen) /\
    ((t = 1 /\ f_type f = 1 /\ exists id args m n, 0 <= id < M32 /\
        p = be 4 id ++ args /\ f_pay f = PMethod id m /\ amqp_decode_method id args (ae_oom e) = DOk m n)
     \/ (t = 2 /\ f_type f = 2 /\ exists class_id weight size enc q n,
        0 <= class_id < M16 /\ 0 <= size < M64 /\
        p = be 2 class_id ++ be 2 weight ++ be 8 size ++ enc /\ f_pay f = PHeader class_id size q enc /\
        amqp_decode_properties class_id enc (ae_oom e) = DOk q n)
     \/ (t = 3 /\ f_type f = 3 /\ f_pay f = PBody p)
     \/ (t = 8 /\ f_type f = 8 /\ f_pay f = PNone)
     \/ (t <> 1 /\ t <> 2 /\ t <> 3 /\ t <> 8 /\ f_type f = 0))).
  2:{ destruct K as [[K1 K2] K]. split; [|auto]. exists t, c, p. repeat (split; [auto; lia|]). exact K. }
  destruct (Z.eqb_spec t 1) as [->|N1].
  { destruct (zlen p <? 3); [discriminate|]. destruct (Z.ltb_spec (zlen p) 4); [discriminate|].
    destruct (amqp_decode_method _ _ _) as [m n| | |] eqn:D; cbn [of_dres] in H; try discriminate.
    injection H as <-. split; [split; reflexivity|]. left. split; [reflexivity|]. split; [reflexivity|].
    exists (be_val 0 (firstn 4 p)), (skipn 4 p), m, n. cbn [f_pay].
    assert (L : (4 <= length p)%nat) by (unfold zlen in *; lia).
    split; [apply (be_val_bound 4 p L)|]. split; [|auto].
    rewrite be_firstn by (rewrite firstn_length; lia). symmetry. apply firstn_skipn. }
  destruct (Z.eqb_spec t 2) as [->|N2].
  { destruct (Z.ltb_spec (zlen p) 12); [discriminate|].
    destruct (amqp_decode_properties _ _ _) as [q n| | |] eqn:D; cbn [of_dres] in H; try discriminate.
    injection H as <-. split; [split; reflexivity|]. right; left. split; [reflexivity|]. split; [reflexivity|].
    exists (be_val 0 (firstn 2 p)), (be_val 0 (firstn 2 (skipn 2 p))), (be_val 0 (firstn 8 (skipn 4 p))), (skipn 12 p), q, n.
    cbn [f_pay]. assert (L : (12 <= length p)%nat) by (unfold zlen in *; lia).
    split; [apply (be_val_bound 2 p); lia|]. split; [apply (be_val_bound 8 (skipn 4 p)); rewrite skipn_length; lia|].
    split; [|auto].
    rewrite !be_firstn by (rewrite ?firstn_length, ?skipn_length; lia).
    transitivity (firstn 2 p ++ skipn 2 p); [symmetry; apply firstn_skipn|]. f_equal.
    transitivity (firstn 2 (skipn 2 p) ++ skipn 2 (skipn 2 p)); [symmetry; apply firstn_skipn|]. f_equal.
    rewrite skipn_skipn'. change (2 + 2)%nat with 4%nat.
    transitivity (firstn 8 (skipn 4 p) ++ skipn 8 (skipn 4 p)); [symmetry; apply firstn_skipn|]. f_equal.
    rewrite skipn_skipn'. reflexivity. }
  destruct (Z.eqb_spec t 3) as [->|N3].
  { injection H as <-. split; [split; reflexivity|]. right; right; left. auto. }
  destruct (Z.eqb_spec t 8) as [->|N8].
  { injection H as <-. split; [split; reflexivity|]. right; right; right; left. auto. }
  injection H as <-. split; [split; reflexivity|]. right; right; right; right. auto.
Qed.

Lemma third_flag_continues enc : third_flag_word enc <-> (zlen enc >= 6 /\ continues enc 0 = true /\ continues enc 2 = true).
Proof. unfold third_flag_word, continues. reflexivity. Qed.

Lemma body_ub e gen t c p z : zlen p < M30 ->
  body_res e gen t c p z = BUB <->
  z = xce /\ ae_nopool e = false /\
  ((t = 1 /\ zlen p < 3) \/ (t = 2 /\ (zlen p < 12 \/ third_flag_word (skipn 12 p)))).
Proof.
  intros Hp. unfold body_res.
  destruct (Z.eqb_spec (Z_of_byte z) 206) as [Hz|Hz]; cbn [negb].
  2:{ split; [discriminate|]. intros (-> & _). exfalso. apply Hz. reflexivity. }
  apply ce_byte in Hz. subst z. destruct (ae_nopool e); [split; [discriminate|intros (_ & H & _); discriminate]|].
  destruct (Z.eqb_spec t 1) as [->|N1].
  { destruct (Z.ltb_spec (zlen p) 3); [split; auto 6|]. destruct (Z.ltb_spec (zlen p) 4).
    - split; [discriminate|]. intros (_ & _ & [(_ & ?)|(? & _)]); lia.
    - split.
      + assert (L : zlen (skipn 4 p) < M30) by (unfold zlen in *; rewrite skipn_length; lia).
        destruct (C08_method_decoding_total_and_safe (be_val 0 (firstn 4 p)) (skipn 4 p) (ae_oom e) L)
          as [(?&?&?&?&?&_&_&D&_)|(st & o & D & C)]; rewrite D; discriminate.
      + intros (_ & _ & [(_ & ?)|(? & _)]); lia. }
  destruct (Z.eqb_spec t 2) as [->|N2].
  { destruct (Z.ltb_spec (zlen p) 12); [split; auto 6|].
    assert (L : zlen (skipn 12 p) < M30) by (unfold zlen in *; rewrite skipn_length; lia).
    rewrite third_flag_continues. split.
    - intros H'. split; [reflexivity|]. split; [reflexivity|]. right. split; [reflexivity|]. right.
      destruct (decode_flags_cases (skipn 12 p) ltac:(lia)) as [(A & B & C & _)|(N & _)]; [auto|]. exfalso.
      destruct (C15_properties_decoding_safe_partial (be_val 0 (firstn 2 p)) (skipn 12 p) (ae_oom e) L N)
        as [(?&?&?&D&_)|(st & o & D & C)]; rewrite D in H'; discriminate.
    - intros (_ & _ & [(? & _)|(_ & [?|(A & B & C)])]); try lia.
      rewrite (C15_three_flag_words_refuted (be_val 0 (firstn 2 p)) (skipn 12 p) (ae_oom e)); auto. lia. }
  destruct (Z.eqb_spec t 3) as [->|N3]; [split; [discriminate|intros (_ & _ & [(? & _)|(? & _)]); lia]|].
  destruct (Z.eqb_spec t 8) as [->|N8]; [split; [discriminate|intros (_ & _ & [(? & _)|(? & _)]); lia]|].
  split; [discriminate|]. intros (_ & _ & [(? & _)|(? & _)]); lia.
Qed.

Section Sound.
Variable E : nat -> aenv.

Lemma wstep_whole B w : 7 <= zlen w -> size_of w < INT_MAX -> size_of w + 8 <= u64 (b_fm B) ->
  ae_nopool (E (b_nf B)) = false -> ae_noblock (E (b_nf B)) = false -> size_of w + 8 <= zlen w ->
  wstep E B w =
    match body_res (E (b_nf B)) (b_gens B (chan_of w)) (ftype_of w) (chan_of w)
            (firstn (Z.to_nat (size_of w)) (skipn 7 w)) (nth (Z.to_nat (size_of w + 7)) w x00) with
    | BErr st f => WErr st f (st_body E B (firstn (Z.to_nat (size_of w + 8)) w))
    | BDone f => WFrame f
    | BUB => WUB
    end.
Proof.
  intros. unfold wstep. destruct (Z.ltb_spec (zlen w) 7); [lia|].
  destruct (Z.leb_spec INT_MAX (size_of w)); [lia|].
  destruct (Z.ltb_spec (u64 (b_fm B)) (size_of w + 8)); [lia|]. rewrite H2, H3.
  destruct (Z.ltb_spec (zlen w) (size_of w + 8)); [lia|]. reflexivity.
Qed.

(** fields of a wire-shaped prefix *)
Lemma wire_fields t c n p z rest w : 0 <= t < 256 -> 0 <= c < 65536 -> 0 <= n < M32 ->
  w = be 1 t ++ be 2 c ++ be 4 n ++ p ++ [z] ++ rest ->
  ftype_of w = t /\ chan_of w = c /\ size_of w = n /\ skipn 7 w = p ++ [z] ++ rest /\ zlen w = 8 + zlen p + zlen rest.
Proof.
  intros Ht Hc Hn ->. repeat split.
  - unfold ftype_of. change (firstn 1 _) with (be 1 t). rewrite be_val_be. apply Z.mod_small. cbn; lia.
  - unfold chan_of. change (firstn 2 _) with (be 2 c). rewrite be_val_be. apply Z.mod_small. cbn; lia.
  - unfold size_of. change (firstn 4 _) with (be 4 n). rewrite be_val_be. apply Z.mod_small. cbn; lia.
  - rewrite !zlen_app, !zlen_be. change (zlen [z]) with 1. lia.
Qed.

(** one frame in front of a stream *)
Lemma wstep_wire B t c p z rest w : 0 <= t < 256 -> 0 <= c < 65536 -> zlen p + 8 <= u64 (b_fm B) -> zlen p < INT_MAX ->
  ae_nopool (E (b_nf B)) = false -> ae_noblock (E (b_nf B)) = false ->
  w = be 1 t ++ be 2 c ++ be 4 (zlen p) ++ p ++ [z] ++ rest ->
  size_of w = zlen p /\ skipn (Z.to_nat (size_of w + 8)) w = rest /\
  wstep E B w =
    match body_res (E (b_nf B)) (b_gens B c) t c p z with
    | BErr st f => WErr st f (st_body E B (firstn (Z.to_nat (size_of w + 8)) w))
    | BDone f => WFrame f
    | BUB => WUB
    end.
Proof.
  intros Ht Hc Hf Hs Np Nb Hw. pose proof (zlen_nonneg p). pose proof (zlen_nonneg rest).
  destruct (wire_fields t c (zlen p) p z rest w Ht Hc) as (F1 & F2 & F3 & F4 & F5); [lia|exact Hw|].
  split; [exact F3|]. split.
  - replace (Z.to_nat (size_of w + 8)) with (7 + (length p + 1))%nat by (rewrite F3; unfold zlen; lia).
    rewrite <- skipn_skipn', F4, <- skipn_skipn', skipn_app, skipn_all, Nat.sub_diag. reflexivity.
  - rewrite wstep_whole by (rewrite ?F3; auto; lia). rewrite F1, F2, F3, F4.
    rewrite zlen_length, firstn_app, Nat.sub_diag, firstn_all, firstn_O, app_nil_r.
    replace (nth (Z.to_nat (zlen p + 7)) w x00) with z; [reflexivity|].
    rewrite <- (firstn_skipn 7 w), F4. rewrite app_nth2; rewrite firstn_length; unfold zlen in *; [|lia].
    replace (Z.to_nat (Z.of_nat (length p) + 7) - Nat.min 7 (length w))%nat with (length p) by lia.
    rewrite app_nth2 by lia. rewrite Nat.sub_diag. reflexivity.
Qed.

Lemma stream_sound : forall n B w, (length w <= n)%nat -> small B ->
  exists fs o n' rest, stream E B w = (fs, o) /\ delivered E (b_fm B) (b_gens B) (b_nf B) w fs n' rest /\
    stopped_at (b_fm B) (E n') rest o.
Proof.
  induction n as [|n IH]; intros B w HL HB; unfold stream; cbn [parse].
  - destruct w; [|cbn in HL; lia]. rewrite wstep_incomplete by (left; reflexivity).
    do 4 eexists. split; [reflexivity|]. split; [constructor|]. left. reflexivity.
  - destruct HB as [HB1 HB2]. destruct (wstep E B w) as [|st f s|f|] eqn:W.
    + apply wstep_more in W. do 4 eexists. split; [reflexivity|]. split; [constructor|]. cbn [stopped_at]; change announced with size_of.
      destruct W as [|(? & (? & U & _) & ?)]; [left; auto|right]. rewrite u64_small in U by auto. split; [lia|split; lia].
    + do 4 eexists. split; [reflexivity|]. split; [constructor|]. cbn [stopped_at]; change announced with size_of.
      pose proof (wstep_err E B w st f s (conj HB1 HB2) W) as Neg. 
      unfold wstep in W. rewrite u64_small in W by auto. destruct (Z.ltb_spec (zlen w) 7); [discriminate|].
      split; [lia|].
      destruct (Z.leb_spec INT_MAX (size_of w)). { injection W as <- _ _. left. split; [reflexivity|]. lia. }
      destruct (Z.ltb_spec (b_fm B) (size_of w + 8)). { injection W as <- _ _. left. split; [reflexivity|]. lia. }
      destruct (ae_nopool (E (b_nf B))). { injection W as <- _ _. right. right. auto. }
      destruct (ae_noblock (E (b_nf B))). { injection W as <- _ _. right. right. auto. }
      destruct (Z.ltb_spec (zlen w) (size_of w + 8)); [discriminate|]. right. left. repeat split; [auto|lia|lia].
    + pose proof (wstep_frame _ _ _ _ W) as (W7 & W8 & W9 & W10). pose proof (size_of_range w) as SR.
      destruct (whole_frame w) as (Hx & Ht & Hc & Hp); [lia|lia|lia|].
      set (x := firstn (Z.to_nat (size_of w + 8)) w) in *. set (p := firstn (Z.to_nat (size_of w)) (skipn 7 w)) in *.
      set (rest := skipn (Z.to_nat (size_of w + 8)) w).
      assert (HB' : small (next_base B w)) by (split; [auto|apply next_base_ok; auto]).
      assert (LR : (length rest <= n)%nat) by (unfold rest; rewrite skipn_length; unfold zlen in *; lia).
      destruct (IH (next_base B w) rest LR HB') as (fs & o & n' & r & S1 & S2 & S3).
      assert (P : parse E (length w) (next_base B w) rest = (fs, o)).
      { rewrite <- S1. apply parse_fuel; [|lia]. unfold rest. rewrite skipn_length. unfold zlen in *; lia. }
      rewrite P. unfold emit. cbn [fst snd].
      exists (if f_type f =? 0 then fs else f :: fs), o, n', r. split; [reflexivity|]. split; [|exact S3].
      rewrite <- (firstn_skipn (Z.to_nat (size_of w + 8)) w). fold x rest.
      assert (BR : body_res (E (b_nf B)) (b_gens B (chan_of w)) (ftype_of w) (chan_of w) p (nth (Z.to_nat (size_of w + 7)) w x00) = BDone f).
      { rewrite wstep_whole in W; try lia; fold p in W.
        - destruct (body_res _ _ _ _ _ _); try discriminate. congruence.
        - unfold wstep in W. destruct (zlen w <? 7); [discriminate|]. destruct (INT_MAX <=? size_of w); [discriminate|].
          destruct (u64 (b_fm B) <? size_of w + 8); [discriminate|]. destruct (ae_nopool (E (b_nf B))); [discriminate|reflexivity].
        - unfold wstep in W. destruct (zlen w <? 7); [discriminate|]. destruct (INT_MAX <=? size_of w); [discriminate|].
          destruct (u64 (b_fm B) <? size_of w + 8); [discriminate|]. destruct (ae_nopool (E (b_nf B))); [discriminate|].
          destruct (ae_noblock (E (b_nf B))); [discriminate|reflexivity]. }
      assert (PM : zlen p < M31) by lia.
      destruct (body_done_is_frame _ _ _ _ _ _ _ Ht Hc PM BR) as (HZ & HF & HC & HG).
      constructor; [| |exact S2]. { rewrite HC. rewrite HZ in Hx. rewrite Hx. exact HF. }
      unfold x. rewrite zlen_firstn by lia. rewrite u64_small in W10 by auto. lia.
    + do 4 eexists. split; [reflexivity|]. split; [constructor|]. cbn [stopped_at]; change announced with size_of.
      exists (firstn (Z.to_nat (size_of w + 8)) w), (skipn (Z.to_nat (size_of w + 8)) w).
      split; [symmetry; apply firstn_skipn|].
      unfold wstep in W. rewrite u64_small in W by auto. destruct (Z.ltb_spec (zlen w) 7); [discriminate|].
      destruct (Z.leb_spec INT_MAX (size_of w)); [discriminate|].
      destruct (Z.ltb_spec (b_fm B) (size_of w + 8)); [discriminate|].
      destruct (ae_nopool (E (b_nf B))) eqn:Np; [discriminate|]. destruct (ae_noblock (E (b_nf B))); [discriminate|].
      destruct (Z.ltb_spec (zlen w) (size_of w + 8)); [discriminate|].
      destruct (whole_frame w) as (Hx & Ht & Hc & Hp); [lia|lia|lia|].
      destruct (body_res _ _ _ _ _ _) eqn:BR; try discriminate.
      apply body_ub in BR; [|lia]. destruct BR as (HZ & _ & BR). rewrite HZ in Hx. rewrite Hx.
      do 3 eexists. split; [reflexivity|]. split; [lia|]. exact BR.
Qed.
End Sound.

(** ** Outgoing frames *)
Lemma e_at_ok w v mem o : 0 <= o -> o + wbytes w <= zlen mem -> zlen mem < M63 ->
  e_at w v mem o = Some (patch mem o (be (wnat w) v)).
Proof.
  intros H1 H2 H3. pose proof (encode_ok LittleEndian w v mem o H1 H2 H3) as G.
  unfold amqp_encode_h in G. cbn [emem eoff] in G. unfold e_at.
  destruct (_ <=? zlen mem) in G; [|discriminate].
  destruct (write mem o _) as [m|]; [|discriminate]. injection G as <- _. reflexivity.
Qed.

Lemma split_at (mem : bytes) n : 0 <= n <= zlen mem ->
  exists a b, mem = a ++ b /\ zlen a = n /\ zlen b = zlen mem - n.
Proof.
  intros. exists (firstn (Z.to_nat n) mem), (skipn (Z.to_nat n) mem).
  split; [symmetry; apply firstn_skipn|]. split; [apply zlen_firstn; auto|apply zlen_skipn; auto].
Qed.

Lemma frame_finish_ok buf t c p : zlen p + 8 <= zlen buf -> zlen buf < M31 ->
  exists post, zlen post = zlen buf - zlen p - 8 /\
  frame_finish (zlen p) (patch (patch (patch buf 0 (be 1 t)) 1 (be 2 c)) 7 p) =
    FRet AMQP_STATUS_OK (wire t c p ++ post) (wire t c p).
Proof.
  intros H1 H2. pose proof (zlen_nonneg p).
  destruct (split_at buf 1) as (b1 & r1 & -> & L1 & R1); [lia|].
  destruct (split_at r1 2) as (b2 & r2 & -> & L2 & R2); [lia|].
  destruct (split_at r2 4) as (b3 & r3 & -> & L3 & R3); [lia|].
  destruct (split_at r3 (zlen p)) as (b4 & r4 & -> & L4 & R4); [lia|].
  destruct (split_at r4 1) as (b5 & post & -> & L5 & R5); [lia|].
  assert (B1 : zlen (be 1 t) = 1) by apply zlen_be. assert (B2 : zlen (be 2 c) = 2) by apply zlen_be.
  assert (B4 : zlen (be 4 (zlen p)) = 4) by apply zlen_be.
  exists post. split; [lia|].
  assert (X : patch (patch (patch (b1 ++ b2 ++ b3 ++ b4 ++ b5 ++ post) 0 (be 1 t)) 1 (be 2 c)) 7 p =
              be 1 t ++ be 2 c ++ b3 ++ p ++ b5 ++ post).
  { pose proof (patch_app_eq [] b1 (b2 ++ b3 ++ b4 ++ b5 ++ post) (be 1 t) 0 eq_refl ltac:(unfold zlen in *; lia)) as PA.
    cbn [app] in PA. rewrite PA.
    rewrite (patch_app_eq (be 1 t) b2) by (auto; unfold zlen in *; lia).
    replace (be 1 t ++ be 2 c ++ b3 ++ b4 ++ b5 ++ post) with ((be 1 t ++ be 2 c ++ b3) ++ b4 ++ b5 ++ post) by (rewrite <- !app_assoc; reflexivity).
    rewrite (patch_app_eq (be 1 t ++ be 2 c ++ b3) b4).
    - rewrite <- !app_assoc. reflexivity.
    - rewrite !zlen_app. lia.
    - unfold zlen in *; lia. }
  rewrite X. unfold frame_finish.
  assert (LL : forall u v, zlen u = 4 -> zlen v = 1 -> zlen (be 1 t ++ be 2 c ++ u ++ p ++ v ++ post) = zlen p + 8 + zlen post).
  { intros u v U V. rewrite !zlen_app. lia. }
  rewrite !zlen_app in H2. pose proof (zlen_nonneg post).
  rewrite (e_at_ok W32) by (rewrite ?LL by lia; cbn [wbytes]; lia).
  assert (U : be (wnat W32) (u32 (zlen p)) = be 4 (zlen p)) by (apply (be_mod 4)). rewrite U.
  assert (P3 : patch (be 1 t ++ be 2 c ++ b3 ++ p ++ b5 ++ post) 3 (be 4 (zlen p)) = be 1 t ++ be 2 c ++ be 4 (zlen p) ++ p ++ b5 ++ post).
  { replace (be 1 t ++ be 2 c ++ b3 ++ p ++ b5 ++ post) with ((be 1 t ++ be 2 c) ++ b3 ++ p ++ b5 ++ post) by (rewrite <- !app_assoc; reflexivity).
    rewrite (patch_app_eq (be 1 t ++ be 2 c) b3); [rewrite <- !app_assoc; reflexivity|rewrite zlen_app; lia|unfold zlen in *; lia]. }
  rewrite P3. unfold HEADER_SIZE, FOOTER_SIZE.
  rewrite add_size_ok by lia. rewrite (e_at_ok W8) by (rewrite ?LL by lia; cbn [wbytes]; lia).
  change (be (wnat W8) AMQP_FRAME_END) with [xce].
  assert (P4 : patch (be 1 t ++ be 2 c ++ be 4 (zlen p) ++ p ++ b5 ++ post) (7 + zlen p) [xce] = wire t c p ++ post).
  { replace (be 1 t ++ be 2 c ++ be 4 (zlen p) ++ p ++ b5 ++ post) with ((be 1 t ++ be 2 c ++ be 4 (zlen p) ++ p) ++ b5 ++ post) by (rewrite <- !app_assoc; reflexivity).
    rewrite patch_app_eq; [unfold wire; rewrite <- !app_assoc; reflexivity|rewrite !zlen_app; lia|unfold zlen in *; cbn [length] in *; lia]. }
  rewrite P4. rewrite add_size_ok by lia.
  rewrite (slice_app' _ [] (wire t c p) post); [reflexivity|reflexivity|reflexivity|].
  unfold wire. rewrite !zlen_app. change (zlen [xce]) with 1. lia.
Qed.

Lemma be4_split c i : 0 <= i < 65536 -> be 4 (method_id c i) = be 2 c ++ be 2 i.
Proof.
  intros. unfold method_id. cbn [be app].
  change (256 ^ Z.of_nat 3) with (65536 * 256). change (256 ^ Z.of_nat 2) with (65536 * 1).
  change (256 ^ Z.of_nat 1) with 256. change (256 ^ Z.of_nat 0) with 1. rewrite !Z.div_1_r.
  rewrite <- (Z.div_div (c * 65536 + i) 65536 256) by lia. rewrite <- (Z.div_div (c * 65536 + i) 65536 1) by lia.
  rewrite Z.div_add_l by lia. rewrite (Z.div_small i 65536) by lia. rewrite Z.add_0_r, Z.div_1_r.
  f_equal. f_equal. f_equal; [|f_equal].
  - rewrite <- (byte_of_Z_mod ((c * 65536 + i) / 256)), <- (byte_of_Z_mod (i / 256)). f_equal.
    replace (c * 65536 + i) with ((c * 256) * 256 + i) by lia. rewrite Z.div_add_l by lia.
    rewrite Z.add_comm, Z.mod_add by lia. reflexivity.
  - rewrite <- (byte_of_Z_mod (c * 65536 + i)), <- (byte_of_Z_mod i). f_equal.
    replace (c * 65536 + i) with (i + (c * 256) * 256) by lia. rewrite Z.mod_add by lia. reflexivity.
Qed.

(** encode_sub with an encoder that either writes its bytes at the start of its
    buffer or fails *)
Lemma encode_sub_ok o enc out ser (rep : bool) : 0 <= o -> o + 1 <= zlen out -> zlen out < M31 ->
  (forall sub, zlen sub < M31 -> exists st sub', enc sub = Some (st, sub') /\ zlen sub' = zlen sub /\
     ((st = zlen ser /\ rep = true /\ zlen ser <= zlen sub /\ sub' = ser ++ skipn (length ser) sub) \/
      (st < 0 /\ (rep = false \/ zlen ser > zlen sub)))) ->
  exists st out', encode_sub o enc out = Some (st, out') /\ zlen out' = zlen out /\
    ((st = zlen ser /\ rep = true /\ o + zlen ser + 1 <= zlen out /\ out' = patch out o ser) \/
     (st < 0 /\ (rep = false \/ o + zlen ser + 1 > zlen out))).
Proof.
  intros Ho H1 H2 He. unfold encode_sub, FOOTER_SIZE.
  rewrite sub_size_ok by lia.
  destruct (split_at out o) as (a & r & -> & L1 & R1); [lia|]. rewrite zlen_app in *.
  destruct (split_at r (zlen r - 1)) as (sub & z & -> & L2 & R2); [lia|]. rewrite zlen_app in *.
  assert (SL : slice (a ++ sub ++ z) o (zlen a + (zlen sub + zlen z) - (o + 1)) = Some sub) by (apply (slice_app' _ a sub z); auto; lia).
  rewrite SL. destruct (He sub ltac:(lia)) as (st & sub' & E & L & C). rewrite E.
  rewrite write_Some by (rewrite ?zlen_app; lia).
  assert (PE : patch (a ++ sub ++ z) o sub' = a ++ sub' ++ z) by (apply patch_app_eq; [auto|unfold zlen in *; lia]).
  rewrite PE. exists st, (a ++ sub' ++ z). split; [reflexivity|]. split; [rewrite !zlen_app; lia|].
  destruct C as [(-> & Hr & Hl & ->)|(S & C)].
  - left. split; [reflexivity|]. split; [auto|]. split; [lia|].
    destruct (split_at sub (zlen ser)) as (u & v & -> & U & V); [pose proof (zlen_nonneg ser); lia|].
    rewrite skipn_app. rewrite skipn_all2 by (unfold zlen in *; lia).
    replace (length ser - length u)%nat with 0%nat by (unfold zlen in *; lia). cbn [skipn app].
    rewrite <- !app_assoc. symmetry. apply patch_app_eq; [auto|unfold zlen in *; lia].
  - right. split; [auto|]. destruct C; [auto|right; lia].
Qed.

Lemma zlen_wire t c p : zlen (wire t c p) = zlen p + 8.
Proof. unfold wire. rewrite !zlen_app, !zlen_be. change (zlen [xce]) with 1. lia. Qed.

Lemma catalogue_ids c i fs : In (c, i, fs) catalogue -> 0 <= c < 65536 /\ 0 <= i < 65536.
Proof.
  intros H.
  assert (A : forallb (fun e : Z * Z * list (string * dom) =>
     (0 <=? fst (fst e)) && (fst (fst e) <? 65536) && (0 <=? snd (fst e)) && (snd (fst e) <? 65536)) catalogue = true) by (vm_compute; reflexivity).
  rewrite forallb_forall in A. specialize (A _ H). cbn [fst snd] in A.
  repeat (apply andb_true_iff in A; destruct A as [A ?]).
  repeat match goal with X : (_ <=? _) = true |- _ => apply Z.leb_le in X | X : (_ <? _) = true |- _ => apply Z.ltb_lt in X end. lia.
Qed.

Lemma patch_step buf o a b : 0 <= o -> o + zlen a + zlen b <= zlen buf ->
  patch (patch buf o a) (o + zlen a) b = patch buf o (a ++ b).
Proof. apply patch_patch_after. Qed.

(** C10, sending: the encoded frame is the wire format, or an error is reported
    when it is not representable or does not fit. *)
Lemma frame_to_bytes_ok chan a buf :
  aframe_ok a -> 20 <= zlen buf < M31 -> (forall b, a = ABody b -> zlen b + 8 <= zlen buf) ->
  exists st buf' enc, amqp_frame_to_bytes (c_frame chan a) buf = FRet st buf' enc /\ zlen buf' = zlen buf /\
    ((st = AMQP_STATUS_OK /\ enc = ser_frame chan a /\ aframe_representable a = true /\ zlen (ser_frame chan a) <= zlen buf /\
      exists post, buf' = ser_frame chan a ++ post) \/
     (st < 0 /\ (aframe_representable a = false \/ zlen (ser_frame chan a) > zlen buf))).
Proof.
  intros Ha Hb Hbody.
  assert (H1 : forall t, e_at W8 t buf 0 = Some (patch buf 0 (be 1 t))) by (intros; rewrite e_at_ok by (cbn [wbytes]; lia); reflexivity).
  assert (L1 : forall t, zlen (patch buf 0 (be 1 t)) = zlen buf) by (intros; apply zlen_patch; rewrite ?zlen_be; lia).
  assert (H2 : forall t, e_at W16 chan (patch buf 0 (be 1 t)) 1 = Some (patch (patch buf 0 (be 1 t)) 1 (be 2 chan)))
    by (intros; rewrite e_at_ok by (rewrite ?L1; cbn [wbytes]; lia); reflexivity).
  assert (L2 : forall t, zlen (patch (patch buf 0 (be 1 t)) 1 (be 2 chan)) = zlen buf)
    by (intros; rewrite zlen_patch; rewrite ?L1, ?zlen_be; lia).
  unfold ser_frame. rewrite zlen_wire.
  destruct a as [c i fs args|size flags ms pl|b|]; cbn [c_frame type_of ser_payload aframe_representable aframe_ok] in *;
    unfold amqp_frame_to_bytes; cbn [f_type f_chan f_pay]; rewrite H1, H2;
    unfold AMQP_FRAME_BODY, AMQP_FRAME_METHOD, AMQP_FRAME_HEADER, AMQP_FRAME_HEARTBEAT, HEADER_SIZE;
    repeat match goal with |- context [?x =? ?y] => let v := eval vm_compute in (x =? y) in change (x =? y) with v; cbn iota end.
  - set (out0 := patch (patch buf 0 (be 1 1)) 1 (be 2 chan)).
    assert (LO : zlen out0 = zlen buf) by apply L2.
    rewrite e_at_ok by (rewrite ?LO; cbn [wbytes]; lia). cbn [wnat].
    set (B4 := be 4 (method_id c i)). assert (LB4 : zlen B4 = 4) by apply zlen_be.
    destruct Ha as [Hin Ht]. destruct (catalogue_ids c i fs Hin) as [_ Hi].
    destruct (encode_sub_ok (7 + 4) (amqp_encode_method (method_id c i) args) (patch out0 7 B4) (ser_method fs args) (representable_args fs args))
      as (st & out' & E & L & C).
    { lia. } { rewrite zlen_patch; lia. } { rewrite zlen_patch; lia. }
    { intros sub Hs. destruct (encode_method_ok (c, i, fs) args sub Hin Ht Hs) as (st & m' & E & L & C).
      exists st, m'. split; [exact E|]. split; [exact L|]. exact C. }
    rewrite zlen_patch in * by lia. rewrite E.
    destruct C as [(-> & Hr & Hf & ->)|(Hs & C)].
    + pose proof (zlen_nonneg (ser_method fs args)). destruct (Z.ltb_spec (zlen (ser_method fs args)) 0); [lia|].
      replace (7 + 4) with (7 + zlen B4) by lia.
      rewrite patch_step by lia.
      assert (PP : B4 ++ ser_method fs args = be 2 c ++ be 2 i ++ ser_method fs args).
      { unfold B4. rewrite be4_split by auto. rewrite <- app_assoc. reflexivity. }
      rewrite PP. set (p := be 2 c ++ be 2 i ++ ser_method fs args).
      assert (LP : zlen p = zlen (ser_method fs args) + 4) by (unfold p; rewrite !zlen_app, !zlen_be; lia).
      rewrite <- LP. destruct (frame_finish_ok buf 1 chan p) as (post & Lp & F); [lia|lia|].
      fold out0 in F. rewrite F. do 3 eexists. split; [reflexivity|].
      split; [rewrite zlen_app, zlen_wire; lia|]. left. split; [reflexivity|]. split; [reflexivity|]. split; [auto|].
      split; [lia|]. eauto.
    + destruct (Z.ltb_spec st 0); [|lia]. do 3 eexists. split; [reflexivity|]. split; [lia|]. right. split; [auto|].
      destruct C; [auto|]. right. rewrite !zlen_app, !zlen_be. lia.
  - set (out0 := patch (patch buf 0 (be 1 2)) 1 (be 2 chan)).
    assert (LO : zlen out0 = zlen buf) by apply L2.
    set (P1 := be 2 60). set (P2 := be 2 0). set (P3 := be 8 size).
    assert (LP1 : zlen P1 = 2) by apply zlen_be. assert (LP2 : zlen P2 = 2) by apply zlen_be. assert (LP3 : zlen P3 = 8) by apply zlen_be.
    rewrite (e_at_ok W16 60) by (rewrite ?LO; cbn [wbytes]; lia). cbn [wnat]. fold P1.
    rewrite (e_at_ok W16 0) by (rewrite ?zlen_patch; cbn [wbytes]; lia). cbn [wnat]. fold P2.
    assert (Q1 : patch (patch out0 7 P1) (7 + 2) P2 = patch out0 7 (P1 ++ P2)).
    { replace (7 + 2) with (7 + zlen P1) by lia. apply patch_step; lia. }
    rewrite Q1. rewrite (e_at_ok W64) by (rewrite ?zlen_patch; rewrite ?zlen_app; cbn [wbytes]; lia). cbn [wnat]. fold P3.
    assert (Q2 : patch (patch out0 7 (P1 ++ P2)) (7 + 4) P3 = patch out0 7 ((P1 ++ P2) ++ P3)).
    { replace (7 + 4) with (7 + zlen (P1 ++ P2)) by (rewrite zlen_app; lia). apply patch_step; rewrite ?zlen_app; lia. }
    rewrite Q2. set (P := (P1 ++ P2) ++ P3). assert (LP : zlen P = 12) by (unfold P; rewrite !zlen_app; lia).
    destruct Ha as (Hsz & Hfl & Hpr & Hpt).
    destruct (encode_sub_ok (7 + 12) (amqp_encode_properties 60 (mkProps flags ms)) (patch out0 7 P) (ser_props flags pl) (props_representable pl))
      as (st & out' & E & L & C).
    { lia. } { rewrite zlen_patch; lia. } { rewrite zlen_patch; lia. }
    { intros sub Hs. apply (encode_properties_ok flags ms pl sub); auto. }
    rewrite zlen_patch in * by lia. rewrite E.
    destruct C as [(-> & Hr & Hf & ->)|(Hs & C)].
    + pose proof (zlen_nonneg (ser_props flags pl)). destruct (Z.ltb_spec (zlen (ser_props flags pl)) 0); [lia|].
      replace (7 + 12) with (7 + zlen P) by lia. rewrite patch_step by lia.
      assert (PP : P ++ ser_props flags pl = P1 ++ P2 ++ P3 ++ ser_props flags pl) by (unfold P; rewrite <- !app_assoc; reflexivity).
      rewrite PP. set (p := P1 ++ P2 ++ P3 ++ ser_props flags pl).
      assert (LPp : zlen p = zlen (ser_props flags pl) + 12) by (unfold p; rewrite !zlen_app; lia).
      rewrite <- LPp. destruct (frame_finish_ok buf 2 chan p) as (post & Lp & F); [lia|lia|].
      fold out0 in F. rewrite F. do 3 eexists. split; [reflexivity|].
      split; [rewrite zlen_app, zlen_wire; lia|]. left. split; [reflexivity|]. split; [reflexivity|]. split; [auto|].
      split; [lia|]. eauto.
    + destruct (Z.ltb_spec st 0); [|lia]. do 3 eexists. split; [reflexivity|]. split; [lia|]. right. split; [auto|].
      destruct C; [auto|]. right. rewrite !zlen_app. lia.
  - specialize (Hbody b eq_refl). pose proof (zlen_nonneg b).
    rewrite write_Some by (rewrite ?L2; lia).
    destruct (frame_finish_ok buf 3 chan b) as (post & Lp & F); [lia|lia|]. rewrite F.
    do 3 eexists. split; [reflexivity|]. split; [rewrite zlen_app, zlen_wire; lia|]. left.
    repeat (split; [auto; lia|]). eauto.
  - destruct (frame_finish_ok buf 8 chan []) as (post & Lp & F); [change (zlen (@nil byte)) with 0; lia|lia|].
    rewrite patch_nil in F. change (zlen (@nil byte)) with 0 in *. rewrite F.
    do 3 eexists. split; [reflexivity|]. split; [rewrite zlen_app, zlen_wire; change (zlen (@nil byte)) with 0; lia|]. left.
    repeat (split; [auto; lia|]). eauto.
Qed.
