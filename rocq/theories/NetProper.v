(** What a server that sends well-formed frames cannot cause: a malformed frame,
    also if the library loses the eighth byte of the first one (C14). *)
From Coq Require Import String ZArith List Bool Lia.
From Verif Require Import Base BaseFacts Codec CodecProofs TableModel TableSpec TableEnc TableDec TableRT TableOps FramingStmt FramingGen FramingModel MethodSpec FramingEnc FramingDec FramingProps
  Frame FrameSpec FrameProofs FrameStream FrameFacts FrameInit FrameNew Time Sasl Net NetApi NetSpec NetFacts NetSend NetRecv NetWalk NetRx NetWell NetStuck.
Import ListNotations.
Local Open Scope Z_scope.

Section Proper.
Context (E : nat -> aenv) (HE : never_fails E) (X : frame -> Prop) (X_body : forall ch b g, X (mkFrame 3 ch (PBody b) g)).

(** a complete frame that is refused or that satisfies [X] *)
Definition proper (x : bytes) : Prop :=
  8 <= zlen x /\ zlen x = size_of x + 8 /\ forall B, small B -> wstep E B x <> WUB /\ forall f, wstep E B x = WFrame f -> X f.

Lemma len_eq {A} (x y : list A) : zlen x = zlen y -> length x = length y.
Proof. unfold zlen. lia. Qed.
Lemma frames_proper : forall w fs r, frames_in E w fs r -> forall chunks, Forall proper chunks -> prefix w (concat chunks) ->
  Forall X fs /\ exists rest, Forall proper rest /\ prefix r (concat rest).
Proof.
  induction 1 as [r|x f gen w fs r (Hf & HL & B & HB & HW) H IH]; intros chunks HC HP; [split; [constructor|eauto]|].
  pose proof (size_of_range x) as SR. pose proof (zlen_nonneg w) as W0.
  destruct chunks as [|x0 cs].
  { cbn [concat] in HP. apply prefix_nil_inv in HP. destruct x; [change (zlen []) with 0 in HL; lia|discriminate]. }
  inversion HC as [|? ? (P1 & P2 & P3) HC']; subst. cbn [concat] in HP. apply prefix_split in HP. destruct HP as [(s & Hs & Hn)|(w' & Hw & Hp)].
  - exfalso. pose proof (size_of_app x (w ++ s) ltac:(lia)) as K. rewrite app_assoc, <- Hs in K. apply (f_equal zlen) in Hs. rewrite !zlen_app in Hs.
    assert (0 < zlen s) by (destruct s; [congruence|rewrite zlen_cons; pose proof (zlen_nonneg s); lia]). lia.
  - pose proof (size_of_app x w ltac:(lia)) as K. rewrite Hw in K. rewrite size_of_app in K by lia.
    assert (length x = length x0) as LE by (apply len_eq; lia).
    assert (x = x0 /\ w = w') as [-> ->].
    { split; [apply (f_equal (firstn (length x))) in Hw; rewrite LE in Hw at 2|apply (f_equal (skipn (length x))) in Hw; rewrite LE in Hw at 2].
      - rewrite !firstn_app, LE, !Nat.sub_diag, <- LE, firstn_all, LE, firstn_all, !firstn_O, !app_nil_r in Hw. exact Hw.
      - rewrite !skipn_app, LE, !Nat.sub_diag, <- LE, skipn_all, LE, skipn_all in Hw. exact Hw. }
    destruct (IH cs HC' Hp) as [I1 I2]. split; [|exact I2].
    destruct (f_type f =? 0); [exact I1|]. constructor; [|exact I1]. exact (proj2 (P3 B HB) f HW).
Qed.
Lemma proper_no_ub B r chunks : small B -> wstep E B r = WUB -> Forall proper chunks -> prefix r (concat chunks) -> False.
Proof.
  intros HB HW HC HP. pose proof (size_of_range r) as SR.
  assert (size_of r + 8 <= zlen r) as HL.
  { revert HW. unfold wstep. destruct (zlen r <? 7); [discriminate|]. destruct (_ <=? _); [discriminate|]. destruct (_ <? _); [discriminate|].
    destruct (ae_nopool _); [discriminate|]. destruct (ae_noblock _); [discriminate|]. destruct (Z.ltb_spec (zlen r) (size_of r + 8)); [discriminate|lia]. }
  destruct chunks as [|x0 cs].
  { cbn [concat] in HP. apply prefix_nil_inv in HP. subst r. change (zlen []) with 0 in HL. lia. }
  inversion HC as [|? ? (P1 & P2 & P3) HC']; subst. cbn [concat] in HP. apply prefix_split in HP. destruct HP as [(s & Hs & Hn)|(w' & Hw & Hp)].
  - pose proof (size_of_app r s ltac:(lia)) as K. rewrite <- Hs in K. apply (f_equal zlen) in Hs. rewrite zlen_app in Hs.
    assert (0 < zlen s) by (destruct s; [congruence|rewrite zlen_cons; pose proof (zlen_nonneg s); lia]). lia.
  - subst r. destruct (wstep_app E B x0 w') as [K _].
    { intros M. apply wstep_more in M. destruct M as [M|(_ & _ & M)]; lia. }
    rewrite K in HW. destruct (P3 B HB) as [P _]. contradiction.
Qed.

Definition fine_env (e : aenv) : Prop := ae_nopool e = false /\ ae_noblock e = false /\ ae_oom e = no_oom.
Lemma proper_wire t c p z : 0 <= t < 256 -> 0 <= c < 65536 -> zlen p < INT_MAX ->
  (forall e gen, fine_env e -> zlen p < M30 -> body_res e gen t c p z <> BUB /\ forall f, body_res e gen t c p z = BDone f -> X f) ->
  proper (be 1 t ++ be 2 c ++ be 4 (zlen p) ++ p ++ [z]).
Proof.
  intros Ht Hc Hp HX. set (x := be 1 t ++ _). pose proof (zlen_nonneg p) as P0. assert (INT_MAX < M31) as IM by reflexivity.
  assert (x = be 1 t ++ be 2 c ++ be 4 (zlen p) ++ p ++ [z] ++ []) as Hx by (unfold x; rewrite app_nil_r; reflexivity).
  destruct (wire_fields t c (zlen p) p z [] x Ht Hc) as (F1 & F2 & F3 & F4 & F5); [lia|exact Hx|]. change (zlen (@nil byte)) with 0 in F5.
  split; [lia|]. split; [lia|]. intros B HB0. pose proof HB0 as [HB1 HB2]. destruct (HE (b_nf B)) as (Np & Nb & No).
  destruct (Z.leb_spec (zlen p + 8) (b_fm B)) as [HL|HL].
  - destruct (wstep_wire E B t c p z [] x) as (_ & _ & S3); auto; [rewrite u64_small by auto; lia|].
    destruct (HX (E (b_nf B)) (b_gens B c)) as [H1 H2]; [unfold fine_env; auto|lia|].
    rewrite S3. destruct (body_res _ _ _ _ _ _); split; try discriminate; try contradiction. intros f0 K. injection K as <-. auto.
  - unfold wstep. rewrite F3, u64_small by auto. destruct (Z.ltb_spec (zlen x) 7); [lia|]. destruct (Z.leb_spec INT_MAX (zlen p)); [split; discriminate|].
    destruct (Z.ltb_spec (b_fm B) (zlen p + 8)); [split; discriminate|lia].
Qed.

(** a frame of a type the protocol has, of any size, whose fields fit *)
Definition sent_frame (ca : Z * aframe) : Prop := good_frame INT_MAX ca /\ forall gen, X (received_frame gen (fst ca) (snd ca)).
Lemma size_ok ca : good_frame INT_MAX ca -> zlen (ser_payload (snd ca)) < INT_MAX.
Proof. intros (_ & _ & _ & _ & H). unfold ser_frame in H. rewrite zlen_wire in H. lia. Qed.
Lemma sent_res ca e gen : sent_frame ca -> fine_env e -> zlen (ser_payload (snd ca)) < M30 ->
  body_res e gen (type_of (snd ca)) (fst ca) (ser_payload (snd ca)) xce = BDone (received_frame gen (fst ca) (snd ca)).
Proof. intros [(G1 & G2 & G3 & G4 & G5) _] (H1 & H2 & H3) HL. apply body_res_received; assumption. Qed.
Lemma proper_sent ca : sent_frame ca -> proper (ser_frame (fst ca) (snd ca)).
Proof.
  intros H. pose proof H as [H1 H2]. unfold ser_frame, wire. apply proper_wire; [apply type_of_range|apply H1|apply size_ok, H1|].
  intros e gen He HL. rewrite sent_res by assumption. split; [discriminate|]. intros f K. injection K as <-. apply H2.
Qed.

(** the eighth byte lost *)
Lemma table_small : forallb (fun kv : Z * list stmt => fst kv <? 16777216) dec_table = true.
Proof. vm_compute. reflexivity. Qed.
Lemma switch_small {A} (l : list (Z * A)) n : forallb (fun kv => fst kv <? 16777216) l = true -> 16777216 <= n -> switch n l = None.
Proof.
  intros H Hn. induction l as [|[k v] l IH]; [reflexivity|]. cbn [forallb fst] in H. apply andb_true_iff in H. destruct H as [H1 H2]. apply Z.ltb_lt in H1.
  cbn [switch]. destruct (Z.eqb_spec n k); [lia|]. apply IH, H2.
Qed.
Lemma byte_pos b : b <> x00 -> 1 <= Z_of_byte b.
Proof. destruct b; intros H; try (vm_compute; discriminate). contradiction H; reflexivity. Qed.
Lemma byte_nonneg b : 0 <= Z_of_byte b.
Proof. destruct b; vm_compute; discriminate. Qed.
Lemma class_high : forallb (fun e : Z * Z * list (string * dom) => Byte.eqb (hd x01 (be 2 (fst (fst e)))) x00) catalogue = true.
Proof. vm_compute. reflexivity. Qed.
Lemma method_high c i fs : In (c, i, fs) catalogue -> exists b, be 2 c = [x00; b].
Proof.
  intros H. pose proof class_high as K. rewrite forallb_forall in K. specialize (K _ H). cbn [fst] in K.
  destruct (be 2 c) as [|b0 [|b1 [|]]] eqn:Hb; try discriminate. cbn [hd] in K. apply Byte.byte_dec_bl in K. subst. eauto.
Qed.
Lemma garbled_wire e t c n p : garbled e (be 1 t ++ be 2 c ++ be 4 n ++ p ++ [xce]) =
  match p with
  | [] => be 1 t ++ be 2 c ++ be 4 n ++ [] ++ [ae_junk e 7]
  | _ :: q => be 1 t ++ be 2 c ++ be 4 n ++ (ae_junk e 7 :: q) ++ [xce]
  end.
Proof. destruct p; reflexivity. Qed.
Lemma classes_small n : 256 <= n -> existsb (Z.eqb n) dec_props_classes = false.
Proof.
  intros H. apply not_true_is_false. intros K. apply existsb_exists in K. destruct K as (y & Hy & Hn). apply Z.eqb_eq in Hn. subst y.
  assert (forallb (fun k => k <? 256) dec_props_classes = true) as Hs by (vm_compute; reflexivity).
  rewrite forallb_forall in Hs. specialize (Hs _ Hy). apply Z.ltb_lt in Hs. lia.
Qed.
Lemma body_res_end e gen t c p z : z <> xce -> exists f, body_res e gen t c p z = BErr AMQP_STATUS_BAD_AMQP_DATA f.
Proof. intros H. unfold body_res. assert (Z_of_byte z =? 206 = false) as -> by (destruct z; try reflexivity; exfalso; apply H; reflexivity). eexists. reflexivity. Qed.

Lemma garbled_res e0 e gen ca q b0 : sent_frame ca -> fine_env e -> zlen (ser_payload (snd ca)) < M30 -> ser_payload (snd ca) = b0 :: q ->
  body_res e gen (type_of (snd ca)) (fst ca) (ae_junk e0 7 :: q) xce <> BUB /\
  forall f, body_res e gen (type_of (snd ca)) (fst ca) (ae_junk e0 7 :: q) xce = BDone f -> X f.
Proof.
  intros Hs He HL Hp. pose proof (sent_res ca e gen Hs He HL) as HR. rewrite Hp in HR. set (j := ae_junk e0 7).
  destruct (Byte.byte_eq_dec j b0) as [->|HN].
  { rewrite HR. split; [discriminate|]. intros f K. injection K as <-. apply Hs. }
  destruct Hs as [(G1 & G2 & G3 & G4 & G5) HX]. destruct He as (Np & Nb & No). destruct ca as [ch a]. cbn [fst snd] in *.
  destruct a as [c i fs args|size flags ms pl|b|]; cbn [type_of ser_payload aframe_ok] in *; [| | |discriminate].
  - destruct G2 as [Hin _]. destruct (method_high _ _ _ Hin) as (b1 & Hb). rewrite Hb in Hp. cbn [app be] in Hp. injection Hp as <- <-.
    unfold body_res. change (Z_of_byte xce =? 206) with true. rewrite Np. cbn [negb]. change (1 =? 1) with true. cbn iota.
    set (b2 := byte_of_Z _). set (b3 := byte_of_Z (i / 1)). set (r := ser_method fs args).
    rewrite !zlen_cons. pose proof (zlen_nonneg r). destruct (Z.ltb_spec (zlen r + 1 + 1 + 1 + 1) 3); [lia|]. destruct (Z.ltb_spec (zlen r + 1 + 1 + 1 + 1) 4); [lia|].
    cbn [firstn skipn]. assert (16777216 <= be_val 0 [j; b1; b2; b3]) as Hbig.
    { pose proof (byte_pos j HN). pose proof (byte_nonneg b1). pose proof (byte_nonneg b2). pose proof (byte_nonneg b3). cbn [be_val]. lia. }
    unfold amqp_decode_method. rewrite (switch_small _ _ table_small Hbig). cbn [of_dres]. split; discriminate.
  - change (be 2 60) with [x00; x3c] in Hp. remember (be 2 0 ++ be 8 size ++ ser_props flags pl) as r eqn:Hr. cbn [app] in Hp. injection Hp as <- <-.
    assert (12 <= zlen (x00 :: x3c :: r)) as L12.
    { rewrite !zlen_cons. rewrite Hr, !zlen_app, !zlen_be. pose proof (zlen_nonneg (ser_props flags pl)). lia. }
    clear Hr.
    unfold body_res in *. change (Z_of_byte xce =? 206) with true in *. rewrite Np, No in *. cbn [negb] in *. change (2 =? 1) with false in *. change (2 =? 2) with true in *. cbn iota in *.
    destruct (Z.ltb_spec (zlen (x00 :: x3c :: r)) 12); [lia|]. rewrite !zlen_cons in *. destruct (Z.ltb_spec (zlen r + 1 + 1) 12); [lia|].
    change (skipn 12 (x00 :: x3c :: r)) with (skipn 10 r) in HR. change (skipn 12 (j :: x3c :: r)) with (skipn 10 r).
    change (firstn 2 (j :: x3c :: r)) with [j; x3c].
    assert (256 <= be_val 0 [j; x3c]) as Hbig. { pose proof (byte_pos j HN). cbn [be_val]. change (Z_of_byte x3c) with 60. lia. }
    unfold amqp_decode_properties in *. destruct (decode_flags _ _ _ _ _) as [fl off| | |]; cbn [dbind of_dres] in *; try discriminate.
    rewrite (classes_small _ Hbig). cbn [of_dres]. split; discriminate.
  - unfold body_res. change (Z_of_byte xce =? 206) with true. rewrite Np. cbn [negb]. change (3 =? 1) with false. change (3 =? 2) with false. change (3 =? 3) with true. cbn iota.
    split; [discriminate|]. intros f K. injection K as <-. apply X_body.
Qed.
Lemma proper_garbled e0 ca : sent_frame ca -> proper (garbled e0 (ser_frame (fst ca) (snd ca))).
Proof.
  intros H. pose proof H as [H1 H2]. pose proof (size_ok _ H1) as HS. unfold ser_frame, wire. rewrite garbled_wire.
  destruct (ser_payload (snd ca)) as [|b0 q] eqn:Hp.
  - apply (proper_wire (type_of (snd ca)) (fst ca) [] (ae_junk e0 7)); [apply type_of_range|apply H1|exact HS|].
    intros e gen He HL. destruct (Byte.byte_eq_dec (ae_junk e0 7) xce) as [->|HN].
    + pose proof (sent_res ca e gen H He) as K. rewrite Hp in K. specialize (K HL). rewrite K. split; [discriminate|]. intros f Kf. injection Kf as <-. apply H2.
    + destruct (body_res_end e gen (type_of (snd ca)) (fst ca) [] _ HN) as (f & ->). split; discriminate.
  - assert (zlen (b0 :: q) = zlen (ae_junk e0 7 :: q)) as HZ by (rewrite !zlen_cons; reflexivity). rewrite HZ in *.
    apply (proper_wire (type_of (snd ca)) (fst ca) (ae_junk e0 7 :: q) xce); [apply type_of_range|apply H1|exact HS|].
    intros e gen He HL. apply (garbled_res e0 e gen ca q b0 H He); [rewrite Hp, HZ; exact HL|exact Hp].
Qed.

(** the stream, seen from a new connection or not *)
Lemma stream_proper i n fs w : Forall sent_frame fs -> prefix w (ser fs) -> exists chunks, Forall proper chunks /\ prefix (eff E i n w) (concat chunks).
Proof.
  intros HF HP. assert (Forall proper (map (fun ca => ser_frame (fst ca) (snd ca)) fs)) as HM by (apply Forall_map; eapply Forall_impl; [|exact HF]; apply proper_sent).
  unfold eff. destruct (i && (8 <=? zlen w)) eqn:G; [|exists (map (fun ca => ser_frame (fst ca) (snd ca)) fs); split; [exact HM|exact HP]].
  apply andb_true_iff in G. destruct G as [_ G]. apply Z.leb_le in G. destruct HP as [s HP].
  destruct fs as [|ca fs]; [apply (f_equal zlen) in HP; rewrite zlen_app in HP; change (zlen (ser [])) with 0 in HP; pose proof (zlen_nonneg s); lia|].
  inversion HM as [|? ? P1 P2]; subst. inversion HF as [|? ? S1 S2]; subst.
  exists (garbled (E n) (ser_frame (fst ca) (snd ca)) :: map (fun ca => ser_frame (fst ca) (snd ca)) fs).
  split; [constructor; [apply proper_garbled, S1|exact P2]|]. exists s. rewrite <- garbled_app by exact G. rewrite <- HP, ser_cons. rewrite garbled_app by apply P1. reflexivity.
Qed.
Lemma stream_magic fs w : prefix w (ser fs) -> is_magic w = false.
Proof.
  intros [s HP]. unfold is_magic. destruct (list_eq_dec _ _ _) as [M|]; [|reflexivity]. exfalso.
  destruct w as [|w0 w]; [discriminate|]. cbn [firstn] in M. injection M as -> _.
  destruct fs as [|[ch a] fs]; [discriminate|]. rewrite ser_cons in HP. cbn [fst snd] in HP. unfold ser_frame, wire in HP. rewrite <- !app_assoc in HP.
  destruct a; discriminate.
Qed.
End Proper.
