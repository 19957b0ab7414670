(** The stream of a new connection: closed form of [feed_all] from the initial
    state. *)
From Coq Require Import String ZArith List Bool Lia.
From Verif Require Import Base BaseFacts Codec CodecProofs TableModel TableSpec TableEnc TableDec TableRT
  FramingStmt FramingGen FramingModel MethodSpec FramingEnc FramingDec FramingProps Prop_Method
  Frame FrameSpec FrameProofs FrameStream FrameFacts FrameInit.
Import ListNotations.
Local Open Scope Z_scope.

Section New.
Variable E : nat -> aenv.

Definition proto_frame (w : bytes) : frame :=
  mkFrame 65 0 (PProto (Z_of_byte (nth 4 w x00)) (Z_of_byte (nth 5 w x00)) (Z_of_byte (nth 6 w x00)) (Z_of_byte (nth 7 w x00))) 0.
Definition proto_base (B : base) (w : bytes) : base := mkB (b_fm B) (firstn 8 w) (b_gens B) (S (b_nf B)).

Definition istream (B : base) (w : bytes) : list frame * outcome :=
  if zlen w <? 8 then ([], NeedMore (init_of B w))
  else if is_magic w then emit (proto_frame w) (stream E (proto_base B w) (skipn 8 w))
  else if refused B w then ([], Failed AMQP_STATUS_BAD_AMQP_DATA (init_of B (firstn 8 w)))
  else if ae_nopool (E (b_nf B)) then ([], Failed AMQP_STATUS_NO_MEMORY (init_of B (firstn 8 w)))
  else if ae_noblock (E (b_nf B)) then
    ([], Failed AMQP_STATUS_NO_MEMORY (mkIn INITIAL (b_fm B) (patch (b_hdr B) 0 (firstn 8 w)) INull 8 8 (b_gens B) (b_nf B)))
  else stream E (init_base B w) (garbled (E (b_nf B)) w).

Lemma proto_small B w : small B -> 8 <= zlen w -> small (proto_base B w).
Proof. intros [H1 H2] H. split; [exact H1|]. apply (zlen_firstn 8). lia. Qed.
Lemma init_small B w : small B -> 8 <= zlen w -> small (init_base B w).
Proof. intros [H1 H2] H. split; [exact H1|]. apply (zlen_firstn 8). lia. Qed.

Lemma ifeed_closed fuel B a d : small B -> zlen a < 8 -> zlen d < M31 -> (length d <= fuel)%nat ->
  feed fuel E (init_of B a) d = istream B (a ++ d).
Proof.
  intros HB HA HD HF. destruct HB as [HB1 HB2]. pose proof (zlen_nonneg a) as HA0.
  destruct d as [|d0 d'] eqn:ED.
  { rewrite app_nil_r. unfold istream. destruct (Z.ltb_spec (zlen a) 8); [|lia]. destruct fuel; reflexivity. }
  rewrite <- ED in *. assert (HN : d <> []) by (rewrite ED; discriminate).
  destruct fuel as [|fuel]; [rewrite ED in HF; cbn in HF; lia|].
  assert (FE : feed (S fuel) E (init_of B a) d =
    match amqp_handle_input E (init_of B a) d with
    | HRet res f s => if res <? 0 then ([], Failed res s) else emit f (feed fuel E s (skipn (Z.to_nat res) d))
    | HUB => ([], Undefined) | HAbort => ([], Aborted) end) by (rewrite ED; reflexivity).
  rewrite FE. clear FE. rewrite handle_initial by auto. cbv zeta. unfold istream.
  set (w := a ++ d).
  assert (LW : zlen w = zlen a + zlen d) by apply zlen_app.
  assert (D1 : 1 <= zlen d) by (rewrite ED, zlen_cons; pose proof (zlen_nonneg d'); lia).
  assert (SK : forall m, zlen a <= m -> skipn (Z.to_nat m) w = skipn (Z.to_nat (m - zlen a)) d).
  { intros m Hm. unfold w. rewrite (skipn_app (Z.to_nat m) a d). rewrite (@skipn_all2 _ (Z.to_nat m) a) by (unfold zlen in *; lia).
    cbn [app]. f_equal. unfold zlen in *; lia. }
  destruct (Z.ltb_spec (zlen w) 8) as [L8|L8].
  { destruct (Z.ltb_spec (zlen d) 0); [lia|].
    rewrite (@skipn_all2 _ (Z.to_nat (zlen d)) d) by (unfold zlen; lia). destruct fuel; reflexivity. }
  destruct (is_magic w).
  { destruct (Z.ltb_spec (8 - zlen a) 0); [lia|]. fold (proto_frame w). fold (proto_base B w). f_equal.
    rewrite feed_closed.
    - cbn [app]. f_equal. rewrite <- SK by lia. reflexivity.
    - apply proto_small; [split; auto|auto].
    - left. change (zlen (@nil byte)) with 0. lia.
    - unfold zlen in *. rewrite skipn_length. lia.
    - rewrite skipn_length. unfold zlen in *. lia. }
  destruct (refused B w) eqn:RF; [reflexivity|].
  destruct (ae_nopool (E (b_nf B))) eqn:Np; [reflexivity|].
  destruct (ae_noblock (E (b_nf B))) eqn:Nb; [reflexivity|].
  destruct (size_garbled (E (b_nf B)) w L8) as (G1 & G2 & G3 & G4).
  set (g := garbled (E (b_nf B)) w) in *. set (B1 := init_base B w).
  assert (HS1 : small B1) by (apply init_small; [split; auto|auto]).
  rewrite step_wstep; [|auto|lia|lia|intros _; pose proof (size_of_range g); lia].
  unfold stream. cbn [parse]. destruct (wstep E B1 g) as [|st f s|f|] eqn:W.
  - destruct (Z.ltb_spec (zlen g - zlen a) 0); [lia|].
    rewrite (@skipn_all2 _ (Z.to_nat (zlen g - zlen a)) d) by (unfold zlen in *; lia). destruct fuel; reflexivity.
  - pose proof (wstep_err E B1 g st f s HS1 W). destruct (Z.ltb_spec st 0); [reflexivity|lia].
  - pose proof (wstep_frame _ _ _ _ W) as (W7 & W8 & W9 & W10). pose proof (size_of_range g) as SR.
    destruct (Z.ltb_spec (size_of g + 8 - zlen a) 0); [lia|]. f_equal.
    assert (HB' : small (next_base B1 g)) by (destruct HS1; split; [auto|apply next_base_ok; auto]).
    assert (SG : skipn (Z.to_nat (size_of g + 8)) g = skipn (Z.to_nat (size_of g + 8 - zlen a)) d).
    { rewrite <- SK by lia. unfold g, garbled. replace (Z.to_nat (size_of (firstn 7 w ++ [ae_junk (E (b_nf B)) 7] ++ skipn 8 w) + 8))
        with (Z.to_nat (size_of g) + 8)%nat by (unfold g, garbled in *; lia).
      clear -L8. destruct w as [|w0 [|w1 [|w2 [|w3 [|w4 [|w5 [|w6 [|w7 w]]]]]]]]; try (unfold zlen in L8; cbn [length] in L8; lia).
      rewrite (Nat.add_comm _ 8). reflexivity. }
    rewrite SG. rewrite feed_closed; [|auto|left; reflexivity| |].
    + cbn [app]. unfold stream. apply parse_fuel; rewrite ?skipn_length; unfold zlen in *; lia.
    + unfold zlen in *. rewrite skipn_length. lia.
    + rewrite skipn_length. unfold zlen in *. lia.
  - reflexivity.
Qed.

Lemma garbled_app e w d : 8 <= zlen w -> garbled e (w ++ d) = garbled e w ++ d.
Proof.
  intros H. destruct w as [|w0 [|w1 [|w2 [|w3 [|w4 [|w5 [|w6 [|w7 w]]]]]]]]; try (unfold zlen in H; cbn [length] in H; lia).
  reflexivity.
Qed.
Lemma firstn8_app (w d : bytes) : 8 <= zlen w -> firstn 8 (w ++ d) = firstn 8 w /\ skipn 8 (w ++ d) = skipn 8 w ++ d /\
  firstn 4 (w ++ d) = firstn 4 w /\ (forall i, (i < 8)%nat -> nth i (w ++ d) x00 = nth i w x00).
Proof.
  intros H. destruct w as [|w0 [|w1 [|w2 [|w3 [|w4 [|w5 [|w6 [|w7 w]]]]]]]]; try (unfold zlen in H; cbn [length] in H; lia).
  repeat split. intros i Hi. do 8 (destruct i as [|i]; [reflexivity|]). lia.
Qed.

Lemma istream_app B a d : small B -> 8 <= zlen a ->
  match istream B a with
  | (fs, NeedMore s) => exists B' a', s = st_of E B' a' /\ small B' /\ incomplete E B' a' /\
      istream B (a ++ d) = (fs ++ fst (stream E B' (a' ++ d)), snd (stream E B' (a' ++ d)))
  | (fs, o) => istream B (a ++ d) = (fs, o)
  end.
Proof.
  intros HB HA. pose proof (zlen_nonneg d) as HD.
  destruct (firstn8_app a d HA) as (F8 & S8 & F4 & FN).
  assert (MG : is_magic (a ++ d) = is_magic a) by (unfold is_magic; rewrite F4; reflexivity).
  assert (RF : refused B (a ++ d) = refused B a) by (unfold refused; rewrite size_of_app by lia; reflexivity).
  assert (PF : proto_frame (a ++ d) = proto_frame a) by (unfold proto_frame; rewrite !FN by lia; reflexivity).
  assert (PB : proto_base B (a ++ d) = proto_base B a) by (unfold proto_base; rewrite F8; reflexivity).
  assert (IB : init_base B (a ++ d) = init_base B a) by (unfold init_base; rewrite F8; reflexivity).
  unfold istream. rewrite MG, RF, PF, PB, IB, F8, S8, garbled_app by auto.
  destruct (Z.ltb_spec (zlen a) 8); [lia|]. destruct (Z.ltb_spec (zlen (a ++ d)) 8); [rewrite zlen_app in *; lia|].
  destruct (is_magic a).
  - pose proof (stream_app E (length (skipn 8 a)) (proto_base B a) (skipn 8 a) d (le_n _) (proto_small B a HB HA)) as S.
    destruct (stream E (proto_base B a) (skipn 8 a)) as [fs o]. unfold emit. change (f_type (proto_frame a) =? 0) with false.
    cbn [fst snd]. destruct o as [s|st s| | |]; try (rewrite S; reflexivity).
    destruct S as (B' & a' & E1 & E2 & E3 & E4). exists B', a'. repeat (split; [auto|]). rewrite E4. reflexivity.
  - destruct (refused B a); [reflexivity|]. destruct (ae_nopool (E (b_nf B))); [reflexivity|].
    destruct (ae_noblock (E (b_nf B))); [reflexivity|].
    apply (stream_app E _ (init_base B a) (garbled (E (b_nf B)) a) d (le_n _) (init_small B a HB HA)).
Qed.

Lemma ifeed_all_closed : forall pieces B a, small B -> zlen a < 8 ->
  Forall (fun d => zlen d < M31) pieces ->
  feed_all E (init_of B a) pieces = istream B (a ++ concat pieces).
Proof.
  induction pieces as [|d r IH]; intros B a HB HA HF.
  - cbn [feed_all concat]. rewrite app_nil_r. unfold istream. destruct (Z.ltb_spec (zlen a) 8); [|lia]. reflexivity.
  - inversion HF as [|? ? H1 H2]; subst. cbn [feed_all concat]. rewrite ifeed_closed by auto. rewrite app_assoc.
    destruct (Z.ltb_spec (zlen (a ++ d)) 8) as [L|L].
    + unfold istream at 1. destruct (Z.ltb_spec (zlen (a ++ d)) 8); [|lia]. cbn [app fst snd]. rewrite (IH B (a ++ d)) by auto.
      destruct (istream B ((a ++ d) ++ concat r)); reflexivity.
    + pose proof (istream_app B (a ++ d) (concat r) HB L) as S.
      destruct (istream B (a ++ d)) as [fs o]. destruct o as [s|st s| | |]; try (rewrite S; reflexivity).
      destruct S as (B' & a' & -> & E2 & E3 & E4). rewrite E4. rewrite feed_all_closed by auto. reflexivity.
Qed.
End New.
