(** C10-C14: the framing layer. *)
From Coq Require Import String ZArith List Bool Lia.
From Verif Require Import Base BaseFacts Codec CodecProofs TableModel TableSpec TableEnc TableDec TableRT
  FramingStmt FramingGen FramingModel MethodSpec FramingEnc FramingDec FramingProps Prop_Method
  Frame FrameSpec FrameProofs FrameStream FrameFacts FrameInit FrameNew.
Import ListNotations.
Local Open Scope string_scope.
Local Open Scope list_scope.
Local Open Scope Z_scope.

Lemma feed_all_idle E s pieces : idle s -> 0 <= i_frame_max s < M30 -> Forall (fun d => zlen d < M31) pieces ->
  feed_all E s pieces = stream E (idle_base s) (concat pieces).
Proof.
  intros Hi Hf Hp. destruct (idle_st E s Hi) as [Es HB].
  transitivity (feed_all E (st_of E (idle_base s) []) pieces); [rewrite <- Es; reflexivity|].
  rewrite feed_all_closed; auto using idle_small. left; reflexivity.
Qed.
Lemma untouched_init s : untouched s -> s = init_of (idle_base s) [].
Proof.
  intros (H1 & H2 & H3 & H4 & H5). destruct s as [a b c d e f g h]. cbn in *. subst. reflexivity.
Qed.
Lemma feed_all_untouched E s pieces : untouched s -> 0 <= i_frame_max s < M30 -> Forall (fun d => zlen d < M31) pieces ->
  feed_all E s pieces = istream E (idle_base s) (concat pieces).
Proof.
  intros Hu Hf Hp. transitivity (feed_all E (init_of (idle_base s) []) pieces); [rewrite <- untouched_init; auto|].
  rewrite ifeed_all_closed; auto; [split; [exact Hf|apply Hu]|reflexivity].
Qed.

(** ** C10 *)

(** Sending: the bytes are type, channel, payload length, payload, 0xCE at the
    start of the buffer, or an error is reported - exactly when a short string or
    key is too long for the protocol or the frame does not fit the buffer.  (For
    body frames the C code does not check that the fragment fits: see C41.) *)
Theorem C10_frame_bytes :
  forall (chan : Z) (a : aframe) (buf : bytes),
    aframe_ok a -> 20 <= zlen buf < M31 -> (forall b, a = ABody b -> zlen b + 8 <= zlen buf) ->
    exists st buf' enc, amqp_frame_to_bytes (c_frame chan a) buf = FRet st buf' enc /\ zlen buf' = zlen buf /\
      ((st = AMQP_STATUS_OK /\ enc = ser_frame chan a /\ aframe_representable a = true /\ zlen (ser_frame chan a) <= zlen buf /\
        exists post : bytes, buf' = (ser_frame chan a ++ post)%list) \/
       (st < 0 /\ (aframe_representable a = false \/ zlen (ser_frame chan a) > zlen buf))).
Proof. exact frame_to_bytes_ok. Qed.

(** Receiving: on an idle connection, any sequence of frames, in any pieces, is
    delivered as these frames, each with its type, channel and payload, and the
    connection is idle again. *)
Theorem C10_frames_received :
  forall (E : nat -> aenv) (s : inst) (l : list (Z * aframe)) (pieces : list bytes),
    idle s -> 0 <= i_frame_max s < M30 -> never_fails E ->
    Forall (fun ca => 0 <= fst ca < 65536 /\ aframe_ok (snd ca) /\ aframe_representable (snd ca) = true /\
                      aframe_tables_ok (snd ca) /\ zlen (ser_frame (fst ca) (snd ca)) <= i_frame_max s) l ->
    concat pieces = concat (map (fun ca => ser_frame (fst ca) (snd ca)) l) ->
    Forall (fun d => zlen d < M31) pieces ->
    exists s', feed_all E s pieces =
                 (map (fun ca => received_frame (i_gens s (fst ca)) (fst ca) (snd ca)) l, NeedMore s') /\
      idle s' /\ i_frame_max s' = i_frame_max s.
Proof.
  intros E s l pieces Hi Hf HE Hl Hc Hp. destruct (idle_st E s Hi) as [Es HB].
  rewrite feed_all_idle by auto. rewrite Hc.
  destruct (stream_frames E l (idle_base s) [] (idle_small s Hi Hf) HE Hl) as (B' & K1 & K2 & K3 & K4 & K5).
  rewrite app_nil_r in K5. rewrite K5. unfold stream. cbn [parse length].
  rewrite wstep_incomplete by (left; reflexivity). cbn [fst snd]. rewrite app_nil_r.
  exists (st_of E B' []). split; [reflexivity|]. split; [|exact K2]. repeat split. apply K1.
Qed.

(** End to end: what one side encodes is what the other side is given. *)
Theorem C10_frame_roundtrip :
  forall (E : nat -> aenv) (s : inst) (chan : Z) (a : aframe) (buf buf' enc : bytes),
    idle s -> 0 <= i_frame_max s < M30 -> never_fails E -> 0 <= chan < 65536 ->
    aframe_ok a -> aframe_tables_ok a -> 20 <= zlen buf < M31 -> (forall b, a = ABody b -> zlen b + 8 <= zlen buf) ->
    amqp_frame_to_bytes (c_frame chan a) buf = FRet AMQP_STATUS_OK buf' enc -> zlen enc <= i_frame_max s ->
    exists s', amqp_handle_input E s enc = HRet (zlen enc) (received_frame (i_gens s chan) chan a) s' /\ idle s'.
Proof.
  intros E s chan a buf buf' enc Hi Hf HE Hc Ha Ht Hb Hbody Henc Hfm.
  destruct (C10_frame_bytes chan a buf Ha Hb Hbody) as (st & b2 & e2 & E1 & _ & [(-> & -> & Hr & _)|(Neg & _)]);
    rewrite Henc in E1; injection E1; intros; subst; [|discriminate Neg].
  destruct (idle_st E s Hi) as [Es HB].
  pose proof (stream_frames E [(chan, a)] (idle_base s) [] (idle_small s Hi Hf) HE) as S.
  unfold ser_frame in *. rewrite zlen_wire in Hfm.
  set (p := ser_payload a) in *. set (w := wire (type_of a) chan p) in *.
  assert (Hw : w = be 1 (type_of a) ++ be 2 chan ++ be 4 (zlen p) ++ p ++ [xce] ++ []) by (rewrite app_nil_r; reflexivity).
  destruct (HE (i_nf s)) as (Np & Nb & No).
  destruct (wstep_wire E (idle_base s) (type_of a) chan p xce [] w (type_of_range a) Hc) as (S1 & S2 & S3); auto;
    try (cbn [idle_base b_fm]; rewrite ?u64_small by auto; lia).
  cbn [idle_base b_nf b_gens] in S3. unfold p in S3. rewrite body_res_received in S3 by (auto; fold p; lia). fold p in S3.
  assert (LW : zlen w = zlen p + 8) by apply zlen_wire. pose proof (zlen_nonneg p).
  assert (HI : amqp_handle_input E s w = amqp_handle_input E (st_of E (idle_base s) []) w) by (rewrite <- Es; reflexivity).
  rewrite HI. rewrite handle_input_closed with (a := []); [|apply HB|left; reflexivity| |lia].
  2:{ intros ->. change (zlen (@nil byte)) with 0 in LW. lia. }
  cbn [app]. rewrite step_wstep; [|apply idle_small; auto|reflexivity|change (zlen (@nil byte)) with 0; lia|].
  2:{ intros. change (zlen (@nil byte)) with 0. lia. }
  rewrite S3. change (zlen (@nil byte)) with 0. rewrite S1. eexists. split; [f_equal; lia|].
  repeat split. cbn [st_of]. apply next_base_ok; auto; try (rewrite LW; lia).
Qed.

(** ** C11 *)
(** Two ways of cutting the same stream into pieces give the same frames and the
    same end: the same state, the same error. *)
Theorem C11_segmentation_independent :
  forall (E : nat -> aenv) (s : inst) (pieces1 pieces2 : list bytes),
    idle s \/ untouched s -> 0 <= i_frame_max s < M30 ->
    concat pieces1 = concat pieces2 ->
    Forall (fun d => zlen d < M31) pieces1 -> Forall (fun d => zlen d < M31) pieces2 ->
    feed_all E s pieces1 = feed_all E s pieces2.
Proof.
  intros E s p1 p2 [Hi|(H1 & H2 & H3 & H4 & H5)] Hf Hc F1 F2.
  - rewrite !feed_all_idle, Hc by auto. reflexivity.
  - rewrite !feed_all_untouched, Hc by (auto; repeat split; auto). reflexivity.
Qed.

(** The same from any state in the middle of a frame: whatever the connection
    received before, the rest of the stream can be cut anywhere. *)
Theorem C11_segmentation_independent_midway :
  forall (E : nat -> aenv) (s s' : inst) (before : list bytes) (fs : list frame) (pieces1 pieces2 : list bytes),
    idle s \/ untouched s -> 0 <= i_frame_max s < M30 ->
    Forall (fun d => zlen d < M31) before -> feed_all E s before = (fs, NeedMore s') ->
    concat pieces1 = concat pieces2 ->
    Forall (fun d => zlen d < M31) pieces1 -> Forall (fun d => zlen d < M31) pieces2 ->
    feed_all E s' pieces1 = feed_all E s' pieces2.
Proof.
  intros E s s' before fs p1 p2 Hs Hf FB HF Hc F1 F2.
  assert (A : forall l s0 gs s1 q, feed_all E s0 l = (gs, NeedMore s1) ->
            feed_all E s0 (l ++ q) = (gs ++ fst (feed_all E s1 q), snd (feed_all E s1 q))).
  { clear. induction l as [|d l IH]; intros s0 gs s1 q H.
    - cbn [feed_all] in H. injection H as <- <-. cbn [app]. destruct (feed_all E s0 q); reflexivity.
    - cbn [feed_all app] in *. destruct (feed (length d) E s0 d) as [g o]. destruct o as [t|st t| | |]; try discriminate H.
      destruct (feed_all E t l) as [g2 o2] eqn:R. cbn [fst snd] in H. injection H as <- ->.
      rewrite (IH t g2 s1 q R). cbn [fst snd]. rewrite app_assoc. reflexivity. }
  pose proof (C11_segmentation_independent E s (before ++ p1) (before ++ p2) Hs Hf) as S.
  rewrite !concat_app, Hc in S. specialize (S eq_refl).
  rewrite (A _ _ _ _ p1 HF), (A _ _ _ _ p2 HF) in S.
  assert (S' := S ltac:(apply Forall_app; auto) ltac:(apply Forall_app; auto)).
  injection S' as S1 S2. apply app_inv_head in S1. destruct (feed_all E s' p1), (feed_all E s' p2). cbn in *. congruence.
Qed.

(** ** C12 and C13 *)
(** Every frame the application is given is one complete good frame of the
    stream (right end marker, at most frame_max bytes, decodable), in order and
    without gaps; and where the library stops, it is for the stated reason.  In
    particular it never reads outside a frame unless that frame is malformed in
    the sense of FrameSpec.v. *)
Theorem C12_delivery_sound :
  forall (E : nat -> aenv) (s : inst) (pieces : list bytes),
    idle s -> 0 <= i_frame_max s < M30 -> Forall (fun d => zlen d < M31) pieces ->
    exists fs o n' rest, feed_all E s pieces = (fs, o) /\
      delivered E (i_frame_max s) (i_gens s) (i_nf s) (concat pieces) fs n' rest /\
      stopped_at (i_frame_max s) (E n') rest o.
Proof.
  intros E s pieces Hi Hf Hp. destruct (idle_st E s Hi) as [Es HB].
  destruct (stream_sound E (length (concat pieces)) (idle_base s) (concat pieces) (le_n _) (idle_small s Hi Hf))
    as (fs & o & n' & rest & S1 & S2 & S3).
  exists fs, o, n', rest. split; [|split; [exact S2|exact S3]].
  rewrite feed_all_idle by auto. exact S1.
Qed.

(** Oversized frames: as soon as the header announces it, whatever follows and
    however it is cut. *)
Theorem C12_oversized_refused :
  forall (E : nat -> aenv) (s : inst) (ty chan size : Z) (after : bytes) (pieces : list bytes),
    idle s -> 0 <= i_frame_max s < M30 -> 0 <= size < M32 ->
    (size >= INT_MAX \/ size + 8 > i_frame_max s) ->
    concat pieces = be 1 ty ++ be 2 chan ++ be 4 size ++ after -> Forall (fun d => zlen d < M31) pieces ->
    exists s', feed_all E s pieces = ([], Failed AMQP_STATUS_BAD_AMQP_DATA s').
Proof.
  intros E s ty chan size after pieces Hi Hf Hs Hbig Hc Hp. destruct (idle_st E s Hi) as [Es HB].
  rewrite feed_all_idle by auto. rewrite Hc.
  set (w := be 1 ty ++ be 2 chan ++ be 4 size ++ after).
  assert (SZ : size_of w = size). { unfold size_of, w. change (firstn 4 (skipn 3 _)) with (be 4 size). rewrite be_val_be. apply Z.mod_small. cbn; lia. }
  assert (L7 : 7 <= zlen w) by (unfold w; rewrite !zlen_app, !zlen_be; pose proof (zlen_nonneg after); lia).
  unfold stream. cbn [parse]. unfold wstep. cbn [idle_base b_fm b_nf]. rewrite u64_small by auto. rewrite SZ.
  destruct (Z.ltb_spec (zlen w) 7); [lia|]. destruct (Z.leb_spec INT_MAX size); [eauto|].
  destruct (Z.ltb_spec (i_frame_max s) (size + 8)); [eauto|lia].
Qed.

(** A wrong end marker: once the frame is complete, no frame and an error
    (AMQP_STATUS_BAD_AMQP_DATA, unless memory ran out before). *)
Theorem C12_bad_end_marker_refused :
  forall (E : nat -> aenv) (s : inst) (ty chan : Z) (payload : bytes) (z : byte) (after : bytes) (pieces : list bytes),
    idle s -> 0 <= i_frame_max s < M30 -> 0 <= ty < 256 -> 0 <= chan < 65536 -> z <> xce -> zlen payload < M32 ->
    concat pieces = be 1 ty ++ be 2 chan ++ be 4 (zlen payload) ++ payload ++ [z] ++ after -> Forall (fun d => zlen d < M31) pieces ->
    exists st s', feed_all E s pieces = ([], Failed st s') /\
      (st = AMQP_STATUS_BAD_AMQP_DATA \/
       st = AMQP_STATUS_NO_MEMORY /\ (ae_nopool (E (i_nf s)) = true \/ ae_noblock (E (i_nf s)) = true)).
Proof.
  intros E s ty chan p z after pieces Hi Hf Ht Hch Hz Hl Hc Hp. destruct (idle_st E s Hi) as [Es HB].
  destruct (Z.leb_spec (zlen p + 8) (i_frame_max s)) as [Hfit|Hbig].
  2:{ pose proof (zlen_nonneg p).
      destruct (C12_oversized_refused E s ty chan (zlen p) (p ++ [z] ++ after) pieces) as (s' & S); auto; try lia. eauto 6. }
  rewrite feed_all_idle by auto. rewrite Hc.
  set (w := be 1 ty ++ be 2 chan ++ be 4 (zlen p) ++ p ++ [z] ++ after).
  change (be 1 ty ++ be 2 chan ++ be 4 (zlen p) ++ p ++ z :: after) with w.
  unfold stream. cbn [parse]. pose proof (zlen_nonneg p). pose proof (zlen_nonneg after).
  assert (L7 : 7 <= zlen w) by (unfold w; rewrite !zlen_app, !zlen_be; change (zlen [z]) with 1; lia).
  destruct (wire_fields ty chan (zlen p) p z after w Ht Hch ltac:(lia) eq_refl) as (F1 & F2 & F3 & F4 & F5).
  destruct (ae_nopool (E (i_nf s))) eqn:Np; [|destruct (ae_noblock (E (i_nf s))) eqn:Nb].
  - unfold wstep. cbn [idle_base b_fm b_nf]. rewrite u64_small, F3, Np by auto.
    destruct (Z.ltb_spec (zlen w) 7); [lia|]. destruct (Z.leb_spec INT_MAX (zlen p)); [lia|].
    destruct (Z.ltb_spec (i_frame_max s) (zlen p + 8)); [lia|]. eauto 8.
  - unfold wstep. cbn [idle_base b_fm b_nf]. rewrite u64_small, F3, Np, Nb by auto.
    destruct (Z.ltb_spec (zlen w) 7); [lia|]. destruct (Z.leb_spec INT_MAX (zlen p)); [lia|].
    destruct (Z.ltb_spec (i_frame_max s) (zlen p + 8)); [lia|]. eauto 8.
  - destruct (wstep_wire E (idle_base s) ty chan p z after w Ht Hch) as (_ & _ & S3); auto;
      try (cbn [idle_base b_fm]; rewrite ?u64_small by auto; lia).
    rewrite S3. unfold body_res at 1.
    destruct (Z.eqb_spec (Z_of_byte z) 206) as [K|K]; [apply ce_byte in K; congruence|]. cbn [negb].
    do 2 eexists. split; [reflexivity|]. auto.
Qed.

(** After AMQP_STATUS_BAD_AMQP_DATA the connection stays in error: every later
    call with data fails in the same way and yields no frame. *)
Theorem C12_errors_stay :
  forall (E : nat -> aenv) (s s' : inst) (pieces : list bytes) (fs : list frame),
    idle s -> 0 <= i_frame_max s < M30 -> Forall (fun d => zlen d < M31) pieces ->
    feed_all E s pieces = (fs, Failed AMQP_STATUS_BAD_AMQP_DATA s') ->
    forall d, d <> [] -> zlen d < M31 ->
      (exists f, amqp_handle_input E s' d = HRet AMQP_STATUS_BAD_AMQP_DATA f s') /\
      (forall later, feed_all E s' (d :: later) = ([], Failed AMQP_STATUS_BAD_AMQP_DATA s')).
Proof.
  intros E s s' pieces fs Hi Hf Hp HF d Hd HL. destruct (idle_st E s Hi) as [Es HB].
  rewrite feed_all_idle in HF by auto.
  destruct (stream_failed E _ _ _ _ _ _ (le_n _) (idle_small s Hi Hf) HF) as (B' & w' & f & HB' & W).
  destruct (bad_stays E B' w' f s' d HB' W Hd HL) as (f' & H). split; [eauto|]. intros later.
  cbn [feed_all]. destruct d as [|d0 d']; [congruence|]. cbn [length feed]. rewrite H. reflexivity.
Qed.

(** C13, the part that holds: the library leaves a frame only if the stream, after
    the good frames it delivered, continues with a malformed frame (a method frame
    of less than three bytes, a content header of less than twelve or with a third
    flag word). *)
Theorem C13_only_malformed_frames_partial :
  forall (E : nat -> aenv) (s : inst) (pieces : list bytes) (fs : list frame),
    idle s -> 0 <= i_frame_max s < M30 -> Forall (fun d => zlen d < M31) pieces ->
    feed_all E s pieces = (fs, Undefined) ->
    exists n' x after, malformed x /\ delivered E (i_frame_max s) (i_gens s) (i_nf s) (concat pieces) fs n' (x ++ after).
Proof.
  intros E s pieces fs Hi Hf Hp H. destruct (C12_delivery_sound E s pieces Hi Hf Hp) as (fs' & o & n' & rest & S1 & S2 & S3).
  rewrite H in S1. injection S1 as <- <-. destruct S3 as (x & y & -> & M). eauto.
Qed.

(** C13 is false: every malformed frame that fits makes the library read outside
    the frame. *)
Theorem C13_malformed_frame_refuted :
  forall (E : nat -> aenv) (s : inst) (ty chan : Z) (payload after : bytes),
    idle s -> 0 <= i_frame_max s < M30 -> never_fails E -> 0 <= ty < 256 -> 0 <= chan < 65536 ->
    zlen payload + 8 <= i_frame_max s -> zlen after < M30 ->
    ((ty = 1 /\ zlen payload < 3) \/ (ty = 2 /\ (zlen payload < 12 \/ third_flag_word (skipn 12 payload)))) ->
    feed_all E s [wire ty chan payload ++ after] = ([], Undefined).
Proof.
  intros E s ty chan p after Hi Hf HE Ht Hch Hfit HA Hbad. destruct (idle_st E s Hi) as [Es HB].
  assert (LW := zlen_wire ty chan p). pose proof (zlen_nonneg p).
  rewrite feed_all_idle; [|auto|auto|constructor; [rewrite zlen_app; lia|constructor]].
  cbn [app concat]. rewrite app_nil_r. unfold wire. rewrite <- !app_assoc. unfold stream. cbn [parse].
  destruct (HE (i_nf s)) as (Np & Nb & No).
  destruct (wstep_wire E (idle_base s) ty chan p xce after (be 1 ty ++ be 2 chan ++ be 4 (zlen p) ++ p ++ [xce] ++ after) Ht Hch) as (_ & _ & S3);
    auto; try (cbn [idle_base b_fm]; rewrite ?u64_small by auto; lia).
  rewrite S3. assert (BU : body_res (E (i_nf s)) (i_gens s chan) ty chan p xce = BUB) by (apply body_ub; [lia|auto]).
  cbn [idle_base b_nf b_gens]. rewrite BU. reflexivity.
Qed.

(** ** C14 *)
(** A protocol header as the first thing received is delivered as such and the
    rest of the stream is treated as on an idle connection. *)
Theorem C14_protocol_header :
  forall (E : nat -> aenv) (s : inst) (th tl major minor : byte) (after : bytes) (pieces : list bytes),
    untouched s -> 0 <= i_frame_max s < M30 -> Forall (fun d => zlen d < M31) pieces -> zlen after < M31 ->
    concat pieces = [x41; x4d; x51; x50; th; tl; major; minor] ++ after ->
    exists s', idle s' /\ i_frame_max s' = i_frame_max s /\
      feed_all E s pieces =
        (mkFrame AMQP_PSEUDOFRAME_PROTOCOL_HEADER 0 (PProto (Z_of_byte th) (Z_of_byte tl) (Z_of_byte major) (Z_of_byte minor)) 0
           :: fst (feed_all E s' [after]), snd (feed_all E s' [after])).
Proof.
  intros E s th tl mj mn after pieces Hu Hf Hp HA Hc.
  assert (HB : small (idle_base s)) by (split; [exact Hf|apply Hu]).
  rewrite feed_all_untouched by auto. rewrite Hc.
  set (w := [x41; x4d; x51; x50; th; tl; mj; mn] ++ after).
  assert (L8 : 8 <= zlen w) by (unfold w; rewrite zlen_app; pose proof (zlen_nonneg after); change (zlen [x41; x4d; x51; x50; th; tl; mj; mn]) with 8; lia).
  exists (st_of E (proto_base (idle_base s) w) []). split; [repeat split|]. split; [reflexivity|].
  unfold istream. destruct (Z.ltb_spec (zlen w) 8); [lia|].
  assert (MG : is_magic w = true) by reflexivity. rewrite MG.
  rewrite feed_all_closed; [|apply proto_small; auto|left; reflexivity|auto]. cbn [app concat]. rewrite app_nil_r.
  change (skipn 8 w) with after. reflexivity.
Qed.

(** Any other first frame: the eighth byte of the stream is lost.  The connection
    behaves exactly as an idle one that received the stream with this byte
    replaced by whatever was in the freshly allocated memory. *)
Theorem C14_first_frame_loses_a_byte_partial :
  forall (E : nat -> aenv) (s : inst) (w : bytes) (pieces : list bytes),
    untouched s -> 0 <= i_frame_max s < M30 -> Forall (fun d => zlen d < M31) pieces -> concat pieces = w ->
    8 <= zlen w < M31 -> firstn 4 w <> [x41; x4d; x51; x50] -> never_fails E ->
    let w' := firstn 7 w ++ [ae_junk (E (i_nf s)) 7] ++ skipn 8 w in
    let s' := mkIn IDLE (i_frame_max s) (firstn 8 w) IHdr 0 7 (i_gens s) (i_nf s) in
    idle s' /\
    (feed_all E s pieces = feed_all E s' [w'] \/
     (exists s1 s2, feed_all E s pieces = ([], Failed AMQP_STATUS_BAD_AMQP_DATA s1) /\
                    feed_all E s' [w'] = ([], Failed AMQP_STATUS_BAD_AMQP_DATA s2))).
Proof.
  intros E s w pieces Hu Hf Hp Hc HW HM HE w' s'.
  assert (HB : small (idle_base s)) by (split; [exact Hf|apply Hu]).
  assert (L8 : zlen (firstn 8 w) = 8) by (apply (zlen_firstn 8); lia).
  assert (Hi : idle s') by (repeat split; exact L8). split; [exact Hi|].
  rewrite feed_all_untouched by auto. rewrite Hc.
  destruct (HE (i_nf s)) as (Np & Nb & No).
  destruct (size_garbled (E (i_nf s)) w ltac:(lia)) as (G1 & G2 & G3 & G4).
  change (garbled (E (i_nf s)) w) with w' in *.
  assert (F2 : feed_all E s' [w'] = stream E (init_base (idle_base s) w) w').
  { rewrite feed_all_idle; [|auto|exact Hf|constructor; [lia|constructor]]. cbn [concat]. rewrite app_nil_r. reflexivity. }
  rewrite F2. unfold istream. destruct (Z.ltb_spec (zlen w) 8); [lia|].
  unfold is_magic. destruct (list_eq_dec _ _ _) as [K|_]; [congruence|]. cbn [idle_base b_nf]. rewrite Np, Nb.
  destruct (refused (idle_base s) w) eqn:R; [|left; reflexivity].
  right. do 2 eexists. split; [reflexivity|]. unfold stream. cbn [parse]. unfold wstep. rewrite G1, G3.
  destruct (Z.ltb_spec (zlen w) 7); [lia|]. unfold refused in R. apply orb_prop in R.
  destruct R as [R|R].
  - rewrite R. reflexivity.
  - destruct (INT_MAX <=? size_of w); [reflexivity|]. cbn [init_base b_fm idle_base] in *. rewrite R. reflexivity.
Qed.

(** So C14 is false: a heartbeat as first frame is refused (the idle connection
    accepts it, C10). *)
Theorem C14_first_heartbeat_refuted :
  forall (E : nat -> aenv), never_fails E -> ae_junk (E 0%nat) 7 <> xce ->
    (exists s', feed_all E new_inst [wire 8 0 []] = ([], Failed AMQP_STATUS_BAD_AMQP_DATA s')) /\
    (exists s', feed_all E (mkIn IDLE 65536 (repeat x00 8) IHdr 0 7 (fun _ => 0%nat) 0) [wire 8 0 []] =
                ([mkFrame 8 0 PNone 0], NeedMore s')).
Proof.
  intros E HE HJ. split.
  - assert (Hu : untouched new_inst) by (repeat split).
    assert (LW : zlen (wire 8 0 []) = 8) by reflexivity.
    assert (HF : 0 <= i_frame_max new_inst < M30) by (cbn [new_inst i_frame_max]; lia).
    assert (HP : Forall (fun d => zlen d < M31) [wire 8 0 []]) by (constructor; [rewrite LW; lia|constructor]).
    assert (HM : firstn 4 (wire 8 0 []) <> [x41; x4d; x51; x50]) by discriminate.
    destruct (C14_first_frame_loses_a_byte_partial E new_inst (wire 8 0 []) [wire 8 0 []] Hu HF HP eq_refl ltac:(rewrite LW; lia) HM HE)
      as (Hi & [H|(s1 & s2 & H & _)]); [|eauto].
    rewrite H. clear H. set (j := ae_junk (E (i_nf new_inst)) 7) in *.
    destruct (C12_bad_end_marker_refused E _ 8 0 [] j [] [firstn 7 (wire 8 0 []) ++ [j] ++ skipn 8 (wire 8 0 [])] Hi HF)
      as (st & s' & F & [->|(_ & G)]); [lia|lia|exact HJ|change (zlen (@nil byte)) with 0; lia|reflexivity| |eauto|].
    + constructor; [|constructor]. change (zlen _) with 8. lia.
    + exfalso. destruct (HE 0%nat) as (A & B & _). cbn [i_nf new_inst] in G. destruct G; congruence.
  - destruct (C10_frames_received E (mkIn IDLE 65536 (repeat x00 8) IHdr 0 7 (fun _ => 0%nat) 0) [(0, AHeartbeat)] [wire 8 0 []]) as (s' & H & _).
    + repeat split.
    + cbn [i_frame_max]. lia.
    + exact HE.
    + constructor; [|constructor]. cbn [fst snd aframe_ok aframe_tables_ok]. change (zlen (ser_frame 0 AHeartbeat)) with 8.
      cbn [i_frame_max]. split; [lia|]. repeat (split; [auto|]). lia.
    + reflexivity.
    + constructor; [|constructor]. change (zlen _) with 8. lia.
    + exists s'. exact H.
Qed.

(** ** Concrete cases *)
Definition plain_env : nat -> aenv := fun _ => mkA false false (fun _ => x5a) no_oom.
Definition idle0 : inst := mkIn IDLE 4096 (repeat x00 8) IHdr 0 7 (fun _ => 0%nat) 0.
Example plain_never_fails : never_fails plain_env.
Proof. intros n. repeat split. Qed.
Example idle0_idle : idle idle0 /\ untouched new_inst.
Proof. repeat split. Qed.

(** basic.ack(7, multiple), then a body frame in two pieces *)
Definition sample_ack : aframe :=
  AMethod 60 80 [("delivery_tag", Longlong); ("multiple", Bit)] [("delivery_tag", VInt 7); ("multiple", VBool 1)].
Example C10_case :
  aframe_ok sample_ack /\ aframe_representable sample_ack = true /\ aframe_tables_ok sample_ack /\
  ser_frame 3 sample_ack = [x01; x00; x03; x00; x00; x00; x0d; x00; x3c; x00; x50; x00; x00; x00; x00; x00; x00; x00; x07; x01; xce] /\
  exists s', feed_all plain_env idle0 [firstn 5 (ser_frame 3 sample_ack); skipn 5 (ser_frame 3 sample_ack) ++ firstn 9 (ser_frame 4 (ABody [x68; x69]));
      skipn 9 (ser_frame 4 (ABody [x68; x69]))] =
    ([mkFrame 1 3 (PMethod 0x003C0050 [("delivery_tag", VInt 7); ("multiple", VBool 1)]) 0; mkFrame 3 4 (PBody [x68; x69]) 0], NeedMore s').
Proof.
  split. { split; [vm_compute; tauto|]. unfold sample_ack, well_typed. repeat (constructor; [cbn; split; [reflexivity|lia]|]). constructor. }
  split; [reflexivity|]. split; [repeat constructor|]. split; [vm_compute; reflexivity|].
  eexists. vm_compute. reflexivity.
Qed.
Example C13_case :
  feed_all plain_env idle0 [wire 1 0 [x00]] = ([], Undefined) /\ feed_all plain_env idle0 [wire 2 0 [x00; x3c]] = ([], Undefined).
Proof. split; vm_compute; reflexivity. Qed.

Print Assumptions C10_frame_bytes.
Print Assumptions C10_frames_received.
Print Assumptions C10_frame_roundtrip.
Print Assumptions C11_segmentation_independent.
Print Assumptions C11_segmentation_independent_midway.
Print Assumptions C12_delivery_sound.
Print Assumptions C12_oversized_refused.
Print Assumptions C12_bad_end_marker_refused.
Print Assumptions C12_errors_stay.
Print Assumptions C13_only_malformed_frames_partial.
Print Assumptions C13_malformed_frame_refuted.
Print Assumptions C14_protocol_header.
Print Assumptions C14_first_frame_loses_a_byte_partial.
Print Assumptions C14_first_heartbeat_refuted.
