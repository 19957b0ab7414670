(** A server that sends well-formed frames: no schedule of reads makes the library
    refuse one, and the frames it decodes are the ones sent. *)
From Coq Require Import String ZArith List Bool Lia.
From Verif Require Import Base BaseFacts Codec CodecProofs TableModel TableSpec TableEnc TableDec TableRT TableOps FramingStmt FramingGen FramingModel MethodSpec FramingEnc FramingDec FramingProps
  Frame FrameSpec FrameProofs FrameStream FrameFacts FrameInit FrameNew Time Sasl Net NetApi NetSpec NetFacts NetSend NetRecv NetWalk NetRx.
Import ListNotations.
Local Open Scope Z_scope.

(** ** Specification *)
(** a frame a server may send: a channel and its contents, in at most [fm] bytes *)
Definition good_frame (fm : Z) (ca : Z * aframe) : Prop :=
  0 <= fst ca < 65536 /\ aframe_ok (snd ca) /\ aframe_representable (snd ca) = true /\
  aframe_tables_ok (snd ca) /\ zlen (ser_frame (fst ca) (snd ca)) <= fm.
(** the stream *)
Definition ser (fs : list (Z * aframe)) : bytes := concat (map (fun ca => ser_frame (fst ca) (snd ca)) fs).
(** [f] is what the application is given for the frame sent (all of its contents;
    f_gen is no part of the C structure) *)
Definition received (f : frame) (ca : Z * aframe) : Prop := exists gen, f = received_frame gen (fst ca) (snd ca).

Lemma ser_app a b : ser (a ++ b) = ser a ++ ser b.
Proof. unfold ser. rewrite map_app, concat_app. reflexivity. Qed.
Lemma ser_cons ca b : ser (ca :: b) = ser_frame (fst ca) (snd ca) ++ ser b.
Proof. reflexivity. Qed.
Lemma type_nonzero a : type_of a <> 0.
Proof. destruct a; cbn; lia. Qed.

Lemma prefix_split {A} (w x y : list A) : prefix w (x ++ y) ->
  (exists r, x = w ++ r /\ r <> []) \/ exists w', w = x ++ w' /\ prefix w' y.
Proof.
  intros [r H]. destruct (Nat.ltb_spec (length w) (length x)) as [L|L].
  - left. exists (skipn (length w) x). split.
    + rewrite <- (firstn_skipn (length w) x) at 1. f_equal.
      assert (firstn (length w) (x ++ y) = firstn (length w) (w ++ r)) as K by (rewrite H; reflexivity).
      rewrite !firstn_app in K. replace (length w - length x)%nat with 0%nat in K by lia. rewrite Nat.sub_diag, !app_nil_r in K.
      rewrite K. apply firstn_all.
    + intros K. apply (f_equal (@length A)) in K. rewrite skipn_length in K. cbn in K. lia.
  - right. exists (skipn (length x) w). split.
    + rewrite <- (firstn_skipn (length x) w) at 1. f_equal.
      assert (firstn (length x) (x ++ y) = firstn (length x) (w ++ r)) as K by (rewrite H; reflexivity).
      rewrite !firstn_app in K. replace (length x - length w)%nat with 0%nat in K by lia. rewrite Nat.sub_diag, !app_nil_r in K.
      rewrite <- K. apply firstn_all.
    + exists r. assert (skipn (length x) (x ++ y) = skipn (length x) (w ++ r)) as K by (rewrite H; reflexivity).
      rewrite !skipn_app in K. replace (length x - length w)%nat with 0%nat in K by lia. rewrite Nat.sub_diag, !skipn_all in K. exact K.
Qed.
Lemma prefix_nil_inv {A} (w : list A) : prefix w [] -> w = [].
Proof. intros [r H]. destruct w; [reflexivity|discriminate]. Qed.
Lemma prefix_cut {A} (a b w : list A) : prefix (a ++ b) (a ++ w) -> prefix b w.
Proof. intros [r H]. rewrite <- app_assoc in H. apply app_inv_head in H. exists r. exact H. Qed.

Section Well.
Context (N : nat) (E : nat -> aenv).

(** the bytes [w] received since the last frame, when they are the beginning of [fs] *)
Lemma wstep_well B fs w : small B -> never_fails E -> Forall (good_frame (b_fm B)) fs -> prefix w (ser fs) ->
  (wstep E B w = WMore /\
     match fs with [] => w = [] | ca :: _ => exists r, ser_frame (fst ca) (snd ca) = w ++ r /\ r <> [] end) \/
  (exists ca fs' w' f, fs = ca :: fs' /\ w = ser_frame (fst ca) (snd ca) ++ w' /\ prefix w' (ser fs') /\
     wstep E B w = WFrame f /\ received f ca /\ size_of w + 8 = zlen (ser_frame (fst ca) (snd ca))).
Proof.
  intros HB HE HG HP. pose proof HB as [HB1 HB2]. destruct (HE (b_nf B)) as (Np & Nb & No).
  destruct fs as [|[chan a] fs'].
  { apply prefix_nil_inv in HP. subst w. left. split; [apply wstep_incomplete; left; reflexivity|reflexivity]. }
  inversion HG as [|? ? (G1 & G2 & G3 & G4 & G5) HG']; subst. cbn [fst snd] in *. rewrite ser_cons in HP. cbn [fst snd] in HP.
  pose proof (type_of_range a) as TR. unfold ser_frame in G5. rewrite zlen_wire in G5.
  apply prefix_split in HP. destruct HP as [(r & Hw & Hr)|(w' & -> & Hw')].
  - left. split; [|exists r; split; assumption].
    assert (zlen w < zlen (ser_payload a) + 8) as LW.
    { pose proof (zlen_wire (type_of a) chan (ser_payload a)) as K. unfold ser_frame in Hw. rewrite Hw, zlen_app in K.
      destruct r; [congruence|]. rewrite zlen_cons in K. pose proof (zlen_nonneg r). lia. }
    unfold wstep. destruct (Z.ltb_spec (zlen w) 7); [reflexivity|].
    assert (size_of w = zlen (ser_payload a)) as SZ.
    { rewrite <- (size_of_app w r) by lia. rewrite <- Hw.
      destruct (wire_fields (type_of a) chan (zlen (ser_payload a)) (ser_payload a) xce [] (ser_frame chan a)) as (_ & _ & K & _); auto; try lia. }
    rewrite SZ, Np, Nb, u64_small by assumption.
    destruct (Z.leb_spec INT_MAX (zlen (ser_payload a))); [lia|].
    destruct (Z.ltb_spec (b_fm B) (zlen (ser_payload a) + 8)); [lia|].
    destruct (Z.ltb_spec (zlen w) (zlen (ser_payload a) + 8)); [reflexivity|lia].
  - right.
    destruct (wstep_wire E B (type_of a) chan (ser_payload a) xce w' (ser_frame chan a ++ w')) as (S1 & S2 & S3); auto; try lia.
    { rewrite u64_small by assumption. lia. }
    { unfold ser_frame, wire. rewrite <- !app_assoc. reflexivity. }
    rewrite body_res_received in S3 by (auto; lia).
    exists (chan, a), fs', w', (received_frame (b_gens B chan) chan a). cbn [fst snd].
    split; [reflexivity|]. split; [reflexivity|]. split; [exact Hw'|]. split; [exact S3|]. split; [exists (b_gens B chan); reflexivity|].
    rewrite S1. unfold ser_frame. rewrite zlen_wire. reflexivity.
Qed.

(** [pos fm s a]: the part [a] of a frame has been read *)
Definition pos (fm : Z) (s : inst) (a : bytes) : Prop := exists B, s = st_of E B a /\ small B /\ incomplete E B a /\ b_fm B = fm.

Definition well (c c' : conn) (l : list obs) : Prop :=
  forall fm a fs, never_fails E -> pos fm (c_in c) a -> zlen (c_sbuf c) <= SOCK_BUFFER_SIZE -> no_lost l ->
  Forall (good_frame fm) fs -> prefix (a ++ c_sbuf c ++ in_bytes l) (ser fs) ->
  exists a' fs1 fs2, fs = fs1 ++ fs2 /\ pos fm (c_in c') a' /\ zlen (c_sbuf c') <= SOCK_BUFFER_SIZE /\
    no_bad l /\ Forall2 received (frames l) fs1 /\ a ++ c_sbuf c ++ in_bytes l = ser fs1 ++ a' ++ c_sbuf c'.

Lemma well_comp : comp well.
Proof.
  split.
  - intros c fm a fs HE HR HS _ HG HP. exists a, [], fs. change (in_bytes []) with (@nil byte). rewrite !app_nil_r. split; [reflexivity|]. split; [exact HR|]. split; [exact HS|].
    split; [constructor|]. split; [constructor|reflexivity].
  - intros c c1 c2 l1 l2 H1 H2 fm a fs HE HR HS HL HG HP. rewrite no_lost_app in HL. destruct HL as [L1 L2].
    rewrite in_bytes_app in *.
    assert (prefix (a ++ c_sbuf c ++ in_bytes l1) (ser fs)) as HP1.
    { destruct HP as [r HP]. exists (in_bytes l2 ++ r). rewrite HP, <- !app_assoc. reflexivity. }
    destruct (H1 fm a fs HE HR HS L1 HG HP1) as (a1 & f1 & f2 & -> & R1 & S1 & B1 & F1 & E1).
    apply Forall_app in HG. destruct HG as [HG1 HG2].
    assert (a ++ c_sbuf c ++ in_bytes l1 ++ in_bytes l2 = ser f1 ++ a1 ++ c_sbuf c1 ++ in_bytes l2) as EQ.
    { rewrite 2app_assoc, <- (app_assoc a), E1, <- !app_assoc. reflexivity. }
    rewrite EQ, ser_app in HP. apply prefix_cut in HP.
    destruct (H2 fm a1 f2 HE R1 S1 L2 HG2 HP) as (a2 & f3 & f4 & -> & R2 & S2 & B2 & F2 & E2).
    exists a2, (f1 ++ f3), f4. rewrite <- app_assoc. split; [reflexivity|]. split; [exact R2|]. split; [exact S2|]. split; [apply no_bad_app; auto|].
    split; [rewrite frames_app; apply Forall2_app; assumption|]. rewrite EQ, E2, ser_app, <- !app_assoc. reflexivity.
Qed.
Lemma well_neutral c c' l : same c c' -> idle_log l -> well c c' l.
Proof.
  intros (S1 & S2 & _) (I1 & I2 & I3 & I4) fm a fs HE HR HS _ HG HP. rewrite I1, I2, S1, S2 in *. exists a, [], fs. rewrite !app_nil_r in *.
  split; [reflexivity|]. split; [exact HR|]. split; [exact HS|]. split; [assumption|]. split; [constructor|reflexivity].
Qed.
Lemma well_recvd c c' l : recvd c c' l -> well c c' l.
Proof.
  intros H. destruct (recvd_facts _ _ _ H) as (A1 & A2 & A3 & A4 & A5 & A6 & A7 & A8 & A9 & A10 & _).
  intros fm a fs HE HR HS HL HG HP. apply A10 in HL. rewrite HL, A5, A7, A1 in *. cbn [app] in *. exists a, [], fs.
  split; [reflexivity|]. split; [exact HR|]. split; [exact A4|]. split; [exact A8|]. split; [constructor|reflexivity].
Qed.
Lemma well_queue c q : well c (set_queue c q) [].
Proof. intros fm a fs HE HR HS HL HG HP. exact (comp_refl well well_comp c fm a fs HE HR HS HL HG HP). Qed.
Lemma well_release : release_steps well.
Proof.
  intros c g HI fm a fs HE (B & HB & [HB1 HB2] & HI' & Hfm) HS _ HG HP.
  assert (reads E (c_in c) false a) as HR by (exists B; split; [exact HB|split; [split; assumption|exact HI']]).
  destruct (idle_reads E _ _ _ HI HR) as (_ & -> & _). exists [], [], fs. unfold set_gens. cbn [c_in c_sbuf set_in i_nf].
  split; [reflexivity|]. split. { exists (mkB (b_fm B) (b_hdr B) g (b_nf B)). rewrite HB. split; [reflexivity|]. split; [split; assumption|]. split; [left; reflexivity|exact Hfm]. }
  split; [exact HS|]. split; [constructor|]. split; [constructor|]. change (in_bytes []) with (@nil byte). rewrite app_nil_r. reflexivity.
Qed.
Lemma well_consume : sat well (consume_one_frame E).
Proof.
  intros c ev. unfold wp, consume_one_frame.
  destruct (amqp_handle_input E (c_in c) (c_sbuf c)) as [res f s| |] eqn:HH; [|apply (comp_refl well well_comp)..].
  destruct (Z.ltb_spec res 0) as [Neg|Pos].
  - intros fm a fs HE (B & HB & HS & HI & Hfm) HL _ HG HP. exfalso. change (in_bytes [OBad res]) with (@nil byte) in HP. rewrite app_nil_r in HP.
    destruct (c_sbuf c) as [|d0 d'] eqn:ED.
    { unfold amqp_handle_input in HH. change (zlen (@nil byte) =? 0) with true in HH. cbn iota in HH. injection HH as <- <- <-. discriminate. }
    rewrite <- ED in *. assert (HN : c_sbuf c <> []) by (rewrite ED; discriminate). clear ED d0 d'. pose proof HS as [HB1 HB2]. pose proof SBUF_ok as SB.
    pose proof (zlen_nonneg a) as A0. pose proof (zlen_app a (c_sbuf c)) as LW.
    rewrite HB, handle_input_closed in HH by (try assumption; lia). set (w := a ++ c_sbuf c) in *. pose proof (size_of_range w) as SR.
    assert (HK : zlen a <= size_of w + 8). { destruct HI as [HI|(H7 & _ & H8)]; [lia|]. unfold w. rewrite size_of_app by lia. lia. }
    rewrite step_wstep in HH; [|exact HS|lia|lia|lia]. subst fm.
    destruct (wstep_well B fs w HS HE HG HP) as [[W _]|(ca & fs' & w' & f' & _ & Hw & _ & W & _ & Hsz)]; rewrite W in HH; injection HH as <- <- <-; pose proof (zlen_nonneg (c_sbuf c)); lia.
  - intros fm a fs HE (B & HB & HS & HI & Hfm) HL _ HG HP.
    assert (XI : in_bytes (if f_type f =? 0 then [] else [OFrame f]) = []) by (destruct (f_type f =? 0); reflexivity).
    assert (XF : frames (if f_type f =? 0 then [] else [OFrame f]) = if f_type f =? 0 then [] else [f]) by (destruct (f_type f =? 0); reflexivity).
    assert (XB : no_bad (if f_type f =? 0 then [] else [OFrame f])) by (destruct (f_type f =? 0); repeat constructor).
    rewrite XI, XF in *. rewrite !app_nil_r in *. cbn [c_in c_sbuf set_sbuf set_in].
    destruct (c_sbuf c) as [|d0 d'] eqn:ED.
    { unfold amqp_handle_input in HH. change (zlen (@nil byte) =? 0) with true in HH. cbn iota in HH. injection HH as <- <- <-.
      exists a, [], fs. change (f_type no_frame =? 0) with true. rewrite skipn_nil, !app_nil_r. split; [reflexivity|]. split; [exists B; auto|].
      split; [exact SBUF_nil|]. split; [constructor|]. split; [constructor|reflexivity]. }
    rewrite <- ED in *. assert (HN : c_sbuf c <> []) by (rewrite ED; discriminate). clear ED d0 d'. pose proof HS as [HB1 HB2]. pose proof SBUF_ok as SB.
    pose proof (zlen_nonneg a) as A0. pose proof (zlen_app a (c_sbuf c)) as LW.
    rewrite HB, handle_input_closed in HH by (try assumption; lia). set (w := a ++ c_sbuf c) in *. pose proof (size_of_range w) as SR.
    assert (HK : zlen a <= size_of w + 8). { destruct HI as [HI|(H7 & _ & H8)]; [lia|]. unfold w. rewrite size_of_app by lia. lia. }
    rewrite step_wstep in HH; [|exact HS|lia|lia|lia]. subst fm.
    destruct (wstep_well B fs w HS HE HG HP) as [[W _]|(ca & fs' & w' & f' & -> & Hw & Hp & W & Hrec & Hsz)]; rewrite W in HH; injection HH as <- <- <-.
    + exists w, [], fs. change (f_type no_frame =? 0) with true. replace (zlen w - zlen a) with (zlen (c_sbuf c)) by lia.
      rewrite zlen_length, skipn_all, app_nil_r. split; [reflexivity|]. split. { exists B. split; [reflexivity|]. split; [exact HS|]. split; [apply wstep_more, W|reflexivity]. }
      split; [exact SBUF_nil|]. split; [constructor|]. split; [constructor|reflexivity].
    + exists [], [ca], fs'. split; [reflexivity|]. split.
      { exists (next_base B w). split; [reflexivity|]. split; [split; [exact HB1|apply next_base_ok, HB2]|]. split; [left; reflexivity|reflexivity]. }
      split; [unfold zlen in *; rewrite skipn_length; lia|]. split; [exact XB|].
      assert (f_type f' =? 0 = false) as Hft. { destruct Hrec as [gen ->]. cbn. apply Z.eqb_neq, type_nonzero. }
      rewrite Hft. split; [repeat constructor; exact Hrec|]. cbn [ser map concat]. rewrite app_nil_r. cbn [app].
      assert (skipn (Z.to_nat (size_of w + 8)) w = skipn (Z.to_nat (size_of w + 8 - zlen a)) (c_sbuf c)) as <-.
      { generalize dependent (size_of w). intros n _ ? ? _. unfold w. rewrite (skipn_app _ a). rewrite (@skipn_all2 _ _ a) by (unfold zlen in *; lia). cbn [app]. f_equal. unfold zlen in *; lia. }
      rewrite Hsz, zlen_length. rewrite Hw at 2. rewrite skipn_app, skipn_all, Nat.sub_diag. exact Hw.
Qed.

(** calls that do not change the limits of the connection *)
Definition keeps_limits (a : api) : Prop := match a with Tune _ _ _ | Login _ _ _ _ _ _ _ => False | _ => True end.
Lemma keeps_call_ok a : keeps_limits a -> call_ok (fun _ => False) a.
Proof. destruct a; cbn; tauto. Qed.
Theorem well_exec_all l c : Forall keeps_limits l -> sat_at well (exec_all N E l) c.
Proof.
  intros H. apply (walk_exec_all N E well well_comp well_neutral well_recvd well_consume well_queue well_release (fun _ => False)).
  - intros ? ? ? ? _ [].
  - eapply Forall_impl; [|exact H]. apply keeps_call_ok.
Qed.
Theorem well_exec a c : keeps_limits a -> sat_at well (exec N E a) c.
Proof.
  intros H. apply (walk_exec N E well well_comp well_neutral well_recvd well_consume well_queue well_release (fun _ => False)).
  - intros ? ? ? ? _ [].
  - apply keeps_call_ok, H.
Qed.
Lemma idle_pos s : idle s -> 0 <= i_frame_max s < M30 -> pos (i_frame_max s) s [].
Proof.
  intros Hi Hf. destruct (idle_st E s Hi) as [Es _]. exists (idle_base s). split; [exact Es|]. split; [apply idle_small; assumption|]. split; [left; reflexivity|reflexivity].
Qed.
(** an incomplete frame really is one *)
Lemma pos_part fm s a fs : never_fails E -> pos fm s a -> Forall (good_frame fm) fs -> prefix a (ser fs) ->
  match fs with [] => a = [] | ca :: _ => exists r, ser_frame (fst ca) (snd ca) = a ++ r /\ r <> [] end.
Proof.
  intros HE (B & HB & HS & HI & <-) HG HP. destruct (wstep_well B fs a HS HE HG HP) as [[_ H]|(ca & fs' & w' & f & _ & _ & _ & W & _)]; [exact H|].
  rewrite wstep_incomplete in W by exact HI. discriminate.
Qed.
End Well.
