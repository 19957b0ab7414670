(** The bytes received and the frames that come out of them, over whole histories
    of calls. *)
From Coq Require Import String ZArith List Bool Lia.
From Verif Require Import Base BaseFacts Codec CodecProofs TableModel TableSpec TableEnc TableDec TableRT TableOps FramingStmt FramingGen FramingModel MethodSpec FramingEnc FramingDec FramingProps
  Frame FrameSpec FrameProofs FrameStream FrameFacts FrameInit FrameNew Time Sasl Net NetApi NetSpec NetFacts NetSend NetRecv NetWalk.
Import ListNotations.
Local Open Scope Z_scope.

(** [frames_of w fs r]: the bytes [w] are complete frames followed by [r]; [fs] are
    these frames (those of an unknown type, which are ignored, left out). *)
Inductive frames_of : bytes -> list frame -> bytes -> Prop :=
| fo_end r : frames_of r [] r
| fo_frame x f oom gen w fs r : is_frame oom gen x f -> frames_of w fs r ->
    frames_of (x ++ w) (if f_type f =? 0 then fs else f :: fs) r.

Lemma frames_of_trans w f1 r d f2 r2 : frames_of w f1 r -> frames_of (r ++ d) f2 r2 -> frames_of (w ++ d) (f1 ++ f2) r2.
Proof.
  intros H H2. induction H as [r|x f oom gen w fs r Hf H IH]; [exact H2|].
  rewrite <- app_assoc. specialize (IH H2). destruct (f_type f =? 0) eqn:T.
  - pose proof (fo_frame x f oom gen _ _ _ Hf IH) as K. rewrite T in K. exact K.
  - pose proof (fo_frame x f oom gen _ _ _ Hf IH) as K. rewrite T in K. exact K.
Qed.

Lemma wstep_is_frame E B w f : small B -> wstep E B w = WFrame f ->
  exists oom gen, is_frame oom gen (firstn (Z.to_nat (size_of w + 8)) w) f.
Proof.
  intros [HB1 HB2] W. pose proof (wstep_frame _ _ _ _ W) as (W7 & W8 & W9 & W10). pose proof (size_of_range w) as SR.
  destruct (whole_frame w) as (Hx & Ht & Hc & Hp); [lia|lia|lia|].
  set (x := firstn (Z.to_nat (size_of w + 8)) w) in *. set (p := firstn (Z.to_nat (size_of w)) (skipn 7 w)) in *.
  assert (BR : body_res (E (b_nf B)) (b_gens B (chan_of w)) (ftype_of w) (chan_of w) p (nth (Z.to_nat (size_of w + 7)) w x00) = BDone f).
  { unfold wstep in W. destruct (zlen w <? 7); [discriminate|]. destruct (INT_MAX <=? size_of w); [discriminate|].
    destruct (u64 (b_fm B) <? size_of w + 8); [discriminate|]. destruct (ae_nopool (E (b_nf B))); [discriminate|].
    destruct (ae_noblock (E (b_nf B))); [discriminate|]. destruct (zlen w <? size_of w + 8); [discriminate|]. cbv zeta in W. fold p in W.
    destruct (body_res _ _ _ _ _ _); try discriminate. congruence. }
  assert (PM : zlen p < M31) by lia.
  destruct (body_done_is_frame _ _ _ _ _ _ _ Ht Hc PM BR) as (HZ & HF & HC & HG).
  rewrite HZ in Hx. exists (ae_oom (E (b_nf B))), (b_gens B (chan_of w)). rewrite Hx. exact HF.
Qed.
Lemma wstep_malformed E B w : small B -> wstep E B w = WUB -> exists x y, w = x ++ y /\ malformed x.
Proof.
  intros [HB1 HB2] W. exists (firstn (Z.to_nat (size_of w + 8)) w), (skipn (Z.to_nat (size_of w + 8)) w).
  split; [symmetry; apply firstn_skipn|]. pose proof (size_of_range w) as SR.
  unfold wstep in W. rewrite u64_small in W by auto. destruct (Z.ltb_spec (zlen w) 7); [discriminate|].
  destruct (Z.leb_spec INT_MAX (size_of w)); [discriminate|].
  destruct (Z.ltb_spec (b_fm B) (size_of w + 8)); [discriminate|].
  destruct (ae_nopool (E (b_nf B))) eqn:Np; [discriminate|]. destruct (ae_noblock (E (b_nf B))); [discriminate|].
  destruct (Z.ltb_spec (zlen w) (size_of w + 8)); [discriminate|].
  destruct (whole_frame w) as (Hx & Ht & Hc & Hp); [lia|lia|lia|].
  destruct (body_res _ _ _ _ _ _) eqn:BR; try discriminate.
  apply body_ub in BR; [|lia]. destruct BR as (HZ & _ & C). rewrite HZ in Hx.
  exists (ftype_of w), (chan_of w), (firstn (Z.to_nat (size_of w)) (skipn 7 w)). split; [exact Hx|]. split; [lia|exact C].
Qed.

Lemma magic_app w d : is_magic (w ++ d) = false -> is_magic w = false.
Proof.
  unfold is_magic. destruct (list_eq_dec _ (firstn 4 w) _) as [M|M]; [|reflexivity].
  destruct w as [|w0 [|w1 [|w2 [|w3 w]]]]; try discriminate. cbn [firstn app] in *. rewrite M.
  destruct (list_eq_dec _ _ _); [discriminate|contradiction].
Qed.

Section Rx.
Context (N : nat) (E : nat -> aenv).

(** the part [a] of a frame has been read; [i]: nothing was received before it *)
Definition reads (s : inst) (i : bool) (a : bytes) : Prop :=
  if i then exists B, s = init_of B a /\ small B /\ zlen a < 8
  else exists B, s = st_of E B a /\ small B /\ incomplete E B a.
(** the bytes as the library sees them: the eighth byte of a connection *)
Definition eff (i : bool) (n : nat) (w : bytes) : bytes :=
  if i && (8 <=? zlen w) then garbled (E n) w else w.

Definition rx (c c' : conn) (l : list obs) : Prop :=
  forall i a, reads (c_in c) i a -> zlen (c_sbuf c) <= SOCK_BUFFER_SIZE -> no_bad l -> no_lost l ->
  (i = true -> is_magic (a ++ c_sbuf c ++ in_bytes l) = false) ->
  exists i' a', reads (c_in c') i' a' /\ zlen (c_sbuf c') <= SOCK_BUFFER_SIZE /\
    frames_of (eff i (i_nf (c_in c)) (a ++ c_sbuf c ++ in_bytes l)) (frames l) (eff i' (i_nf (c_in c')) (a' ++ c_sbuf c')) /\
    (i' = true -> i = true /\ a' ++ c_sbuf c' = a ++ c_sbuf c ++ in_bytes l /\ i_nf (c_in c') = i_nf (c_in c) /\ frames l = []) /\
    (i = true -> i' = false -> 8 <= zlen (a ++ c_sbuf c ++ in_bytes l)).

Lemma rx_comp : comp rx.
Proof.
  split.
  - intros c i a HR HS _ _ HM. exists i, a. cbn [in_bytes frames flat_map concat map]. change (in_bytes []) with (@nil byte). change (frames []) with (@nil frame).
    rewrite !app_nil_r. split; [exact HR|]. split; [exact HS|]. split; [constructor|]. split; [auto|intros -> H; discriminate].
  - intros c c1 c2 l1 l2 H1 H2 i a HR HS HB HL HM.
    rewrite no_bad_app in HB. rewrite no_lost_app in HL. destruct HB as [B1 B2]. destruct HL as [L1 L2].
    rewrite in_bytes_app in *. rewrite frames_app.
    assert (X : a ++ c_sbuf c ++ in_bytes l1 ++ in_bytes l2 = (a ++ c_sbuf c ++ in_bytes l1) ++ in_bytes l2) by (rewrite <- !app_assoc; reflexivity).
    rewrite X in *. set (w1 := a ++ c_sbuf c ++ in_bytes l1) in *.
    destruct (H1 i a HR HS B1 L1) as (i1 & a1 & R1 & S1 & F1 & I1 & K1). { intros Hi. eapply magic_app. exact (HM Hi). }
    fold w1 in F1, I1, K1.
    destruct (H2 i1 a1 R1 S1 B2 L2) as (i2 & a2 & R2 & S2 & F2 & I2 & K2).
    { intros Hi. destruct (I1 Hi) as (Hi0 & Hw & _). rewrite app_assoc, Hw. exact (HM Hi0). }
    exists i2, a2. split; [exact R2|]. split; [exact S2|]. destruct i1.
    + destruct (I1 eq_refl) as (-> & Hw & Hn & Hf). rewrite app_assoc, Hw in F2, I2, K2. rewrite Hn in F2, I2. rewrite Hf. cbn [app].
      split; [exact F2|]. split; [|exact K2]. intros Hi. destruct (I2 Hi) as (_ & A1 & A2 & A3).
      split; [reflexivity|]. split; [exact A1|]. split; [exact A2|exact A3].
    + assert (EQ : eff i (i_nf (c_in c)) (w1 ++ in_bytes l2) = eff i (i_nf (c_in c)) w1 ++ in_bytes l2).
      { destruct i; [|reflexivity]. specialize (K1 eq_refl eq_refl). unfold eff. cbn [andb].
        pose proof (zlen_app w1 (in_bytes l2)). pose proof (zlen_nonneg (in_bytes l2)).
        destruct (Z.leb_spec 8 (zlen w1)); [|lia]. destruct (Z.leb_spec 8 (zlen (w1 ++ in_bytes l2))); [|lia]. apply garbled_app, K1. }
      split. { rewrite EQ. eapply frames_of_trans; [exact F1|]. change (eff false (i_nf (c_in c1)) (a1 ++ c_sbuf c1)) with (a1 ++ c_sbuf c1).
        rewrite <- app_assoc. exact F2. }
      split. { intros Hi. destruct (I2 Hi) as (? & _). discriminate. }
      intros Hi _. specialize (K1 Hi eq_refl). rewrite zlen_app. pose proof (zlen_nonneg (in_bytes l2)). lia.
Qed.

Lemma rx_neutral c c' l : same c c' -> idle_log l -> rx c c' l.
Proof.
  intros (S1 & S2 & _) (I1 & I2 & _). intros i a HR HS _ _ HM. rewrite I1, I2, S1, S2. exists i, a. rewrite app_nil_r.
  split; [exact HR|]. split; [exact HS|]. split; [constructor|]. split; [auto|intros -> H; discriminate].
Qed.
Lemma rx_recvd c c' l : recvd c c' l -> rx c c' l.
Proof.
  intros H. destruct (recvd_facts _ _ _ H) as (A1 & A2 & A3 & A4 & A5 & A6 & A7 & A8 & A9 & A10 & _).
  intros i a HR HS _ HL HM. apply A10 in HL. rewrite HL, A5, A7, A1 in *. cbn [app] in *. exists i, a.
  split; [exact HR|]. split; [exact A4|]. split; [constructor|]. split; [auto|intros -> X; discriminate].
Qed.
Lemma rx_queue c q : rx c (set_queue c q) [].
Proof. apply (rx_comp.(comp_refl rx)) || (intros i a HR HS A B HM; apply (comp_refl rx rx_comp c i a HR HS A B HM)). Qed.

Lemma idle_reads s i a : i_state s = IDLE -> reads s i a -> i = false /\ a = [] /\ exists B, s = st_of E B [] /\ small B.
Proof.
  intros HI HR. destruct i.
  { destruct HR as (B & -> & _). discriminate. }
  destruct HR as (B & -> & HB & _). split; [reflexivity|]. unfold st_of in HI.
  destruct (Z.eqb_spec (zlen a) 0) as [Z0|].
  - assert (a = []) as -> by (destruct a; [reflexivity|rewrite zlen_cons in Z0; pose proof (zlen_nonneg a); lia]). eauto.
  - destruct (zlen a <? 7); discriminate.
Qed.
Lemma rx_release : release_steps rx.
Proof.
  intros c g HI i a HR HS _ _ _. destruct (idle_reads _ _ _ HI HR) as (-> & -> & B & HB & [H1 H2]).
  exists false, []. unfold set_gens. cbn [c_in c_sbuf set_in i_nf]. change (in_bytes []) with (@nil byte). change (frames []) with (@nil frame).
  rewrite app_nil_r. split. { exists (mkB (b_fm B) (b_hdr B) g (b_nf B)). rewrite HB. split; [reflexivity|]. split; [split; assumption|left; reflexivity]. }
  split; [exact HS|]. split; [constructor|]. split; discriminate.
Qed.
Lemma rx_tune : tune_steps (fun fm => 0 <= fm < M30) rx.
Proof.
  intros c cm fm hb HI HP i a HR HS _ _ _. destruct (idle_reads _ _ _ HI HR) as (-> & -> & B & HB & [H1 H2]).
  exists false, []. unfold set_limits. cbn [c_in c_sbuf i_nf]. change (in_bytes []) with (@nil byte). change (frames []) with (@nil frame).
  rewrite app_nil_r. split. { exists (mkB fm (b_hdr B) (b_gens B) (b_nf B)). rewrite HB. split; [reflexivity|]. split; [split; assumption|left; reflexivity]. }
  split; [exact HS|]. split; [constructor|]. split; discriminate.
Qed.

Lemma SBUF_nil : zlen (@nil byte) <= SOCK_BUFFER_SIZE.
Proof. unfold SOCK_BUFFER_SIZE. change (zlen (@nil byte)) with 0. lia. Qed.
Lemma SBUF_ok : SOCK_BUFFER_SIZE < M31. Proof. reflexivity. Qed.

(** what amqp_handle_input does, in terms of [wstep] *)
Definition rx_base (s : inst) (i : bool) (a w : bytes) (B : base) : Prop :=
  small B /\ if i then exists B0, s = init_of B0 a /\ small B0 /\ zlen a < 8 /\ B = init_base B0 w else s = st_of E B a /\ incomplete E B a.
Lemma handle_reads s i a d : reads s i a -> d <> [] -> zlen d <= SOCK_BUFFER_SIZE ->
  (i = true -> is_magic (a ++ d) = false) ->
  let g := eff i (i_nf s) (a ++ d) in
  (i = true /\ exists s', amqp_handle_input E s d = HRet (zlen d) no_frame s' /\ reads s' true (a ++ d) /\ i_nf s' = i_nf s) \/
  (exists res f s', amqp_handle_input E s d = HRet res f s' /\ res < 0) \/
  (exists B, small B /\ (i = true -> 8 <= zlen (a ++ d)) /\ zlen g = zlen a + zlen d /\ zlen a <= size_of g + 8 /\
     skipn (Z.to_nat (size_of g + 8)) g = skipn (Z.to_nat (size_of g + 8 - zlen a)) d /\
     amqp_handle_input E s d =
       match wstep E B g with
       | WMore => HRet (zlen d) no_frame (st_of E B g)
       | WErr st f s => HRet st f s
       | WFrame f => HRet (size_of g + 8 - zlen a) f (st_of E (next_base B g) [])
       | WUB => HUB
       end).
Proof.
  intros HR HN HL HM. cbv zeta. pose proof SBUF_ok as SB. pose proof (zlen_nonneg a) as A0. pose proof (zlen_app a d) as LW.
  assert (SKG : forall m, zlen a <= m -> skipn (Z.to_nat m) (a ++ d) = skipn (Z.to_nat (m - zlen a)) d).
  { intros m Hm. rewrite (skipn_app (Z.to_nat m) a d). rewrite (@skipn_all2 _ (Z.to_nat m) a) by (unfold zlen in *; lia).
    cbn [app]. f_equal. unfold zlen in *; lia. }
  destruct i.
  - destruct HR as (B & -> & HB & HA). specialize (HM eq_refl). pose proof HB as [HB1 HB2].
    rewrite handle_initial by (try assumption; lia). cbv zeta. rewrite HM. unfold eff. cbn [andb i_nf init_of].
    set (w := a ++ d) in *.
    destruct (Z.ltb_spec (zlen w) 8) as [L8|L8].
    { left. split; [reflexivity|]. eexists. split; [reflexivity|]. split; [|reflexivity]. exists B. split; [reflexivity|]. split; [split; assumption|lia]. }
    right. destruct (Z.leb_spec 8 (zlen w)); [|lia].
    destruct (refused B w); [left; do 3 eexists; split; [reflexivity|reflexivity]|].
    destruct (ae_nopool _); [left; do 3 eexists; split; [reflexivity|reflexivity]|].
    destruct (ae_noblock _); [left; do 3 eexists; split; [reflexivity|reflexivity]|].
    right. destruct (size_garbled (E (b_nf B)) w L8) as (G1 & G2 & G3 & G4). set (g := garbled (E (b_nf B)) w) in *.
    pose proof (size_of_range g) as SR.
    exists (init_base B w). split; [apply init_small; [exact HB|exact L8]|]. split; [intros _; exact L8|]. split; [lia|]. split; [lia|]. split.
    { rewrite <- SKG by lia. replace (Z.to_nat (size_of g + 8)) with (Z.to_nat (size_of g) + 8)%nat by lia.
      fold w. unfold g, garbled. clear -L8. destruct w as [|w0 [|w1 [|w2 [|w3 [|w4 [|w5 [|w6 [|w7 w]]]]]]]]; try (unfold zlen in L8; cbn [length] in L8; lia).
      rewrite (Nat.add_comm _ 8). reflexivity. }
    rewrite step_wstep; [|apply init_small; [exact HB|exact L8]|lia|lia|lia].
    destruct (wstep E (init_base B w) g); [|reflexivity..]. f_equal. lia.
  - right. right. destruct HR as (B & -> & HB & HI). unfold eff. cbn [andb]. exists B. pose proof HB as [HB1 HB2].
    set (w := a ++ d) in *. pose proof (size_of_range w) as SR.
    assert (HK : zlen a <= size_of w + 8).
    { destruct HI as [HI|(H7 & _ & H8)]; [lia|]. unfold w. rewrite size_of_app by lia. lia. }
    split; [exact HB|]. split; [discriminate|]. split; [exact LW|]. split; [exact HK|]. split; [apply SKG; exact HK|].
    rewrite handle_input_closed by (try assumption; lia). fold w. rewrite step_wstep; [|exact HB|lia|lia|lia].
    destruct (wstep E B w); [|reflexivity..]. f_equal. lia.
Qed.

Lemma rx_consume : sat rx (consume_one_frame E).
Proof.
  intros c ev. unfold wp, consume_one_frame.
  destruct (amqp_handle_input E (c_in c) (c_sbuf c)) as [res f s| |] eqn:HH; [|apply (comp_refl rx rx_comp)..].
  destruct (Z.ltb_spec res 0) as [Neg|Pos].
  { intros i a _ _ HB. inversion HB; contradiction. }
  intros i a HR HS _ _ HM.
  assert (XI : in_bytes (if f_type f =? 0 then [] else [OFrame f]) = []) by (destruct (f_type f =? 0); reflexivity).
  assert (XF : frames (if f_type f =? 0 then [] else [OFrame f]) = if f_type f =? 0 then [] else [f]) by (destruct (f_type f =? 0); reflexivity).
  rewrite XI, XF in *. rewrite !app_nil_r in *. cbn [c_in c_sbuf set_sbuf set_in].
  destruct (c_sbuf c) as [|d0 d'] eqn:ED.
  { unfold amqp_handle_input in HH. change (zlen (@nil byte) =? 0) with true in HH. cbn iota in HH. injection HH as <- <- <-.
    exists i, a. change (f_type no_frame =? 0) with true. rewrite skipn_nil, !app_nil_r. split; [exact HR|]. split; [exact SBUF_nil|].
    split; [constructor|]. split; [rewrite ?app_nil_r in *; auto|intros -> X; discriminate]. }
  rewrite <- ED in *. assert (HN : c_sbuf c <> []) by (rewrite ED; discriminate). clear ED d0 d'.
  set (d := c_sbuf c) in *. pose proof (zlen_nonneg d) as D0.
  assert (LS : forall k, zlen (skipn k d) <= SOCK_BUFFER_SIZE) by (intros; unfold zlen in *; rewrite skipn_length; lia).
  destruct (handle_reads _ _ _ _ HR HN HS HM) as [(-> & s' & K1 & K2 & K3)|[(res' & f' & s' & K1 & K2)|(B & HB & K1 & K2 & K3 & K4 & K5)]].
  - rewrite HH in K1. injection K1 as -> -> ->. exists true, (a ++ d). change (f_type no_frame =? 0) with true.
    rewrite zlen_length, skipn_all, app_nil_r. split; [exact K2|]. split; [exact SBUF_nil|]. rewrite K3.
    split; [constructor|]. split; [auto|discriminate].
  - rewrite HH in K1. injection K1 as -> -> ->. lia.
  - rewrite HH in K5. set (g := eff i (i_nf (c_in c)) (a ++ d)) in *. destruct (wstep E B g) as [|st f0 s0|f0|] eqn:W; try discriminate.
    + injection K5 as -> -> ->. exists false, g. change (f_type no_frame =? 0) with true. rewrite zlen_length, skipn_all, app_nil_r.
      split; [exists B; split; [reflexivity|split; [exact HB|apply wstep_more, W]]|]. split; [exact SBUF_nil|].
      split; [constructor|]. split; [discriminate|intros Hi _; exact (K1 Hi)].
    + injection K5 as -> -> ->. pose proof (wstep_err E B g _ _ _ HB W). lia.
    + injection K5 as -> -> ->. exists false, []. split.
      { exists (next_base B g). split; [reflexivity|]. destruct HB as [HB1 HB2]. split; [split; [exact HB1|apply next_base_ok, HB2]|left; reflexivity]. }
      split; [apply LS|]. split.
      { change (eff false (i_nf (st_of E (next_base B g) [])) ([] ++ skipn (Z.to_nat (size_of g + 8 - zlen a)) d)) with (skipn (Z.to_nat (size_of g + 8 - zlen a)) d).
        rewrite <- K4. rewrite <- (firstn_skipn (Z.to_nat (size_of g + 8)) g) at 1.
        destruct (wstep_is_frame E B g f0 HB W) as (oom & gen & HF). eapply fo_frame; [exact HF|constructor]. }
      split; [discriminate|intros Hi _; exact (K1 Hi)].
Qed.

Theorem rx_exec_all l c : Forall (call_ok (fun fm => 0 <= fm < M30)) l -> sat_at rx (exec_all N E l) c.
Proof.
  apply walk_exec_all; [exact rx_comp|exact rx_neutral|exact rx_recvd|exact rx_consume|exact rx_queue|exact rx_release|exact rx_tune].
Qed.
Theorem rx_exec a c : call_ok (fun fm => 0 <= fm < M30) a -> sat_at rx (exec N E a) c.
Proof.
  apply walk_exec; [exact rx_comp|exact rx_neutral|exact rx_recvd|exact rx_consume|exact rx_queue|exact rx_release|exact rx_tune].
Qed.
(** undefined behaviour in amqp_handle_input: a malformed frame *)
Lemma reads_ub s i a d : reads s i a -> zlen d <= SOCK_BUFFER_SIZE -> (i = true -> is_magic (a ++ d) = false) ->
  amqp_handle_input E s d = HUB -> exists x y, eff i (i_nf s) (a ++ d) = x ++ y /\ malformed x.
Proof.
  intros HR HL HM HH. destruct d as [|d0 d'] eqn:ED; [discriminate|]. rewrite <- ED in *.
  assert (HN : d <> []) by (rewrite ED; discriminate).
  destruct (handle_reads _ _ _ _ HR HN HL HM) as [(-> & s' & K1 & _)|[(res' & f' & s' & K1 & _)|(B & HB & K1 & K2 & K3 & K4 & K5)]]; try congruence.
  rewrite HH in K5. destruct (wstep E B _) eqn:W; try discriminate. exact (wstep_malformed E B _ HB W).
Qed.
Lemma reads_no_abort s i a d : reads s i a -> zlen d <= SOCK_BUFFER_SIZE -> (i = true -> is_magic (a ++ d) = false) ->
  amqp_handle_input E s d <> HAbort.
Proof.
  intros HR HL HM HH. destruct d as [|d0 d'] eqn:ED; [discriminate|]. rewrite <- ED in *.
  assert (HN : d <> []) by (rewrite ED; discriminate).
  destruct (handle_reads _ _ _ _ HR HN HL HM) as [(-> & s' & K1 & _)|[(res' & f' & s' & K1 & _)|(B & HB & K1 & K2 & K3 & K4 & K5)]]; try congruence.
  rewrite HH in K5. destruct (wstep E B _) eqn:W; discriminate.
Qed.
End Rx.
