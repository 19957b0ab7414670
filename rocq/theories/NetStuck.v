(** A refused frame stays refused: after amqp_handle_input has failed once, every
    later call fails again, whatever is received.  So whole histories of calls are
    covered, also those that go on after a failure. *)
From Coq Require Import String ZArith List Bool Lia.
From Verif Require Import Base BaseFacts Codec CodecProofs TableModel TableSpec TableEnc TableDec TableRT TableOps FramingStmt FramingGen FramingModel MethodSpec FramingEnc FramingDec FramingProps
  Frame FrameSpec FrameProofs FrameStream FrameFacts FrameInit FrameNew Time Sasl Net NetApi NetSpec NetFacts NetSend NetRecv NetWalk NetRx.
Import ListNotations.
Local Open Scope Z_scope.

Section Stuck.
Context (N : nat) (E : nat -> aenv) (HE : never_fails E).

Definition stuck (s : inst) : Prop :=
  i_state s <> IDLE /\ forall d, d <> [] -> zlen d < M31 -> exists st f, amqp_handle_input E s d = HRet st f s /\ st < 0.

Lemma err_stays B w st f s : small B -> wstep E B w = WErr st f s -> stuck s.
Proof.
  intros HB0 W. pose proof (wstep_err _ _ _ _ _ _ HB0 W) as Neg. destruct (HE (b_nf B)) as (NP & NB & _). pose proof HB0 as [HB1 HB2].
  split. { revert W. unfold wstep. rewrite NP, NB. repeat (match goal with |- context [if ?b then _ else _] => destruct b end); try discriminate;
    try (intros H; injection H as _ _ <-; discriminate). cbv zeta. destruct (body_res _ _ _ _ _ _); try discriminate. intros H; injection H as _ _ <-; discriminate. }
  intros d HN HD.
  assert (D1 : 1 <= zlen d) by (destruct d; [congruence|]; rewrite zlen_cons; pose proof (zlen_nonneg d); lia).
  pose proof (size_of_range w) as SR.
  assert (H7 : 7 <= zlen w) by (unfold wstep in W; destruct (Z.ltb_spec (zlen w) 7); [discriminate|lia]).
  assert (L7 : zlen (firstn 7 w) = 7) by (apply (zlen_firstn 7); lia).
  assert (CASE : (st = AMQP_STATUS_BAD_AMQP_DATA /\ s = st_hdr B w /\ (INT_MAX <= size_of w \/ u64 (b_fm B) < size_of w + 8)) \/
     (size_of w < INT_MAX /\ size_of w + 8 <= u64 (b_fm B) /\ size_of w + 8 <= zlen w /\
       s = st_body E B (firstn (Z.to_nat (size_of w + 8)) w) /\
       exists f0, body_res (E (b_nf B)) (b_gens B (chan_of w)) (ftype_of w) (chan_of w)
            (firstn (Z.to_nat (size_of w)) (skipn 7 w)) (nth (Z.to_nat (size_of w + 7)) w x00) = BErr st f0)).
  { unfold wstep in W. destruct (Z.ltb_spec (zlen w) 7); [discriminate|].
    destruct (Z.leb_spec INT_MAX (size_of w)); [injection W as <- _ <-; auto|].
    destruct (Z.ltb_spec (u64 (b_fm B)) (size_of w + 8)); [injection W as <- _ <-; auto|].
    rewrite NP, NB in W.
    destruct (Z.ltb_spec (zlen w) (size_of w + 8)); [discriminate|].
    destruct (body_res _ _ _ _ _ _) as [st0 g| |] eqn:BR; try discriminate.
    injection W as -> <- <-. right. repeat (split; [auto; lia|]). eauto. }
  destruct CASE as [(-> & -> & Hbig)|(S1 & S2 & S3 & -> & f0 & BR)].
  - exists AMQP_STATUS_BAD_AMQP_DATA, no_frame. split; [|reflexivity]. unfold amqp_handle_input. destruct (Z.eqb_spec (zlen d) 0); [lia|].
    cbn [st_hdr i_state]. unfold st_hdr. rewrite consume_hdr by (rewrite ?zlen_patch; lia). cbv zeta.
    rewrite Z.min_r by lia. change (Z.to_nat (7 - 7)) with 0%nat. rewrite firstn_O. change (skipn 0 d) with d. rewrite patch_nil.
    cbn [i_off i_target i_state]. change (7 + (7 - 7) <? 7) with false. cbn iota. change (7 + (7 - 7)) with 7.
    set (v := firstn 7 w ++ d).
    assert (F7 : firstn 7 w = firstn 7 v).
    { unfold v. rewrite (firstn_app 7 (firstn 7 w) d). replace (7 - length (firstn 7 w))%nat with 0%nat by (unfold zlen in L7; lia).
      rewrite firstn_O, app_nil_r, firstn_firstn. reflexivity. }
    assert (S7 : d = skipn 7 v).
    { unfold v. rewrite (skipn_app 7 (firstn 7 w) d). rewrite (@skipn_all2 _ 7 (firstn 7 w)) by (unfold zlen in L7; lia).
      replace (7 - length (firstn 7 w))%nat with 0%nat by (unfold zlen in L7; lia). reflexivity. }
    assert (LV : zlen v = 7 + zlen d) by (unfold v; rewrite zlen_app; lia).
    rewrite F7. rewrite S7 at 1. change (7 - 7) with (7 - 7). rewrite (handle_header_closed E B v 7) by lia.
    assert (SZ : size_of v = size_of w) by (unfold v; rewrite size_of_app by lia; apply size_of_firstn; lia).
    unfold step. destruct (Z.ltb_spec (zlen v) 7); [lia|]. rewrite SZ.
    assert (SH : st_hdr B v = mkIn HEADER (b_fm B) (patch (b_hdr B) 0 (firstn 7 v)) IHdr 7 7 (b_gens B) (b_nf B)) by reflexivity.
    destruct (Z.leb_spec INT_MAX (size_of w)); [rewrite SH; reflexivity|].
    destruct (Z.ltb_spec (u64 (b_fm B)) (size_of w + 8)); [rewrite SH; reflexivity|lia].
  - set (x := firstn (Z.to_nat (size_of w + 8)) w).
    destruct (whole_frame w) as (Hx & Ht & Hc & Hp); [lia|lia|lia|]. fold x in Hx.
    assert (LX : zlen x = size_of w + 8) by (apply zlen_firstn; lia).
    assert (SX : size_of x = size_of w) by (apply size_of_firstn; lia).
    exists st, f0. split; [|exact Neg]. unfold amqp_handle_input. destruct (Z.eqb_spec (zlen d) 0); [lia|].
    cbn [st_body i_state].
    assert (CD : consume_data (st_body E B x) d = Some (0, st_body E B x, d)).
    { unfold st_body at 1. rewrite consume_block; [|reflexivity|lia|lia| |lia|lia].
      2:{ rewrite zlen_patch; [rewrite zlen_fresh; lia|lia|rewrite zlen_fresh; lia]. }
      cbv zeta. rewrite Z.min_r by lia. replace (size_of x + 8 - zlen x) with 0 by lia.
      change (Z.to_nat 0) with 0%nat. cbn [firstn skipn]. rewrite patch_nil, Z.add_0_r. reflexivity. }
    rewrite CD. cbn [st_body i_off i_target i_state].
    destruct (Z.ltb_spec (zlen x) (size_of x + 8)); [lia|].
    rewrite (handle_body_closed E B 0 x _ _ _ _ _ Hx Ht Hc) by (auto; lia). rewrite BR. reflexivity.
Qed.

(** the first eight bytes of a connection announce a frame that is too large *)
Lemma refused_stays B w : small B -> 8 <= zlen w -> is_magic w = false -> refused B w = true -> stuck (init_of B (firstn 8 w)).
Proof.
  intros [HB1 HB2] HL HM HR. split; [discriminate|]. intros d HN HD.
  assert (D1 : 1 <= zlen d) by (destruct d; [congruence|]; rewrite zlen_cons; pose proof (zlen_nonneg d); lia).
  assert (L8' : zlen (firstn 8 w) = 8) by (apply (zlen_firstn 8); lia).
  assert (PH : patch (b_hdr B) 0 (firstn 8 w) = firstn 8 w).
  { rewrite patch0 by lia. rewrite skipn_all2 by (unfold zlen in *; lia). apply app_nil_r. }
  assert (IO : init_of B (firstn 8 w) = mkIn INITIAL (b_fm B) (firstn 8 w) IHdr 8 8 (b_gens B) (b_nf B)).
  { unfold init_of. rewrite PH, L8'. reflexivity. }
  exists AMQP_STATUS_BAD_AMQP_DATA, no_frame. split; [|reflexivity]. rewrite IO.
  unfold amqp_handle_input. destruct (Z.eqb_spec (zlen d) 0); [lia|]. cbn [i_state].
  rewrite consume_hdr by lia. cbv zeta.
  rewrite Z.min_r by lia. change (Z.to_nat (8 - 8)) with 0%nat. rewrite firstn_O. change (skipn 0 d) with d. rewrite patch_nil.
  cbn [i_off i_target i_state]. change (8 + (8 - 8) <? 8) with false. cbn iota. change (8 + (8 - 8)) with 8.
  cbn [raw_bytes i_buf i_hdr].
  rewrite slice_Some by lia. change (Z.to_nat 4) with 4%nat. change (Z.to_nat 0) with 0%nat. rewrite ?skipn_O.
  rewrite firstn_sub by lia. unfold is_magic in HM.
  destruct (list_eq_dec Byte.byte_eq_dec (firstn 4 w) [x41; x4d; x51; x50]) as [M|M]; [discriminate|].
  unfold handle_header. cbn [raw_bytes i_buf i_hdr i_nf i_frame_max i_gens i_off i_target i_state].
  rewrite (d_at_nth W16) by (cbn [wbytes]; lia). rewrite (d_at_nth W32) by (cbn [wbytes]; lia).
  cbn [wnat]. change (Z.to_nat 1) with 1%nat. change (Z.to_nat 3) with 3%nat.
  fold (chan_of (firstn 8 w)) (size_of (firstn 8 w)). rewrite size_of_firstn, chan_of_firstn by lia.
  unfold refused in HR. unfold HEADER_SIZE, FOOTER_SIZE. pose proof (size_of_range w) as SR.
  destruct (Z.leb_spec INT_MAX (size_of w)) as [|S1]; [reflexivity|]. cbn [orb] in HR.
  assert (SZ : u32 (size_of w + 7 + 1) = size_of w + 8) by (unfold u32; rewrite Z.mod_small; lia).
  rewrite SZ, HR. reflexivity.
Qed.

(** as [is_frame] in [frames_of], all allocations succeeding *)
Inductive frames_in : bytes -> list frame -> bytes -> Prop :=
| fi_end r : frames_in r [] r
| fi_frame x f gen w fs r : is_frame no_oom gen x f /\ zlen x = size_of x + 8 /\ (exists B, small B /\ wstep E B x = WFrame f) -> frames_in w fs r ->
    frames_in (x ++ w) (if f_type f =? 0 then fs else f :: fs) r.
Lemma frames_in_of w fs r : frames_in w fs r -> frames_of w fs r.
Proof. induction 1 as [|x f gen w fs r (Hf & _)]; [constructor|eapply fo_frame; eauto]. Qed.
Lemma frames_in_trans w f1 r d f2 r2 : frames_in w f1 r -> frames_in (r ++ d) f2 r2 -> frames_in (w ++ d) (f1 ++ f2) r2.
Proof.
  intros H H2. induction H as [r|x f gen w fs r Hf H IH]; [exact H2|].
  rewrite <- app_assoc. specialize (IH H2).
  pose proof (fi_frame x f gen _ _ _ Hf IH) as K. destruct (f_type f =? 0); exact K.
Qed.
Lemma wstep_frame_in B w f : small B -> wstep E B w = WFrame f ->
  exists gen, let x := firstn (Z.to_nat (size_of w + 8)) w in is_frame no_oom gen x f /\ zlen x = size_of x + 8 /\ (exists B, small B /\ wstep E B x = WFrame f).
Proof.
  intros HB0 W. pose proof HB0 as [HB1 HB2]. cbv zeta. pose proof (wstep_frame _ _ _ _ W) as (W7 & W8 & W9 & W10). pose proof (size_of_range w) as SR.
  destruct (whole_frame w) as (Hx & Ht & Hc & Hp); [lia|lia|lia|]. destruct (HE (b_nf B)) as (_ & _ & OO).
  set (x := firstn (Z.to_nat (size_of w + 8)) w) in *. set (p := firstn (Z.to_nat (size_of w)) (skipn 7 w)) in *.
  assert (BR : body_res (E (b_nf B)) (b_gens B (chan_of w)) (ftype_of w) (chan_of w) p (nth (Z.to_nat (size_of w + 7)) w x00) = BDone f).
  { unfold wstep in W. destruct (zlen w <? 7); [discriminate|]. destruct (INT_MAX <=? size_of w); [discriminate|].
    destruct (u64 (b_fm B) <? size_of w + 8); [discriminate|]. destruct (ae_nopool (E (b_nf B))); [discriminate|].
    destruct (ae_noblock (E (b_nf B))); [discriminate|]. destruct (zlen w <? size_of w + 8); [discriminate|]. cbv zeta in W. fold p in W.
    destruct (body_res _ _ _ _ _ _); try discriminate. congruence. }
  assert (PM : zlen p < M31) by lia.
  destruct (body_done_is_frame _ _ _ _ _ _ _ Ht Hc PM BR) as (HZ & HF & HC & HG).
  rewrite HZ in Hx. rewrite OO in HF. exists (b_gens B (chan_of w)). split; [rewrite Hx; exact HF|].
  assert (LX : zlen x = size_of w + 8) by (apply zlen_firstn; lia). assert (SX : size_of x = size_of w) by (apply size_of_firstn; lia).
  split; [lia|]. exists B. split; [exact HB0|]. rewrite <- W. rewrite <- (firstn_skipn (Z.to_nat (size_of w + 8)) w). fold x.
  symmetry. apply wstep_app. intros M. apply wstep_more in M. destruct M as [M|(_ & _ & M)]; lia.
Qed.

Definition rs (c c' : conn) (l : list obs) : Prop :=
  (stuck (c_in c) -> zlen (c_sbuf c) <= SOCK_BUFFER_SIZE ->
     stuck (c_in c') /\ zlen (c_sbuf c') <= SOCK_BUFFER_SIZE /\ frames l = []) /\
  forall i a, reads E (c_in c) i a -> zlen (c_sbuf c) <= SOCK_BUFFER_SIZE -> no_lost l ->
  (i = true -> is_magic (a ++ c_sbuf c ++ in_bytes l) = false) ->
  zlen (c_sbuf c') <= SOCK_BUFFER_SIZE /\
  ((stuck (c_in c') /\ (exists r, frames_in (eff E i (i_nf (c_in c)) (a ++ c_sbuf c ++ in_bytes l)) (frames l) r) /\
    (i = true -> 8 <= zlen (a ++ c_sbuf c ++ in_bytes l))) \/
   (exists i' a', reads E (c_in c') i' a' /\
    frames_in (eff E i (i_nf (c_in c)) (a ++ c_sbuf c ++ in_bytes l)) (frames l) (eff E i' (i_nf (c_in c')) (a' ++ c_sbuf c')) /\
    (i' = true -> i = true /\ a' ++ c_sbuf c' = a ++ c_sbuf c ++ in_bytes l /\ i_nf (c_in c') = i_nf (c_in c) /\ frames l = []) /\
    (i = true -> i' = false -> 8 <= zlen (a ++ c_sbuf c ++ in_bytes l)))).

Lemma eff_app i n w d : (i = true -> 8 <= zlen w) -> eff E i n (w ++ d) = eff E i n w ++ d.
Proof.
  intros K. destruct i; [|reflexivity]. specialize (K eq_refl). unfold eff. cbn [andb].
  pose proof (zlen_app w d). pose proof (zlen_nonneg d).
  destruct (Z.leb_spec 8 (zlen w)); [|lia]. destruct (Z.leb_spec 8 (zlen (w ++ d))); [|lia]. apply garbled_app, K.
Qed.
Lemma more_len (w d : bytes) : 8 <= zlen w -> 8 <= zlen (w ++ d).
Proof. rewrite zlen_app. pose proof (zlen_nonneg d). lia. Qed.

Lemma rs_comp : comp rs.
Proof.
  split.
  - intros c. split. { intros H1 H2. auto. }
    intros i a HR HS _ HM. change (in_bytes []) with (@nil byte). change (frames []) with (@nil frame). split; [exact HS|].
    right. exists i, a. rewrite !app_nil_r. split; [exact HR|]. split; [constructor|]. split; [auto|intros -> H; discriminate].
  - intros c c1 c2 l1 l2 [S1 H1] [S2 H2]. split.
    { intros Ht Hb. destruct (S1 Ht Hb) as (T1 & B1 & F1). destruct (S2 T1 B1) as (T2 & B2 & F2).
      rewrite frames_app, F1, F2. auto. }
    intros i a HR HS HL HM.
    rewrite no_lost_app in HL. destruct HL as [L1 L2].
    rewrite in_bytes_app in *. rewrite frames_app.
    assert (X : a ++ c_sbuf c ++ in_bytes l1 ++ in_bytes l2 = (a ++ c_sbuf c ++ in_bytes l1) ++ in_bytes l2) by (rewrite <- !app_assoc; reflexivity).
    rewrite X in *. set (w1 := a ++ c_sbuf c ++ in_bytes l1) in *.
    destruct (H1 i a HR HS L1) as (B1 & HC). { intros Hi. eapply magic_app. exact (HM Hi). }
    fold w1 in HC. destruct HC as [(T1 & (r & F1) & K1)|(i1 & a1 & R1 & F1 & I1 & K1)].
    { destruct (S2 T1 B1) as (T2 & B2 & F2). split; [exact B2|]. left. split; [exact T2|]. rewrite F2. split.
      - exists (r ++ in_bytes l2). rewrite eff_app by exact K1. eapply frames_in_trans; [exact F1|constructor].
      - intros Hi. apply more_len, K1, Hi. }
    destruct (H2 i1 a1 R1 B1 L2) as (B2 & HC).
    { intros Hi. destruct (I1 Hi) as (Hi0 & Hw & _). rewrite app_assoc, Hw. exact (HM Hi0). }
    split; [exact B2|]. destruct i1.
    + destruct (I1 eq_refl) as (-> & Hw & Hn & Hf). rewrite app_assoc, Hw in HC. rewrite Hn in HC. rewrite Hf. cbn [app].
      destruct HC as [(T2 & F2 & K2)|(i2 & a2 & R2 & F2 & I2 & K2)]; [left; auto|].
      right. exists i2, a2. split; [exact R2|]. split; [exact F2|]. split; [|exact K2].
      intros Hi. destruct (I2 Hi) as (_ & A1 & A2 & A3). auto.
    + assert (EQ : eff E i (i_nf (c_in c)) (w1 ++ in_bytes l2) = eff E i (i_nf (c_in c)) w1 ++ in_bytes l2) by (apply eff_app; intros Hi; exact (K1 Hi eq_refl)).
      rewrite EQ. change (eff E false (i_nf (c_in c1)) (a1 ++ c_sbuf c1)) with (a1 ++ c_sbuf c1) in F1.
      change (eff E false (i_nf (c_in c1)) (a1 ++ c_sbuf c1 ++ in_bytes l2)) with (a1 ++ c_sbuf c1 ++ in_bytes l2) in HC. rewrite app_assoc in HC.
      destruct HC as [(T2 & (r & F2) & K2)|(i2 & a2 & R2 & F2 & I2 & K2)].
      * left. split; [exact T2|]. split; [exists r; eapply frames_in_trans; eauto|intros Hi; apply more_len; exact (K1 Hi eq_refl)].
      * right. exists i2, a2. split; [exact R2|]. split; [eapply frames_in_trans; eauto|].
        split; [intros Hi; destruct (I2 Hi) as (? & _); discriminate|intros Hi _; apply more_len; exact (K1 Hi eq_refl)].
Qed.

Lemma rs_neutral c c' l : same c c' -> idle_log l -> rs c c' l.
Proof.
  intros (S1 & S2 & _) (I1 & I2 & _). split. { intros. rewrite S1, S2. auto. }
  intros i a HR HS _ HM. rewrite I1, I2, S1, S2. split; [exact HS|]. right. exists i, a. rewrite app_nil_r.
  split; [exact HR|]. split; [constructor|]. split; [auto|intros -> H; discriminate].
Qed.
Lemma rs_recvd c c' l : recvd c c' l -> rs c c' l.
Proof.
  intros H. destruct (recvd_facts _ _ _ H) as (A1 & A2 & A3 & A4 & A5 & A6 & A7 & A8 & A9 & A10 & _).
  split. { intros. rewrite A1. auto. }
  intros i a HR HS HL HM. apply A10 in HL. rewrite HL, A5, A7, A1 in *. cbn [app] in *. split; [exact A4|]. right. exists i, a.
  split; [exact HR|]. split; [constructor|]. split; [auto|intros -> X; discriminate].
Qed.
Lemma rs_queue c q : rs c (set_queue c q) [].
Proof.
  split. { intros. cbn. auto. }
  intros i a HR HS A HM. destruct (comp_refl rs rs_comp c) as [_ K]. exact (K i a HR HS A HM).
Qed.
Lemma rs_release : release_steps rs.
Proof.
  intros c g HI. split. { intros [T _]. contradiction. }
  intros i a HR HS _ _. destruct (idle_reads E _ _ _ HI HR) as (-> & -> & B & HB & [H1 H2]).
  split; [exact HS|]. right. exists false, []. unfold set_gens. cbn [c_in c_sbuf set_in i_nf]. change (in_bytes []) with (@nil byte). change (frames []) with (@nil frame).
  rewrite app_nil_r. split. { exists (mkB (b_fm B) (b_hdr B) g (b_nf B)). rewrite HB. split; [reflexivity|]. split; [split; assumption|left; reflexivity]. }
  split; [constructor|]. split; discriminate.
Qed.
Lemma rs_tune : tune_steps (fun fm => 0 <= fm < M30) rs.
Proof.
  intros c cm fm hb HI HP. split. { intros [T _]. contradiction. }
  intros i a HR HS _ _. destruct (idle_reads E _ _ _ HI HR) as (-> & -> & B & HB & [H1 H2]).
  split; [exact HS|]. right. exists false, []. unfold set_limits. cbn [c_in c_sbuf i_nf]. change (in_bytes []) with (@nil byte). change (frames []) with (@nil frame).
  rewrite app_nil_r. split. { exists (mkB fm (b_hdr B) (b_gens B) (b_nf B)). rewrite HB. split; [reflexivity|]. split; [split; assumption|left; reflexivity]. }
  split; [constructor|]. split; discriminate.
Qed.

(** as [handle_reads], all allocations succeeding *)
Lemma handle_stuck s i a d : reads E s i a -> d <> [] -> zlen d <= SOCK_BUFFER_SIZE ->
  (i = true -> is_magic (a ++ d) = false) ->
  forall res f s', amqp_handle_input E s d = HRet res f s' -> res < 0 -> stuck s' /\ (i = true -> 8 <= zlen (a ++ d)).
Proof.
  intros HR HN HL HM res f s' HH Neg.
  destruct (handle_reads E s i a d HR HN HL HM) as [(-> & s1 & K1 & _)|[(res1 & f1 & s1 & K1 & K2)|(B & HB & K1 & K2 & K3 & K4 & K5)]].
  - rewrite HH in K1. injection K1 as -> _ _. pose proof (zlen_nonneg d). lia.
  - clear K1 K2 res1 f1 s1. pose proof SBUF_ok as SB. destruct i.
    + destruct HR as (B & -> & HB & HA). specialize (HM eq_refl).
      rewrite handle_initial in HH by (try apply HB; try assumption; lia). cbv zeta in HH. rewrite HM in HH.
      set (w := a ++ d) in *. destruct (Z.ltb_spec (zlen w) 8) as [L8|L8].
      { injection HH as <- _ _. pose proof (zlen_nonneg d). lia. }
      split; [|intros _; exact L8]. destruct (refused B w) eqn:RF.
      { injection HH as _ _ <-. apply refused_stays; assumption. }
      destruct (HE (b_nf B)) as (-> & -> & _) in HH.
      destruct (size_garbled (E (b_nf B)) w L8) as (G1 & G2 & G3 & G4). set (g := garbled (E (b_nf B)) w) in *.
      pose proof (zlen_app a d). pose proof (size_of_range g) as SR. fold w in H. pose proof (zlen_nonneg a).
      rewrite step_wstep in HH; [|apply init_small; [exact HB|exact L8]|lia|lia|lia].
      destruct (wstep E (init_base B w) g) as [|st0 f0 s0|f0|] eqn:W; try discriminate.
      * injection HH as <- _ _. lia.
      * injection HH as -> -> ->. eapply err_stays; [|exact W]. apply init_small; [exact HB|exact L8].
      * injection HH as <- _ _. lia.
    + split; [|discriminate]. destruct HR as (B & -> & HB & HI). set (w := a ++ d) in *.
      pose proof (size_of_range w) as SR. pose proof (zlen_nonneg a) as A0. pose proof (zlen_app a d) as LW. fold w in LW.
      assert (HK : zlen a <= size_of w + 8).
      { destruct HI as [HI|(H7 & _ & H8)]; [lia|]. unfold w. rewrite size_of_app by lia. lia. }
      pose proof HB as [HB1 HB2]. rewrite handle_input_closed in HH by (try assumption; lia). fold w in HH.
      rewrite step_wstep in HH; [|exact HB|lia|lia|lia]. pose proof (zlen_nonneg d).
      destruct (wstep E B w) as [|st0 f0 s0|f0|] eqn:W; try discriminate.
      * injection HH as <- _ _. lia.
      * injection HH as -> -> ->. eapply err_stays; eauto.
      * injection HH as <- _ _. apply wstep_frame in W. lia.
  - split; [|exact K1]. rewrite HH in K5. pose proof (zlen_nonneg d). set (g := eff E i (i_nf s) (a ++ d)) in *.
    destruct (wstep E B g) as [|st0 f0 s0|f0|] eqn:W; try discriminate.
    + injection K5 as -> _ _. lia.
    + injection K5 as -> -> ->. eapply err_stays; eauto.
    + injection K5 as -> _ _. pose proof (size_of_range g). apply wstep_frame in W. lia.
Qed.

Lemma rs_consume : sat rs (consume_one_frame E).
Proof.
  intros c ev. unfold wp, consume_one_frame. pose proof SBUF_ok as SB.
  destruct (amqp_handle_input E (c_in c) (c_sbuf c)) as [res f s| |] eqn:HH; [|apply (comp_refl rs rs_comp)..].
  destruct (list_eq_dec Byte.byte_eq_dec (c_sbuf c) []) as [ED|HN].
  { rewrite ED in HH. unfold amqp_handle_input in HH. change (zlen (@nil byte) =? 0) with true in HH. cbn iota in HH. injection HH as <- <- <-.
    change (AMQP_STATUS_OK <? 0) with false. cbn iota. rewrite ED, skipn_nil. change (f_type no_frame =? 0) with true. cbn iota.
    apply rs_neutral; [|apply idle_log_nil]. destruct c; cbn in *; subst; repeat split. }
  destruct (Z.ltb_spec res 0) as [Neg|Pos].
  { split. { intros [T0 T] HS. destruct (T _ HN) as (st0 & f0 & K & _); [lia|]. rewrite HH in K. injection K as -> -> ->.
      split; [split; [exact T0|exact T]|]. split; [exact HS|reflexivity]. }
    intros i a HR HS _ HM. change (in_bytes [OBad res]) with (@nil byte) in *. change (frames [OBad res]) with (@nil frame). rewrite app_nil_r in *.
    split; [exact HS|]. left. destruct (handle_stuck _ _ _ _ HR HN HS HM _ _ _ HH Neg) as [T K].
    split; [exact T|]. split; [eexists; constructor|exact K]. }
  split. { intros [T0 T] HS. destruct (T _ HN) as (st0 & f0 & K & K2); [lia|]. rewrite HH in K. injection K as -> -> ->. lia. }
  intros i a HR HS _ HM.
  assert (XI : in_bytes (if f_type f =? 0 then [] else [OFrame f]) = []) by (destruct (f_type f =? 0); reflexivity).
  assert (XF : frames (if f_type f =? 0 then [] else [OFrame f]) = if f_type f =? 0 then [] else [f]) by (destruct (f_type f =? 0); reflexivity).
  rewrite XI, XF in *. rewrite !app_nil_r in *. cbn [c_in c_sbuf set_sbuf set_in].
  set (d := c_sbuf c) in *. pose proof (zlen_nonneg d) as D0.
  assert (LS : forall k, zlen (skipn k d) <= SOCK_BUFFER_SIZE) by (intros; unfold zlen in *; rewrite skipn_length; lia).
  split; [apply LS|]. right.
  destruct (handle_reads E _ _ _ _ HR HN HS HM) as [(-> & s' & K1 & K2 & K3)|[(res' & f' & s' & K1 & K2)|(B & HB & K1 & K2 & K3 & K4 & K5)]].
  - rewrite HH in K1. injection K1 as -> -> ->. exists true, (a ++ d). change (f_type no_frame =? 0) with true.
    rewrite zlen_length, skipn_all, app_nil_r. split; [exact K2|]. rewrite K3.
    split; [constructor|]. split; [auto|discriminate].
  - rewrite HH in K1. injection K1 as -> -> ->. lia.
  - rewrite HH in K5. set (g := eff E i (i_nf (c_in c)) (a ++ d)) in *. destruct (wstep E B g) as [|st f0 s0|f0|] eqn:W; try discriminate.
    + injection K5 as -> -> ->. exists false, g. change (f_type no_frame =? 0) with true. rewrite zlen_length, skipn_all, app_nil_r.
      split; [exists B; split; [reflexivity|split; [exact HB|apply wstep_more, W]]|].
      split; [constructor|]. split; [discriminate|intros Hi _; exact (K1 Hi)].
    + injection K5 as -> -> ->. pose proof (wstep_err E B g _ _ _ HB W). lia.
    + injection K5 as -> -> ->. exists false, []. split.
      { exists (next_base B g). split; [reflexivity|]. destruct HB as [HB1 HB2]. split; [split; [exact HB1|apply next_base_ok, HB2]|left; reflexivity]. }
      split.
      { change (eff E false (i_nf (st_of E (next_base B g) [])) ([] ++ skipn (Z.to_nat (size_of g + 8 - zlen a)) d)) with (skipn (Z.to_nat (size_of g + 8 - zlen a)) d).
        rewrite <- K4. rewrite <- (firstn_skipn (Z.to_nat (size_of g + 8)) g) at 1.
        destruct (wstep_frame_in B g f0 HB W) as (gen & HF). eapply fi_frame; [exact HF|constructor]. }
      split; [discriminate|intros Hi _; exact (K1 Hi)].
Qed.

Theorem rs_exec_all l c : Forall (call_ok (fun fm => 0 <= fm < M30)) l -> sat_at rs (exec_all N E l) c.
Proof.
  apply walk_exec_all; [exact rs_comp|exact rs_neutral|exact rs_recvd|exact rs_consume|exact rs_queue|exact rs_release|exact rs_tune].
Qed.
Lemma ub_frame s i a d : reads E s i a -> zlen d <= SOCK_BUFFER_SIZE -> (i = true -> is_magic (a ++ d) = false) ->
  amqp_handle_input E s d = HUB -> exists B, small B /\ wstep E B (eff E i (i_nf s) (a ++ d)) = WUB.
Proof.
  intros HR HL HM HH. destruct d as [|d0 d'] eqn:ED; [discriminate|]. rewrite <- ED in *.
  assert (HN : d <> []) by (rewrite ED; discriminate).
  destruct (handle_reads E s i a d HR HN HL HM) as [(-> & s' & K1 & _)|[(res' & f' & s' & K1 & _)|(B & HB & K1 & K2 & K3 & K4 & K5)]]; try congruence.
  rewrite HH in K5. exists B. split; [exact HB|]. destruct (wstep E B _) eqn:W; try discriminate. reflexivity.
Qed.
Lemma stuck_no_ub s d : stuck s -> zlen d <= SOCK_BUFFER_SIZE -> amqp_handle_input E s d <> HUB.
Proof.
  intros [_ T] HL HH. pose proof SBUF_ok. destruct d as [|d0 d'] eqn:ED; [discriminate|]. rewrite <- ED in *.
  destruct (T d) as (st & f & K & _); [rewrite ED; discriminate|lia|]. congruence.
Qed.
End Stuck.
