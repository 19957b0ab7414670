(** Logging in. *)
From Coq Require Import String ZArith List Bool Lia.
From Verif Require Import Base BaseFacts Codec CodecProofs TableModel TableSpec TableDec TableOps FramingStmt FramingGen FramingModel MethodSpec
  Frame FrameSpec FramingEnc FrameFacts Time Sasl Net NetApi NetSpec NetFacts NetSend NetRecv NetWalk NetAcct NetOrder NetWait NetOff NetCalls EncStatus NetRpc NetTyped NetKeep LoginSpec.
From Verif Require Prop_TableOps Prop_Sasl.
Import ListNotations.
Local Open Scope Z_scope.

(** encoding a method into a buffer of any size: the wire format, or an error, or
    out of bounds *)
Lemma method_to_bytes_any chan c i fs args buf st buf' enc :
  In (c, i, fs) catalogue -> well_typed fs args -> zlen buf < M31 ->
  amqp_frame_to_bytes (c_frame chan (AMethod c i fs args)) buf = FRet st buf' enc ->
  (st = AMQP_STATUS_OK /\ enc = ser_frame chan (AMethod c i fs args) /\ representable_args fs args = true /\ zlen enc <= zlen buf) \/ st < 0.
Proof.
  intros Hin Ht Hb. destruct (Z.leb_spec 20 (zlen buf)) as [H20|Hs].
  { intros H. destruct (frame_to_bytes_ok chan (AMethod c i fs args) buf (conj Hin Ht) (conj H20 Hb) ltac:(discriminate)) as (st2 & b2 & e2 & E2 & _ & C).
    rewrite H in E2. injection E2 as <- <- <-. destruct C as [(-> & -> & Hr & Hl & _)|[C _]]; [left; auto|right; exact C]. }
  pose proof (zlen_nonneg buf) as Hnn.
  unfold amqp_frame_to_bytes. cbn [c_frame f_type f_chan f_pay type_of].
  destruct (e_at W8 _ buf 0) as [m1|] eqn:H1; [|discriminate]. destruct (e_at W16 _ m1 1) as [m2|] eqn:H2; [|discriminate].
  change (1 =? AMQP_FRAME_BODY) with false. change (1 =? AMQP_FRAME_METHOD) with true. cbv iota.
  destruct (e_at W32 _ m2 _) as [m3|] eqn:H3; [|discriminate].
  assert (forall w v mem o mem', e_at w v mem o = Some mem' -> zlen mem' = zlen mem) as He by (intros w v mem o mem'; unfold e_at; apply zlen_write).
  assert (zlen m3 = zlen buf) as L3 by (apply He in H1, H2, H3; congruence).
  destruct (Z.leb_spec 12 (zlen buf)) as [H12|Hs12].
  - destruct (encode_sub_ok (7 + 4) (amqp_encode_method (method_id c i) args) m3 (ser_method fs args) (representable_args fs args)) as (st2 & out' & E2 & L & C).
    { lia. } { lia. } { lia. }
    { intros sub Hsub. destruct (encode_method_ok (c, i, fs) args sub Hin Ht Hsub) as (st' & m' & E' & L' & C').
      exists st', m'. split; [exact E'|]. split; [exact L'|]. exact C'. }
    unfold HEADER_SIZE. rewrite E2. destruct C as [(-> & Hr & Hf & ->)|(Hneg & C)].
    + pose proof (zlen_nonneg (ser_method fs args)). destruct (Z.ltb_spec (zlen (ser_method fs args)) 0); [lia|].
      rewrite e_at_ok in H1 by (cbn [wbytes]; lia). change (wnat W8) with 1%nat in H1. match type of H1 with Some ?x = _ => assert (x = m1) as H1' by congruence end. clear H1. rename H1' into H1.
      assert (zlen m1 = zlen buf) as L1 by (rewrite <- H1; rewrite zlen_patch; rewrite ?zlen_be; lia).
      rewrite e_at_ok in H2 by (cbn [wbytes]; lia). change (wnat W16) with 2%nat in H2. match type of H2 with Some ?x = _ => assert (x = m2) as H2' by congruence end. clear H2. rename H2' into H2.
      assert (zlen m2 = zlen buf) as L2 by (rewrite <- H2; rewrite zlen_patch; rewrite ?zlen_be; lia).
      unfold HEADER_SIZE in H3. rewrite e_at_ok in H3 by (cbn [wbytes]; lia). change (wnat W32) with 4%nat in H3. match type of H3 with Some ?x = _ => assert (x = m3) as H3' by congruence end. clear H3. rename H3' into H3.
      destruct (catalogue_ids c i fs Hin) as [_ Hi].
      set (B4 := be 4 (method_id c i)) in *. assert (LB4 : zlen B4 = 4) by apply zlen_be.
      rewrite <- H3. replace (7 + 4) with (7 + zlen B4) by lia. rewrite patch_step by lia.
      assert (PP : B4 ++ ser_method fs args = be 2 c ++ be 2 i ++ ser_method fs args) by (unfold B4; rewrite be4_split by auto; rewrite <- app_assoc; reflexivity).
      rewrite PP. set (p := be 2 c ++ be 2 i ++ ser_method fs args).
      assert (LP : zlen p = zlen (ser_method fs args) + 4) by (unfold p; rewrite !zlen_app, !zlen_be; lia).
      rewrite <- LP. destruct (frame_finish_ok buf 1 chan p) as (post & Lp & F); [lia|lia|].
      rewrite <- H2, <- H1. rewrite F. intros Hret. injection Hret as <- <- <-. left.
      split; [reflexivity|]. split; [reflexivity|]. split; [auto|]. rewrite zlen_wire. lia.
    + destruct (Z.ltb_spec st2 0); [|lia]. intros Hret. injection Hret as <- _ _. right. exact Hneg.
  - unfold encode_sub, HEADER_SIZE, FOOTER_SIZE. rewrite L3.
    assert (slice m3 (7 + 4) (sub_size (zlen buf) (7 + 4 + 1)) = None) as ->; [|discriminate].
    unfold slice. destruct (_ && _) eqn:Hsl; [|reflexivity]. exfalso. repeat (apply andb_true_iff in Hsl; destruct Hsl as [Hsl ?]).
    repeat match goal with X : (_ <=? _) = true |- _ => apply Z.leb_le in X end. rewrite L3 in *.
    assert (sub_size (zlen buf) (7 + 4 + 1) >= 2^60); [|lia]. unfold sub_size.
    rewrite <- (Z_mod_plus_full _ 1). rewrite Z.mod_small; lia.
Qed.

Ltac methodok := apply cat_in; reflexivity.
Ltac typedok := unfold well_typed; repeat (constructor; [split; [reflexivity|cbn; assumption || lia]|]); constructor.
Section Login.
Context (N : nat) (E : nat -> aenv).

(** the invariant: heartbeats off, nothing queued, the input state sane *)
Definition fresh (c : conn) : Prop := off c /\ c_queue c = [] /\ in_ok (c_in c) /\ zlen (c_outbuf c) < M31.

Lemma noblock_fresh t c ev : off c -> c_queue c = [] ->
  wp (amqp_simple_wait_frame_noblock N E t) c ev
    (fun p c' _ l => quiet_wait (opt (okf (fst p) (snd p))) c c' l /\ fst p <= 0)
    (fun _ _ _ => True).
Proof.
  intros Hoff Hq. unfold amqp_simple_wait_frame_noblock. apply wp_bind.
  eapply wp_conseq; [apply from_now_ok| |auto]; cbv beta.
  intros [r d] c1 ev1 l1 (-> & Hqu & (D1 & D0 & D2 & D3) & _). cbn [fst snd] in *.
  destruct (quiet_facts _ Hqu) as ((I1 & I2 & I3 & I4) & Io & Im).
  assert (quiet_wait [] c c l1) as Hq1.
  { split; [exact Hoff|]. split; [reflexivity|]. split; [exact I4|]. split; [apply quiet_output, Hqu|]. split; [exact Im|]. exists []. split; [reflexivity|exact I2]. }
  assert (r <> AMQP_STATUS_OK -> quiet_wait (opt (okf r no_frame)) c c l1 /\ r <= 0) as Herr.
  { intros Hr. rewrite okf_not by exact Hr. split; [exact Hq1|exact D1]. }
  destruct d as [d|]; [|apply wp_ret; rewrite app_nil_r; apply Herr; auto].
  destruct (Z.eqb_spec r AMQP_STATUS_OK) as [->|Hr]; cbn [negb]; [|apply wp_ret; rewrite app_nil_r; apply Herr; auto].
  wstep. rewrite Hq.
  assert (d <= amqp_time_infinite) as Hd by (apply D3; reflexivity).
  eapply wp_conseq; [apply (wp_split _ _ _ _ _ _ _ (wait_off N E d c ev1 Hoff Hd) (wait_inner_ok N E d c ev1))| |auto]; cbv beta.
  intros [r f] c2 ev2 l2 (W & Hw). cbn [fst snd] in *. split; [eapply quiet_wait_trans; eassumption|]. apply (wt_res _ _ _ _ _ _ Hw).
Qed.

Lemma list_fresh ids d c ev : fresh c ->
  wp (amqp_simple_wait_method_list N E 0 ids d) c ev
    (fun p c' _ l => fresh c' /\ no_lost l /\ no_output l /\
       (fst p = AMQP_STATUS_OK -> exists hbs f, no_hb hbs = [] /\ frames l = hbs ++ [f] /\
          server_method f (fst (snd p)) (snd (snd p)) /\ In (fst (snd p)) ids /\ well_typed (fields_of (fst (snd p))) (snd (snd p))))
    (fun _ _ _ => True).
Proof.
  intros (Hoff & Hq & Hin & Hb).
  assert (J (fun _ => True) c) as HJ by (split; [exact Hin|]; split; [unfold queued; rewrite Hq; constructor|exact Hb]).
  pose proof (ty_wait_list N E (fun _ => True) (fun _ _ => True) (fun _ _ _ => I) (fun _ _ => I) (fun _ _ => I) (fun _ _ => I) 0 ids d c ev HJ) as Ht.
  assert (wp (amqp_simple_wait_method_list N E 0 ids d) c ev (fun p c' _ l => off c' /\ c_queue c' = [] /\ no_lost l /\ no_output l /\
       (fst p = AMQP_STATUS_OK -> exists hbs f, no_hb hbs = [] /\ frames l = hbs ++ [f] /\ server_method f (fst (snd p)) (snd (snd p))))
    (fun _ _ _ => True)) as Hw.
  { unfold amqp_simple_wait_method_list. apply wp_bind. eapply wp_conseq; [apply tv_until_ok| |auto]; cbv beta.
    intros [r tvp] c1 ev1 l1 (-> & Hqu & Hr & Hn). cbn [fst snd] in *.
    destruct (quiet_facts _ Hqu) as ((I1 & I2 & I3 & I4) & Io & Im). pose proof (quiet_output _ Hqu) as Io2.
    assert (forall z : Z, z <> AMQP_STATUS_OK -> off c /\ c_queue c = [] /\ no_lost (l1 ++ []) /\ no_output (l1 ++ []) /\
       (z = AMQP_STATUS_OK -> exists hbs f, no_hb hbs = [] /\ frames (l1 ++ []) = hbs ++ [f] /\ server_method f 0 [])) as Herr.
    { intros z Hz. rewrite app_nil_r. do 4 (split; [assumption|]). contradiction. }
    destruct tvp as [tvp|]; [|apply wp_ret; apply Herr; cbn; auto].
    destruct (Z.eqb_spec r AMQP_STATUS_OK) as [->|Hr2]; cbn [negb]; [|apply wp_ret; apply Herr; exact Hr2].
    apply wp_bind. eapply wp_conseq; [apply noblock_fresh; assumption| |auto]; cbv beta.
    intros [r f] c2 ev2 l2 ((A1 & A2 & A3 & A4 & A5 & hbs & A6 & A7) & Hr2). cbn [fst snd] in *.
    assert (off c2 /\ c_queue c2 = [] /\ no_lost (l1 ++ l2) /\ no_output (l1 ++ l2)) as (B1 & B2 & B3 & B4).
    { split; [exact A1|]. split; [congruence|]. split; [apply no_lost_app; auto|apply no_output_app; auto]. }
    destruct (Z.eqb_spec r AMQP_STATUS_OK) as [->|Hr3]; cbn [negb].
    2:{ apply wp_ret. rewrite app_nil_r. do 4 (split; [assumption|]). contradiction. }
    destruct (_ || _) eqn:Hty; [apply wp_ret; rewrite app_nil_r; do 4 (split; [assumption|]); discriminate|].
    apply orb_false_iff in Hty. destruct Hty as [T1 T2]. apply negb_false_iff in T1, T2. apply Z.eqb_eq in T1, T2.
    apply wp_bind. unfold need. destruct (method_of f) as [[id m]|] eqn:Hm; [|apply wp_halt; exact I]. apply wp_ret.
    destruct (negb _); [apply wp_ret; rewrite app_nil_r; do 4 (split; [assumption|]); discriminate|].
    apply wp_ret. rewrite !app_nil_r. do 4 (split; [assumption|]). intros _. exists hbs, f. split; [exact A6|].
    split; [rewrite frames_app, I2; exact A7|]. split; [symmetry; exact T1|]. split; [symmetry; exact T2|]. cbn [fst snd]. unfold method_of in Hm. destruct (f_pay f); congruence. }
  eapply wp_conseq; [apply (wp_split _ _ _ _ _ _ _ Ht Hw)| |auto]; cbv beta.
  intros p c' ev' l (Ht' & A1 & A2 & A3 & A4 & A5).
  destruct Ht' as (J' & _ & Hp); [apply Forall_forall; auto|]. destruct J' as (J1 & J2 & J3).
  split; [split; [exact A1|]; split; [exact A2|]; split; assumption|]. split; [exact A3|]. split; [exact A4|].
  intros Hok. destruct (A5 Hok) as (hbs & f & B1 & B2 & B3). destruct (Hp Hok) as [B4 B5]. exists hbs, f. auto.
Qed.

(** sending a method while heartbeats are off *)
Lemma send_fresh c0 i fs m d c ev : fresh c -> In (c0, i, fs) catalogue -> well_typed fs m -> d <= amqp_time_infinite ->
  wp (amqp_send_method_inner N E 0 (method_id c0 i) m false d) c ev
    (fun r c' _ l => fresh c' /\ no_lost l /\ frames l = [] /\ keepf c c' /\ gens c' = gens c /\ zlen (c_outbuf c') = zlen (c_outbuf c) /\ r <= 0 /\
       (r = AMQP_STATUS_OK -> out_bytes l = ser_frame 0 (AMethod c0 i fs m)))
    (fun _ _ _ => True).
Proof.
  intros (Hoff & Hq & Hin & Hb) Hc Hm Hd. unfold amqp_send_method_inner. eapply wp_conseq; [apply send_frame_ok; exact Hd| |auto]; cbv beta.
  intros r c' ev' l Hs. pose proof (sent_f_res N E _ _ _ _ _ _ Hb Hs) as [Hr _]. pose proof (sent_f_facts _ _ _ _ _ _ Hs) as (F1 & _ & F3 & F4 & F5 & F6).
  destruct Hoff as (O1 & O2 & O3). destruct (F5 O3) as (G1 & G2 & G3 & G4). specialize (F6 O1 O2).
  destruct G1 as (S1 & S2 & S3 & S4 & S5). destruct G2 as (K1 & K2 & K3 & K4).
  split. { split; [split; [congruence|split; assumption]|]. split; [congruence|]. split; [rewrite S1; exact Hin|lia]. }
  split; [exact K4|]. split; [exact K2|]. split; [exact F3|]. split; [unfold gens; rewrite S1; reflexivity|]. split; [exact F4|]. split; [exact Hr|].
  intros ->. destruct Hs as (st & buf & enc & c1 & Hf & -> & _ & [(Hst & He & _)|(-> & Hs)]); [congruence|].
  rewrite (sf_all _ _ _ _ _ _ Hs eq_refl). destruct (method_to_bytes_any 0 c0 i fs m _ _ _ _ Hc Hm Hb Hf) as [(_ & -> & _)|K]; [reflexivity|discriminate].
Qed.

Lemma login_error_ok st c ev : wp (login_error st) c ev (fun r c' _ l => r = RLibrary st /\ closed c' l) (fun _ _ _ => True).
Proof.
  unfold login_error. apply wp_bind. eapply wp_conseq; [apply socket_close_ok| |auto]; cbv beta.
  intros r c' ev' l (_ & _ & _ & _ & H). apply wp_ret. rewrite app_nil_r. split; [reflexivity|]. unfold closed.
  destruct H as [(-> & [H|H])|(-> & _)]; auto.
Qed.

Lemma release_fresh c ev : fresh c ->
  wp amqp_release_buffers c ev
    (fun _ c' _ l => c' = set_gens c (fun k => S (gens c k)) /\ l = [] /\ fresh c')
    (fun _ _ _ => True).
Proof.
  intros (H1 & H2 & H3 & H4). unfold amqp_release_buffers. wstep. destruct (i_state _); try (apply wp_halt; exact I).
  rewrite H2. cbn [forallb negb]. apply wp_upd. rewrite H2. cbn [existsb]. split; [reflexivity|]. split; [reflexivity|].
  split; [exact H1|]. split; [exact H2|]. split; assumption.
Qed.
Lemma zlen_firstn_repeat (b : bytes) fm : 0 <= fm -> zlen (firstn (Z.to_nat fm) b ++ repeat x00 (Z.to_nat fm - Datatypes.length b)) = fm.
Proof. intros H. unfold zlen. rewrite app_length, firstn_length, repeat_length. lia. Qed.
Lemma tune_ok_res cm fm hb c ev : fresh c -> 0 <= fm < M30 -> 0 <= hb ->
  wp (amqp_tune_connection cm fm hb) c ev
    (fun r c' _ l => r <= 0 /\ no_output l /\ frames l = [] /\
       (r = AMQP_STATUS_OK -> frame_max c' = fm /\ c_chmax c' = cm /\ c_hb c' = hb /\ zlen (c_outbuf c') = fm))
    (fun _ _ _ => True).
Proof.
  intros Hf Hfm Hhb. unfold amqp_tune_connection. wstep. destruct (i_state _); try (apply wp_halt; exact I).
  wstep. destruct (Z.ltb_spec hb 0); [lia|]. apply wp_bind. eapply wp_conseq; [apply update_next_send_ok| |auto]; cbv beta.
  intros r c1 ev1 l1 (Hq & Hr & _ & Hc & _). destruct (quiet_facts _ Hq) as ((_ & I2 & _) & _). pose proof (quiet_output _ Hq) as Io.
  destruct (Z.eqb_spec r AMQP_STATUS_OK) as [->|Hn]; cbn [negb].
  2:{ apply wp_ret. rewrite app_nil_r. do 3 (split; [assumption|]). contradiction. }
  apply wp_bind. eapply wp_conseq; [apply update_next_recv_ok| |auto]; cbv beta.
  intros r c2 ev2 l2 (Hq2 & Hr2 & _ & Hc2 & _). destruct (quiet_facts _ Hq2) as ((_ & J2 & _) & _). pose proof (quiet_output _ Hq2) as Jo.
  destruct (Z.eqb_spec r AMQP_STATUS_OK) as [->|Hn]; cbn [negb].
  2:{ apply wp_ret. rewrite app_nil_r. split; [assumption|]. split; [apply no_output_app; auto|]. split; [rewrite frames_app, I2, J2; reflexivity|]. contradiction. }
  assert (frame_max c2 = fm /\ c_chmax c2 = cm /\ c_hb c2 = hb) as (E1 & E2 & E3).
  { destruct Hc2 as [->|[t2 ->]]; destruct Hc as [->|[t1 ->]]; repeat split. }
  apply wp_bind. unfold wp at 1, sys_alloc. destruct ev2 as [|[] ev2]; auto. destruct ok.
  - wstep. apply wp_ret. rewrite !app_nil_r. split; [cbv; discriminate|].
    split; [apply no_output_app; split; [exact Io|]; apply no_output_app; split; [exact Jo|repeat constructor]|].
    split; [rewrite !frames_app, I2, J2; reflexivity|]. intros _. do 3 (split; [assumption|]). apply zlen_firstn_repeat. lia.
  - wstep. apply wp_ret. rewrite !app_nil_r. split; [cbv; discriminate|].
    split; [apply no_output_app; split; [exact Io|]; apply no_output_app; split; [exact Jo|repeat constructor]|].
    split; [rewrite !frames_app, I2, J2; reflexivity|]. discriminate.
Qed.

Lemma agreed_channel s c : tune_channel_max s c = agreed_channel_max s c.
Proof.
  unfold tune_channel_max, agreed_channel_max, smaller. destruct (Z.eqb_spec s 0) as [->|]; cbn [negb andb].
  - destruct (Z.eqb_spec c 0) as [->|]; reflexivity.
  - destruct (Z.eqb_spec c 0) as [->|]; [rewrite orb_true_r|rewrite orb_false_r].
    + destruct (Z.eqb_spec s 0); [lia|reflexivity].
    + destruct (Z.ltb_spec s c); destruct (Z.eqb_spec (Z.min s c) 0); lia.
Qed.
Lemma agreed_frame s c : c <> 0 -> tune_limit s c = agreed_frame_max s c.
Proof.
  intros H. unfold tune_limit, agreed_frame_max, smaller. destruct (Z.eqb_spec s 0) as [->|]; cbn [negb andb]; [reflexivity|].
  destruct (Z.eqb_spec c 0); [contradiction|]. destruct (Z.ltb_spec s c); lia.
Qed.
Lemma agreed_beat s c : 0 <= s -> tune_limit s c = agreed_heartbeat s c.
Proof.
  intros Hs. unfold tune_limit, agreed_heartbeat, smaller. destruct (Z.eqb_spec c 0) as [->|].
  - destruct (Z.ltb_spec s 0); [lia|]. rewrite andb_false_r. reflexivity.
  - destruct (Z.eqb_spec s 0) as [->|]; cbn [negb andb]; [reflexivity|]. destruct (Z.ltb_spec s c); lia.
Qed.

Definition phase2 (vh : bytes) (cm fm hb : Z) (r : rpc_reply_t) (c' : conn) (l : list obs) : Prop :=
  match r with
  | RNone => False
  | RLibrary st => closed c' l \/ exists scm sfm shb l1 l2, l = l1 ++ l2 /\ tuned scm sfm shb cm fm hb l1 /\ st < 0 /\ st <> AMQP_STATUS_TIMEOUT
  | RServer id m => (id = CONNECTION_CLOSE \/ id = CHANNEL_CLOSE) /\ exists pre f, frames l = pre ++ [f] /\ server_method f id m
  | RNormal id m => id = 0 /\ m = [] /\ exists scm sfm shb l1 l2, l = l1 ++ l2 /\ tuned scm sfm shb cm fm hb l1 /\ opened vh l2 /\
      c_chmax c' = agreed_channel_max scm cm /\ frame_max c' = agreed_frame_max sfm fm /\ c_hb c' = agreed_heartbeat shb hb /\
      zlen (c_outbuf c') = frame_max c' /\ 20 <= frame_max c' < M30
  end.

Lemma maybe_release_lim c ev : wp amqp_maybe_release_buffers c ev
  (fun _ c' _ l => l = [] /\ (c' = c \/ exists g, c' = set_gens c g)) (fun _ _ _ => True).
Proof.
  unfold amqp_maybe_release_buffers, amqp_release_buffers. wstep. destruct (amqp_release_buffers_ok c); [|apply wp_ret; auto].
  wstep. destruct (i_state _); try (apply wp_halt; exact I). destruct (negb _); [apply wp_halt; exact I|]. apply wp_upd. eauto.
Qed.
Lemma release_lim c ev : wp amqp_release_buffers c ev
  (fun _ c' _ l => l = [] /\ exists g, c' = set_gens c g) (fun _ _ _ => True).
Proof.
  unfold amqp_release_buffers. wstep. destruct (i_state _); try (apply wp_halt; exact I). destruct (negb _); [apply wp_halt; exact I|]. apply wp_upd. eauto.
Qed.
(** opening the virtual host *)
Lemma open_ok_res vh d c ev : zlen vh < M63 -> 20 <= zlen (c_outbuf c) < M31 ->
  wp (login_open N E vh d) c ev
    (fun r c' _ l => match r with
       | RNone => False
       | RLibrary st => st < 0 /\ (st = AMQP_STATUS_TIMEOUT -> closed c' l)
       | RServer id m => (id = CONNECTION_CLOSE \/ id = CHANNEL_CLOSE) /\ exists pre f, frames l = pre ++ [f] /\ server_method f id m
       | RNormal id m => id = 0 /\ m = [] /\ opened vh l /\ c_chmax c' = c_chmax c /\ frame_max c' = frame_max c /\ c_hb c' = c_hb c /\ zlen (c_outbuf c') = zlen (c_outbuf c)
       end)
    (fun _ _ _ => True).
Proof.
  intros Hv Hb. unfold login_open. apply wp_bind.
  set (m := [("virtual_host", VBytes vh); ("capabilities", VBytes []); ("insist", VBool 1)]%string).
  pose proof (simple_rpc_inner_ok N E 0 CONNECTION_OPEN [CONNECTION_OPEN_OK] m d c ev [] (proj2 Hb) (Forall_nil _)) as H.
  eapply wp_conseq; [exact H| |auto]; cbv beta. clear H. cbn [app]. intros r c1 ev1 l1 Ho. destruct r as [|id rm|st|id rm].
  - exfalso. destruct Ho as [st ? K |st ? ? ? K |st c2 l0 l2 l3 o Hst Hq -> Hs G Hm]; try discriminate.
    destruct o as [f|]; [|destruct Hm as (? & ? & K & _); discriminate].
    unfold reply_of in Hm. destruct (ga_hit _ _ _ _ _ G f eq_refl) as [Hp _]. unfold concerns_rpc, method_of in Hp. apply andb_true_iff in Hp. destruct Hp as [_ Hp].
    destruct (f_pay f); try discriminate. destruct (existsb _ _); discriminate.
  - destruct (rpc_normal _ _ _ _ _ _ _ _ _ _ Ho eq_refl) as (Hid & _). destruct Hid as [<-|[]].
    destruct Ho as [st ? K |st ? ? ? K |st c2 l0 l2 l3 o Hst Hq -> Hs G Hm]; try discriminate.
    destruct o as [f|]; [|destruct Hm as (? & ? & K & _); discriminate].
    assert (server_method f CONNECTION_OPEN_OK rm) as Hsm.
    { destruct (ga_hit _ _ _ _ _ G f eq_refl) as [Hp _]. unfold concerns_rpc, method_of in Hp. apply andb_true_iff in Hp. destruct Hp as [Ht Hp].
      apply Z.eqb_eq in Ht. unfold reply_of in Hm. destruct (f_pay f) as [|i mm| | |] eqn:Hpay; try discriminate.
      destruct (existsb _ _); [|discriminate]. injection Hm as <- <-. split; [exact Ht|]. split; [|exact Hpay].
      apply orb_true_iff in Hp. destruct Hp as [Hp|Hp]; apply andb_true_iff in Hp; destruct Hp as [Hp _]; apply Z.eqb_eq in Hp; exact Hp. }
    destruct (ga_last _ _ _ _ _ G f eq_refl) as [pre Hpre].
    pose proof (sent_f_facts _ _ _ _ _ _ Hs) as (_ & _ & F3 & F4 & _). pose proof (ga_keep _ _ _ _ _ G) as K.
    assert (opened vh ((l0 ++ l2) ++ l3)) as Hop.
    { exists (l0 ++ l2), l3, pre, f, rm. split; [reflexivity|]. split; [|split; [apply (ga_whole _ _ _ _ _ G); discriminate|split; [exact Hpre|exact Hsm]]].
      rewrite out_bytes_app. destruct (quiet_facts _ Hq) as (_ & -> & _).
      destruct Hs as (st' & buf & enc & c0 & Hf & -> & _ & [(H1 & -> & _)|(-> & Hs)]); [congruence|].
      rewrite (sf_all _ _ _ _ _ _ Hs Hst). cbn [app].
      assert (well_typed [("virtual_host", ShortStr); ("capabilities", ShortStr); ("insist", Bit)]%string m) as Hwt.
      { unfold m. pose proof (eq_refl : zlen (@nil byte) = 0). typedok. }
      destruct (method_to_bytes_any 0 10 40 [("virtual_host", ShortStr); ("capabilities", ShortStr); ("insist", Bit)]%string m _ _ _ _ ltac:(methodok) Hwt (proj2 Hb) Hf)
        as [(_ & -> & _)|Hneg]; [reflexivity|discriminate]. }
    apply wp_bind. eapply wp_conseq; [apply maybe_release_lim| |auto]; cbv beta. intros _ c3 ev3 l4 (-> & Hc3). apply wp_ret. rewrite !app_nil_r. rewrite app_assoc.
    destruct F3 as (F31 & _ & F33 & F34). destruct K as (K1 & K2 & K3 & K4 & _).
    split; [reflexivity|]. split; [reflexivity|]. split; [exact Hop|]. destruct Hc3 as [->|[g ->]]; cbn; (split; [congruence|]); (split; [unfold frame_max in *; cbn; congruence|]); split; congruence.
  - apply wp_ret. rewrite app_nil_r. split.
    + destruct Ho as [st' ? K |st' ? ? ? K |st' c2 l0 l2 l3 o Hst Hq -> Hs G Hm]; try congruence.
      destruct o as [f|]; [|destruct Hm as (? & ? & K & _); congruence].
      unfold reply_of in Hm. destruct (f_pay f); try discriminate. destruct (existsb _ _); discriminate.
    + intros ->. apply (rpc_timeout _ _ _ _ _ _ _ _ Ho eq_refl).
  - apply wp_ret. rewrite app_nil_r. destruct (rpc_server _ _ _ _ _ _ _ _ _ _ Ho eq_refl) as (pre & f & H1 & H2 & H3 & H4).
    split; [destruct H4 as [[_ H4]|[_ H4]]; auto|]. exists pre, f. split; [exact H1|]. split; [exact H2|]. split; [destruct H4 as [[H4 _]|[H4 _]]; exact H4|exact H3].
Qed.

Lemma after_release_ok vh cm fm hb d c ev : fresh c -> zlen vh < M63 -> 0 <= cm < M16 -> 0 <= fm < M30 -> 0 <= hb < M16 -> d <= amqp_time_infinite ->
  wp (after_release N E vh cm fm hb d) c ev (fun r c' _ l => phase2 vh cm fm hb r c' l) (fun _ _ _ => True).
Proof.
  intros Hf Hv Hcm Hfm Hhb Hd. unfold after_release. apply wp_bind. eapply wp_conseq; [apply list_fresh; exact Hf| |auto]; cbv beta.
  intros [r [id m]] c1 ev1 l1 (Hf1 & Hlo & Hno & Hok). cbn [fst snd] in Hok.
  assert (forall (st : Z) (c : conn) (ev : list event) (l : list obs), wp (login_error st) c ev (fun b c2 ev2 l2 => phase2 vh cm fm hb b c2 (l ++ l2)) (fun _ _ _ => True)) as Herr.
  { intros st c0 ev0 l0. eapply wp_conseq; [apply login_error_ok| |auto]; cbv beta. intros r0 c2 ev2 l2 (-> & H). left.
    destruct H as [H|H]; [left; exact H|right; apply in_or_app; auto]. }
  destruct (Z.eqb_spec r AMQP_STATUS_OK) as [->|]; cbn [negb]; [|apply Herr].
  destruct (Hok eq_refl) as (hbs & f & H1 & H2 & H3 & H4 & H5). clear Hok.
  destruct (Z.eqb_spec id CONNECTION_CLOSE) as [->|Hn].
  { apply wp_ret. rewrite app_nil_r. split; [auto|]. exists hbs, f. auto. }
  destruct H4 as [<-|[<-|[]]]; [|contradiction]. pose proof (tune_members m H5) as (scm & sfm & shb & ->).
  assert (0 <= scm < 65536 /\ 0 <= sfm < 2^32 /\ 0 <= shb < 65536) as (R1 & R2 & R3).
  { clear - H5. assert (fields_of CONNECTION_TUNE = [("channel_max", Short); ("frame_max", Long); ("heartbeat", Short)]%string) as E1 by (vm_compute; reflexivity).
    rewrite E1 in H5. unfold well_typed in H5. repeat match goal with H : Forall2 _ (_ :: _) _ |- _ => inversion H; clear H; subst end. cbn in *. lia. }
  do 3 (apply wp_bind; unfold need at 1; match goal with |- context [get_int ?x ?y] => change (get_int x y) with (Some scm) || change (get_int x y) with (Some sfm) || change (get_int x y) with (Some shb) end; apply wp_ret; cbv beta).
  cbv zeta. assert (u16 scm = scm) as -> by (apply Z.mod_small; lia). assert (u16 shb = shb) as -> by (apply Z.mod_small; lia). assert (u32 sfm = sfm) as -> by (apply Z.mod_small; lia).
  pose proof (tune_chmax_range scm cm ltac:(lia) Hcm) as Q1. pose proof (tune_limit_range sfm fm M30 ltac:(lia) Hfm) as Q2. pose proof (tune_limit_range shb hb M16 ltac:(lia) Hhb) as Q3.
  apply wp_bind. eapply wp_conseq; [apply tune_ok_res; [exact Hf1|exact Q2|lia]| |auto]; cbv beta.
  intros r c2 ev2 l2 (Hr & T1 & T2 & T3). destruct (Z.ltb_spec r 0).
  { cbn [app]. eapply wp_conseq; [apply (Herr r c2 ev2 (l1 ++ l2))|cbv beta; intros ? ? ? ? G; rewrite <- !app_assoc in G; exact G|auto]. }
  assert (r = AMQP_STATUS_OK) as -> by (unfold AMQP_STATUS_OK; lia). destruct (T3 eq_refl) as (T4 & T5 & T6 & T7). clear T3.
  apply wp_bind. unfold amqp_send_method_inner. eapply wp_conseq; [apply send_frame_ok; exact Hd| |auto]; cbv beta.
  intros r c3 ev3 l3 Hs. assert (zlen (c_outbuf c2) < M31) as Hb2 by lia. pose proof (sent_f_res N E _ _ _ _ _ _ Hb2 Hs) as [Hr3 _]. pose proof (sent_f_facts _ _ _ _ _ _ Hs) as (_ & _ & F3 & F4 & _).
  destruct (Z.ltb_spec r 0).
  { cbn [app]. eapply wp_conseq; [apply (Herr r c3 ev3 (l1 ++ l2 ++ l3))|cbv beta; intros ? ? ? ? G; rewrite <- !app_assoc in G; exact G|auto]. }
  assert (r = AMQP_STATUS_OK) as -> by (unfold AMQP_STATUS_OK; lia).
  assert (out_bytes l3 = tune_ok (tune_channel_max scm cm) (tune_limit sfm fm) (tune_limit shb hb) /\ 20 <= tune_limit sfm fm) as [Hout H20].
  { destruct Hs as (st & buf & enc & c0 & He & -> & _ & [(K1 & K2 & _)|(-> & Hs)]); [congruence|]. rewrite (sf_all _ _ _ _ _ _ Hs eq_refl).
    match type of He with amqp_frame_to_bytes (mkFrame _ _ (PMethod _ ?mm) _) _ = _ => set (m := mm) in * end.
    assert (well_typed [("channel_max", Short); ("frame_max", Long); ("heartbeat", Short)]%string m) as Hwt by (unfold m; typedok).
    destruct (method_to_bytes_any 0 10 31 [("channel_max", Short); ("frame_max", Long); ("heartbeat", Short)]%string m (c_outbuf c2) AMQP_STATUS_OK buf enc
       ltac:(methodok) Hwt ltac:(lia) He) as [(_ & -> & _ & Hl)|Hneg]; [|discriminate]. split; [reflexivity|].
    assert (zlen (ser_frame 0 (AMethod 10 31 [("channel_max", Short); ("frame_max", Long); ("heartbeat", Short)]%string m)) = 20); [|lia].
    unfold ser_frame. rewrite zlen_wire. cbn [ser_payload]. unfold m. unfold ser_method. cbn -[be Z.add]. rewrite app_nil_r, !zlen_app, !zlen_be. lia. }
  apply wp_bind. eapply wp_conseq; [apply release_lim| |auto]; cbv beta. intros _ c4 ev4 l4 (-> & g & ->).
  cbn [app].
  assert (fm <> 0) as Hfm0.
  { intros ->. unfold tune_limit in H20. destruct (negb _ && _) eqn:Hx; [|lia]. apply andb_true_iff in Hx. destruct Hx as [_ Hx]. apply Z.ltb_lt in Hx. lia. }
  rewrite agreed_channel, (agreed_frame _ _ Hfm0), (agreed_beat shb hb (proj1 R3)) in *.
  assert (tuned scm sfm shb cm fm hb (l1 ++ l2 ++ l3)) as Htuned.
  { exists (l1 ++ l2), l3, hbs, f. split; [apply app_assoc|]. split; [apply no_output_app; auto|]. split; [rewrite frames_app, T2, app_nil_r; exact H2|].
    split; [exact H1|]. split; [exact H3|]. do 3 (split; [assumption|]). exact Hout. }
  destruct F3 as (F31 & _ & F33 & F34).
  eapply wp_conseq; [apply open_ok_res; [exact Hv|cbn; lia]| |auto]; cbv beta.
  intros r c5 ev5 l5 Hop. replace (l1 ++ l2 ++ l3 ++ l5) with ((l1 ++ l2 ++ l3) ++ l5) by (rewrite <- !app_assoc; reflexivity).
  destruct r as [|rid rm|st|rid rm]; cbn [phase2].
  - exact Hop.
  - destruct Hop as (-> & -> & O1 & O2 & O3 & O4 & O5). split; [reflexivity|]. split; [reflexivity|]. exists scm, sfm, shb, (l1 ++ l2 ++ l3), l5.
    split; [reflexivity|]. split; [exact Htuned|]. split; [exact O1|]. cbn in O2, O4, O5. unfold frame_max in *. cbn in O3.
    split; [congruence|]. split; [congruence|]. split; [congruence|]. split; [congruence|]. rewrite O3, F31, T4. split; [exact H20|exact (proj2 Q2)].
  - destruct Hop as [O1 O2]. destruct (Z.eq_dec st AMQP_STATUS_TIMEOUT) as [->|Hnt].
    + left. destruct (O2 eq_refl) as [G|G]; [left; exact G|right; apply in_or_app; auto].
    + right. exists scm, sfm, shb, (l1 ++ l2 ++ l3), l5. auto.
  - destruct Hop as (O1 & pre & g0 & O2 & O3). split; [exact O1|]. exists (frames (l1 ++ l2 ++ l3) ++ pre), g0. split; [|exact O3].
    rewrite frames_app, O2. apply app_assoc.
Qed.

Lemma header_ok d c ev :
  wp (send_header_inner N d) c ev
    (fun r c' _ l => c' = c /\ no_lost l /\ frames l = [] /\ (r = AMQP_STATUS_OK -> out_bytes l = amqp_header \/ out_bytes l = []))
    (fun _ _ _ => True).
Proof.
  unfold send_header_inner. apply wp_bind. eapply wp_conseq; [apply try_send_ok| |auto]; cbv beta.
  intros r c1 ev1 l (-> & Hs & Hp & _ & Hr). change (zlen protocol_header) with 8 in *.
  pose proof (idle_input _ (sendlog_input _ Hs)) as (I1 & I2 & I3 & I4).
  destruct (Z.eqb_spec r 8) as [->|Hne]; apply wp_ret; rewrite app_nil_r; (split; [reflexivity|]); (split; [assumption|]); (split; [assumption|]).
  - intros _. left. destruct (Hr ltac:(lia)) as [Hz _]. destruct Hp as [rest Hp]. change amqp_header with protocol_header. rewrite Hp.
    assert (zlen rest = 0) as H0. { pose proof (f_equal zlen Hp) as G. rewrite zlen_app in G. change (zlen protocol_header) with 8 in G. lia. }
    apply zlen_0_nil in H0. subst rest. rewrite app_nil_r. reflexivity.
  - intros ->. right. destruct (Hr ltac:(cbv; discriminate)) as [Hz _]. apply zlen_0_nil. unfold AMQP_STATUS_OK in Hz. lia.
Qed.

Definition valid_limits (cm fm hb : Z) : Prop := 0 <= cm <= 65535 /\ 0 <= fm /\ 0 <= hb <= 65535.
Definition login_post (pf : string) (vh : bytes) (cm fm hb : Z) (p : option table) (cr : credentials) (c : conn) (r : rpc_reply_t) (c' : conn) (l : list obs) : Prop :=
  match r with
  | RNone => False
  | RLibrary st =>
      (st = AMQP_STATUS_INVALID_PARAMETER /\ c' = c /\ l = [] /\ ~ valid_limits cm fm hb) \/
      closed c' l \/
      exists hdr props sprops scm sfm shb l1 l2 l3, l = l1 ++ l2 ++ l3 /\ (hdr = amqp_header \/ hdr = []) /\
        greeted pf p cr props sprops hdr l1 /\ tuned scm sfm shb cm fm hb l2 /\ st < 0 /\ st <> AMQP_STATUS_TIMEOUT
  | RServer id m => (id = CONNECTION_CLOSE \/ id = CHANNEL_CLOSE) /\ exists pre f, frames l = pre ++ [f] /\ server_method f id m
  | RNormal id m => id = 0 /\ m = [] /\ exists hdr props sprops scm sfm shb l1 l2 l3, l = l1 ++ l2 ++ l3 /\ (hdr = amqp_header \/ hdr = []) /\
      greeted pf p cr props sprops hdr l1 /\ tuned scm sfm shb cm fm hb l2 /\ opened vh l3 /\
      c_chmax c' = agreed_channel_max scm cm /\ frame_max c' = agreed_frame_max sfm fm /\ c_hb c' = agreed_heartbeat shb hb /\
      zlen (c_outbuf c') = frame_max c' /\ 20 <= frame_max c' < M30 /\
      c_sprops c' = sprops /\ exists g, c_cprops c' = Some (props, g) /\ (g < gens c' 0)%nat
  end.

Lemma tune_phase vh cm fm hb d c ev : fresh c -> zlen vh < M63 -> 0 <= cm < M16 -> 0 <= fm < M30 -> 0 <= hb < M16 -> d <= amqp_time_infinite ->
  wp (login_tune N E vh cm fm hb d) c ev (fun r c' _ l => phase2 vh cm fm hb r c' l /\ c_cprops c' = c_cprops c /\ c_sprops c' = c_sprops c /\ (gens c 0 < gens c' 0)%nat) (fun _ _ _ => True).
Proof.
  intros Hf Hv Hcm Hfm Hhb Hd. rewrite login_tune_eq. apply wp_bind. eapply wp_conseq; [apply release_fresh; exact Hf| |auto]; cbv beta.
  intros _ c1 ev1 l1 (-> & -> & Hf1). cbn [app].
  eapply wp_conseq; [apply (wp_split _ _ _ _ _ _ _ (after_release_ok vh cm fm hb d _ ev1 Hf1 Hv Hcm Hfm Hhb Hd) (kept_after_release N E vh cm fm hb d _ ev1))| |auto]; cbv beta.
  intros r c2 ev2 l2 (H & K1 & K2 & K3). split; [exact H|]. split; [exact K1|]. split; [exact K2|]. specialize (K3 0). change (gens (set_gens c (fun k => S (gens c k))) 0) with (S (gens c 0)) in K3. lia.
Qed.

Lemma sasl_answer_ok nomem cr resp : sasl_response nomem cr = RBytes resp -> resp = sasl_answer cr.
Proof.
  destruct cr as [u p|i]; cbn [sasl_response sasl_answer].
  - rewrite Prop_Sasl.C31_plain_response. destruct nomem; [discriminate|]. intros H. injection H as <-. reflexivity.
  - destruct i as [|x i]; [destruct nomem; discriminate|]. rewrite Prop_Sasl.C31_external_response_partial by discriminate. destruct nomem; [discriminate|]. intros H. injection H as <-. reflexivity.
Qed.
Lemma merge_ok oom pf p props n : zlen (lit pf) < M63 -> cprops_fine p -> amqp_merge_capabilities oom (default_properties pf) p 0 = Some (inr props, n) -> properties_sent pf p props.
Proof.
  intros Hp Ht H. destruct (default_fine pf Hp) as [D1 D2]. destruct p as [t|].
  - destruct Ht as [T1 T2]. destruct (Prop_TableOps.C23_merge_sound oom (default_properties pf) t 0%nat D2 T2) as (r & n' & E1 & R).
    pose proof (eq_trans (eq_sym H) E1) as E2. injection E2 as <- _. apply R. reflexivity.
  - unfold amqp_merge_capabilities in H. pose proof (Prop_TableOps.C22_clone_faithful oom (default_properties pf) 0) as K.
    destruct (amqp_table_clone oom (default_properties pf) 0) as [[e|m] k]; [discriminate|]. destruct (K m eq_refl) as [-> _]. injection H as <- _. reflexivity.
Qed.

Lemma login_inner_ok pf vh cm fm hb p t cr c ev : fresh c -> zlen (lit pf) < M63 -> zlen vh < M63 -> fm < M30 -> cprops_fine p -> cred_fine cr ->
  wp (amqp_login_inner N E pf vh cm fm hb p t cr) c ev (fun r c' _ l => login_post pf vh cm fm hb p cr c r c' l) (fun _ _ _ => True).
Proof.
  intros Hf Hpf Hvh Hfm Hcp Hcr. unfold amqp_login_inner.
  destruct ((cm <? 0) || (65535 <? cm)) eqn:G1.
  { apply wp_ret. left. split; [reflexivity|]. split; [reflexivity|]. split; [reflexivity|]. apply orb_true_iff in G1. unfold valid_limits. destruct G1 as [G1|G1]; apply Z.ltb_lt in G1; lia. }
  destruct (Z.ltb_spec fm 0) as [G2|G2].
  { apply wp_ret. left. split; [reflexivity|]. split; [reflexivity|]. split; [reflexivity|]. unfold valid_limits. lia. }
  destruct ((hb <? 0) || (65535 <? hb)) eqn:G3.
  { apply wp_ret. left. split; [reflexivity|]. split; [reflexivity|]. split; [reflexivity|]. apply orb_true_iff in G3. unfold valid_limits. destruct G3 as [G3|G3]; apply Z.ltb_lt in G3; lia. }
  apply orb_false_iff in G1, G3. destruct G1 as [G1 G1']. destruct G3 as [G3 G3']. apply Z.ltb_ge in G1, G1', G3, G3'.
  assert (forall (st : Z) (c1 : conn) (ev1 : list event) (l : list obs), wp (login_error st) c1 ev1 (fun b c2 ev2 l2 => login_post pf vh cm fm hb p cr c b c2 (l ++ l2)) (fun _ _ _ => True)) as Herr.
  { intros st c1 ev1 l0. eapply wp_conseq; [apply login_error_ok| |auto]; cbv beta. intros r0 c2 ev2 l2 (-> & H). right; left.
    destruct H as [H|H]; [left; exact H|right; apply in_or_app; auto]. }
  apply wp_bind. eapply wp_conseq; [apply from_now_ok| |auto]; cbv beta.
  intros [r d] c1 ev1 l1 (-> & Hq1 & (D1 & D0 & D2 & D3) & _). cbn [fst snd] in *.
  destruct (quiet_facts _ Hq1) as ((I1 & I2 & I3 & I4) & Io & Im).
  destruct d as [d|]; [|apply Herr]. destruct (Z.eqb_spec r AMQP_STATUS_OK) as [->|Hr]; cbn [negb]; [|apply Herr].
  assert (d <= amqp_time_infinite) as Hd by (apply D3; reflexivity). clear D0 D1 D2 D3.
  apply wp_bind. eapply wp_conseq; [apply header_ok| |auto]; cbv beta. intros r c2 ev2 l2 (-> & Hlo2 & Hfr2 & Hh).
  destruct (Z.eqb_spec r AMQP_STATUS_OK) as [->|Hr]; cbn [negb].
  2:{ eapply wp_conseq; [apply (Herr r c ev2 (l1 ++ l2))|cbv beta; intros ? ? ? ? G; rewrite <- !app_assoc in G; exact G|auto]. }
  specialize (Hh eq_refl).
  unfold simple_wait_method_inner. apply wp_bind. eapply wp_conseq; [apply list_fresh; exact Hf| |auto]; cbv beta.
  intros [r [id m]] c3 ev3 l3 (Hf3 & Hlo3 & Hno3 & Hok). cbn [fst snd] in Hok.
  destruct (Z.eqb_spec r AMQP_STATUS_OK) as [->|Hr]; cbn [negb].
  2:{ eapply wp_conseq; [apply (Herr r c3 ev3 (l1 ++ l2 ++ l3))|cbv beta; intros ? ? ? ? G; rewrite <- !app_assoc in G; exact G|auto]. }
  destruct (Hok eq_refl) as (hbs & f & H1 & H2 & H3 & H4 & H5). clear Hok. destruct H4 as [<-|[]].
  destruct (start_members m H5) as (va & vb & sp & me & lo & ->).
  do 2 (apply wp_bind; unfold need at 1; match goal with |- context [get_int ?x ?y] => change (get_int x y) with (Some va) || change (get_int x y) with (Some vb) end; apply wp_ret; cbv beta).
  destruct (negb (va =? 0) || negb (vb =? 9)) eqn:Hver.
  { cbn [app]. eapply wp_conseq; [apply (Herr AMQP_STATUS_INCOMPATIBLE_AMQP_VERSION c3 ev3 (l1 ++ l2 ++ l3))|cbv beta; intros ? ? ? ? G; rewrite <- !app_assoc in G; exact G|auto]. }
  apply orb_false_iff in Hver. destruct Hver as [V1 V2]. apply negb_false_iff in V1, V2. apply Z.eqb_eq in V1, V2. subst va vb.
  apply wp_bind. unfold need at 1. match goal with |- context [get_table ?x ?y] => change (get_table x y) with (Some sp) end. apply wp_ret. cbv beta. cbn [app].
  apply wp_bind. unfold sys_clone at 1, wp at 1. destruct ev3 as [|[| | | | | |oom] ev4]; try exact I. cbn [app].
  pose proof (Prop_TableOps.C22_clone_faithful oom sp 0) as Hcl.
  destruct (fst (amqp_table_clone oom sp 0)) as [e|sp'] eqn:Hfst.
  { eapply wp_conseq; [apply (Herr e c3 ev4 (l1 ++ l2 ++ l3))|cbv beta; intros ? ? ? ? G; rewrite <- !app_assoc in G; exact G|auto]. }
  destruct (amqp_table_clone oom sp 0) as [rr nn] eqn:Hcl2. cbn [fst] in Hfst. subst rr. destruct (Hcl sp' eq_refl) as [-> _].
  wstep. apply wp_bind. unfold need at 1. match goal with |- context [get_bytes ?x ?y] => change (get_bytes x y) with (Some me) end. apply wp_ret. cbv beta. cbn [app].
  destruct (Prop_Sasl.C30_whole_words me (cred_method cr)) as (found & -> & Hw).
  set (c4 := set_sprops c3 sp).
  assert (fresh c4) as Hf4 by exact Hf3.
  destruct found.
  2:{ eapply wp_conseq; [apply (Herr AMQP_STATUS_BROKER_UNSUPPORTED_SASL_METHOD c4 ev4 (l1 ++ l2 ++ l3))|cbv beta; intros ? ? ? ? G; rewrite <- !app_assoc in G; exact G|auto]. }
  assert (Prop_Sasl.is_word (mechanism cr) me) as Hword by (destruct cr; apply (proj1 Hw eq_refl)).
  apply wp_bind. unfold sys_alloc at 1, wp at 1. destruct ev4 as [|[| | | | |ok|] ev5]; try exact I. 
  pose proof (sasl_fine (negb ok) cr Hcr) as Hsf. destruct (sasl_response (negb ok) cr) as [resp| |] eqn:Hsasl; [| |contradiction].
  2:{ eapply wp_conseq; [apply (Herr AMQP_STATUS_NO_MEMORY c4 ev5 (l1 ++ l2 ++ l3 ++ [OAlloc ok]))|cbv beta; intros ? ? ? ? G; rewrite <- !app_assoc in G; exact G|auto]. }
  apply sasl_answer_ok in Hsasl. subst resp.
  apply wp_bind. unfold sys_clone at 1, wp at 1. destruct ev5 as [|[| | | | | |oom2] ev6]; try exact I. cbn [app].
  destruct (merge_fine oom2 pf p Hpf Hcp) as (mr & mn & Hmr & Hmt). rewrite Hmr. apply wp_bind. unfold need at 1. apply wp_ret. cbv beta. cbn [fst app].
  destruct mr as [e|props].
  { eapply wp_conseq; [apply (Herr e c4 ev6 (l1 ++ l2 ++ l3 ++ [OAlloc ok]))|cbv beta; intros ? ? ? ? G; rewrite <- !app_assoc in G; exact G|auto]. }
  apply merge_ok in Hmr; [|assumption|assumption].
  wstep. set (c5 := set_cprops c4 (props, gens c4 0)). assert (fresh c5) as Hf5 by exact Hf3.
  assert (zlen (sasl_method_name (cred_method cr)) < M63) as Z1 by (destruct cr; vm_compute; reflexivity).
  assert (zlen (lit "en_US") < M63) as Z2 by (vm_compute; reflexivity).
  set (margs := [("client_properties", VTable props); ("mechanism", VBytes (sasl_method_name (cred_method cr)));
                                ("response", VBytes (sasl_answer cr)); ("locale", VBytes (lit "en_US"))]%string).
  assert (well_typed [("client_properties", Tbl); ("mechanism", ShortStr); ("response", LongStr); ("locale", ShortStr)]%string margs) as Hwt by (unfold margs; typedok).
  apply wp_bind. change CONNECTION_START_OK with (method_id 10 11).
  eapply wp_conseq; [apply (wp_split _ _ _ _ _ _ _ (send_fresh 10 11 _ margs d c5 ev6 Hf5 ltac:(methodok) Hwt Hd) (kept_send_method_inner N E 0 (method_id 10 11) margs false d c5 ev6))| |auto]; cbv beta.
  intros r c6 ev7 l7 ((Hf6 & Hlo7 & Hfr7 & _ & Hg7 & _ & Hr7 & Hout7) & K1 & K2 & _).
  destruct (Z.ltb_spec r 0).
  { eapply wp_conseq; [apply (Herr r c6 ev7 (l1 ++ l2 ++ l3 ++ [OAlloc ok] ++ l7))|cbv beta; intros ? ? ? ? G; rewrite <- !app_assoc in G; exact G|auto]. }
  assert (r = AMQP_STATUS_OK) as -> by (unfold AMQP_STATUS_OK; lia). specialize (Hout7 eq_refl).
  set (lg := (l1 ++ l2) ++ l3 ++ ([OAlloc ok] ++ l7)).
  assert (forall hdr, out_bytes (l1 ++ l2) = hdr -> greeted pf p cr props sp hdr lg) as Hgr.
  { intros hdr Hhdr. exists (l1 ++ l2), l3, ([OAlloc ok] ++ l7), hbs, f, [("version_major", VInt 0); ("version_minor", VInt 9)]%string, me, lo.
    split; [reflexivity|]. split; [exact Hhdr|]. split; [rewrite frames_app, I2; exact Hfr2|]. split; [exact Hno3|]. split; [exact H2|]. split; [exact H1|].
    split; [exact H3|]. split; [reflexivity|]. split; [exact Hword|]. split; [exact Hmr|]. split; [|rewrite frames_app; exact Hfr7].
    rewrite out_bytes_app. change (out_bytes [OAlloc ok]) with (@nil byte). cbn [app]. rewrite Hout7. unfold start_ok, margs. destruct cr; reflexivity. }
  assert (exists hdr, (hdr = amqp_header \/ hdr = []) /\ greeted pf p cr props sp hdr lg) as (hdr & Hhdr & Hgreet).
  { exists (out_bytes (l1 ++ l2)). split; [|apply Hgr; reflexivity]. rewrite out_bytes_app, Io. exact Hh. }
  eapply wp_conseq; [apply (tune_phase vh cm fm hb d c6 ev7 Hf6 Hvh); lia| |auto]; cbv beta.
  intros r c7 ev8 l8 (Hp2 & P1 & P2 & P3). replace (l1 ++ l2 ++ l3 ++ OAlloc ok :: l7 ++ l8) with (lg ++ l8) by (unfold lg; rewrite <- !app_assoc; reflexivity).
  destruct r as [|rid rm|st|rid rm]; cbn [phase2 login_post] in *.
  - exact Hp2.
  - destruct Hp2 as (-> & -> & scm & sfm & shb & la & lb & -> & Htu & Hop & C1 & C2 & C3 & C4 & C5). split; [reflexivity|]. split; [reflexivity|].
    exists hdr, props, sp, scm, sfm, shb, lg, la, lb. split; [reflexivity|]. do 2 (split; [assumption|]). do 7 (split; [assumption|]).
    split; [rewrite P2, K2; reflexivity|]. exists (gens c3 0). split; [rewrite P1, K1; reflexivity|].
    replace (gens c3 0) with (gens c6 0) by (rewrite Hg7; reflexivity). exact P3.
  - right. destruct Hp2 as [G|(scm & sfm & shb & la & lb & -> & Htu & Hst & Hnt)].
    + left. destruct G as [G|G]; [left; exact G|right; apply in_or_app; auto].
    + right. exists hdr, props, sp, scm, sfm, shb, lg, la, lb. auto 10.
  - destruct Hp2 as (O1 & pre & g0 & O2 & O3). split; [exact O1|]. exists (frames lg ++ pre), g0. split; [|exact O3]. rewrite frames_app, O2. apply app_assoc.
Qed.
End Login.
