(** What a login has put on the wire at any moment (for C81). *)
From Coq Require Import String ZArith List Bool Lia.
From Verif Require Import Base BaseFacts Codec CodecProofs TableModel TableSpec TableDec TableOps FramingStmt FramingGen FramingModel MethodSpec
  Frame FrameSpec FramingEnc FrameFacts Time Sasl Net NetApi NetSpec NetFacts NetSend NetRecv NetWalk NetAcct NetOrder NetWait NetOff NetCalls EncStatus NetRpc NetTyped NetKeep LoginSpec NetLogin
  SpeakSpec NetWire ParleySpec.
From Verif Require Prop_TableOps Prop_Sasl.
Import ListNotations.
Local Open Scope Z_scope.
Local Open Scope list_scope.

Lemma no_output_bytes l : no_output l -> out_bytes l = [].
Proof. induction 1 as [|o l H _ IH]; [reflexivity|]. destruct o; try contradiction; exact IH. Qed.

Section LoginWire.
Context (N : nat) (E : nat -> aenv).
Definition hush {A} (m : M A) (c : conn) : Prop := forall ev, wp m c ev (fun _ _ _ l => no_output l) (fun _ _ l => no_output l).
Lemma hush_from_now t c : hush (time_from_now t) c.
Proof. intros ev. eapply wp_conseq; [apply from_now_ok| |]; cbv beta; [intros [r d] c' ev' l (_ & H & _)|intros s c' l (_ & H & _)]; apply quiet_output, H. Qed.
Lemma hush_error st c : hush (login_error st) c.
Proof.
  intros ev. unfold login_error. apply wp_bind. eapply wp_conseq; [apply socket_close_ok| |]; cbv beta.
  - intros r c' ev' l (H & _). apply wp_ret. rewrite app_nil_r. exact H.
  - intros s c' l (_ & -> & _). constructor.
Qed.
Lemma hush_release c : hush amqp_release_buffers c.
Proof. intros ev. unfold amqp_release_buffers. wstep. destruct (i_state _); try (apply wp_halt; constructor). destruct (negb _); [apply wp_halt; constructor|]. apply wp_upd. constructor. Qed.
Lemma hush_tune cm fm hb c : hush (amqp_tune_connection cm fm hb) c.
Proof.
  intros ev. unfold amqp_tune_connection. wstep. destruct (i_state _); try (apply wp_halt; constructor).
  wstep. destruct (hb <? 0).
  - (* timeouts are switched off *)
    apply wp_bind. eapply wp_conseq; [apply update_next_send_ok| |]; cbv beta; [|intros s c' l (_ & H & _); apply quiet_output, H].
    intros r c1 ev1 l1 (H1 & _). apply quiet_output in H1. destruct (negb _); [apply wp_ret; rewrite app_nil_r; exact H1|].
    apply wp_bind. eapply wp_conseq; [apply update_next_recv_ok| |]; cbv beta; [|intros s c' l (_ & H & _); apply no_output_app; split; [exact H1|apply quiet_output, H]].
    intros r2 c2 ev2 l2 (H2 & _). apply quiet_output in H2. assert (no_output (l1 ++ l2)) as H12 by (apply no_output_app; auto). destruct (negb _); [apply wp_ret; rewrite app_nil_r; exact H12|].
    apply wp_bind. unfold wp at 1, sys_alloc. destruct ev2 as [|[] ev2]; rewrite ?app_nil_r; auto. destruct ok; wstep; apply wp_ret; rewrite !app_nil_r, app_assoc; apply no_output_app; (split; [exact H12|repeat constructor]).
  - apply wp_bind. eapply wp_conseq; [apply update_next_send_ok| |]; cbv beta; [|intros s c' l (_ & H & _); apply quiet_output, H].
    intros r c1 ev1 l1 (H1 & _). apply quiet_output in H1. destruct (negb _); [apply wp_ret; rewrite app_nil_r; exact H1|].
    apply wp_bind. eapply wp_conseq; [apply update_next_recv_ok| |]; cbv beta; [|intros s c' l (_ & H & _); apply no_output_app; split; [exact H1|apply quiet_output, H]].
    intros r2 c2 ev2 l2 (H2 & _). apply quiet_output in H2. assert (no_output (l1 ++ l2)) as H12 by (apply no_output_app; auto). destruct (negb _); [apply wp_ret; rewrite app_nil_r; exact H12|].
    apply wp_bind. unfold wp at 1, sys_alloc. destruct ev2 as [|[] ev2]; rewrite ?app_nil_r; auto. destruct ok; wstep; apply wp_ret; rewrite !app_nil_r, app_assoc; apply no_output_app; (split; [exact H12|repeat constructor]).
Qed.
Lemma hush_list ids d c : off c -> c_queue c = [] -> hush (amqp_simple_wait_method_list N E 0 ids d) c.
Proof.
  intros Hoff Hq ev. unfold amqp_simple_wait_method_list. apply wp_bind. eapply wp_conseq; [apply tv_until_ok| |]; cbv beta; [|intros s c' l (_ & H & _); apply quiet_output, H].
  intros [r tvp] c1 ev1 l1 (-> & Hqu & _). apply quiet_output in Hqu.
  destruct tvp as [tvp|]; [|apply wp_ret; rewrite app_nil_r; exact Hqu]. destruct (negb _); [apply wp_ret; rewrite app_nil_r; exact Hqu|].
  assert (hush (amqp_simple_wait_frame_noblock N E tvp) c) as Hn.
  { clear ev1. intros ev1. unfold amqp_simple_wait_frame_noblock. apply wp_bind. eapply wp_conseq; [apply from_now_ok| |]; cbv beta; [|intros s c' l (_ & H & _); apply quiet_output, H].
    intros [r2 d2] c2 ev2 l2 (-> & Hqu2 & (D1 & D0 & D2 & D3) & _). apply quiet_output in Hqu2. cbn [fst snd] in *.
    destruct d2 as [d2|]; [|apply wp_ret; rewrite app_nil_r; exact Hqu2]. destruct (Z.eqb_spec r2 AMQP_STATUS_OK) as [->|]; cbn [negb]; [|apply wp_ret; rewrite app_nil_r; exact Hqu2].
    wstep. rewrite Hq. eapply wp_conseq; [apply (wait_off N E d2 c ev2 Hoff); apply D3; reflexivity| |]; cbv beta.
    - intros [r3 f] c3 ev3 l3 (_ & _ & _ & H & _). apply no_output_app. auto.
    - intros s c3 l3 (_ & _ & H & _). apply no_output_app. auto. }
  apply wp_bind. eapply wp_conseq; [apply Hn| |]; cbv beta; [|intros s c' l H; apply no_output_app; auto].
  intros [r2 f] c2 ev2 l2 H2. assert (no_output (l1 ++ l2)) as H12 by (apply no_output_app; auto).
  destruct (negb _); [apply wp_ret; rewrite app_nil_r; exact H12|]. destruct (_ || _); [apply wp_ret; rewrite app_nil_r; exact H12|].
  apply wp_bind. unfold need. destruct (method_of f) as [[id m]|]; [|apply wp_halt; rewrite app_nil_r; exact H12]. apply wp_ret.
  destruct (negb _); apply wp_ret; rewrite !app_nil_r; exact H12.
Qed.
Lemma header_wire d c : forall ev, wp (send_header_inner N d) c ev (fun _ _ _ l => prefix (out_bytes l) amqp_header) (fun _ _ l => prefix (out_bytes l) amqp_header).
Proof.
  intros ev. unfold send_header_inner. apply wp_bind. eapply wp_conseq; [apply try_send_ok| |]; cbv beta.
  - intros r c1 ev1 l (-> & _ & Hp & _). destruct (_ =? _); apply wp_ret; rewrite app_nil_r; exact Hp.
  - intros s c1 l (_ & _ & H & _). exact H.
Qed.
(** a method, whole or in part *)
Lemma send_wire c0 i fs m d c : In (c0, i, fs) catalogue -> well_typed fs m -> zlen (c_outbuf c) < M31 -> d <= amqp_time_infinite ->
  forall ev, wp (amqp_send_method_inner N E 0 (method_id c0 i) m false d) c ev
    (fun r _ _ l => out_bytes l = [] \/ (prefix (out_bytes l) (ser_frame 0 (AMethod c0 i fs m)) /\ zlen (ser_frame 0 (AMethod c0 i fs m)) <= zlen (c_outbuf c)))
    (fun _ _ l => out_bytes l = [] \/ (prefix (out_bytes l) (ser_frame 0 (AMethod c0 i fs m)) /\ zlen (ser_frame 0 (AMethod c0 i fs m)) <= zlen (c_outbuf c))).
Proof.
  intros Hc Hm Hb Hd ev. unfold amqp_send_method_inner. eapply wp_conseq; [apply send_frame_ok; exact Hd| |]; cbv beta.
  - intros r c' ev' l (st & buf & enc & c1 & Hf & -> & _ & [(_ & _ & _ & ->)|(-> & Hs)]); [left; reflexivity|]. right.
    destruct (method_to_bytes_any 0 c0 i fs m _ _ _ _ Hc Hm Hb Hf) as [(_ & -> & _ & Hl)|K]; [|discriminate]. split; [apply (sf_prefix _ _ _ _ _ _ Hs)|exact Hl].
  - intros s c' l [(_ & _ & _ & ->)|(buf & enc & Hf & Hp)]; [left; reflexivity|]. right.
    destruct (method_to_bytes_any 0 c0 i fs m _ _ _ _ Hc Hm Hb Hf) as [(_ & -> & _ & Hl)|K]; [|discriminate]. split; [exact Hp|exact Hl].
Qed.
Lemma open_wire vh d c : zlen vh < M63 -> zlen (c_outbuf c) < M31 ->
  forall ev, wp (login_open N E vh d) c ev (fun _ _ _ l => part [open vh] (out_bytes l)) (fun _ _ l => part [open vh] (out_bytes l)).
Proof.
  intros Hv Hb ev. unfold login_open. set (m := [("virtual_host", VBytes vh); ("capabilities", VBytes []); ("insist", VBool 1)]%string).
  assert (well_typed [("virtual_host", ShortStr); ("capabilities", ShortStr); ("insist", Bit)]%string m) as Hwt.
  { unfold m. pose proof (eq_refl : zlen (@nil byte) = 0). typedok. }
  assert (forall l, request_sent 0 CONNECTION_OPEN m c l -> part [open vh] (out_bytes l)) as K.
  { intros l [->|(buf & enc & Hf & Hp)]; [apply part_nil|].
    destruct (method_to_bytes_any 0 10 40 [("virtual_host", ShortStr); ("capabilities", ShortStr); ("insist", Bit)]%string m _ _ _ _ ltac:(methodok) Hwt Hb Hf) as [(_ & -> & _)|Hneg]; [|discriminate].
    destruct Hp as [Hp|(hb & Hh & ->)]; [apply part_single, Hp|]. apply (part_after [open vh] _ [] hb); [apply sent_one|apply part_beats, Hh]. }
  apply wp_bind. eapply wp_conseq; [apply simple_rpc_inner_sends| |]; cbv beta; [|intros s c' l H; apply K, H].
  intros r c1 ev1 l1 H. apply K in H. destruct r; try (apply wp_ret; rewrite app_nil_r; exact H).
  apply wp_bind. eapply wp_conseq with (Q := fun _ _ _ l => l = []) (S := fun _ _ l => l = []).
  - unfold amqp_maybe_release_buffers, amqp_release_buffers. wstep. destruct (amqp_release_buffers_ok c1); [|apply wp_ret; reflexivity].
    wstep. destruct (i_state _); try (apply wp_halt; reflexivity). destruct (negb _); [apply wp_halt; reflexivity|]. apply wp_upd. reflexivity.
  - cbv beta. intros _ c2 ev2 l2 ->. apply wp_ret. rewrite !app_nil_r. exact H.
  - cbv beta. intros s c2 l2 ->. rewrite app_nil_r. exact H.
Qed.
Section Stages.
Context (pf : string) (vh : bytes) (cm fm hb : Z) (p : option table) (cr : credentials).
Notation W := (never_ahead pf vh cm fm hb p cr).
Lemma W_header l : out_bytes l = amqp_header \/ out_bytes l = [] -> W l.
Proof. intros [H|H]; left; rewrite H; [apply prefix_refl|apply prefix_nil]. Qed.
Lemma W_header_more l l' : prefix (out_bytes l) amqp_header -> no_output l' -> W (l ++ l').
Proof. intros H H'. left. rewrite out_bytes_app, (no_output_bytes _ H'), app_nil_r. exact H. Qed.
Lemma W_greeted header props sprops l l' : header = amqp_header \/ header = [] -> greeted pf p cr props sprops header l -> no_output l' -> W (l ++ l').
Proof.
  intros Hh (l1 & l2 & l3 & hbs & f & mm & me & lo & -> & G1 & G2 & G3 & G4 & G5 & G6 & -> & G7 & G8 & G9 & G10) H'. right. exists header. split; [exact Hh|]. left.
  exists props, (l1 ++ l2), (l3 ++ l'). split; [rewrite <- !app_assoc; reflexivity|]. split; [exists l1, l2, hbs, f, sprops, me, lo; auto 10|]. split; [exact G8|].
  rewrite out_bytes_app, (no_output_bytes _ H'), app_nil_r, G9. apply prefix_refl.
Qed.
(** after the greeting *)
Lemma after_wire header props sprops lg d c : header = amqp_header \/ header = [] -> greeted pf p cr props sprops header lg ->
  fresh c -> zlen vh < M63 -> 0 <= cm < M16 -> 0 <= fm < M30 -> 0 <= hb < M16 -> d <= amqp_time_infinite ->
  forall ev, wp (after_release N E vh cm fm hb d) c ev (fun _ _ _ l => W (lg ++ l)) (fun _ _ l => W (lg ++ l)).
Proof.
  intros Hhdr Hg Hf Hv Hcm Hfm Hhb Hd ev. unfold after_release. apply wp_bind.
  pose proof Hf as (Hoff & Hq & _).
  eapply wp_conseq; [apply (wp_split _ _ _ _ _ _ _ (list_fresh N E _ d c ev Hf) (hush_list _ d c Hoff Hq ev))| |]; cbv beta.
  2:{ intros s c1 l1 (_ & H). eapply W_greeted; eassumption. }
  intros [r [id m]] c1 ev1 l1 ((Hf1 & Hlo & Hno & Hok) & _). cbn [fst snd] in Hok.
  assert (forall (st : Z) (c : conn) (ev : list event) (l : list obs), no_output l -> wp (login_error st) c ev (fun _ _ _ l2 => W (lg ++ l ++ l2)) (fun _ _ l2 => W (lg ++ l ++ l2))) as Herr.
  { intros st c0 ev0 l0 H0. eapply wp_conseq; [apply hush_error| |]; cbv beta; [intros ? ? ? l2 H2|intros ? ? l2 H2]; (eapply W_greeted; [eassumption|eassumption|]; apply no_output_app; auto). }
  destruct (Z.eqb_spec r AMQP_STATUS_OK) as [->|]; cbn [negb]; [|apply Herr, Hno].
  destruct (Hok eq_refl) as (hbs & f & H1 & H2 & H3 & H4 & H5). clear Hok.
  destruct (Z.eqb_spec id CONNECTION_CLOSE) as [->|Hn].
  { apply wp_ret. rewrite app_nil_r. eapply W_greeted; eassumption. }
  destruct H4 as [<-|[<-|[]]]; [|contradiction]. pose proof (tune_members m H5) as (scm & sfm & shb & ->).
  assert (0 <= scm < 65536 /\ 0 <= sfm < 2^32 /\ 0 <= shb < 65536) as (R1 & R2 & R3).
  { clear - H5. assert (fields_of CONNECTION_TUNE = [("channel_max", Short); ("frame_max", Long); ("heartbeat", Short)]%string) as E1 by (vm_compute; reflexivity).
    rewrite E1 in H5. unfold well_typed in H5. repeat match goal with H : Forall2 _ (_ :: _) _ |- _ => inversion H; clear H; subst end. cbn in *. lia. }
  assert (proposal scm sfm shb l1) as Hprop by (exists hbs, f; auto 10).
  do 3 (apply wp_bind; unfold need at 1; match goal with |- context [get_int ?x ?y] => change (get_int x y) with (Some scm) || change (get_int x y) with (Some sfm) || change (get_int x y) with (Some shb) end; apply wp_ret; cbv beta).
  cbv zeta. assert (u16 scm = scm) as -> by (apply Z.mod_small; lia). assert (u16 shb = shb) as -> by (apply Z.mod_small; lia). assert (u32 sfm = sfm) as -> by (apply Z.mod_small; lia).
  pose proof (tune_chmax_range scm cm ltac:(lia) Hcm) as Q1. pose proof (tune_limit_range sfm fm M30 ltac:(lia) Hfm) as Q2. pose proof (tune_limit_range shb hb M16 ltac:(lia) Hhb) as Q3.
  cbn [app]. apply wp_bind. eapply wp_conseq; [apply (wp_split _ _ _ _ _ _ _ (tune_ok_res _ _ _ c1 ev1 Hf1 Q2 (proj1 Q3)) (hush_tune _ _ _ c1 ev1))| |]; cbv beta.
  2:{ intros s c2 l2 (_ & H). eapply W_greeted; [eassumption|eassumption|]. apply no_output_app; auto. }
  intros r c2 ev2 l2 ((Hr & T1 & T2 & T3) & _). destruct (Z.ltb_spec r 0).
  { eapply wp_conseq; [apply (Herr r c2 ev2 (l1 ++ l2)); apply no_output_app; auto| |]; cbv beta; intros; rewrite <- !app_assoc in *; assumption. }
  assert (r = AMQP_STATUS_OK) as -> by (unfold AMQP_STATUS_OK; lia). destruct (T3 eq_refl) as (T4 & T5 & T6 & T7). clear T3.
  assert (proposal scm sfm shb (l1 ++ l2)) as Hprop2.
  { exists hbs, f. split; [apply no_output_app; auto|]. split; [rewrite frames_app, T2, app_nil_r; exact H2|]. auto 10. }
  match goal with |- context [amqp_send_method_inner N E 0 CONNECTION_TUNE_OK ?mm false d] => set (m := mm) end.
  assert (well_typed [("channel_max", Short); ("frame_max", Long); ("heartbeat", Short)]%string m) as Hwt by (unfold m; typedok).
  assert (zlen (ser_frame 0 (AMethod 10 31 [("channel_max", Short); ("frame_max", Long); ("heartbeat", Short)]%string m)) = 20) as H20.
  { unfold ser_frame. rewrite zlen_wire. cbn [ser_payload]. unfold m. unfold ser_method. cbn -[be Z.add]. rewrite app_nil_r, !zlen_app, !zlen_be. lia. }
  assert (20 <= zlen (c_outbuf c2) -> ser_frame 0 (AMethod 10 31 [("channel_max", Short); ("frame_max", Long); ("heartbeat", Short)]%string m) = tune_ok (agreed_channel_max scm cm) (agreed_frame_max sfm fm) (agreed_heartbeat shb hb)) as Hm.
  { intros Hb. unfold m. rewrite agreed_channel, agreed_frame, agreed_beat; [reflexivity|lia|]. intros ->. rewrite T7 in Hb.
    unfold tune_limit in Hb. destruct (negb _ && _) eqn:Hx; [|lia]. apply andb_true_iff in Hx. destruct Hx as [_ Hx]. apply Z.ltb_lt in Hx. lia. }
  assert (forall l3, out_bytes l3 = [] \/ (prefix (out_bytes l3) (ser_frame 0 (AMethod 10 31 [("channel_max", Short); ("frame_max", Long); ("heartbeat", Short)]%string m)) /\
     zlen (ser_frame 0 (AMethod 10 31 [("channel_max", Short); ("frame_max", Long); ("heartbeat", Short)]%string m)) <= zlen (c_outbuf c2)) -> W (lg ++ l1 ++ l2 ++ l3)) as Hstage.
  { intros l3 K. right. exists header. split; [exact Hhdr|]. right. left. exists props, sprops, scm, sfm, shb, lg, (l1 ++ l2), l3. split; [rewrite <- !app_assoc; reflexivity|].
    split; [exact Hg|]. split; [exact Hprop2|]. destruct K as [->|[K1 K2]]; [apply prefix_nil|]. rewrite <- Hm by lia. exact K1. }
  assert (zlen (c_outbuf c2) < M31) as Hb2 by (rewrite T7; clear - Q2; lia).
  change CONNECTION_TUNE_OK with (method_id 10 31). apply wp_bind.
  pose proof (send_wire 10 31 _ m d c2 ltac:(methodok) Hwt Hb2 Hd ev2) as Hsw.
  assert (wp (amqp_send_method_inner N E 0 (method_id 10 31) m false d) c2 ev2 (fun r c' _ l => sent_f (method_frame 0 (method_id 10 31) m) d r c2 c' l) (fun _ _ _ => True)) as Hsf.
  { unfold amqp_send_method_inner. eapply wp_conseq; [apply send_frame_ok; exact Hd|cbv beta; intros ? ? ? ? K; exact K|auto]. }
  eapply wp_conseq; [apply (wp_split _ _ _ _ _ _ _ Hsw Hsf)| |]; cbv beta.
  2:{ intros s c3 l3 (K & _). apply Hstage, K. }
  intros r c3 ev3 l3 (K & Hs). pose proof (sent_f_res N E _ _ _ _ _ _ Hb2 Hs) as [Hr3 _].
  pose proof (sent_f_facts _ _ _ _ _ _ Hs) as (_ & _ & F3 & F4 & _).
  destruct (Z.ltb_spec r 0).
  { eapply wp_conseq; [apply hush_error| |]; cbv beta; [intros ? ? ? l4 H4|intros ? ? l4 H4]; apply Hstage; rewrite out_bytes_app, (no_output_bytes _ H4), app_nil_r; exact K. }
  assert (r = AMQP_STATUS_OK) as -> by (unfold AMQP_STATUS_OK; lia).
  assert (out_bytes l3 = ser_frame 0 (AMethod 10 31 [("channel_max", Short); ("frame_max", Long); ("heartbeat", Short)]%string m) /\ 20 <= zlen (c_outbuf c2)) as [Hout Hroom].
  { destruct Hs as (st & buf & enc & c0 & He & -> & _ & [(K1 & K2 & _)|(-> & Hs)]); [congruence|]. rewrite (sf_all _ _ _ _ _ _ Hs eq_refl).
    destruct (method_to_bytes_any 0 10 31 _ m (c_outbuf c2) AMQP_STATUS_OK buf enc ltac:(methodok) Hwt Hb2 He) as [(_ & -> & _ & Hl)|Hneg]; [|discriminate]. split; [reflexivity|]. rewrite H20 in Hl. exact Hl. }
  rewrite (Hm Hroom) in Hout.
  assert (tuned scm sfm shb cm fm hb (l1 ++ l2 ++ l3)) as Htuned.
  { exists (l1 ++ l2), l3, hbs, f. split; [apply app_assoc|]. split; [apply no_output_app; auto|]. split; [rewrite frames_app, T2, app_nil_r; exact H2|]. auto 10. }
  assert (forall l4, part [open vh] (out_bytes l4) -> W (lg ++ l1 ++ l2 ++ l3 ++ l4)) as Hlast.
  { intros l4 K4. right. exists header. split; [exact Hhdr|]. right. right. exists props, sprops, scm, sfm, shb, lg, (l1 ++ l2 ++ l3), l4. split; [rewrite <- !app_assoc; reflexivity|]. auto. }
  apply wp_bind. eapply wp_conseq; [apply (wp_split _ _ _ _ _ _ _ (release_lim c3 ev3) (hush_release c3 ev3))| |]; cbv beta.
  2:{ intros s c4 l4 (_ & K4). apply Hlast. rewrite (no_output_bytes _ K4). apply part_nil. }
  intros _ c4 ev4 l4 ((-> & g & ->) & _). cbn [app].
  eapply wp_conseq; [apply open_wire; [exact Hv|cbn; lia]| |]; cbv beta; intros; apply Hlast; assumption.
Qed.
Lemma login_wire t c : fresh c -> zlen (lit pf) < M63 -> zlen vh < M63 -> fm < M30 -> cprops_fine p -> cred_fine cr ->
  forall ev, wp (amqp_login_inner N E pf vh cm fm hb p t cr) c ev (fun _ _ _ l => W l) (fun _ _ l => W l).
Proof.
  intros Hf Hpf Hvh Hfm Hcp Hcr ev. unfold amqp_login_inner.
  assert (W []) as Wnil by (apply W_header; right; reflexivity).
  destruct ((cm <? 0) || (65535 <? cm)) eqn:G1; [apply wp_ret; exact Wnil|].
  destruct (Z.ltb_spec fm 0) as [G2|G2]; [apply wp_ret; exact Wnil|].
  destruct ((hb <? 0) || (65535 <? hb)) eqn:G3; [apply wp_ret; exact Wnil|].
  apply orb_false_iff in G1, G3. destruct G1 as [G1 G1']. destruct G3 as [G3 G3']. apply Z.ltb_ge in G1, G1', G3, G3'.
  assert (forall (st : Z) (c1 : conn) (ev1 : list event) (l : list obs), (forall l', no_output l' -> W (l ++ l')) ->
    wp (login_error st) c1 ev1 (fun _ _ _ l2 => W (l ++ l2)) (fun _ _ l2 => W (l ++ l2))) as Herr.
  { intros st c1 ev1 l0 K. eapply wp_conseq; [apply hush_error| |]; cbv beta; intros; apply K; assumption. }
  apply wp_bind. eapply wp_conseq; [apply (wp_split _ _ _ _ _ _ _ (from_now_ok t c ev) (hush_from_now t c ev))| |]; cbv beta.
  2:{ intros s c1 l1 (_ & K). apply W_header. right. apply no_output_bytes, K. }
  intros [r d] c1 ev1 l1 ((-> & Hq1 & (D1 & D0 & D2 & D3) & _) & Hn1). cbn [fst snd] in *.
  destruct (quiet_facts _ Hq1) as ((I1 & I2 & I3 & I4) & Io & Im).
  assert (forall l', no_output l' -> W (l1 ++ l')) as K1.
  { intros l' H. apply W_header. right. rewrite out_bytes_app, Io. apply no_output_bytes, H. }
  destruct d as [d|]; [|apply Herr, K1]. destruct (Z.eqb_spec r AMQP_STATUS_OK) as [->|Hr]; cbn [negb]; [|apply Herr, K1].
  assert (d <= amqp_time_infinite) as Hd by (apply D3; reflexivity). clear D0 D1 D2 D3.
  apply wp_bind. eapply wp_conseq; [apply (wp_split _ _ _ _ _ _ _ (header_ok N d c ev1) (header_wire d c ev1))| |]; cbv beta.
  2:{ intros s c2 l2 (_ & K). left. rewrite out_bytes_app, Io. exact K. }
  intros r c2 ev2 l2 ((-> & Hlo2 & Hfr2 & Hh) & Hp2).
  assert (forall l', no_output l' -> W (l1 ++ l2 ++ l')) as K2.
  { intros l' H. left. rewrite !out_bytes_app, Io, (no_output_bytes _ H), app_nil_r. exact Hp2. }
  destruct (Z.eqb_spec r AMQP_STATUS_OK) as [->|Hr]; cbn [negb].
  2:{ eapply wp_conseq; [apply (Herr r c ev2 (l1 ++ l2)); intros; rewrite <- app_assoc; apply K2; assumption| |]; cbv beta; intros; rewrite <- !app_assoc in *; assumption. }
  specialize (Hh eq_refl). unfold simple_wait_method_inner. apply wp_bind. pose proof Hf as (Hoff & Hqe & _).
  eapply wp_conseq; [apply (wp_split _ _ _ _ _ _ _ (list_fresh N E _ d c ev2 Hf) (hush_list _ d c Hoff Hqe ev2))| |]; cbv beta.
  2:{ intros s c3 l3 (_ & K). apply K2, K. }
  intros [r [id m]] c3 ev3 l3 ((Hf3 & Hlo3 & Hno3 & Hok) & _). cbn [fst snd] in Hok.
  assert (forall l', no_output l' -> W (l1 ++ l2 ++ l3 ++ l')) as K3.
  { intros l' H. apply K2. apply no_output_app. auto. }
  assert (forall st c1 ev1, wp (login_error st) c1 ev1 (fun _ _ _ l2' => W (l1 ++ l2 ++ l3 ++ l2')) (fun _ _ l2' => W (l1 ++ l2 ++ l3 ++ l2'))) as Herr3.
  { intros st c0 ev0. eapply wp_conseq; [apply (Herr st c0 ev0 (l1 ++ l2 ++ l3)); intros; rewrite <- !app_assoc; apply K3; assumption| |]; cbv beta; intros; rewrite <- !app_assoc in *; assumption. }
  destruct (Z.eqb_spec r AMQP_STATUS_OK) as [->|Hr]; cbn [negb]; [|apply Herr3].
  destruct (Hok eq_refl) as (hbs & f & H1 & H2 & H3 & H4 & H5). clear Hok. destruct H4 as [<-|[]].
  destruct (start_members m H5) as (va & vb & sp & me & lo & ->).
  do 2 (apply wp_bind; unfold need at 1; match goal with |- context [get_int ?x ?y] => change (get_int x y) with (Some va) || change (get_int x y) with (Some vb) end; apply wp_ret; cbv beta).
  cbn [app]. destruct (negb (va =? 0) || negb (vb =? 9)) eqn:Hver; [apply Herr3|].
  apply orb_false_iff in Hver. destruct Hver as [V1 V2]. apply negb_false_iff in V1, V2. apply Z.eqb_eq in V1, V2. subst va vb.
  apply wp_bind. unfold need at 1. match goal with |- context [get_table ?x ?y] => change (get_table x y) with (Some sp) end. apply wp_ret. cbv beta. cbn [app].
  assert (W (l1 ++ l2 ++ l3 ++ [])) as K30 by (apply K3; apply Forall_nil).
  apply wp_bind. unfold sys_clone at 1, wp at 1. destruct ev3 as [|[| | | | | |oom] ev4]; try exact K30. cbn [app].
  pose proof (Prop_TableOps.C22_clone_faithful oom sp 0) as Hcl.
  destruct (fst (amqp_table_clone oom sp 0)) as [e|sp'] eqn:Hfst; [apply Herr3|].
  destruct (amqp_table_clone oom sp 0) as [rr nn] eqn:Hcl2. cbn [fst] in Hfst. subst rr. destruct (Hcl sp' eq_refl) as [-> _].
  wstep. apply wp_bind. unfold need at 1. match goal with |- context [get_bytes ?x ?y] => change (get_bytes x y) with (Some me) end. apply wp_ret. cbv beta. cbn [app].
  destruct (Prop_Sasl.C30_whole_words me (cred_method cr)) as (found & -> & Hw).
  set (c4 := set_sprops c3 sp).
  assert (fresh c4) as Hf4 by exact Hf3.
  destruct found; [|apply Herr3].
  assert (Prop_Sasl.is_word (mechanism cr) me) as Hword by (destruct cr; apply (proj1 Hw eq_refl)).
  apply wp_bind. unfold sys_alloc at 1, wp at 1. destruct ev4 as [|[| | | | |ok|] ev5]; try exact K30.
  assert (forall st c1 ev1, wp (login_error st) c1 ev1 (fun _ _ _ l2' => W (l1 ++ l2 ++ l3 ++ [OAlloc ok] ++ l2')) (fun _ _ l2' => W (l1 ++ l2 ++ l3 ++ [OAlloc ok] ++ l2'))) as Herr4.
  { intros st c0 ev0. eapply wp_conseq; [apply hush_error| |]; cbv beta; intros; apply K3, no_output_app; (split; [repeat constructor|assumption]). }
  pose proof (sasl_fine (negb ok) cr Hcr) as Hsf. destruct (sasl_response (negb ok) cr) as [resp| |] eqn:Hsasl; [|apply Herr4|contradiction].
  apply sasl_answer_ok in Hsasl. subst resp.
  apply wp_bind. unfold sys_clone at 1, wp at 1. destruct ev5 as [|[| | | | | |oom2] ev6]; try (apply K3, no_output_app; split; repeat constructor). cbn [app].
  destruct (merge_fine oom2 pf p Hpf Hcp) as (mr & mn & Hmr & Hmt). rewrite Hmr. apply wp_bind. unfold need at 1. apply wp_ret. cbv beta. cbn [fst app].
  destruct mr as [e|props]; [apply Herr4|].
  apply merge_ok in Hmr; [|assumption|assumption].
  wstep. set (c5 := set_cprops c4 (props, gens c4 0)). assert (fresh c5) as Hf5 by exact Hf3.
  assert (zlen (sasl_method_name (cred_method cr)) < M63) as Z1 by (destruct cr; vm_compute; reflexivity).
  assert (zlen (lit "en_US") < M63) as Z2 by (vm_compute; reflexivity).
  set (margs := [("client_properties", VTable props); ("mechanism", VBytes (sasl_method_name (cred_method cr)));
                                ("response", VBytes (sasl_answer cr)); ("locale", VBytes (lit "en_US"))]%string).
  assert (well_typed [("client_properties", Tbl); ("mechanism", ShortStr); ("response", LongStr); ("locale", ShortStr)]%string margs) as Hwt by (unfold margs; typedok).
  assert (ser_frame 0 (AMethod 10 11 [("client_properties", Tbl); ("mechanism", ShortStr); ("response", LongStr); ("locale", ShortStr)]%string margs) = start_ok props (mechanism cr) (sasl_answer cr)) as Hso by (unfold start_ok, margs; destruct cr; reflexivity).
  assert (greeting cr (out_bytes (l1 ++ l2)) ((l1 ++ l2) ++ l3)) as Hgr.
  { exists (l1 ++ l2), l3, hbs, f, sp, me, lo. split; [reflexivity|]. split; [reflexivity|]. split; [rewrite frames_app, I2; exact Hfr2|]. auto 10. }
  assert (out_bytes (l1 ++ l2) = amqp_header \/ out_bytes (l1 ++ l2) = []) as Hhdr by (rewrite out_bytes_app, Io; exact Hh).
  assert (forall l7, prefix (out_bytes l7) (start_ok props (mechanism cr) (sasl_answer cr)) -> W (l1 ++ l2 ++ l3 ++ [OAlloc ok] ++ l7)) as K7.
  { intros l7 H. right. exists (out_bytes (l1 ++ l2)). split; [exact Hhdr|]. left. exists props, ((l1 ++ l2) ++ l3), ([OAlloc ok] ++ l7). split; [rewrite <- !app_assoc; reflexivity|].
    split; [exact Hgr|]. split; [exact Hmr|]. rewrite out_bytes_app. exact H. }
  assert (zlen (c_outbuf c5) < M31) as Hb5 by apply Hf5.
  apply wp_bind. change CONNECTION_START_OK with (method_id 10 11).
  eapply wp_conseq; [apply (wp_split _ _ _ _ _ _ _ (send_fresh N E 10 11 _ margs d c5 ev6 Hf5 ltac:(methodok) Hwt Hd) (send_wire 10 11 _ margs d c5 ltac:(methodok) Hwt Hb5 Hd ev6))| |]; cbv beta.
  2:{ intros s c6 l7 (_ & K). apply K7. rewrite Hso in K. destruct K as [->|[K _]]; [apply prefix_nil|exact K]. }
  intros r c6 ev7 l7 ((Hf6 & Hlo7 & Hfr7 & _ & Hg7 & _ & Hr7 & Hout7) & K).
  rewrite Hso in K, Hout7. assert (prefix (out_bytes l7) (start_ok props (mechanism cr) (sasl_answer cr))) as Kp by (destruct K as [->|[K _]]; [apply prefix_nil|exact K]).
  destruct (Z.ltb_spec r 0).
  { eapply wp_conseq; [apply hush_error| |]; cbv beta; [intros ? ? ? l8 H8|intros ? ? l8 H8]; apply (K7 (l7 ++ l8)); rewrite out_bytes_app, (no_output_bytes _ H8), app_nil_r; exact Kp. }
  assert (r = AMQP_STATUS_OK) as -> by (unfold AMQP_STATUS_OK; lia). specialize (Hout7 eq_refl).
  set (lg := (l1 ++ l2) ++ l3 ++ ([OAlloc ok] ++ l7)).
  assert (greeted pf p cr props sp (out_bytes (l1 ++ l2)) lg) as Hgreet.
  { exists (l1 ++ l2), l3, ([OAlloc ok] ++ l7), hbs, f, [("version_major", VInt 0); ("version_minor", VInt 9)]%string, me, lo.
    split; [reflexivity|]. split; [reflexivity|]. split; [rewrite frames_app, I2; exact Hfr2|]. split; [exact Hno3|]. split; [exact H2|]. split; [exact H1|].
    split; [exact H3|]. split; [reflexivity|]. split; [exact Hword|]. split; [exact Hmr|]. split; [|rewrite frames_app; exact Hfr7].
    rewrite out_bytes_app. change (out_bytes [OAlloc ok]) with (@nil byte). cbn [app]. exact Hout7. }
  assert (forall l8, l1 ++ l2 ++ l3 ++ OAlloc ok :: l7 ++ l8 = lg ++ l8) as Hlg by (intros; unfold lg; rewrite <- !app_assoc; reflexivity).
  rewrite login_tune_eq. apply wp_bind. eapply wp_conseq; [apply (wp_split _ _ _ _ _ _ _ (release_fresh c6 ev7 Hf6) (hush_release c6 ev7))| |]; cbv beta.
  2:{ intros s c7 l8 (_ & K8). rewrite Hlg. eapply W_greeted; eassumption. }
  intros _ c7 ev8 l8 ((-> & -> & Hf7) & _). cbn [app].
  eapply wp_conseq; [apply (after_wire _ _ _ lg d _ Hhdr Hgreet Hf7 Hvh); lia| |]; cbv beta; intros; rewrite Hlg; assumption.
Qed.
End Stages.
End LoginWire.
