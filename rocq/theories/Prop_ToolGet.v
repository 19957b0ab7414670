(** C84: amqp-get as a whole program. *)
From Coq Require Import String ZArith List Bool Lia.
From Verif Require Import Base BaseFacts Codec TableModel TableSpec FramingStmt FramingGen FramingModel MethodSpec Frame FrameSpec Time Sasl Net NetApi NetSpec NetFacts NetRoom
  NetWait NetRpc NetCalls NetLogin NetTyped NetLoginWire CallSpec SpeakSpec ParleySpec NetWire Os ConnectSpec OsFacts Tools ToolOpts ToolError ReportSpec ToolQueue ToolMain ToolGet ProgramSpec RunSpec GetSpec
  NetRx NetWell Prop_Frame Prop_Safe Prop_Calls Prop_ToolError Prop_ToolQueue Prop_ToolMain Prop_ToolRun.
From Verif Require LoginSpec Sockets Prop_Login Prop_ToolOpts Prop_Url Prop_Tools Prop_Rpc.
Import ListNotations.
Local Open Scope string_scope.
Local Open Scope list_scope.
Local Open Scope Z_scope.

(** ** Waiting for a frame *)
(** [D] has been taken from the front of what is waiting and what came *)
Definition taken (seen D : list frame) (c c' : conn) (l : list obs) : Prop :=
  (forall f, In f D -> In f (seen ++ frames l)) /\
  (no_lost l -> no_oom_obs l -> no_hb (D ++ queued c') = no_hb (queued c ++ frames l)).
Lemma taken_app seen D1 D2 c c1 c2 l1 l2 : taken seen D1 c c1 l1 -> taken (seen ++ frames l1) D2 c1 c2 l2 -> taken seen (D1 ++ D2) c c2 (l1 ++ l2).
Proof.
  intros [A1 A2] [B1 B2]. split.
  - intros f Hf. rewrite frames_app. apply in_app_or in Hf. destruct Hf as [Hf|Hf].
    + apply A1 in Hf. apply in_app_or in Hf. apply in_or_app. destruct Hf; [left; assumption|right; apply in_or_app; left; assumption].
    + apply B1 in Hf. rewrite <- app_assoc in Hf. exact Hf.
  - intros Hl Ho. apply no_lost_app in Hl. apply no_oom_obs_app in Ho. destruct Hl as [Hl1 Hl2], Ho as [Ho1 Ho2]. specialize (A2 Hl1 Ho1). specialize (B2 Hl2 Ho2).
    rewrite frames_app, <- app_assoc, no_hb_app, B2, no_hb_app, app_assoc, <- no_hb_app, A2, !no_hb_app, app_assoc. reflexivity.
Qed.
Lemma taken_nil seen c c' l : (no_lost l -> no_oom_obs l -> no_hb (queued c') = no_hb (queued c ++ frames l)) -> taken seen [] c c' l.
Proof. intros H. split; [intros f []|exact H]. Qed.
Section Get.
Context (N : nat) (E : nat -> aenv).
Definition stepped (r : Z) (f : frame) (c c' : conn) (l : list obs) : Prop :=
  r <= 0 /\ beats (out_bytes l) /\ (r = 0 -> whole_beats (out_bytes l) /\ (no_lost l -> no_hb (f :: queued c') = no_hb (queued c ++ frames l))) /\
  (r <> 0 -> no_oom_obs l -> no_hb (queued c') = no_hb (queued c ++ frames l)).
Lemma step_ok t c ev : wp (amqp_simple_wait_frame_noblock N E t) c ev (fun p c' _ l => stepped (fst p) (snd p) c c' l) (fun _ _ l => beats (out_bytes l)).
Proof.
  unfold amqp_simple_wait_frame_noblock. apply wp_bind. eapply wp_conseq; [apply from_now_ok| |]; cbv beta.
  2:{ intros s c' l (-> & Hq & _). destruct (quiet_facts _ Hq) as (_ & -> & _). apply whole_beats_beats, whole_nil. }
  intros [r d] c1 ev1 l1 (-> & Hq & (D1 & _ & D2 & D3) & _). cbn [fst snd] in *. destruct (quiet_facts _ Hq) as ((I1 & I2 & I3 & I4) & Io & Im).
  assert (forall f, r <> AMQP_STATUS_OK -> stepped r f c c l1) as Herr. { intros f Hr. split; [exact D1|]. split; [rewrite Io; apply whole_beats_beats, whole_nil|]. split; [intros K; contradiction|]. intros _ _. rewrite I2, app_nil_r. reflexivity. }
  destruct d as [d|]; [|apply wp_ret; rewrite app_nil_r; apply Herr, D2; reflexivity].
  destruct (Z.eqb_spec r AMQP_STATUS_OK) as [->|Hr]; cbn [negb]; [|apply wp_ret; rewrite app_nil_r; apply Herr, Hr].
  wstep. destruct (c_queue c) as [|e q] eqn:Hqu.
  - eapply wp_conseq; [apply wait_inner_ok| |]; cbv beta.
    2:{ intros s c' l H. rewrite out_bytes_app, Io. exact H. }
    intros [r f] c' ev' l W. cbn [fst snd] in *. apply (waited_quiet_front _ _ _ _ _ l1) in W; [|exact Hq].
    pose proof (wt_took _ _ _ _ _ _ W) as Ht. unfold took in Ht. destruct W as [F1 F2 F3 F4 F9 F5 F6 F7 F8]. split; [exact F1|]. split; [exact F6|]. split.
    + intros ->. split; [apply F7; reflexivity|].
      intros Hl. destruct (F3 eq_refl Hl (or_introl eq_refl)) as (G1 & hbs & G2 & G3). unfold queued. rewrite G1, Hqu, G3. cbn [map app]. rewrite no_hb_app, G2. reflexivity.
    + intros Hr Hoom. rewrite (Ht Hoom), okf_not by exact Hr. cbn. rewrite app_nil_r. reflexivity.
  - destruct (negb (entry_alive (gens c) e)).
    + unfold wp, halt. rewrite app_nil_r, Io. apply whole_beats_beats, whole_nil.
    + wstep. apply wp_ret. rewrite app_nil_r. cbn [fst snd]. split; [unfold AMQP_STATUS_OK; lia|]. rewrite Io. split; [apply whole_beats_beats, whole_nil|]. split; [|intros K; exfalso; apply K; reflexivity]. intros _. split; [apply whole_nil|].
      intros _. rewrite I2, app_nil_r. unfold queued. cbn [c_queue set_queue]. rewrite Hqu. reflexivity.
Qed.
Lemma set_up_J fm seen c : set_up fm seen c -> J any_frame c.
Proof. intros (H & _). apply usable_J, H. Qed.
(** one frame of a well-behaved connection *)
Lemma next_ok fm seen c ev : set_up fm seen c ->
  match amqp_simple_wait_frame N E c ev with
  | Done (r, f) c' _ l => r <= 0 /\ beats (out_bytes l) /\ set_up fm (seen ++ frames l) c' /\ (r = 0 -> whole_beats (out_bytes l) /\ typed f /\ taken seen [f] c c' l) /\ (r <> 0 -> taken seen [] c c' l)
  | Halt _ _ l => beats (out_bytes l)
  end.
Proof.
  intros HS. pose proof HS as (HU & Hfm & Hob & Hr & Hse). unfold amqp_simple_wait_frame.
  pose proof (step_ok None c ev) as S. pose proof (room_noblock N E None c ev) as R. unfold wp in S, R.
  assert (forall X, ty_at X (fun _ _ => True) (amqp_simple_wait_frame_noblock N E None) (fun _ => True) c) as T.
  { intros X e HX. eapply wp_conseq; [apply (ty_noblock N E X (fun _ _ => True) ltac:(intros; exact I) ltac:(intros; exact I) ltac:(intros; exact I) ltac:(intros; exact I) None c e HX)| |].
    - cbv beta. intros a c' ev' l K HXl. destruct (K HXl) as (K1 & K2 & _). auto.
    - cbv beta. intros s c' l K. exact K. }
  apply (fun T => ty_seen _ _ c ev seen T (usable_J c HU) Hse) in T.
  destruct (amqp_simple_wait_frame_noblock N E None c ev) as [[r f] c' ev' l|s c' l] eqn:H; [|exact S].
  cbn [fst snd] in S. destruct S as (S1 & S2 & S3 & S6). destruct R as [R1 R2]. destruct T as (T1 & T2 & _ & T4).
  split; [exact S1|]. split; [exact S2|]. assert (set_up fm (seen ++ frames l) c') as HS'.
  { split; [apply J_usable; [exact T1|lia]|]. split; [congruence|]. split; [congruence|]. split; [exact Hr|exact T4]. }
  split; [exact HS'|]. split; [|intros K; apply taken_nil; intros _ Ho; apply S6; assumption]. intros Hr0. destruct (S3 Hr0) as [S4 S5]. split; [exact S4|].
  assert (J (of_seen (seen ++ frames l)) c) as HJ. { apply J_seen; [apply usable_J, HU|]. eapply seen_mono; [|exact Hse]. intros g K. apply in_or_app. left. exact K. }
  pose proof (ty_noblock N E (of_seen (seen ++ frames l)) (fun _ _ => True) ltac:(intros; exact I) ltac:(intros; exact I) ltac:(intros; exact I) ltac:(intros; exact I) None c ev HJ) as B. unfold wp in B. rewrite H in B.
  destruct B as (_ & _ & B); [apply seen_frames|]. destruct (B Hr0) as [B1 B2]. cbn [snd] in B1, B2. split; [exact B1|].
  split; [intros g [<-|[]]; exact B2|]. intros Hl _. apply S5, Hl.
Qed.
(** ** Copying a message *)
Definition body_frame (f : frame) (b : bytes) : Prop := f_type f = 3 /\ f_pay f = PBody b.
Lemma hexa z : hexadecimal z = hex_byte z.
Proof.
  assert (forall d, 0 <= d < 16 -> nth (Z.to_nat d) (lit "0123456789ABCDEF") x00 = hex_digit d) as H.
  { intros d Hd. assert (forall n, (n < 16)%nat -> nth n (lit "0123456789ABCDEF") x00 = hex_digit (Z.of_nat n)) as K.
    { do 16 (destruct n as [|n]; [reflexivity|]). lia. }
    rewrite <- (Z2Nat.id d) at 2 by lia. apply K. lia. }
  unfold hexadecimal, hex_byte. cbv zeta. rewrite !H by (apply Z.mod_pos_bound; reflexivity). reflexivity.
Qed.
(** the rest of the body: [bs] have been read, [size] is what the header says *)
Lemma rest_ok why : forall fuel sched out rem fm seen c ev, set_up fm seen c -> 0 <= rem < M64 ->
  match copy_rest N E fuel why sched out rem c ev with
  | Done (Copied _ out') c' _ l =>
      exists bs fr, Forall2 body_frame bs fr /\ out' = out ++ concat fr /\ zlen (concat fr) mod M64 = rem /\
        set_up fm (seen ++ frames l) c' /\ whole_beats (out_bytes l) /\ taken seen bs c c' l
  | Done (Stops out' err) c' _ l =>
      beats (out_bytes l) /\
      exists bs fr D, Forall2 body_frame bs fr /\ taken seen D c c' l /\
        ((D = bs /\ out' = out ++ concat fr /\ zlen (concat fr) mod M64 <> rem /\ exists st, st < 0 /\ err = line "waiting for body frame" (status_text st)) \/
         (exists f, D = bs ++ [f] /\ out' = out ++ concat fr /\ zlen (concat fr) mod M64 <> rem /\ f_type f <> 3 /\ err = unexpected "body" f) \/
         (D = bs /\ err = line "write" why /\ exists more, out' ++ more = out ++ concat fr))
  | Halt _ _ l => beats (out_bytes l)
  end.
Proof.
  induction fuel as [|fuel IH]; intros sched out rem fm seen c ev HS Hrem; cbn [copy_rest]; [apply whole_beats_beats, whole_nil|].
  destruct (Z.eqb_spec rem 0) as [->|Hne].
  { cbn [ret]. exists [], []. cbn [concat]. change (frames []) with (@nil frame). rewrite !app_nil_r. split; [constructor|]. split; [reflexivity|]. split; [reflexivity|].
    split; [exact HS|]. split; [apply whole_nil|]. apply taken_nil. intros _ _. change (frames []) with (@nil frame). rewrite app_nil_r. reflexivity. }
  unfold next_frame, bind. pose proof (next_ok fm seen c ev HS) as K. destruct (amqp_simple_wait_frame N E c ev) as [[r f] c1 ev1 l1|s c1 l1]; [|exact K].
  destruct K as (K1 & K2 & K3 & K4 & K5). cbn [fst snd]. pose proof (status_report r "waiting for body frame") as X. destruct (die_amqp_error r _) as [[rep|]|].
  { destruct X as [X ->]. cbn [ret]. rewrite app_nil_r. split; [exact K2|]. exists [], [], []. split; [constructor|]. split; [apply K5; lia|].
    left. cbn [concat]. rewrite app_nil_r. split; [reflexivity|]. split; [reflexivity|]. split; [change (zlen (@nil byte) mod M64) with 0; lia|]. eauto. }
  { cbn [halt]. rewrite app_nil_r. exact K2. }
  assert (r = 0) as Hr0 by lia. destruct (K4 Hr0) as (W & HT & HK). clear K4 K5 X.
  change AMQP_FRAME_BODY with 3. destruct (Z.eqb_spec (f_type f) 3) as [Hty|Hty]; cbn [negb].
  2:{ cbn [ret]. rewrite app_nil_r. split; [exact K2|]. exists [], [], [f]. split; [constructor|]. split; [exact HK|]. right; left. exists f. cbn [concat]. rewrite app_nil_r.
      split; [reflexivity|]. split; [reflexivity|]. split; [change (zlen (@nil byte) mod M64) with 0; lia|]. split; [exact Hty|reflexivity]. }
  destruct (proj2 (proj2 HT) Hty) as (b & Hb & Hbl). rewrite Hb. assert (body_frame f b) as HB by (split; assumption).
  pose proof (Prop_Tools.C52_write_all_partial sched b ltac:(lia)) as Wr. destruct (write_all sched b) as [[sched'| | |] more].
  - subst more. assert (0 <= sub_size rem (zlen b) < M64) as HR by (apply Z.mod_pos_bound; reflexivity).
    specialize (IH sched' (out ++ b) _ fm _ c1 ev1 K3 HR).
    assert (forall fr, zlen (concat fr) mod M64 = sub_size rem (zlen b) <-> zlen (concat (b :: fr)) mod M64 = rem) as HM.
    { intros fr. cbn [concat]. rewrite zlen_app. unfold sub_size. clear - Hrem. generalize (zlen (concat fr)) (zlen b). intros z y. split; intros H.
      - transitivity ((y + (rem - y)) mod M64); [rewrite <- Z.add_mod_idemp_r, H, Z.add_mod_idemp_r by discriminate; reflexivity|].
        replace (y + (rem - y)) with rem by lia. apply Z.mod_small, Hrem.
      - rewrite <- H, Zminus_mod_idemp_l. f_equal. lia. }
    destruct (copy_rest N E fuel why sched' (out ++ b) _ c1 ev1) as [[s' out'|out' err] c2 ev2 l2|s c2 l2].
    + destruct IH as (bs & fr & I1 & I2 & I3 & I4 & I5 & I6). exists (f :: bs), (b :: fr). split; [constructor; assumption|]. rewrite frames_app, out_bytes_app.
      split; [cbn [concat]; rewrite app_assoc; exact I2|]. split; [apply HM, I3|]. split; [rewrite app_assoc; exact I4|]. split; [apply whole_app; assumption|]. apply (taken_app seen [f] bs c c1 c2); assumption.
    + destruct IH as (I1 & bs & fr & D & I2 & I3 & I4). split; [rewrite out_bytes_app; apply beats_app; assumption|]. exists (f :: bs), (b :: fr), (f :: D). split; [constructor; assumption|].
      split; [apply (taken_app seen [f] D c c1 c2); assumption|]. cbn [concat app]. cbn [concat] in HM. rewrite (app_assoc out b).
      destruct I4 as [(-> & J1 & J2 & J3)|[(g & -> & J1 & J2 & J3 & J4)|(-> & J1 & J2)]]; [left|right; left; exists g|right; right]; split; auto; split; auto; split; auto; intros G; apply J2, HM, G.
    + rewrite out_bytes_app. apply beats_app; assumption.
  - destruct Wr as (_ & rest & Wr). cbn [ret]. rewrite app_nil_r. split; [exact K2|]. exists [f], [b], [f]. split; [constructor; [exact HB|constructor]|]. split; [exact HK|]. right; right. split; [reflexivity|]. split; [reflexivity|].
    exists rest. cbn [concat]. rewrite app_nil_r, <- app_assoc, Wr. reflexivity.
  - cbn [halt]. rewrite app_nil_r. exact K2.
  - destruct Wr.
Qed.
Lemma message_ok why sched fm seen c ev : set_up fm seen c ->
  match copy_message N E why sched c ev with
  | Done (Copied _ out) c' _ l =>
      exists D size, content D size out /\ complete size out /\ set_up fm (seen ++ frames l) c' /\ whole_beats (out_bytes l) /\ taken seen D c c' l
  | Done (Stops out err) c' _ l => beats (out_bytes l) /\ exists D, taken seen D c c' l /\ not_copied why D out err
  | Halt _ _ l => beats (out_bytes l)
  end.
Proof.
  intros HS. unfold copy_message, next_frame, bind. pose proof (next_ok fm seen c ev HS) as K. destruct (amqp_simple_wait_frame N E c ev) as [[r f] c1 ev1 l1|s c1 l1]; [|exact K].
  destruct K as (K1 & K2 & K3 & K4 & K5). cbn [fst snd]. pose proof (status_report r "waiting for header frame") as X. destruct (die_amqp_error r _) as [[rep|]|].
  { destruct X as [X ->]. cbn [ret]. rewrite app_nil_r. split; [exact K2|]. exists []. split; [apply K5; lia|]. left. eauto 6. }
  { cbn [halt]. rewrite app_nil_r. exact K2. }
  assert (r = 0) as Hr0 by lia. destruct (K4 Hr0) as (W & HT & HK). clear K4 K5 X.
  change AMQP_FRAME_HEADER with 2. destruct (Z.eqb_spec (f_type f) 2) as [Hty|Hty]; cbn [negb].
  2:{ cbn [ret]. rewrite app_nil_r. split; [exact K2|]. exists [f]. split; [exact HK|]. right; left. exists f. rewrite hexa. auto. }
  destruct (proj1 (proj2 HT) Hty) as (cls & size & pr & raw & oom & n & Hp & Hsz & _). rewrite Hp. unfold u64. rewrite Z.mod_small by exact Hsz.
  assert (forall bs fr, Forall2 body_frame bs fr -> content (f :: bs) size (concat fr)) as HC. { intros bs fr Hbs. exists f, cls, pr, raw, bs, fr. auto. }
  pose proof (rest_ok why N sched [] size fm _ c1 ev1 K3 Hsz) as R. destruct (copy_rest N E N why sched [] size c1 ev1) as [[s' out'|out' err] c2 ev2 l2|s c2 l2].
  - destruct R as (bs & fr & R1 & -> & R3 & R4 & R5 & R6). cbn [app]. exists (f :: bs), size. split; [apply HC, R1|]. split; [exact R3|].
    rewrite frames_app, out_bytes_app, app_assoc. split; [exact R4|]. split; [apply whole_app; assumption|]. apply (taken_app seen [f] bs c c1 c2); assumption.
  - destruct R as (R1 & bs & fr & D & R2 & R3 & R4). split; [rewrite out_bytes_app; apply beats_app; assumption|]. exists (f :: D). split; [apply (taken_app seen [f] D c c1 c2); assumption|].
    cbn [app] in R4. unfold not_copied. destruct R4 as [(-> & -> & J2 & J3)|[(g & -> & -> & J2 & J3 & J4)|(-> & J1 & more & J2)]].
    + right; right; left. exists size. split; [apply HC, R2|]. split; [exact J2|exact J3].
    + right; right; right; left. exists (f :: bs), g, size. split; [reflexivity|]. split; [apply HC, R2|]. split; [exact J2|]. split; [exact J3|]. rewrite hexa. exact J4.
    + right; right; right; right. exists size, more. rewrite J2. split; [apply HC, R2|exact J1].
  - rewrite out_bytes_app. apply beats_app; assumption.
Qed.
(** ** basic.get *)
Lemma get_ok q fm seen c ev : zlen q < M63 -> set_up fm seen c ->
  match amqp_basic_get N E 1 q 1 c ev with
  | Done r c' _ l => set_up fm (seen ++ frames l) c' /\ part [get_request q] (out_bytes l) /\ Forall typed (frames l) /\ said 1 r (frames l) /\
      forall id m, r = RNormal id m -> sent [get_request q] (out_bytes l) /\ (id = method_id 60 71 \/ id = method_id 60 72) /\ answered id m l /\
        (no_oom_obs l -> exists before reply, no_hb (frames l) = before ++ [reply] /\ f_type reply = 1 /\ f_chan reply = 1 /\ f_pay reply = PMethod id m /\
           no_hb (queued c') = no_hb (queued c) ++ before)
  | Halt _ _ l => part [get_request q] (out_bytes l)
  end.
Proof.
  intros Hq HS. pose proof HS as (HU & Hfm & Hob & Hr & Hse). pose proof (C55_get N E 1 q 1 c ev (proj1 HU) Hq ltac:(lia)) as [_ G]. cbv zeta in G.
  change (ser_frame 1 _) with (get_request q) in G.
  pose proof (room_get N E 1 q 1 c ev) as R. unfold wp in R.
  assert (sendm 1 BASIC_GET [("ticket", VInt 0); ("queue", VBytes q); ("no_ack", VBool 1)]) as Hsend. { apply (asendm 1 60 70 [("ticket", Short); ("queue", ShortStr); ("no_ack", Bit)]); [apply cat_in; reflexivity|]. unfold well_typed. repeat (constructor; [split; [reflexivity|cbn [snd dom_val]; lia]|]). constructor. }
  assert (forall X, ty_at X (fun _ _ => True) (amqp_basic_get N E 1 q 1) anyt c) as T.
  { intros X. unfold amqp_basic_get. eapply ty_bind; [apply ty_rpc; auto|]. intros r0 c0 _. intros e HX. unfold wp, bind, upd, ret. cbn [app]. intros _. split; [exact HX|]. split; [constructor|exact I]. }
  apply (fun T => ty_seen _ _ c ev seen T (usable_J c HU) Hse) in T.
  pose proof (rpc_said N E 1 BASIC_GET [BASIC_GET_OK; BASIC_GET_EMPTY] [("ticket", VInt 0); ("queue", VBytes q); ("no_ack", VBool 1)] c ev ltac:(apply HU)) as S.
  pose proof (fun r c' ev' l => Prop_Rpc.C38_rpc N E 1 BASIC_GET [BASIC_GET_OK; BASIC_GET_EMPTY] [("ticket", VInt 0); ("queue", VBytes q); ("no_ack", VBool 1)] c c' ev ev' r l ltac:(apply HU)) as A.
  unfold amqp_basic_get, bind, upd, ret in *. destruct (amqp_simple_rpc N E 1 BASIC_GET _ _ c ev) as [r c1 ev1 l|s c1 l]; [|apply only_part, G].
  specialize (A r c1 ev1 l eq_refl). cbn [app] in *. rewrite app_nil_r in *. destruct R as [R1 R2]. destruct T as (T1 & T2 & _ & T4). destruct G as (_ & G1 & G2).
  split. { split; [apply J_usable; [exact T1|lia]|]. split; [congruence|]. split; [congruence|]. split; [exact Hr|exact T4]. }
  split; [apply only_part, G1|]. split; [exact T2|]. split; [exact S|]. intros id m ->. destruct G2 as (G2 & (hb & W & G3) & before & f & G4 & G5 & G6 & G7).
  split; [rewrite G3; apply whole_sent, W|]. split; [exact G2|]. split; [exists f; split; [rewrite G4; apply in_or_app; right; left; reflexivity|auto]|].
  intros Ho. destruct A as [_ A]. destruct (A Ho) as (others & reply & A1 & A2 & f' & -> & A3). assert (f' = f) as ->.
  { rewrite G4, no_hb_app in A1. assert (no_hb [f] = [f]) as K. { unfold no_hb, is_heartbeat. cbn [filter]. rewrite G5. reflexivity. }
    rewrite K in A1. apply app_inj_tail in A1. symmetry. apply A1. }
  exists others, f. split; [exact A1|]. split; [exact G5|]. split; [exact G6|]. split; [exact G7|]. exact A2.
Qed.
(** closing, with another exit status *)
Lemma close_status z out fm seen c ev : set_up fm seen c ->
  exists C, closes C /\
  match status z (close_connection N E out) c ev with
  | Done r _ _ l => snd (fst r) = out /\
      match fst (fst r) with Returns z' => z' = z /\ snd r = [] /\ sent C (out_bytes l) | Dies => part C (out_bytes l) /\ blamed [] (snd r) l | _ => False end
  | Halt _ _ l => part C (out_bytes l)
  end.
Proof.
  intros (HU & _). destruct (close_wire N E "closing channel" out c ev (proj1 HU) (usable_J c HU)) as (C & HC & K). unfold wp in K. exists C. split; [exact HC|].
  unfold status, bind. destruct (close_connection N E out c ev) as [[[[z'| | |] o] err] c' ev' l|s c' l]; cbn [fst snd] in *; cbn [ret]; rewrite ?app_nil_r; try (destruct K; contradiction).
  - destruct K as (K0 & _ & K1 & K2). cbn [fst snd]. auto.
  - destruct K as (K0 & K1 & K2). cbn [fst snd]. split; [exact K0|]. split; [exact K1|]. destruct K2 as (s & ch & t & H1 & H2 & H3). exists s, ch, t. split; [|auto]. cbn [app In] in *. intuition.
  - exact K.
Qed.
Lemma no_hb_twice l : no_hb (no_hb l) = no_hb l.
Proof. unfold no_hb. induction l as [|f l IH]; [reflexivity|]. cbn [filter]. destruct (negb (is_heartbeat f)) eqn:H; [cbn [filter]; rewrite H, IH; reflexivity|exact IH]. Qed.
Lemma arrived_ok seen D m c c1 c2 l1 l2 : (forall f, In f (queued c) -> In f seen) -> taken (seen ++ frames l1) D c1 c2 l2 ->
  (no_oom_obs l1 -> exists before reply, no_hb (frames l1) = before ++ [reply] /\ f_type reply = 1 /\ f_chan reply = 1 /\ f_pay reply = PMethod (method_id 60 71) m /\
     no_hb (queued c1) = no_hb (queued c) ++ before) -> arrived seen D (l1 ++ l2).
Proof.
  intros Hse [T1 T2] H. split.
  - intros f Hf. rewrite frames_app, app_assoc. apply T1, Hf.
  - intros Hl Ho. apply no_lost_app in Hl. apply no_oom_obs_app in Ho. destruct (H (proj1 Ho)) as (before & reply & H1 & H2 & H3 & H4 & H5). specialize (T2 (proj2 Hl) (proj2 Ho)).
    exists (queued c), before, reply, (no_hb (frames l2)), (no_hb (queued c2)), m. split; [exact Hse|]. split; [rewrite frames_app, no_hb_app, H1, <- app_assoc; reflexivity|].
    split; [exact H2|]. split; [exact H3|]. split; [exact H4|]. rewrite <- no_hb_app, T2, !no_hb_app, no_hb_twice, H5, <- app_assoc. do 2 f_equal.
    assert (no_hb (before ++ [reply]) = before ++ [reply]) as K by (rewrite <- H1; apply no_hb_twice). rewrite no_hb_app in K.
    assert (no_hb [reply] = [reply]) as K'. { unfold no_hb, is_heartbeat. cbn [filter]. rewrite H2. reflexivity. }
    rewrite K' in K. apply app_inj_tail in K. apply K.
Qed.
Lemma get_works q sched why : zlen q < M63 -> forall fm seen c ev, set_up fm seen c -> works exit_of (got q why) (getting q) fm seen (get_session N E q sched why c ev).
Proof.
  intros Hq fm seen c ev HS. unfold get_session, works, bind at 1. pose proof (get_ok q fm seen c ev Hq HS) as G. destruct closes_any as (C0 & HC0). set (req := get_request q) in *.
  assert (forall w, part [req] w -> part (req :: C0) w) as HP by (intros w K; apply (part_more [_]), K).
  destruct (amqp_basic_get N E 1 q 1 c ev) as [r c1 ev1 l1|s c1 l1].
  2:{ exists (req :: C0). split; [apply HP, G|]. exists C0. auto. }
  destruct G as (HS1 & G1 & G2 & G3 & G4). unfold unless_fatal. pose proof (fatal 1 r (frames l1) "basic.get" G2 G3) as X.
  destruct (die_rpc r (lit "basic.get")) as [[rep|]|].
  { cbn [ret]. rewrite app_nil_r. exists (req :: C0). split; [apply HP, G1|]. split; [exists C0; auto|]. left. split; [reflexivity|]. destruct X as (text & X1 & X2). exists "basic.get", 1, text. split; [left; reflexivity|auto]. }
  { cbn [halt]. rewrite app_nil_r. exists (req :: C0). split; [apply HP, G1|]. exists C0. auto. }
  destruct X as (id & m & ->). destruct (G4 id m eq_refl) as (H1 & H2 & H3 & H4). clear G4.
  destruct (Z.eqb_spec id BASIC_GET_EMPTY) as [->|Hne].
  - destruct (close_status 2 [] fm _ c1 ev1 HS1) as (C & HC & K). destruct (status 2 (close_connection N E []) c1 ev1) as [[[[z| | |] out] err] c2 ev2 l2|s c2 l2]; cbn [fst snd] in K; rewrite ?out_bytes_app.
    + destruct K as (-> & -> & -> & K). exists (req :: C). split; [apply (sent_app [_]); assumption|]. split; [exists C; auto|]. split; [reflexivity|]. exists m, l1, l2. split; [reflexivity|]. left. auto.
    + destruct K as (-> & K1 & K2). exists (req :: C). split; [apply (part_after [_]); assumption|]. split; [exists C; auto|]. left. split; [reflexivity|].
      destruct K2 as (s & ch & t & Q1 & Q2 & Q3). exists s, ch, t. split; [apply in_or_app; right; exact Q1|]. split; [exact Q2|]. eapply explained_more; [apply frames_r|exact Q3].
    + destruct K as (_ & []).
    + destruct K as (_ & []).
    + exists (req :: C). split; [apply (part_after [_]); assumption|]. exists C. auto.
  - assert (id = method_id 60 71) as -> by (destruct H2; [assumption|contradiction]).
    assert (forall f, In f (queued c) -> In f seen) as Hse by (apply Forall_forall; apply HS).
    assert (forall l2, answered (method_id 60 71) m (l1 ++ l2)) as Hans. { intros l2. destruct H3 as (f & F1 & F2). exists f. split; [apply frames_l, F1|exact F2]. }
    unfold bind. pose proof (message_ok why sched fm _ c1 ev1 HS1) as M. destruct (copy_message N E why sched c1 ev1) as [[s' out|out err] c2 ev2 l2|s c2 l2].
    + destruct M as (D & size & M1 & M2 & M3 & M4 & M5).
      assert (arrived seen D (l1 ++ l2)) as HA by (apply (arrived_ok seen D m c c1 c2); assumption).
      assert (sent [req] (out_bytes (l1 ++ l2))) as HW. { rewrite out_bytes_app. apply (sent_app [req] _ []); [exact H1|apply sent_beats, M4]. }
      destruct (close_status 0 out fm _ c2 ev2 M3) as (C & HC & K). destruct (status 0 (close_connection N E out) c2 ev2) as [[[[z| | |] o] err] c3 ev3 l3|s c3 l3]; cbn [fst snd] in K; try rewrite app_assoc.
      * destruct K as (-> & -> & -> & K). exists (req :: C). rewrite out_bytes_app. split; [apply (sent_app [_]); assumption|]. split; [exists C; auto|]. split; [reflexivity|]. exists m, (l1 ++ l2), l3. split; [reflexivity|]. right. eauto 8.
      * destruct K as (-> & K1 & K2). exists (req :: C). rewrite out_bytes_app. split; [apply (part_after [_]); assumption|]. split; [exists C; auto|]. right. exists m, (l1 ++ l2), l3, D. split; [reflexivity|]. split; [apply Hans|]. split; [exact HA|]. right. eauto.
      * destruct K as (_ & []).
      * destruct K as (_ & []).
      * exists (req :: C). rewrite out_bytes_app. split; [apply (part_after [_]); assumption|]. exists C. auto.
    + destruct M as (M1 & D & M2 & M3). cbn [ret]. rewrite app_nil_r. exists (req :: C0). rewrite out_bytes_app.
      split; [apply (part_after [_]); [exact H1|]; apply (part_more []), part_beats, M1|]. split; [exists C0; auto|]. right. exists m, (l1 ++ l2), [], D. rewrite app_nil_r. split; [reflexivity|]. split; [apply Hans|].
      split; [apply (arrived_ok seen D m c c1 c2); assumption|]. left. auto.
    + exists (req :: C0). rewrite out_bytes_app. split; [apply (part_after [_]); [exact H1|]; apply (part_more []), part_beats, M|]. exists C0. auto.
Qed.
End Get.

(** ** C84 *)
(** amqp-get with a queue name.  [None]: it exits with a message about its connection
    options (C60), and only if they do not determine where to connect. *)
Theorem C84_get :
  forall (N : nat) (E : nat -> aenv) (cm : Z) (ox : bool) (platform : string) (queue : bytes) (sched : list wr) (why : bytes)
         (o : options) (ans : list answer) (ev : list event),
    zlen (lit platform) < M63 -> sane_options cm ox o -> zlen queue < M63 ->
    match get_program N E cm ox platform (Some queue) sched why o ans ev with
    | None => forall t, ~ Prop_ToolOpts.options_say cm ox o t
    | Some p => (p = Runs [] [] /\ forall t, ~ Prop_ToolOpts.options_say cm ox o t) \/
        exists t, Prop_ToolOpts.options_say cm ox o t /\ session exit_of exits platform t (o_heartbeat o) (got queue why) (getting queue) p
    end.
Proof.
  intros N E cm ox pf q sched why o ans ev Hp Ho Hq. apply (session_connection N E pf exit_of exits); [reflexivity| |exact Hp|exact Ho]. apply get_works, Hq.
Qed.
(** without a queue name nothing is done: no connection is made *)
Theorem C84_no_queue :
  forall (N : nat) (E : nat -> aenv) (cm : Z) (ox : bool) (platform : string) (sched : list wr) (why : bytes) (o : options) (ans : list answer) (ev : list event),
    get_program N E cm ox platform None sched why o ans ev = Some (Ends (Returns 1, [], lit "queue not specified" ++ [newline]) [] []).
Proof. reflexivity. Qed.
Print Assumptions C84_get.
Print Assumptions C84_no_queue.

(** ** Cases: amqp-get -q q1, to localhost; the message has two body frames, and a write()
    moves one byte *)
Definition get_answer : aframe := AMethod 60 71 [("delivery_tag", Longlong); ("redelivered", Bit); ("exchange", ShortStr); ("routing_key", ShortStr); ("message_count", Long)]
  [("delivery_tag", VInt 7); ("redelivered", VBool 0); ("exchange", VBytes []); ("routing_key", VBytes (lit "q1")); ("message_count", VInt 2)].
Definition a_message : list (Z * aframe) := [(1, AContent 5 0 [] []); (1, ABody (lit "ab")); (1, ABody (lit "cde"))].
Definition get_case (last : list event) (sched : list wr) : option (program ToolQueue.result) :=
  get_program 100 Prop_Login.zero_env 0 false "Linux" (Some (lit "q1")) sched (lit "Broken pipe") Prop_ToolOpts.no_options dial_answers
    (talks ([EvSend (SOk 99); EvRecv (ROk (ser [(1, opened_channel)])); EvSend (SOk 99)] ++ last)).
Definition closing_events : list event :=
  [EvSend (SOk 99); EvRecv (ROk (ser [(1, AMethod 20 41 [] [])])); EvSend (SOk 99); EvRecv (ROk (ser [(0, AMethod 10 51 [] [])]))].
Example C84_success :
  match get_case ([EvRecv (ROk (ser ((1, get_answer) :: a_message)))] ++ closing_events) [WChunk 1; WChunk 9; WChunk 9] with
  | Some (Ends r d l) => r = (Returns 0, lit "abcde", []) /\
      let last := channel_open ++ get_request (lit "q1") ++ ser_frame 1 (close_method 20 40 200 (lit "200")) ++ ser_frame 0 (close_method 10 50 200 (lit "200")) in
      skipn (length (out_bytes l) - length last) (out_bytes l) = last
  | _ => False
  end.
Proof. vm_compute. split; reflexivity. Qed.
Example C84_empty :
  match get_case ([EvRecv (ROk (ser [(1, AMethod 60 72 [("cluster_id", ShortStr)] [("cluster_id", VBytes [])])]))] ++ closing_events) [] with
  | Some (Ends r d l) => r = (Returns 2, [], [])
  | _ => False
  end.
Proof. vm_compute. reflexivity. Qed.
(** a heartbeat is no content, an unexpected frame is not, and a reader that is gone *)
Example C84_failure :
  match get_case [EvRecv (ROk (ser [(1, get_answer); (0, AHeartbeat); (1, get_answer)]))] [] with
  | Some (Ends r d l) => r = (Dies, [], lit "expected header, got frame type 0x1" ++ [newline])
  | _ => False
  end /\
  match get_case [EvRecv (ROk (ser ((1, get_answer) :: a_message)))] [WChunk 1; WFail] with
  | Some (Ends r d l) => r = (Dies, lit "a", lit "write: Broken pipe" ++ [newline])
  | _ => False
  end.
Proof. vm_compute. split; reflexivity. Qed.
