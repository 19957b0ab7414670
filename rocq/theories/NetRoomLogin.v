(** The send buffer during whole sessions, amqp_tune_connection and amqp_login
    included: it stays as large as the limit on frames unless an allocation fails. *)
From Coq Require Import String ZArith List Bool Lia.
From Verif Require Prop_TableOps Prop_Sasl DecStatus.
From Verif Require Import Base BaseFacts Codec TableModel TableSpec TableEnc TableDec TableRT TableOps FramingStmt FramingGen FramingModel MethodSpec
  FramingEnc FramingDec FramingProps Frame FrameSpec FrameProofs FrameStream FrameFacts Time Sasl Net NetApi NetSpec NetFacts NetSend NetRecv NetWalk NetAcct NetOrder NetWait NetOff NetCalls EncStatus NetRpc NetTyped NetWell NetRoom.
Import ListNotations.
Local Open Scope Z_scope.

(** the send buffer holds a frame of the maximum size, and at least 20 bytes *)
Definition room_for (c : conn) : Prop := 20 <= frame_max c <= zlen (c_outbuf c).
(** a proposal of the server for the maximum frame size: none, or 20 or more *)
Definition tune_fine (f : frame) : Prop :=
  forall m v, f_pay f = PMethod CONNECTION_TUNE m -> In ("frame_max"%string, VInt v) m -> u32 v = 0 \/ 20 <= u32 v.
(** the limits the application asks for; [beats]: heartbeats are allowed *)
Definition limits_fine (beats : Prop) (a : api) : Prop :=
  match a with Tune _ fm hb => 20 <= fm < M30 /\ (hb <= 0 \/ beats /\ hb <= 65535) | Login _ _ _ fm hb _ _ => 20 <= fm < M30 /\ (hb = 0 \/ beats) | _ => True end.

Section RoomLogin.
Context (N : nat) (E : nat -> aenv) (X : frame -> Prop)
  (X_basic : forall f, X f -> f_type f = 2 -> exists size p enc, f_pay f = PHeader 60 size p enc)
  (X_tune : forall f, X f -> tune_fine f) (beats : Prop).
Definition U0 (s : stop) (c : conn) : Prop := True.
(** no allocation failed; the clock works *)
Definition nofail (l : list obs) : Prop := ~ In (OAlloc false) l /\ (beats -> forall t, In (OClock t) l -> 0 < t < M63).

Definition ro_at {A} (m : M A) (P : A -> Prop) (c : conn) : Prop :=
  forall ev, J X c -> room_for c -> wp m c ev
    (fun a c' _ l => Forall X (frames l) -> nofail l -> J X c' /\ room_for c' /\ P a)
    (fun s c' l => Forall X (frames l) -> nofail l -> s = UB -> room_for c').
Lemma nofail_app a b : nofail (a ++ b) -> nofail a /\ nofail b.
Proof. unfold nofail. intros [H1 H2]. rewrite in_app_iff in H1. split; (split; [tauto|intros B t Ht; apply (H2 B), in_app_iff; tauto]). Qed.
Lemma ro_of {A} (m : M A) P c : ty_at X U0 m P c -> sat_at room m c -> ro_at m P c.
Proof.
  intros H1 H2 ev HJ HR. eapply wp_conseq; [apply (wp_split _ _ _ _ _ _ _ (H1 ev HJ) (H2 ev))| |]; cbv beta.
  - intros a c' ev' l [K1 [K2 K3]] HX _. destruct (K1 HX) as (A1 & _ & A3). split; [exact A1|]. split; [unfold room_for in *; lia|exact A3].
  - intros s c' l [_ [K2 K3]] _ _ _. unfold room_for in *. lia.
Qed.
Lemma ro_bind {A B} (m : M A) (k : A -> M B) (P : A -> Prop) Q c :
  ro_at m P c -> (forall a c', P a -> ro_at (k a) Q c') -> ro_at (bind m k) Q c.
Proof.
  intros Hm Hk ev HJ HR. apply wp_bind. eapply wp_conseq; [apply Hm; assumption| |auto]; cbv beta.
  intros a c1 ev1 l1 H1. unfold wp. destruct (k a c1 ev1) as [b c2 ev2 l2|s c2 l2] eqn:Hr.
  - intros HX HF. rewrite frames_app in HX. apply Forall_app in HX. apply nofail_app in HF. destruct HX as [X1 X2]. destruct HF as [F1 F2].
    destruct (H1 X1 F1) as (J1 & R1 & P1). pose proof (Hk a c1 P1 ev1 J1 R1) as H2. unfold wp in H2. rewrite Hr in H2. auto.
  - intros HX HF. rewrite frames_app in HX. apply Forall_app in HX. apply nofail_app in HF. destruct HX as [X1 X2]. destruct HF as [F1 F2].
    destruct (H1 X1 F1) as (J1 & R1 & P1). pose proof (Hk a c1 P1 ev1 J1 R1) as H2. unfold wp in H2. rewrite Hr in H2. auto.
Qed.
Lemma ro_get_bind {B} (k : conn -> M B) Q c : ro_at (k c) Q c -> ro_at (bind get k) Q c.
Proof. intros H ev H1 H2. apply wp_get_bind, H; assumption. Qed.
Lemma ro_ret {A} (a : A) (P : A -> Prop) c : P a -> ro_at (ret a) P c.
Proof. intros H ev H1 H2. apply wp_ret. auto. Qed.
Lemma ro_upd f (P : unit -> Prop) c : (J X c -> J X (f c)) -> (room_for c -> room_for (f c)) -> P tt -> ro_at (upd f) P c.
Proof. intros H1 H2 HP ev HJ HR. apply wp_upd. auto. Qed.
Lemma ro_need {A} (o : option A) (P : A -> Prop) c : (exists a, o = Some a /\ P a) -> ro_at (need o) P c.
Proof. intros (a & -> & H). apply ro_ret, H. Qed.
Lemma ro_still {A} (m : M A) c : still_at m c -> ro_at m (@anyt A) c.
Proof. intros H. apply ro_of; [apply ty_still; [intros; exact I|exact H]|apply room_still, H]. Qed.

Lemma s_from_now_ok n c ev : n <= 0 \/ beats /\ n <= 131070 ->
  wp (time_s_from_now n) c ev (fun p c' _ l => c' = c /\ (nofail l -> fst p = AMQP_STATUS_OK) /\ exists t, (nofail l -> snd p = Some t)) (fun s _ _ => s <> UB).
Proof.
  intros Hn. unfold time_s_from_now. destruct (Z.leb_spec n 0) as [H0|H0].
  - apply wp_ret. unfold amqp_time_s_from_now. destruct (Z.leb_spec n 0); [|lia]. split; [reflexivity|]. split; [reflexivity|eexists; intros _; reflexivity].
  - destruct Hn as [Hn|[HB Hn]]; [lia|]. apply wp_bind. unfold wp, sys_clock. destruct ev as [|[] ev]; try discriminate. cbn [ret].
    set (t := u64 now). unfold amqp_time_s_from_now. destruct (Z.leb_spec n 0); [lia|]. split; [reflexivity|].
    assert (nofail [OClock t] -> (t =? 0) = false /\ (u64 (t + u64 (u64 n * AMQP_NS_PER_S)) <? t) || (u64 (t + u64 (u64 n * AMQP_NS_PER_S)) <? u64 (u64 n * AMQP_NS_PER_S)) = false) as HF.
    { intros [_ H2]. specialize (H2 HB t (or_introl eq_refl)). unfold AMQP_NS_PER_S. assert (M63 = 9223372036854775808) as HM by reflexivity.
      assert (forall z, 0 <= z < 18446744073709551616 -> u64 z = z) as U by (intros; apply Z.mod_small; assumption).
      rewrite (U n) by lia. rewrite (U (n * _)) by lia. rewrite (U (t + _)) by lia. split; [apply Z.eqb_neq; lia|]. apply orb_false_iff. split; apply Z.ltb_ge; lia. }
    split; [|eexists]; intros Hnf; destruct (HF Hnf) as [-> ->]; reflexivity.
Qed.
Lemma next_send_ok c ev : c_hb c <= 0 \/ beats /\ c_hb c <= 65535 ->
  wp update_next_send c ev (fun r c' _ l => (exists t, c' = c \/ c' = set_next_send c t) /\ (nofail l -> r = AMQP_STATUS_OK)) (fun s _ _ => s <> UB).
Proof.
  intros H. unfold update_next_send. apply wp_get_bind. apply wp_bind. eapply wp_conseq; [apply s_from_now_ok; unfold amqp_heartbeat_send; intuition lia| |auto]; cbv beta.
  intros [r t] c1 ev1 l1 (-> & H1 & _). cbn [fst] in H1. apply wp_upd_bind, wp_ret. rewrite app_nil_r. split; [|exact H1]. destruct t; [exists z; right; reflexivity|exists 0; left; reflexivity].
Qed.
Lemma next_recv_ok c ev : c_hb c <= 0 \/ beats /\ c_hb c <= 65535 -> 0 <= c_hb c < M30 ->
  wp update_next_recv c ev (fun r c' _ l => (exists t, c' = c \/ c' = set_next_recv c t) /\ (nofail l -> r = AMQP_STATUS_OK)) (fun s _ _ => s <> UB).
Proof.
  intros H HL. unfold update_next_recv. apply wp_get_bind. apply wp_bind. eapply wp_conseq; [apply s_from_now_ok; unfold amqp_heartbeat_recv; rewrite DecStatus.signed_small by lia; intuition lia| |auto]; cbv beta.
  intros [r t] c1 ev1 l1 (-> & H1 & _). cbn [fst] in H1. apply wp_upd_bind, wp_ret. rewrite app_nil_r. split; [|exact H1]. destruct t; [exists z; right; reflexivity|exists 0; left; reflexivity].
Qed.
Lemma tune_room cm fm hb c ev : 20 <= fm -> hb <= 0 \/ beats /\ hb <= 65535 -> room_for c ->
  wp (amqp_tune_connection cm fm hb) c ev (fun _ c' _ l => nofail l -> room_for c') (fun s c' l => s <> UB).
Proof.
  intros Hf Hh HR. unfold amqp_tune_connection. apply wp_get_bind. destruct (i_state (c_in c)); try (apply wp_halt; discriminate).
  apply wp_upd_bind. set (c1 := set_limits c cm fm _).
  assert (c_hb c1 <= 0 \/ beats /\ c_hb c1 <= 65535) as H1 by (unfold c1; cbn; destruct (Z.ltb_spec hb 0); [left; lia|intuition lia]).
  assert (0 <= c_hb c1) as H0 by (unfold c1; cbn; destruct (Z.ltb_spec hb 0); lia).
  apply wp_bind. eapply wp_conseq; [apply next_send_ok; exact H1| |auto]; cbv beta. intros r c2 ev2 l2 ((t & Hc2) & Hr2).
  destruct (Z.eqb_spec r AMQP_STATUS_OK) as [E2|E2]; cbn [negb]; [|apply wp_ret; intros HF; apply nofail_app in HF; destruct (E2 (Hr2 (proj1 HF)))].
  assert (c_hb c2 = c_hb c1 /\ c_outbuf c2 = c_outbuf c1 /\ frame_max c2 = frame_max c1) as (A1 & A2 & A3) by (destruct Hc2 as [-> | ->]; repeat split).
  apply wp_bind. eapply wp_conseq; [apply next_recv_ok; rewrite A1; [exact H1|]; intuition lia| |auto]; cbv beta. intros r3 c3 ev3 l3 ((t3 & Hc3) & Hr3).
  destruct (Z.eqb_spec r3 AMQP_STATUS_OK) as [E3|E3]; cbn [negb]; [|apply wp_ret; intros HF; apply nofail_app in HF; destruct HF as [_ HF]; apply nofail_app in HF; destruct (E3 (Hr3 (proj1 HF)))].
  assert (c_outbuf c3 = c_outbuf c1 /\ frame_max c3 = frame_max c1) as (B2 & B3) by (destruct Hc3 as [-> | ->]; auto).
  apply wp_bind. unfold wp at 1, sys_alloc. destruct ev3 as [|[] ev3]; cbv beta iota; try discriminate. destruct ok.
  - apply wp_upd_bind, wp_ret. intros _. unfold room_for in *. change (frame_max (set_outbuf c3 ?x)) with (frame_max c3).
    assert (frame_max c3 = fm) as -> by (rewrite B3; reflexivity). cbn [c_outbuf set_outbuf]. unfold zlen. rewrite app_length, firstn_length, repeat_length. lia.
  - apply wp_upd_bind, wp_ret. intros HF. exfalso. apply nofail_app in HF. destruct HF as [_ HF]. apply nofail_app in HF. destruct HF as [_ [HF _]]. apply HF. left. reflexivity.
Qed.
Lemma ro_tune cm fm hb c : 20 <= fm < M30 -> hb <= 0 \/ beats /\ hb <= 65535 -> ro_at (amqp_tune_connection cm fm hb) anyt c.
Proof.
  intros Hf Hh ev HJ HR.
  assert (ty_at X U0 (amqp_tune_connection cm fm hb) anyt c) as HT by (apply ty_tune; [intros; exact I|lia]).
  eapply wp_conseq; [apply (wp_split _ _ _ _ _ _ _ (HT ev HJ) (tune_room cm fm hb c ev (proj1 Hf) Hh HR))| |]; cbv beta.
  - intros a c' ev' l [K1 K2] HX HF. destruct (K1 HX) as (A1 & _). split; [exact A1|]. split; [exact (K2 HF)|exact I].
  - intros s c' l [_ K2] _ _ K. contradiction.
Qed.
Lemma ro_error r c : ro_at (login_error r) anyt c.
Proof. unfold login_error. eapply ro_bind; [apply ro_still, still_close|intros; apply ro_ret; exact I]. Qed.
Lemma ro_send_method ch id m more d c : sendm ch id m -> ro_at (amqp_send_method_inner N E ch id m more d) anyt c.
Proof. intros H. apply ro_of; [apply ty_send_method; [intros; exact I ..|exact H]|apply room_send_method_inner]. Qed.
Lemma ro_release c : ro_at amqp_release_buffers anyt c.
Proof. apply ro_of; [apply ty_release; intros; exact I|apply room_release]. Qed.
Lemma room_open vh d c : sat_at room (login_open N E vh d) c.
Proof.
  unfold login_open. apply (sat_bind room room_comp); [apply room_rpc_inner|]. intros r c1. destruct r; try apply (sat_ret room room_comp).
  apply (sat_bind room room_comp); [apply room_maybe_release|intros; apply (sat_ret room room_comp)].
Qed.
(** a method waited for is one that was received *)
Lemma ty_wait_list_from ch ids d c : ty_at X U0 (amqp_simple_wait_method_list N E ch ids d)
  (fun p => fst p = AMQP_STATUS_OK -> exists f, X f /\ f_pay f = PMethod (fst (snd p)) (snd (snd p))) c.
Proof.
  unfold amqp_simple_wait_method_list. assert (forall s c0, s <> UB -> U0 s c0) as UO by (intros; exact I).
  eapply ty_bind with (P := fun p => snd p = None -> fst p <> AMQP_STATUS_OK).
  - intros ev Hc. pose proof (wp_split _ _ _ _ _ _ _ (ty_silent X U0 UO _ c (silent_time_tv d) ev Hc) (tv_until_ok d c ev)) as H.
    eapply wp_conseq; [exact H| |]; cbv beta; [|intros s c' l [K _]; exact K]. intros p c' ev' l [K1 (_ & _ & _ & K2)] HX. destruct (K1 HX) as (A1 & A2 & _). auto.
  - intros [r [t|]] c1 Hn; cbn [fst snd] in Hn; [|apply ty_ret; intros K; cbn in K; specialize (Hn eq_refl); contradiction].
    destruct (Z.eqb_spec r AMQP_STATUS_OK) as [Hr|]; cbn [negb]; [|apply ty_ret; intros K; contradiction].
    eapply ty_bind; [apply ty_noblock; intros; exact I|]. intros [r1 f] c2 Hf.
    destruct (Z.eqb_spec r1 AMQP_STATUS_OK) as [Hr1|]; cbn [negb]; [|apply ty_ret; intros K; contradiction]. apply Hf in Hr1. clear Hf. cbn [snd] in Hr1.
    destruct (Z.eqb_spec AMQP_FRAME_METHOD (f_type f)) as [Ht|]; cbn [negb orb]; [|apply ty_ret; discriminate]. symmetry in Ht.
    destruct (negb _); [apply ty_ret; discriminate|]. destruct (typed_method f (proj1 Hr1) Ht) as (id & m & Hp & Hm & Hw & _).
    eapply (ty_bind _ _ _ _ (fun q => q = (id, m))); [apply ty_need; eauto|]. intros [? ?] c3 K; injection K as -> ->.
    destruct (amqp_id_in_reply_list id ids) eqn:Hi; cbn [negb]; apply ty_ret; [|discriminate]. intros _. exists f. split; [apply Hr1|exact Hp].
Qed.
Ltac methodok := apply cat_in; reflexivity.
Ltac typedok := unfold well_typed; repeat (constructor; [split; [reflexivity|cbn; assumption || lia]|]); constructor.

Lemma ro_login_tune vh cm fm hb d c : zlen vh < M63 -> 0 <= cm < M16 -> 20 <= fm < M30 -> 0 <= hb <= 65535 -> hb = 0 \/ beats -> ro_at (login_tune N E vh cm fm hb d) anyt c.
Proof.
  intros Hv Hcm Hfm Hhb0 Hhb. unfold login_tune. eapply ro_bind; [apply ro_release|]. intros _ c0 _.
  eapply ro_bind with (P := fun p => fst p = AMQP_STATUS_OK -> (well_typed (fields_of (fst (snd p))) (snd (snd p)) /\ In (fst (snd p)) [CONNECTION_TUNE; CONNECTION_CLOSE]) /\
      exists f, X f /\ f_pay f = PMethod (fst (snd p)) (snd (snd p))).
  { apply ro_of; [|apply room_method_list]. intros ev Hc.
    pose proof (ty_wait_list N E X U0 ltac:(intros; exact I) ltac:(intros; exact I) ltac:(intros; exact I) ltac:(intros; exact I) 0 [CONNECTION_TUNE; CONNECTION_CLOSE] d c0 ev Hc) as H1.
    pose proof (ty_wait_list_from 0 [CONNECTION_TUNE; CONNECTION_CLOSE] d c0 ev Hc) as H2.
    eapply wp_conseq; [apply (wp_split _ _ _ _ _ _ _ H1 H2)| |]; cbv beta; [|intros s c' l [K _]; exact K].
    intros p c' ev' l [K1 K2] HX. destruct (K1 HX) as (A1 & A2 & A3). destruct (K2 HX) as (_ & _ & B3). auto. }
  intros [r [id m]] c1 Hm.
  destruct (Z.eqb_spec r AMQP_STATUS_OK) as [Hr|]; cbn [negb]; [|apply ro_error]. cbn [fst snd] in Hm. destruct (Hm Hr) as [[Hw Hi] (f & Hf & Hp)]. clear Hm.
  destruct (Z.eqb_spec id CONNECTION_CLOSE) as [|Hn]; [apply ro_ret; exact I|].
  destruct Hi as [<-|[<-|[]]]; [|contradiction]. destruct (tune_members m Hw) as (a & b & h & ->).
  pose proof (X_tune f Hf _ b Hp (or_intror (or_introl eq_refl))) as HB.
  eapply (ro_bind _ _ (fun _ => True)); [apply ro_need; eexists; split; [reflexivity|exact I]|intros ? ? _].
  eapply (ro_bind _ _ (fun z => z = b)); [apply ro_need; eexists; split; reflexivity|intros b' ? ->].
  eapply (ro_bind _ _ (fun _ => True)); [apply ro_need; eexists; split; [reflexivity|exact I]|intros ? ? _]. cbv zeta.
  assert (forall z, 0 <= u16 z < M16) as U16 by (intros; apply Z.mod_pos_bound; lia). assert (forall z, 0 <= u32 z) as U32 by (intros; apply Z.mod_pos_bound; lia).
  pose proof (tune_chmax_range (u16 a0) cm (U16 _) Hcm). pose proof (tune_limit_range (u32 b) fm M30 (U32 _) ltac:(lia)).
  assert (20 <= tune_limit (u32 b) fm) as HL.
  { unfold tune_limit. destruct (Z.eqb_spec (u32 b) 0); cbn [negb andb]; [lia|]. destruct (u32 b <? fm); lia. }
  pose proof (U16 a1) as HU. pose proof (tune_limit_range (u16 a1) hb 65536 ltac:(lia) ltac:(lia)) as HT.
  assert (tune_limit (u16 a1) hb <= 0 \/ beats /\ tune_limit (u16 a1) hb <= 65535) as HZ.
  { destruct Hhb as [->|HBt]; [left|right; split; [exact HBt|unfold tune_limit; destruct (negb (u16 a1 =? 0) && (u16 a1 <? hb)); lia]]. unfold tune_limit. destruct (Z.ltb_spec (u16 a1) 0); [lia|]. rewrite andb_false_r. lia. }
  eapply ro_bind; [apply ro_tune; [lia|exact HZ]|]. intros r2 c2 _. destruct (_ <? _); [apply ro_error|].
  eapply (ro_bind _ _ anyt).
  { apply ro_send_method. apply (asendm 0 10 31 [("channel_max", Short); ("frame_max", Long); ("heartbeat", Short)]%string); [methodok|]. typedok. }
  intros r3 c3 _. destruct (_ <? _); [apply ro_error|]. eapply ro_bind; [apply ro_release|]. intros _ c4 _.
  apply ro_of; [apply ty_login_open; [intros; exact I ..|exact Hv]|apply room_open].
Qed.
Lemma room_need {A} (o : option A) c : sat_at room (need o) c.
Proof. destruct o; [apply (sat_ret room room_comp)|apply (sat_halt room room_comp)]. Qed.
Lemma ro_login pf vh cm fm hb cp t cr c : zlen (lit pf) < M63 -> zlen vh < M63 -> 20 <= fm < M30 -> hb = 0 \/ beats -> cprops_fine cp -> cred_fine cr ->
  ro_at (amqp_login_inner N E pf vh cm fm hb cp t cr) anyt c.
Proof.
  intros Hpf Hvh Hfm Hhb Hcp Hcr. unfold amqp_login_inner.
  destruct ((cm <? 0) || (65535 <? cm)) eqn:G1; [apply ro_ret; exact I|]. destruct (fm <? 0) eqn:G2; [apply ro_ret; exact I|]. destruct ((hb <? 0) || (65535 <? hb)) eqn:G3; [apply ro_ret; exact I|].
  clear G2. apply orb_false_iff in G3. destruct G3 as [G3 G3']. apply Z.ltb_ge in G3, G3'. apply orb_false_iff in G1. destruct G1 as [G1 G1']. apply Z.ltb_ge in G1, G1'.
  eapply (ro_bind _ _ anyt); [apply ro_still, still_silent, silent_time_from_now|]. intros [r [d|]] c1 _; [|apply ro_error].
  destruct (negb _); [apply ro_error|]. eapply (ro_bind _ _ anyt); [apply ro_still, still_header|]. intros r2 c2 _. destruct (negb _); [apply ro_error|].
  unfold simple_wait_method_inner. eapply ro_bind; [apply ro_of; [apply ty_wait_list; intros; exact I|apply room_method_list]|]. intros [r3 [id m]] c3 Hm.
  destruct (Z.eqb_spec r3 AMQP_STATUS_OK) as [Hr|]; cbn [negb]; [|apply ro_error]. cbn [fst snd] in Hm. destruct (Hm Hr) as [Hw [<-|[]]]. clear Hm.
  destruct (start_members m Hw) as (va & vb & st & me & lo & ->).
  do 2 (eapply (ro_bind _ _ anyt); [apply ro_need; eexists; split; [reflexivity|exact I]|intros ? ? _]). destruct (_ || _); [apply ro_error|].
  eapply (ro_bind _ _ anyt); [apply ro_need; eexists; split; [reflexivity|exact I]|intros ? ? _].
  eapply (ro_bind _ _ anyt); [apply ro_still, still_clone|]. intros oom c6 _.
  destruct (fst _) as [e|tt']; [apply ro_error|]. eapply (ro_bind _ _ anyt); [apply ro_upd; [intros H; exact H|intros H; exact H|exact I]|]; intros ? ? _.
  eapply (ro_bind _ _ anyt); [apply ro_need; eexists; split; [reflexivity|exact I]|intros mechs ? _].
  destruct (Prop_Sasl.C30_whole_words mechs (cred_method cr)) as (found & -> & _). destruct found; [|apply ro_error].
  eapply (ro_bind _ _ anyt); [apply ro_still, still_alloc|]; intros ok ? _. pose proof (sasl_fine (negb ok) cr Hcr) as Hs. destruct (sasl_response _ _) as [resp| |]; [|apply ro_error|contradiction].
  eapply (ro_bind _ _ anyt); [apply ro_still, still_clone|]; intros oom2 ? _.
  destruct (merge_fine oom2 pf cp Hpf Hcp) as (mr & mn & -> & Hmr). eapply (ro_bind _ _ (fun q => q = (mr, mn))); [apply ro_need; eauto|]. intros ? ? ->.
  cbn [fst]. destruct mr as [|props]; [apply ro_error|].
  eapply (ro_bind _ _ anyt); [apply ro_upd; [intros H; exact H|intros H; exact H|exact I]|]; intros ? ? _.
  eapply (ro_bind _ _ anyt).
  { apply ro_send_method. apply (asendm 0 10 11 [("client_properties", Tbl); ("mechanism", ShortStr); ("response", LongStr); ("locale", ShortStr)]%string); [methodok|].
    assert (zlen (sasl_method_name (cred_method cr)) < M63) by (destruct cr; vm_compute; reflexivity). assert (zlen (lit "en_US") < M63) by (vm_compute; reflexivity). typedok. }
  intros r5 ? _. destruct (_ <? _); [apply ro_error|]. apply ro_login_tune; lia || assumption.
Qed.

Theorem ro_exec a c : call_fine a -> limits_fine beats a -> ro_at (exec N E a) anyt c.
Proof.
  intros Ha Hl.
  assert (keeps_limits a -> ro_at (exec N E a) anyt c) as HK.
  { intros K. apply ro_of; [apply ty_exec; [intros; exact I ..|exact X_basic|exact Ha]|apply room_exec, K]. }
  destruct a; try (apply HK; exact I); clear HK; cbn [exec call_fine limits_fine] in *.
  - eapply ro_bind; [apply ro_tune; apply Hl|]. intros; apply ro_ret; exact I.
  - destruct Ha as (A1 & A2 & A3 & A4 & A5). destruct Hl as [L1 L2]. eapply ro_bind; [|intros; apply ro_ret; exact I].
    unfold amqp_login_with_properties. apply ro_get_bind. apply ro_login; assumption.
Qed.
Theorem ro_exec_all l : Forall call_fine l -> Forall (limits_fine beats) l -> forall c, ro_at (exec_all N E l) anyt c.
Proof.
  induction l as [|a l IH]; intros H1 H2 c; cbn [exec_all]; [apply ro_ret; exact I|].
  apply Forall_cons_iff in H1, H2. destruct H1 as [A1 H1]. destruct H2 as [A2 H2].
  eapply ro_bind; [apply ro_exec; assumption|]. intros o c1 _. eapply ro_bind; [apply IH; assumption|]. intros os c2 _. apply ro_ret; exact I.
Qed.
End RoomLogin.
