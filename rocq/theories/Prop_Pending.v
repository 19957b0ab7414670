(** C69: programs with their own event loop.

    Such a program asks amqp_frames_enqueued and amqp_data_in_buffer before it waits for
    the socket to become readable.  If both say no, no complete frame received is left in
    the library, so waiting cannot miss one.  If frames are enqueued, or a complete frame
    is among the bytes already received, the next amqp_simple_wait_frame returns one
    without any call to the system. *)
From Coq Require Import String ZArith List Bool Lia.
From Verif Require Import Base BaseFacts Codec TableModel TableSpec TableOps FramingStmt FramingGen FramingModel MethodSpec
  Frame FrameSpec FrameProofs FrameStream FrameFacts FrameInit FrameNew Time Sasl Net NetApi NetSpec NetFacts NetSend NetRecv NetWalk NetAcct NetOrder NetWait NetOff NetCalls EncStatus NetRpc NetOffAll NetChan NetRx NetWell
  Prop_Frame Prop_Send Prop_Release Prop_Rpc Prop_Receive.
Import ListNotations.
Local Open Scope Z_scope.

(** ** One step *)
Lemma consume_whole E fm a c ev ca fs w : never_fails E -> pos E fm (c_in c) a -> zlen (c_sbuf c) <= SOCK_BUFFER_SIZE ->
  Forall (good_frame fm) (ca :: fs) -> a ++ c_sbuf c = ser_frame (fst ca) (snd ca) ++ w -> prefix w (ser fs) ->
  amqp_data_in_buffer c = true /\
  exists f s, consume_one_frame E c ev = Done (AMQP_STATUS_OK, f) (set_sbuf (set_in c s) w) ev [OFrame f] /\ received f ca /\ pos E fm s [] /\ zlen w <= zlen (c_sbuf c).
Proof.
  intros HE HP HL HG Hw0 HPw. pose proof HP as (B & HB & HS & HI & Hfm).
  assert (prefix (a ++ c_sbuf c) (ser (ca :: fs))) as HPP. { rewrite Hw0. rewrite ser_cons. destruct HPw as [r K]. exists r. rewrite K, <- app_assoc. reflexivity. }
  assert (HN : c_sbuf c <> []).
  { intros K. rewrite K, app_nil_r in *. pose proof (pos_part E fm (c_in c) a (ca :: fs) HE HP HG HPP) as (r & R1 & R2). rewrite R1 in Hw0.
    apply (f_equal (@length byte)) in Hw0. rewrite !app_length in Hw0. destruct r; [contradiction|]. cbn [length] in Hw0. lia. }
  split; [unfold amqp_data_in_buffer; destruct (c_sbuf c); [contradiction|reflexivity]|].
  unfold consume_one_frame.
  destruct (amqp_handle_input E (c_in c) (c_sbuf c)) as [res f s| |] eqn:HH.
  2:{ exfalso. revert HH. pose proof HS as [HB1 HB2]. pose proof SBUF_ok as SB. pose proof (zlen_nonneg a) as A0. pose proof (zlen_app a (c_sbuf c)) as LW.
      rewrite HB, handle_input_closed by (try assumption; lia). set (v := a ++ c_sbuf c) in *. pose proof (size_of_range v) as SR.
      assert (HK : zlen a <= size_of v + 8). { destruct HI as [HI|(H7 & _ & H8)]; [lia|]. unfold v. rewrite size_of_app by lia. lia. }
      rewrite step_wstep; [|exact HS|lia|lia|lia]. subst fm.
      destruct (wstep_well E B (ca :: fs) v HS HE HG HPP) as [[W _]|(ca' & fs' & w' & f' & _ & _ & _ & W & _)]; rewrite W; discriminate. }
  2:{ exfalso. revert HH. pose proof HS as [HB1 HB2]. pose proof SBUF_ok as SB. pose proof (zlen_nonneg a) as A0. pose proof (zlen_app a (c_sbuf c)) as LW.
      rewrite HB, handle_input_closed by (try assumption; lia). set (v := a ++ c_sbuf c) in *. pose proof (size_of_range v) as SR.
      assert (HK : zlen a <= size_of v + 8). { destruct HI as [HI|(H7 & _ & H8)]; [lia|]. unfold v. rewrite size_of_app by lia. lia. }
      rewrite step_wstep; [|exact HS|lia|lia|lia]. subst fm.
      destruct (wstep_well E B (ca :: fs) v HS HE HG HPP) as [[W _]|(ca' & fs' & w' & f' & _ & _ & _ & W & _)]; rewrite W; discriminate. }
  pose proof HS as [HB1 HB2]. pose proof SBUF_ok as SB.
  pose proof (zlen_nonneg a) as A0. pose proof (zlen_app a (c_sbuf c)) as LW.
  rewrite HB, handle_input_closed in HH by (try assumption; lia). set (v := a ++ c_sbuf c) in *. pose proof (size_of_range v) as SR.
  assert (HK : zlen a <= size_of v + 8). { destruct HI as [HI|(H7 & _ & H8)]; [lia|]. unfold v. rewrite size_of_app by lia. lia. }
  rewrite step_wstep in HH; [|exact HS|lia|lia|lia]. subst fm.
  destruct (wstep_well E B (ca :: fs) v HS HE HG HPP) as [[W (r & R1 & R2)]|(ca' & fs' & w' & f' & HC & Hw & Hp & W & Hrec & Hsz)]; rewrite W in HH; injection HH as <- <- <-.
  { exfalso. rewrite R1 in Hw0. apply (f_equal (@length byte)) in Hw0. rewrite !app_length in Hw0. destruct r; [contradiction|]. cbn [length] in Hw0. lia. }
  injection HC as <- <-. rewrite Hw0 in Hw. apply app_inv_head in Hw. subst w'.
  assert (zlen a <= size_of v + 8 <= zlen v) as Hr. { rewrite Hsz, Hw0. rewrite zlen_app. pose proof (zlen_nonneg w). lia. }
  destruct (Z.ltb_spec (size_of v + 8 - zlen a) 0); [lia|].
  assert (f_type f' =? 0 = false) as Hft. { destruct Hrec as [gen ->]. cbn. apply Z.eqb_neq, type_nonzero. }
  rewrite Hft. exists f', (st_of E (next_base B v) []). split.
  - f_equal. f_equal.
    assert (forall n, zlen a <= n -> skipn (Z.to_nat (n - zlen a)) (c_sbuf c) = skipn (Z.to_nat n) v) as Sk.
    { intros n Hn. unfold v. rewrite (skipn_app _ a). rewrite (@skipn_all2 _ _ a) by (unfold zlen in *; lia). cbn [app]. f_equal. unfold zlen in *; lia. }
    rewrite Sk by lia.
    rewrite Hsz, zlen_length. rewrite Hw0. rewrite skipn_app, skipn_all, Nat.sub_diag. reflexivity.
  - split; [exact Hrec|]. split.
    + exists (next_base B v). split; [reflexivity|]. split; [split; [exact HB1|apply next_base_ok, HB2]|]. split; [left; reflexivity|reflexivity].
    + pose proof (f_equal zlen Hw0) as Z0. fold v in Z0. rewrite (zlen_app (ser_frame _ _)) in Z0. lia.
Qed.

Lemma release_idle E fm c ev : pos E fm (c_in c) [] -> c_queue c = [] ->
  exists c', amqp_maybe_release_buffers_on_channel 0 c ev = Done tt c' ev [] /\ pos E fm (c_in c') [] /\ c_sbuf c' = c_sbuf c /\ c_queue c' = [].
Proof.
  intros (B & HB & HS & HI & Hfm) Hq. unfold amqp_maybe_release_buffers_on_channel, get, bind. cbn [app]. rewrite HB. cbn [st_of]. 
  change (i_state (st_of E B [])) with IDLE. cbv iota. rewrite Hq. cbn [forallb negb existsb]. unfold upd. eexists. split; [reflexivity|]. 
  split; [|auto]. exists (mkB (b_fm B) (b_hdr B) (fun k => if k =? 0 then S (gens c k) else gens c k) (b_nf B)). unfold set_gens. cbn [c_in set_in]. rewrite HB.
  split; [reflexivity|]. split; [exact HS|]. split; [left; reflexivity|exact Hfm].
Qed.
Lemma wait_buffered E N d fm : never_fails E -> forall hbs n a c ev ca fs w, (length hbs < n)%nat -> pos E fm (c_in c) a -> zlen (c_sbuf c) <= SOCK_BUFFER_SIZE -> c_queue c = [] ->
  Forall (fun x => carries_data x = false) hbs -> carries_data ca = true -> Forall (good_frame fm) (hbs ++ ca :: fs) ->
  a ++ c_sbuf c = ser (hbs ++ [ca]) ++ w -> prefix w (ser fs) ->
  exists f c' l, wait_frame_loop N E n false d c ev = Done (AMQP_STATUS_OK, f) c' ev l /\ received f ca /\ c_sbuf c' = w.
Proof.
  intros HE. induction hbs as [|hb hbs IH]; intros n a c ev ca fs w Hn HP HL Hq Hh Hd HG Hw Hpw; (destruct n as [|n]; [cbn in Hn; lia|]); cbn [wait_frame_loop].
  - cbn [app] in *. unfold ser in Hw. cbn [map concat] in Hw. rewrite app_nil_r in Hw.
    destruct (consume_whole E fm a c ev ca fs w HE HP HL HG Hw Hpw) as (Hb & f & s & Ec & Hr & Ps & Hz).
    unfold bind, get. rewrite Hb. cbn [negb andb app]. rewrite Ec. cbn [app]. change (AMQP_STATUS_OK =? AMQP_STATUS_OK) with true. cbn [negb]. cbv iota.
    pose proof (received_type f ca Hr) as Ht. rewrite Hd in Ht. unfold is_heartbeat in Ht. cbn [negb] in Ht.
    rewrite Z.eqb_sym. unfold AMQP_FRAME_HEARTBEAT. rewrite Ht.
    assert (f_type f =? 0 = false) as Hft. { destruct Hr as [gen ->]. cbn. apply Z.eqb_neq, type_nonzero. }
    rewrite Hft. cbn [negb]. unfold ret. do 3 eexists. split; [reflexivity|]. split; [exact Hr|reflexivity].
  - inversion Hh as [|? ? Hh1 Hh2]; subst. cbn [app] in *. rewrite ser_cons, <- app_assoc in Hw.
    assert (prefix (ser (hbs ++ [ca]) ++ w) (ser (hbs ++ ca :: fs))) as Hpp.
    { change (ca :: fs) with ([ca] ++ fs). rewrite app_assoc, (ser_app (hbs ++ [ca]) fs). destruct Hpw as [r K]. exists r. rewrite K, <- app_assoc. reflexivity. }
    destruct (consume_whole E fm a c ev hb (hbs ++ ca :: fs) _ HE HP HL HG Hw Hpp) as (Hb & f & s & Ec & Hr & Ps & Hz).
    unfold bind, get. rewrite Hb. cbn [negb andb app]. rewrite Ec. cbn [app]. change (AMQP_STATUS_OK =? AMQP_STATUS_OK) with true. cbn [negb]. cbv iota.
    pose proof (received_type f hb Hr) as Ht. rewrite Hh1 in Ht. unfold is_heartbeat in Ht. cbn [negb] in Ht.
    rewrite Z.eqb_sym. unfold AMQP_FRAME_HEARTBEAT. rewrite Ht.
    set (c1 := set_sbuf (set_in c s) (ser (hbs ++ [ca]) ++ w)).
    destruct (release_idle E fm c1 ev Ps Hq) as (c2 & E2 & P2 & S2 & Q2). rewrite E2. cbn [app].
    destruct (IH n [] c2 ev ca fs w ltac:(cbn in Hn; lia) P2) as (f' & c3 & l3 & E3 & R3 & S3); auto.
    { rewrite S2. unfold c1. cbn [c_sbuf set_sbuf]. lia. }
    { inversion HG; assumption. }
    rewrite E3. do 3 eexists. split; [reflexivity|]. split; [exact R3|exact S3].
Qed.

(** ** C69 *)
(** the call reads the clock, if it has a timeout, and nothing else has happened between
    [ev] and [ev1] *)
Definition only_clock (t : option timeval) (ev ev1 : list event) : Prop :=
  match t with
  | None => ev = ev1
  | Some tv => exists now, ev = EvClock now :: ev1 /\ fst (amqp_time_from_now (u64 now) (Some tv)) = AMQP_STATUS_OK
  end.
Lemma only_clock_run t ev ev1 c : only_clock t ev ev1 -> exists d l, time_from_now t c ev = Done (AMQP_STATUS_OK, Some d) c ev1 l.
Proof.
  destruct t as [tv|]; cbn [only_clock].
  - intros (now & -> & H). unfold time_from_now. unfold amqp_time_from_now in H |- *. destruct (_ || _); [discriminate|]. cbv zeta in *. unfold bind, sys_clock, ret. cbn [app].
    destruct (u64 now =? 0); [discriminate|]. destruct (_ || _); [discriminate|]. do 2 eexists. reflexivity.
  - intros ->. do 2 eexists. reflexivity.
Qed.

(** Both say no: of the frames sent so far, those received completely have all been taken
    from the bytes received (and, with amqp_frames_enqueued, handed out), and what is left
    over is a proper part of the next frame. *)
Theorem C69_nothing_left :
  forall (N : nat) (E : nat -> aenv) (calls : list api) (fs : list (Z * aframe)) (c c' : conn) (ev ev' : list event) (os : list outcome_t) (l : list obs),
    idle (c_in c) -> c_sbuf c = [] -> 0 <= frame_max c < M30 -> never_fails E -> Forall (good_frame (frame_max c)) fs ->
    Forall keeps_limits calls -> exec_all N E calls c ev = Done os c' ev' l -> prefix (in_bytes l) (ser fs) -> no_lost l ->
    amqp_data_in_buffer c' = false ->
    exists fs1 fs2 part, fs = fs1 ++ fs2 /\ in_bytes l = ser fs1 ++ part /\ Forall2 received (frames l) fs1 /\ incomplete_part part fs2.
Proof.
  intros N E calls fs c c' ev ev' os l Hi Hs Hf HE HG HK Hrun HP HL Hd.
  pose proof (well_exec_all N E _ c HK ev) as W. unfold wp in W. rewrite Hrun in W.
  destruct (W (frame_max c) [] fs HE (idle_pos E _ Hi Hf)) as (a & fs1 & fs2 & -> & R & S & B & F & EQ); auto.
  { rewrite Hs. exact SBUF_nil. }
  { rewrite Hs. exact HP. }
  rewrite Hs in EQ. cbn [app] in EQ. assert (c_sbuf c' = []) as Hs' by (unfold amqp_data_in_buffer in Hd; destruct (c_sbuf c'); [reflexivity|discriminate]).
  rewrite Hs', app_nil_r in EQ. exists fs1, fs2, a. split; [reflexivity|]. split; [exact EQ|]. split; [exact F|].
  apply Forall_app in HG. destruct HG as [_ HG]. apply (pos_part E _ _ a fs2 HE R HG). rewrite EQ, ser_app in HP. apply prefix_cut in HP. exact HP.
Qed.
(** A program that only waits for frames, heartbeats off: both say no, so every frame
    received completely has been returned to it. *)
Theorem C69_all_returned :
  forall (N : nat) (E : nat -> aenv) (timeouts : list (option timeval)) (fs : list (Z * aframe)) (c c' : conn) (ev ev' : list event) (os : list outcome_t) (l : list obs),
    off c -> c_queue c = [] -> idle (c_in c) -> c_sbuf c = [] -> 0 <= frame_max c < M30 -> never_fails E -> Forall (good_frame (frame_max c)) fs ->
    exec_all N E (map WaitFrame timeouts) c ev = Done os c' ev' l -> prefix (in_bytes l) (ser fs) ->
    amqp_data_in_buffer c' = false -> amqp_frames_enqueued c' = false ->
    exists fs1 fs2 part, fs = fs1 ++ fs2 /\ in_bytes l = ser fs1 ++ part /\ incomplete_part part fs2 /\
      Forall2 received (returned os) (filter carries_data fs1).
Proof.
  intros N E ts fs c c' ev ev' os l Hoff Hq Hi Hs Hf HE HG Hrun HP Hd He.
  pose proof (wait_frames_off N E ts c ev Hoff Hq) as H. unfold wp in H. rewrite Hrun in H. destruct H as ((H1 & H2 & H3 & H4 & H5 & H6) & _).
  assert (Forall keeps_limits (map WaitFrame ts)) as HK by (clear; induction ts; constructor; [exact I|assumption]).
  destruct (C69_nothing_left N E _ fs c c' ev ev' os l Hi Hs Hf HE HG HK Hrun HP H3 Hd) as (fs1 & fs2 & part & -> & EQ & F & P).
  exists fs1, fs2, part. split; [reflexivity|]. split; [exact EQ|]. split; [exact P|]. rewrite H5. apply received_no_hb, F.
Qed.
(** Frames enqueued: the next wait returns the first of them, and uses nothing but the
    clock. *)
Theorem C69_enqueued :
  forall (N : nat) (E : nat -> aenv) (t : option timeval) (c : conn) (ev ev1 : list event),
    Forall (entry_valid c) (c_queue c) -> amqp_frames_enqueued c = true -> only_clock t ev ev1 ->
    exists f c' l, exec N E (WaitFrame t) c ev = Done (OutFrame AMQP_STATUS_OK f) c' ev1 l /\ queued c = f :: queued c'.
Proof.
  intros N E t c ev ev1 Hv He Ht. destruct (only_clock_run t ev ev1 c Ht) as (d & l & Er). unfold amqp_frames_enqueued in He. destruct (c_queue c) as [|e q] eqn:Q; [discriminate|].
  inversion Hv as [|? ? V _]; subst. apply valid_alive in V. cbn [exec]. unfold amqp_simple_wait_frame_noblock, bind, get. rewrite Er. change (AMQP_STATUS_OK =? AMQP_STATUS_OK) with true. cbn [negb]. cbv iota.
  rewrite Q, V. cbn [negb]. unfold upd, ret. do 3 eexists. split; [reflexivity|]. unfold queued. rewrite Q. reflexivity.
Qed.
(** A complete frame (after any heartbeats) among the bytes received and not yet looked at:
    the next wait returns it, and uses nothing but the clock. *)
Theorem C69_buffered :
  forall (N : nat) (E : nat -> aenv) (calls : list api) (t : option timeval) (fs hbs rest : list (Z * aframe)) (ca : Z * aframe) (part : bytes)
         (c c' : conn) (ev ev' ev1 : list event) (os : list outcome_t) (l : list obs),
    idle (c_in c) -> c_sbuf c = [] -> 0 <= frame_max c < M30 -> never_fails E -> Forall (good_frame (frame_max c)) (fs ++ hbs ++ ca :: rest) ->
    Forall keeps_limits calls -> exec_all N E calls c ev = Done os c' ev' l -> no_lost l ->
    in_bytes l = ser (fs ++ hbs ++ [ca]) ++ part -> prefix part (ser rest) ->
    length (frames l) = length fs ->
    Forall (fun x => carries_data x = false) hbs -> carries_data ca = true ->
    amqp_frames_enqueued c' = false -> only_clock t ev' ev1 -> (length hbs < N)%nat ->
    exists f c2 l2, exec N E (WaitFrame t) c' ev' = Done (OutFrame AMQP_STATUS_OK f) c2 ev1 l2 /\ received f ca /\ amqp_data_in_buffer c' = true.
Proof.
  intros N E calls t fs hbs rest ca part c c' ev ev' ev1 os l Hi Hs Hf HE HG HK Hrun HL Hin Hpp Hlen Hh Hd Hq Ht HN.
  pose proof (well_exec_all N E _ c HK ev) as W. unfold wp in W. rewrite Hrun in W.
  assert (fs ++ hbs ++ ca :: rest = (fs ++ hbs ++ [ca]) ++ rest) as Eq by (rewrite <- !app_assoc; reflexivity).
  assert (prefix (in_bytes l) (ser (fs ++ hbs ++ ca :: rest))) as HP. { rewrite Eq, ser_app, Hin. destruct Hpp as [r K]. exists r. rewrite K, <- app_assoc. reflexivity. }
  destruct (W (frame_max c) [] _ HE (idle_pos E _ Hi Hf) ltac:(rewrite Hs; exact SBUF_nil) HL HG ltac:(rewrite Hs; exact HP)) as (a & fs1 & fs2 & Es & R & S & B & F & EQ).
  rewrite Hs in EQ. cbn [app] in EQ.
  assert (fs1 = fs /\ fs2 = hbs ++ ca :: rest) as [-> ->].
  { assert (length (frames l) = length fs1) as F2 by (clear -F; induction F; cbn; congruence). clear F. rename F2 into F. rewrite Hlen in F. clear -Es F. revert fs1 Es F. induction fs as [|x fs IH]; intros [|y fs1] Es F; cbn in *; try discriminate; [auto|].
    injection Es as -> Es. destruct (IH fs1 Es) as [-> ->]; [lia|auto]. }
  assert (c_queue c' = []) as Q by (unfold amqp_frames_enqueued in Hq; destruct (c_queue c'); [reflexivity|discriminate]).
  rewrite Hin, ser_app, <- app_assoc in EQ. apply app_inv_head in EQ. symmetry in EQ.
  apply Forall_app in HG as [_ HG].
  destruct (only_clock_run t ev' ev1 c' Ht) as (d & l1 & Er).
  destruct (wait_buffered E N d (frame_max c) HE hbs N a c' ev1 ca rest part HN R S Q Hh Hd HG EQ Hpp) as (f & c2 & l2 & E2 & R2 & _).
  cbn [exec]. unfold amqp_simple_wait_frame_noblock, bind, get. rewrite Er. change (AMQP_STATUS_OK =? AMQP_STATUS_OK) with true. cbn [negb]. cbv iota. rewrite Q.
  unfold wait_frame_inner. rewrite E2. unfold ret. do 3 eexists. split; [reflexivity|]. split; [exact R2|].
  unfold amqp_data_in_buffer. destruct (c_sbuf c') as [|b0 s0] eqn:Sb; [|reflexivity]. exfalso. rewrite app_nil_r in EQ.
  assert (prefix a (ser (hbs ++ ca :: rest))) as Pa. { rewrite EQ. change (ca :: rest) with ([ca] ++ rest). rewrite app_assoc, (ser_app (hbs ++ [ca]) rest). destruct Hpp as [r K]. exists r. rewrite K, <- app_assoc. reflexivity. }
  pose proof (pos_part E (frame_max c) (c_in c') a (hbs ++ ca :: rest) HE R HG Pa) as K.
  destruct hbs as [|h0 hbs]; cbn [app] in *; destruct K as (r & K1 & K2); rewrite ser_cons, <- app_assoc in EQ; rewrite EQ in K1;
    apply (f_equal (@length byte)) in K1; rewrite !app_length in K1; (destruct r; [contradiction|]); cbn [length] in K1; lia.
Qed.

(** ** Non-vacuity: three frames arrive in one piece; the first wait takes the first frame.
    Then data is in the buffer, and the next wait skips the heartbeat and returns the
    third without an event; then both say no. *)
Example C69_case :
  let c := set_in (new_connection 5) idle0 in
  match exec_all 100 plain_env [WaitFrame None] c [EvRecv (ROk (ser sample_stream))] with
  | Done os c' ev' l =>
      returned os = [received_frame 0 3 sample_ack] /\ ev' = [] /\ amqp_data_in_buffer c' = true /\ length (frames l) = 1%nat /\
      match exec 100 plain_env (WaitFrame (Some (mkTv 0 0))) c' [EvClock 77] with
      | Done o c2 ev2 l2 => o = OutFrame AMQP_STATUS_OK (received_frame 0 4 (ABody [x68; x69])) /\ ev2 = [] /\ amqp_data_in_buffer c2 = false /\ amqp_frames_enqueued c2 = false
      | Halt _ _ _ => False
      end
  | Halt _ _ _ => False
  end /\ only_clock (Some (mkTv 0 0)) [EvClock 77] [].
Proof. split; [vm_compute; repeat split|]. exists 77. split; reflexivity. Qed.

Print Assumptions C69_nothing_left.
Print Assumptions C69_all_returned.
Print Assumptions C69_enqueued.
Print Assumptions C69_buffered.
