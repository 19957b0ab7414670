(** C56: memory safety of whole sessions. *)
From Coq Require Import String ZArith List Bool Lia.
From Verif Require Import Base BaseFacts Codec TableModel TableSpec TableOps FramingStmt FramingGen FramingModel MethodSpec
  Frame FrameSpec FrameProofs FrameStream FrameFacts FrameInit FrameNew Time Sasl Net NetApi NetSpec CallSpec NetFacts NetWalk NetAcct NetOffAll NetTyped NetRx NetWell NetRoom
  Prop_Frame Prop_Release Prop_Calls Prop_Receive.
Import ListNotations.
Local Open Scope Z_scope.

(** ** Vocabulary *)
(** The arguments have their C types and fit into memory: methods are those of the
    protocol with members of the right types, tables have distinct keys.  Frames
    given to amqp_send_frame are method frames, content headers or heartbeats (for
    body frames: C41). *)
Definition arguments_ok (a : api) : Prop :=
  match a with
  | SendFrame f => exists ch x, f = c_frame ch x /\ aframe_ok x /\ forall b, x <> ABody b
  | SendMethod _ id m | Rpc _ id _ m => exists c i fs, In (c, i, fs) catalogue /\ id = method_id c i /\ well_typed fs m
  | Call w _ args => In w rpc_table /\ given (rpc_params w) args
  | Publish _ ex rk ma im p body => zlen ex < M63 /\ zlen rk < M63 /\ - M31 <= ma < M31 /\ - M31 <= im < M31 /\ props_fine p /\ zlen body < M63
  | Ack _ t mu => 0 <= t < M64 /\ - M31 <= mu < M31
  | Nack _ t mu rq => 0 <= t < M64 /\ - M31 <= mu < M31 /\ - M31 <= rq < M31
  | Reject _ t rq => 0 <= t < M64 /\ - M31 <= rq < M31
  | BasicGet _ q na => zlen q < M63 /\ - M31 <= na < M31
  | Tune _ fm _ => 0 <= fm < M30
  | Login pf vh cm fm hb p cr => zlen (lit pf) < M63 /\ zlen vh < M63 /\ fm < M30 /\ cprops_fine p /\ cred_fine cr
  | _ => True
  end.
(** what the library expects of the server: content headers of class basic *)
Definition basic_content (f : frame) : Prop := match f_pay f with PHeader cls _ _ _ => cls = 60 | _ => f_type f <> 2 end.
(** the send buffer holds a frame of the maximum size, and at least 20 bytes *)
Definition roomy (c : conn) : Prop := 20 <= frame_max c <= zlen (c_outbuf c).

(** ** Proofs *)
Lemma arguments_fine a : arguments_ok a -> call_fine a.
Proof.
  destruct a; cbn [arguments_ok call_fine]; auto.
  - intros (ch & x & -> & Hx & Hb) fm. apply asend; [exact Hx|]. intros b K. destruct (Hb b K).
  - intros (c & i & fs & Hin & -> & Hw). eapply asendm; eauto.
  - intros (c & i & fs & Hin & -> & Hw). eapply asendm; eauto.
  - intros [Hw Hg]. destruct (call_request w args Hw Hg) as (c & i & c' & i' & fs & m & H1 & H2 & H3 & H4 & H5 & H6 & H7 & H8).
    exists m. split; [exact H8|]. rewrite H6. eapply asendm; eauto.
Qed.
Lemma arguments_call_ok a : arguments_ok a -> call_ok (fun fm => 0 <= fm < M30) a.
Proof.
  destruct a; cbn [arguments_ok call_ok]; auto. intros (_ & _ & H & _) H0 s Hs. unfold tune_limit. destruct (_ && _) eqn:G; [|lia].
  apply andb_true_iff in G. destruct G as [_ G]. apply Z.ltb_lt in G. lia.
Qed.

Definition no_u (E : nat -> aenv) (s : stop) (c : conn) : Prop :=
  s = UB -> amqp_handle_input E (c_in c) (c_sbuf c) = HUB \/ ~ qalive c \/ frame_max c < 20 \/ zlen (c_outbuf c) < frame_max c.
Lemma basic_content_header f : basic_content f -> basic_header f.
Proof. unfold basic_content, basic_header. intros H H2. destruct (f_pay f); try (contradiction H; exact H2). subst. eauto. Qed.
Lemma typed_all N E calls c ev : Forall arguments_ok calls -> in_ok (c_in c) -> c_queue c = [] -> zlen (c_outbuf c) < M31 ->
  match exec_all N E calls c ev with
  | Done _ c' _ l => True
  | Halt s c' l => Forall basic_content (frames l) -> no_u E s c'
  end.
Proof.
  intros Ha Hi Hq Hb.
  pose proof (ty_exec_all N E basic_content (no_u E)) as H.
  specialize (H ltac:(intros s c0 Hs K; contradiction) ltac:(intros c0 K _; left; exact K) ltac:(intros c0 K _; right; left; exact K)).
  assert (forall c0, zlen (c_outbuf c0) < 20 \/ zlen (c_outbuf c0) < frame_max c0 \/ frame_max c0 < 8 -> no_u E UB c0) as HS.
  { intros c0 K _. right; right. lia. }
  specialize (H HS basic_content_header calls). 
  assert (Forall call_fine calls) as Hf by (eapply Forall_impl; [|exact Ha]; apply arguments_fine).
  specialize (H Hf c ev). assert (J basic_content c) as HJ. { split; [exact Hi|]. split; [|exact Hb]. unfold queued. rewrite Hq. constructor. }
  specialize (H HJ). unfold wp in H. destruct (exec_all N E calls c ev); [exact I|]. intros K. apply H, K.
Qed.
Lemma idle_in_ok s : idle s -> 0 <= i_frame_max s < M30 -> in_ok s.
Proof. intros (_ & H2 & _ & _ & H5) H. split; [exact H5|]. split; [exact H|]. rewrite H2. exact I. Qed.
Lemma idle_reads0 E s : idle s -> 0 <= i_frame_max s < M30 -> reads E s false [].
Proof.
  intros Hi Hf. destruct (idle_st E s Hi) as [Es _]. exists (idle_base s). split; [exact Es|]. split; [apply idle_small; assumption|left; reflexivity].
Qed.
Lemma halt_ub N E calls c ev c' l i a : Forall arguments_ok calls -> in_ok (c_in c) -> c_queue c = [] -> zlen (c_outbuf c) < M31 ->
  reads E (c_in c) i a -> c_sbuf c = [] -> (i = true -> is_magic (a ++ in_bytes l) = false) ->
  exec_all N E calls c ev = Halt UB c' l ->
  Forall basic_content (frames l) -> no_bad l -> no_lost l ->
  (exists x y, frames_of (eff E i (i_nf (c_in c)) (a ++ in_bytes l)) (frames l) (x ++ y) /\ malformed x) \/ ~ roomy c'.
Proof.
  intros Ha Hi Hq Hb HR HS HM Hrun HF HB HL.
  pose proof (typed_all N E calls c ev Ha Hi Hq Hb) as T. rewrite Hrun in T. specialize (T HF eq_refl).
  assert (qalive c) as Q0 by (unfold qalive; rewrite Hq; reflexivity).
  pose proof (al_exec_all N E calls c ev Q0) as Al. unfold wp in Al. rewrite Hrun in Al.
  assert (Forall (call_ok (fun fm => 0 <= fm < M30)) calls) as Hc by (eapply Forall_impl; [|exact Ha]; apply arguments_call_ok).
  pose proof (rx_exec_all N E calls c Hc ev) as R. unfold wp in R. rewrite Hrun in R.
  destruct (R i a HR) as (i' & a' & R1 & R2 & R3 & R4 & R5); auto. { rewrite HS. exact SBUF_nil. } { rewrite HS. exact HM. }
  rewrite HS in R3, R4. cbn [app] in R3, R4.
  destruct T as [T|[T|T]].
  - left. destruct (reads_ub E (c_in c') i' a' (c_sbuf c') R1 R2) as (x & y & E1 & E2); [|exact T|].
    { intros Hi'. destruct (R4 Hi') as (K & -> & _). apply HM, K. }
    exists x, y. rewrite <- E1. split; [exact R3|exact E2].
  - contradiction.
  - right. unfold roomy. lia.
Qed.

Lemma established N E calls fs c ev c' l :
    Forall arguments_ok calls -> Forall keeps_limits calls ->
    idle (c_in c) -> c_sbuf c = [] -> c_queue c = [] -> roomy c -> zlen (c_outbuf c) < M31 -> frame_max c < M30 ->
    never_fails E -> Forall (good_frame (frame_max c)) fs ->
    exec_all N E calls c ev = Halt UB c' l -> no_lost l -> prefix (in_bytes l) (ser fs) -> False.
Proof.
  intros Ha Hk Hi Hs Hq Hr Hb Hf HE HG Hrun HL HP.
  assert (0 <= frame_max c < M30) as Hfm by (unfold roomy in Hr; lia).
  pose proof (well_exec_all N E calls c Hk ev) as W. unfold wp in W. rewrite Hrun in W.
  destruct (W (frame_max c) [] fs HE (idle_pos E _ Hi Hfm)) as (a & fs1 & fs2 & -> & R & S & B & F & EQ); auto. { rewrite Hs. exact SBUF_nil. } { rewrite Hs. exact HP. }
  assert (Forall basic_content (frames l)) as HF.
  { clear -F. induction F as [|f ca l' fs' [gen ->] F IH]; constructor; [|exact IH]. destruct ca as [ch []]; cbn; try reflexivity; discriminate. }
  pose proof (room_exec_all N E calls c Hk ev) as Ro. unfold wp in Ro. rewrite Hrun in Ro. destruct Ro as [Ro1 Ro2].
  apply Forall_app in HG. destruct HG as [_ HG].
  pose proof (typed_all N E calls c ev Ha (idle_in_ok _ Hi Hfm) Hq Hb) as T. rewrite Hrun in T. specialize (T HF eq_refl).
  assert (qalive c) as Q0 by (unfold qalive; rewrite Hq; reflexivity).
  pose proof (al_exec_all N E calls c ev Q0) as Al. unfold wp in Al. rewrite Hrun in Al.
  destruct T as [T|[T|T]]; [|contradiction|unfold roomy in Hr; lia].
  (* the next frame is well-formed *)
  destruct R as (B0 & R1 & R2 & R3 & R4).
  assert (prefix (a ++ c_sbuf c') (ser fs2)) as HP2. { rewrite Hs in EQ. cbn [app] in EQ. rewrite EQ, ser_app in HP. apply prefix_cut in HP. exact HP. }
  destruct (c_sbuf c') as [|d0 d'] eqn:ED; [discriminate|]. rewrite <- ED in *.
  rewrite R1 in T. pose proof R2 as [R21 R22]. pose proof SBUF_ok as SB. pose proof (zlen_nonneg a) as A0.
  assert (c_sbuf c' <> []) as HN by (rewrite ED; discriminate). set (d := c_sbuf c') in *.
  assert (zlen a <= size_of (a ++ d) + 8) as HK.
  { pose proof (size_of_range (a ++ d)). destruct R3 as [R3|(H7 & _ & H8)]; [lia|]. rewrite size_of_app by lia. lia. }
  pose proof (size_of_range (a ++ d)) as SR.
  rewrite handle_input_closed in T by (try assumption; lia). rewrite step_wstep in T; [|exact R2|lia|rewrite zlen_app; lia|intros _; exact HK].
  rewrite <- R4 in HG.
  destruct (wstep_well E B0 fs2 (a ++ d) R2 HE HG HP2) as [[K _]|(ca & fs' & w' & f & _ & _ & _ & K & _)]; rewrite K in T; discriminate.
Qed.

(** ** C56 *)
(** Whole sessions, including amqp_login, amqp_tune_connection, failing
    allocations and clocks: the library reads and writes no memory it should not,
    unless the server sends a malformed frame (C13) or a content header of a class
    other than basic, amqp_handle_input failed before, unread bytes were
    overwritten (C34), or the limit on frames is below 20 bytes or larger than the
    send buffer (C41). *)
Theorem C56_no_undefined_behaviour_partial :
  forall (N : nat) (E : nat -> aenv) (calls : list api) (c c' : conn) (ev : list event) (l : list obs),
    Forall arguments_ok calls ->
    idle (c_in c) -> c_sbuf c = [] -> c_queue c = [] -> 0 <= frame_max c < M30 -> zlen (c_outbuf c) < M31 ->
    exec_all N E calls c ev = Halt UB c' l ->
    Forall basic_content (frames l) -> no_bad l -> no_lost l ->
    (exists x y, frames_of (in_bytes l) (frames l) (x ++ y) /\ malformed x) \/ ~ roomy c'.
Proof.
  intros N E calls c c' ev l Ha Hi Hs Hq Hf Hb Hrun HF HB HL.
  eapply (halt_ub N E calls c ev c' l false []); eauto using idle_in_ok, idle_reads0. discriminate.
Qed.
(** The same on a new connection.  [eff E true 0]: the library loses the eighth
    byte of the first frame (C14). *)
Theorem C56_new_connection_partial :
  forall (N : nat) (E : nat -> aenv) (calls : list api) (fd : Z) (c' : conn) (ev : list event) (l : list obs),
    Forall arguments_ok calls ->
    exec_all N E calls (new_connection fd) ev = Halt UB c' l ->
    Forall basic_content (frames l) -> no_bad l -> no_lost l -> is_magic (in_bytes l) = false ->
    (exists x y, frames_of (eff E true 0 (in_bytes l)) (frames l) (x ++ y) /\ malformed x) \/ ~ roomy c'.
Proof.
  intros N E calls fd c' ev l Ha Hrun HF HB HL HM.
  apply (halt_ub N E calls (new_connection fd) ev c' l true []); auto.
  - repeat split. cbn. lia.
  - change (c_outbuf (new_connection fd)) with (repeat x00 (Z.to_nat 65536)). unfold zlen. rewrite repeat_length. lia.
  - exists (mkB 65536 (repeat x00 8) (fun _ => 0%nat) 0%nat). split; [reflexivity|]. split; [split; [cbn; lia|reflexivity]|reflexivity].
Qed.

(** An established connection and a server that sends well-formed frames: every
    sequence of calls, in every schedule, is free of undefined behaviour (also if
    allocations fail, other than those of amqp_handle_input).  Heartbeats off. *)
Theorem C56_established :
  forall (N : nat) (E : nat -> aenv) (calls : list api) (fs : list (Z * aframe)) (c : conn) (ev : list event),
    Forall arguments_ok calls -> Forall keeps_limits calls ->
    off c -> idle (c_in c) -> c_sbuf c = [] -> c_queue c = [] -> roomy c -> zlen (c_outbuf c) < M31 -> frame_max c < M30 ->
    never_fails E -> Forall (good_frame (frame_max c)) fs ->
    match exec_all N E calls c ev with
    | Halt UB c' l => ~ prefix (in_bytes l) (ser fs)
    | _ => True
    end.
Proof.
  intros N E calls fs c ev Ha Hk Hoff Hi Hs Hq Hr Hb Hf HE HG.
  destruct (exec_all N E calls c ev) as [|s c' l] eqn:Hrun; [exact I|]. destruct s; try exact I. intros HP.
  assert (Forall no_heartbeat calls) as Hnh by (eapply Forall_impl; [|exact Hk]; intros []; cbn; tauto).
  pose proof (of_exec_all N E calls c Hnh ev Hoff) as HL. unfold wp in HL. rewrite Hrun in HL.
  eapply established; eauto.
Qed.
(** The same with heartbeats, if no unread bytes were overwritten. *)
Theorem C56_established_heartbeats_partial :
  forall (N : nat) (E : nat -> aenv) (calls : list api) (fs : list (Z * aframe)) (c c' : conn) (ev : list event) (l : list obs),
    Forall arguments_ok calls -> Forall keeps_limits calls ->
    idle (c_in c) -> c_sbuf c = [] -> c_queue c = [] -> roomy c -> zlen (c_outbuf c) < M31 -> frame_max c < M30 ->
    never_fails E -> Forall (good_frame (frame_max c)) fs ->
    exec_all N E calls c ev = Halt UB c' l -> no_lost l -> ~ prefix (in_bytes l) (ser fs).
Proof. intros N E calls fs c c' ev l Ha Hk Hi Hs Hq Hr Hb Hf HE HG Hrun HL HP. eapply established; eauto. Qed.

(** The hypotheses are met by a connection, a stream and a few calls; the run ends
    normally. *)
Definition ready : conn := set_in (new_connection 5) idle0.
Definition some_calls : list api := [Publish 1 [] [x71] 0 0 None [x68; x69]; WaitFrame None; Ack 1 7 0; ReadMessage 4].
Example C56_case :
  Forall arguments_ok some_calls /\ Forall keeps_limits some_calls /\ off ready /\ idle (c_in ready) /\ roomy ready /\
  Forall (good_frame (frame_max ready)) sample_stream /\
  match exec_all 100 plain_env some_calls ready
    [EvSend (SOk 99); EvSend (SOk 99); EvSend (SOk 99); EvRecv (ROk (ser sample_stream)); EvSend (SOk 99); EvAlloc true] with
  | Done os c' _ l => map (fun o => match o with OutStatus r | OutFrame r _ => Some r | _ => None end) os = [Some 0; Some 0; Some 0; None] /\
                      in_bytes l = ser sample_stream
  | Halt _ _ _ => False
  end.
Proof.
  split. { repeat (apply Forall_cons; [cbn [arguments_ok props_fine]; repeat split; try (vm_compute; reflexivity); try (vm_compute; congruence)|]). constructor. }
  split; [repeat constructor|]. split; [repeat split|]. split; [repeat split|].
  split. { unfold roomy. change (c_outbuf ready) with (repeat x00 (Z.to_nat 65536)). unfold zlen. rewrite repeat_length. change (frame_max ready) with 4096. lia. }
  destruct C35_case as (_ & _ & _ & H & _). split; [exact H|]. vm_compute. repeat split.
Qed.
(** The excuses are real: a method frame without a method number ... *)
Theorem C56_malformed_refuted :
  exists (ev : list event),
    match exec_all 100 plain_env [WaitFrame None] ready ev with
    | Halt UB _ l => in_bytes l = wire 1 0 []
    | _ => False
    end.
Proof. exists [EvRecv (ROk (wire 1 0 []))]. vm_compute. reflexivity. Qed.

Print Assumptions C56_no_undefined_behaviour_partial.
Print Assumptions C56_new_connection_partial.
Print Assumptions C56_established.
Print Assumptions C56_established_heartbeats_partial.
Print Assumptions C56_malformed_refuted.
