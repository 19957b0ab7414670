(** C88: memory safety of whole sessions, from amqp_new_connection on, with
    amqp_login and with whatever the server sends. *)
From Coq Require Import String ZArith List Bool Lia.
From Verif Require Import Base BaseFacts Codec TableModel TableSpec TableEnc TableDec TableRT TableOps FramingStmt FramingGen FramingModel MethodSpec
  Frame FrameSpec FrameProofs FrameStream FrameFacts FrameInit FrameNew Time Sasl Net NetApi NetSpec CallSpec NetFacts NetWalk NetAcct NetOffAll NetTyped NetRx NetWell
  NetStuck NetRoomLogin NetProper Prop_Safe Prop_Login.
Import ListNotations.
Local Open Scope Z_scope.

(** ** Vocabulary *)
(** amqp_login and amqp_tune_connection: frames of at least 20 bytes, no heartbeats *)
Definition limits_asked (a : api) : Prop :=
  match a with
  | Tune _ fm hb => 20 <= fm < 1073741824 /\ hb <= 0
  | Login _ _ _ fm hb _ _ => 20 <= fm < 1073741824 /\ hb = 0
  | _ => True
  end.
(** the same with heartbeats *)
Definition limits_asked_heartbeats (a : api) : Prop :=
  match a with
  | Tune _ fm hb => 20 <= fm < 1073741824 /\ hb <= 65535
  | Login _ _ _ fm _ _ _ => 20 <= fm < 1073741824
  | _ => True
  end.
(** A frame as the protocol has it: a method of the catalogue with members of its
    types, a content header of class basic, a body or a heartbeat, on any channel,
    of any size below 2^31, in any order.  A connection.tune proposes frames of at
    least 20 bytes, or any (0). *)
Definition server_frame (ca : Z * aframe) : Prop :=
  good_frame INT_MAX ca /\
  (forall fs args v, snd ca = AMethod 10 30 fs args -> In ("frame_max"%string, VInt v) args -> v = 0 \/ 20 <= v).

(** ** Proofs *)
Lemma new_reads E fd : reads E (c_in (new_connection fd)) true [].
Proof. exists (mkB 65536 (repeat x00 8) (fun _ => 0%nat) 0%nat). split; [reflexivity|]. split; [split; [cbn; lia|reflexivity]|reflexivity]. Qed.
Lemma new_outbuf fd : zlen (c_outbuf (new_connection fd)) = 65536.
Proof. change (c_outbuf (new_connection fd)) with (repeat x00 (Z.to_nat 65536)). unfold zlen. rewrite repeat_length. reflexivity. Qed.
Lemma run_ub N E calls c ev c' l i a : Forall arguments_ok calls -> never_fails E -> in_ok (c_in c) -> c_queue c = [] -> zlen (c_outbuf c) < M31 ->
  reads E (c_in c) i a -> c_sbuf c = [] -> (i = true -> is_magic (a ++ in_bytes l) = false) ->
  exec_all N E calls c ev = Halt UB c' l -> Forall basic_content (frames l) -> no_lost l ->
  (exists B r, small B /\ wstep E B r = WUB /\ frames_in E (eff E i (i_nf (c_in c)) (a ++ in_bytes l)) (frames l) r) \/ ~ roomy c'.
Proof.
  intros Ha HE Hi Hq Hb HR HS HM Hrun HF HL.
  pose proof (typed_all N E calls c ev Ha Hi Hq Hb) as T. rewrite Hrun in T. specialize (T HF eq_refl).
  assert (qalive c) as Q0 by (unfold qalive; rewrite Hq; reflexivity).
  pose proof (al_exec_all N E calls c ev Q0) as Al. unfold wp in Al. rewrite Hrun in Al.
  assert (Forall (call_ok (fun fm => 0 <= fm < M30)) calls) as Hc by (eapply Forall_impl; [|exact Ha]; apply arguments_call_ok).
  pose proof (rs_exec_all N E HE calls c Hc ev) as R. unfold wp in R. rewrite Hrun in R. destruct R as [_ R].
  assert (zlen (c_sbuf c) <= SOCK_BUFFER_SIZE) as SB0 by (rewrite HS; discriminate).
  assert (i = true -> is_magic (a ++ c_sbuf c ++ in_bytes l) = false) as HM' by (rewrite HS; exact HM).
  destruct (R i a HR SB0 HL HM') as (SB & R'). rewrite HS in R'. cbn [app] in R'.
  destruct T as [T|[T|T]]; [|contradiction|right; unfold roomy; lia].
  destruct R' as [(St & _)|(i' & a' & R1 & R2 & R3 & _)]; [destruct (stuck_no_ub E _ _ St SB T)|].
  left. destruct (ub_frame E (c_in c') i' a' (c_sbuf c') R1 SB) as (B & HB & HW); [|exact T|].
  { intros Hi'. destruct (R3 Hi') as (K & -> & _). apply HM, K. }
  exists B, (eff E i' (i_nf (c_in c')) (a' ++ c_sbuf c')). auto.
Qed.

Lemma frame_max_member (args : mstruct) v : In ("frame_max"%string, VInt v) (norm_struct args) -> In ("frame_max"%string, VInt v) args.
Proof.
  unfold norm_struct. rewrite in_map_iff. intros ([n w] & H & Hin). cbn [fst snd] in H. injection H as -> H. destruct w; cbn in H; try discriminate. injection H as ->. exact Hin.
Qed.
Definition fine_frame (f : frame) : Prop := basic_content f /\ tune_fine f.
Lemma server_sent ca : server_frame ca -> sent_frame fine_frame ca.
Proof.
  intros [HG HT]. split; [exact HG|]. intros gen. destruct ca as [ch a]. cbn [fst snd] in *. split; [destruct a; cbn; try reflexivity; discriminate|].
  intros m v Hp Hin. destruct a as [c i fs args|? ? ? ?|?|]; try discriminate. cbn [received_frame f_pay] in Hp. injection Hp as Hid <-.
  destruct HG as (_ & [Hc Hw] & _). cbn [snd] in *. destruct (catalogue_ids c i fs Hc) as [R1 R2].
  assert (c = 10 /\ i = 30) as [-> ->].
  { unfold method_id, CONNECTION_TUNE in Hid. change (method_id 10 30) with 655390 in Hid. unfold method_id in Hid. clear - R1 R2 Hid. lia. }
  apply frame_max_member in Hin. destruct (HT fs args v eq_refl Hin) as [->|H]; [left; reflexivity|].
  assert (fs = [("channel_max", Short); ("frame_max", Long); ("heartbeat", Short)]%string) as ->.
  { clear - Hc. unfold catalogue in Hc. cbn [In] in Hc. repeat (destruct Hc as [Hc|Hc]; [try discriminate Hc; injection Hc as <-; reflexivity|]). contradiction. }
  right. unfold well_typed in Hw. inversion Hw as [|? ? ? ? [W1 W2] Hw1]; subst. inversion Hw1 as [|? ? ? ? [W3 W4] Hw2]; subst. inversion Hw2 as [|? ? ? ? [W5 W6] Hw3]; subst. inversion Hw3; subst.
  destruct y as [n1 v1], y0 as [n2 v2], y1 as [n3 v3]. cbn [fst snd] in *. subst.
  destruct Hin as [K|[K|[K|[]]]]; try discriminate. injection K as ->. cbn in W4. unfold u32. rewrite Z.mod_small by exact W4. exact H.
Qed.

Lemma prefix_dec (a b : bytes) : prefix a b \/ ~ prefix a b.
Proof.
  destruct (list_eq_dec Byte.byte_eq_dec (firstn (length a) b) a) as [H|H]; [left|right; intros [r ->]].
  - exists (skipn (length a) b). rewrite <- H at 1. symmetry. apply firstn_skipn.
  - apply H. rewrite firstn_app, firstn_all, Nat.sub_diag, firstn_O, app_nil_r. reflexivity.
Qed.
Lemma alloc_dec (l : list obs) : In (OAlloc false) l \/ ~ In (OAlloc false) l.
Proof.
  induction l as [|o l IH]; [right; intros []|]. destruct o; try (destruct IH as [IH|IH]; [left; right; exact IH|right; intros [K|K]; [discriminate K|exact (IH K)]]).
  destruct ok; [destruct IH as [IH|IH]; [left; right; exact IH|right; intros [K|K]; [discriminate K|exact (IH K)]]|left; left; reflexivity].
Qed.

Lemma clock_dec (l : list obs) : (exists t, In (OClock t) l /\ ~ 0 < t < 9223372036854775808) \/ (forall t, In (OClock t) l -> 0 < t < 9223372036854775808).
Proof.
  induction l as [|o l [(t & H1 & H2)|IH]]; [right; intros t []|left; exists t; split; [right; exact H1|exact H2]|].
  destruct o as [now| | | | | | | |]; try (right; intros t [K|K]; [discriminate K|exact (IH t K)]).
  destruct (Z_lt_dec 0 now) as [H1|H1], (Z_lt_dec now 9223372036854775808) as [H2|H2]; try (left; exists now; split; [left; reflexivity|lia]).
  right. intros t [K|K]; [injection K as <-; lia|exact (IH t K)].
Qed.
Lemma whole_ub (beats : Prop) N E calls fd fs ev c' l :
  Forall arguments_ok calls -> Forall (limits_fine beats) calls -> never_fails E -> Forall server_frame fs ->
  exec_all N E calls (new_connection fd) ev = Halt UB c' l -> no_lost l -> prefix (in_bytes l) (ser fs) -> ~ roomy c' /\ ~ nofail beats l.
Proof.
  intros Ha Hl HE Hfs Hrun HL HP.
  assert (Forall (sent_frame fine_frame) fs) as HS by (eapply Forall_impl; [|exact Hfs]; apply server_sent).
  assert (forall ch b g, fine_frame (mkFrame 3 ch (PBody b) g)) as XB by (intros; split; [discriminate|intros ? ? K; discriminate K]).
  pose proof (stream_magic fs (in_bytes l) HP) as HM.
  destruct (stream_proper E HE fine_frame XB true 0 fs (in_bytes l) HS HP) as (chunks & HC & HPc).
  assert (Forall (call_ok (fun fm => 0 <= fm < M30)) calls) as Hc by (eapply Forall_impl; [|exact Ha]; apply arguments_call_ok).
  (* the frames that were given out are those sent *)
  pose proof (rs_exec_all N E HE calls (new_connection fd) Hc ev) as R. unfold wp in R. rewrite Hrun in R. destruct R as [_ R].
  destruct (R true [] (new_reads E fd) ltac:(discriminate) HL (fun _ => HM)) as (_ & R').
  assert (Forall fine_frame (frames l)) as HF.
  { destruct R' as [(_ & (r & HR) & _)|(i' & a' & _ & HR & _)]; exact (proj1 (frames_proper E fine_frame _ _ _ HR chunks HC HPc)). }
  assert (Forall basic_content (frames l)) as HF2 by (eapply Forall_impl; [|exact HF]; intros f [K _]; exact K).
  assert (in_ok (c_in (new_connection fd))) as Hin by (repeat split; cbn; lia).
  destruct (run_ub N E calls (new_connection fd) ev c' l true []) as [(B & r & HB & HW & HR)|H]; auto using new_reads.
  - rewrite new_outbuf. reflexivity.
  - exfalso. destruct (frames_proper E fine_frame _ _ _ HR chunks HC HPc) as (_ & rest & HC' & HP').
    exact (proper_no_ub E fine_frame B r rest HB HW HC' HP').
  - split; [exact H|]. intros HN. apply H.
    assert (forall f, fine_frame f -> f_type f = 2 -> exists size p enc, f_pay f = PHeader 60 size p enc) as XH by (intros f [K _]; apply basic_content_header, K).
    pose proof (ro_exec_all N E fine_frame XH (fun f K => proj2 K) beats calls) as O.
    assert (Forall call_fine calls) as Hcf by (eapply Forall_impl; [|exact Ha]; apply arguments_fine).
    specialize (O Hcf Hl (new_connection fd) ev). unfold wp in O. rewrite Hrun in O. unfold roomy.
    apply O; auto.
    + split; [exact Hin|]. split; [constructor|rewrite new_outbuf; reflexivity].
    + unfold room_for. rewrite new_outbuf. cbn. lia.
Qed.

(** ** C88 *)
(** Everything a new connection goes through, amqp_login included, with any peer:
    the library reads and writes no memory it should not, unless the server sends
    a malformed frame (C13) or a content header of a class other than basic, unread
    bytes were overwritten (C34), or the limit on frames is below 20 bytes or
    larger than the send buffer (C41).  It may go on using a connection after
    amqp_handle_input has failed.  [eff E true 0]: the library loses the eighth byte
    of the first frame (C14). *)
Theorem C88_any_server_partial :
  forall (N : nat) (E : nat -> aenv) (calls : list api) (fd : Z) (c' : conn) (ev : list event) (l : list obs),
    Forall arguments_ok calls -> never_fails E ->
    exec_all N E calls (new_connection fd) ev = Halt UB c' l ->
    Forall basic_content (frames l) -> no_lost l -> is_magic (in_bytes l) = false ->
    (exists x y, frames_of (eff E true 0 (in_bytes l)) (frames l) (x ++ y) /\ malformed x) \/ ~ roomy c'.
Proof.
  intros N E calls fd c' ev l Ha HE Hrun HF HL HM.
  destruct (run_ub N E calls (new_connection fd) ev c' l true []) as [(B & r & HB & HW & HR)|H]; auto using new_reads.
  - repeat split. cbn. lia.
  - rewrite new_outbuf. reflexivity.
  - left. destruct (wstep_malformed E B r HB HW) as (x & y & -> & Hx). exists x, y. split; [exact (frames_in_of _ _ _ _ HR)|exact Hx].
Qed.
(** A server that sends frames of the protocol, in any order and at any time, to a
    client that makes any calls, with any schedule and any failures of the network:
    no undefined behaviour, unless an allocation failed (and left a send buffer
    below the limit on frames: C41_failed_tune_refuted). *)
Theorem C88_whole_session_partial :
  forall (N : nat) (E : nat -> aenv) (calls : list api) (fd : Z) (fs : list (Z * aframe)) (ev : list event),
    Forall arguments_ok calls -> Forall limits_asked calls -> never_fails E -> Forall server_frame fs ->
    match exec_all N E calls (new_connection fd) ev with
    | Halt UB c' l => ~ prefix (in_bytes l) (ser fs) \/ (In (OAlloc false) l /\ ~ roomy c')
    | _ => True
    end.
Proof.
  intros N E calls fd fs ev Ha Hl HE Hfs. destruct (exec_all N E calls (new_connection fd) ev) as [|s c' l] eqn:Hrun; [exact I|]. destruct s; try exact I.
  destruct (prefix_dec (in_bytes l) (ser fs)) as [HP|HP]; [right|left; exact HP].
  assert (Forall (limits_fine False) calls) as Hl' by (eapply Forall_impl; [|exact Hl]; intros []; cbn; tauto).
  assert (Forall no_heartbeat calls) as Hnh by (eapply Forall_impl; [|exact Hl]; intros []; cbn; tauto).
  pose proof (of_exec_all N E calls (new_connection fd) Hnh ev ltac:(repeat split)) as HL. unfold wp in HL. rewrite Hrun in HL.
  destruct (whole_ub False N E calls fd fs ev c' l Ha Hl' HE Hfs Hrun HL HP) as [H1 H2]. split; [|exact H1].
  destruct (alloc_dec l) as [|HN]; [assumption|]. exfalso. apply H2. split; [exact HN|contradiction].
Qed.
(** With heartbeats: unless unread bytes were overwritten (C34), and an allocation
    or the clock failed. *)
Theorem C88_whole_session_heartbeats_partial :
  forall (N : nat) (E : nat -> aenv) (calls : list api) (fd : Z) (fs : list (Z * aframe)) (c' : conn) (ev : list event) (l : list obs),
    Forall arguments_ok calls -> Forall limits_asked_heartbeats calls -> never_fails E -> Forall server_frame fs ->
    exec_all N E calls (new_connection fd) ev = Halt UB c' l -> no_lost l -> prefix (in_bytes l) (ser fs) ->
    ~ roomy c' /\ (In (OAlloc false) l \/ exists t, In (OClock t) l /\ ~ 0 < t < 9223372036854775808).
Proof.
  intros N E calls fd fs c' ev l Ha Hl HE Hfs Hrun HL HP.
  assert (Forall (limits_fine True) calls) as Hl' by (eapply Forall_impl; [|exact Hl]; intros []; cbn; tauto).
  destruct (whole_ub True N E calls fd fs ev c' l Ha Hl' HE Hfs Hrun HL HP) as [H1 H2]. split; [exact H1|].
  destruct (alloc_dec l) as [|HN]; [left; assumption|right]. destruct (clock_dec l) as [|HT]; [assumption|]. exfalso. apply H2. split; [exact HN|intros _; exact HT].
Qed.

(** The hypotheses are met by a login, a publish and a wait for a frame, with a
    server that proposes frames of 4096 bytes and sends a heartbeat at the end;
    the run ends normally ... *)
Definition tune_frame (fm : Z) : Z * aframe := (0, AMethod 10 30 [("channel_max", Short); ("frame_max", Long); ("heartbeat", Short)]%string
  [("channel_max", VInt 2047); ("frame_max", VInt fm); ("heartbeat", VInt 60)]%string).
Definition start_frame : Z * aframe := (0, AMethod 10 10 [("version_major", Octet); ("version_minor", Octet); ("server_properties", Tbl); ("mechanisms", LongStr); ("locales", LongStr)]%string
  [("version_major", VInt 0); ("version_minor", VInt 9); ("server_properties", VTable []); ("mechanisms", VBytes (lit "AMQPLAIN PLAIN")); ("locales", VBytes (lit "en_US"))]%string).
Definition open_ok_frame : Z * aframe := (0, AMethod 10 41 [("known_hosts", ShortStr)]%string [("known_hosts", VBytes [])]%string).
Definition a_session : list (Z * aframe) := [start_frame; tune_frame 4096; open_ok_frame; (0, AHeartbeat); (1, ABody [x68; x69])].
Definition session_calls : list api := [a_login 131072 0; Publish 1 [] [x71] 0 0 None [x68; x69]; WaitFrame None].
Lemma a_session_ok : Forall server_frame a_session.
Proof.
  repeat (apply Forall_cons; [split;
    [split; [cbn; lia|]; split; [first [exact I|split; [vm_compute; tauto|repeat constructor; vm_compute; (congruence || (split; congruence))]]|]; split; [vm_compute; reflexivity|]; split; [first [exact I|repeat constructor; vm_compute; congruence]|vm_compute; congruence]
    |intros fs args v H K; cbn [snd tune_frame start_frame open_ok_frame] in H; try discriminate H]|]); [|constructor].
  injection H as <- <-. destruct K as [K|[K|[K|[]]]]; try discriminate K. injection K as <-. right. lia.
Qed.
Example C88_case :
  Forall arguments_ok session_calls /\ Forall limits_asked session_calls /\ never_fails zero_env /\ Forall server_frame a_session /\
  match exec_all 100 zero_env session_calls (new_connection 5)
    (whole_login (the_tune 2047 4096 60) [EvAlloc true; EvSend (SOk 999); EvSend (SOk 999); EvRecv (ROk the_open_ok); EvSend (SOk 99); EvSend (SOk 99); EvSend (SOk 99); EvRecv (ROk (ser [(0, AHeartbeat); (1, ABody [x68; x69])]))]) with
  | Done os c' _ l => in_bytes l = ser a_session /\ roomy c' /\ map (fun o => match o with OutStatus r | OutFrame r _ => r | OutReply _ => 1 | _ => -1 end) os = [1; 0; 0]
  | Halt _ _ _ => False
  end.
Proof.
  split. { repeat (apply Forall_cons; [first [apply a_login_ok; reflexivity|cbn [arguments_ok props_fine]; repeat split; try (vm_compute; reflexivity); try (vm_compute; congruence)]|]). constructor. }
  split. { repeat (apply Forall_cons; [cbn; repeat split; lia|]). constructor. }
  split. { intros n. repeat split. }
  split; [exact a_session_ok|]. vm_compute. repeat split; congruence.
Qed.
(** ... and by a server that answers the protocol header with a message: the login
    ends with an error. *)
Example C88_case_unexpected :
  Forall server_frame [(1, ABody [x68; x69])] /\
  match exec_all 100 zero_env [a_login 131072 0] (new_connection 5)
    [EvClock 1; EvSend (SOk 8); EvClock 1; EvClock 2; EvRecv (ROk (ser [(1, ABody [x68; x69])])); EvClose true] with
  | Done [OutReply (RLibrary st)] _ _ l => in_bytes l = ser [(1, ABody [x68; x69])] /\ st < 0
  | _ => False
  end.
Proof.
  split; [|vm_compute; repeat split; congruence].
  apply Forall_cons; [|constructor]. split; [|intros fs args v H; discriminate H]. split; [cbn; lia|]. split; [exact I|]. split; [reflexivity|]. split; [exact I|vm_compute; congruence].
Qed.

Print Assumptions C88_any_server_partial.
Print Assumptions C88_whole_session_partial.
Print Assumptions C88_whole_session_heartbeats_partial.
