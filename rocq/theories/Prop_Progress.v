(** C57: no call of the library spins.

    The model runs the loops of the C code (send loop, receive loop, the loops of
    amqp_read_message, amqp_simple_rpc, amqp_release_buffers_on_channel, ...) with a
    bound [N] on the rounds of each.  This file shows that the bound does not matter:
    above a number that depends only on the length of the schedule (the answers of the
    operating system), on the bytes and frames waiting in the connection and on the
    number of calls, a run never stops because of the bound, and is the same for every
    bound.  So every loop of the library goes round only while the operating system
    keeps answering; in particular a run with no answers at all ends after a bounded
    number of rounds. *)
From Coq Require Import String ZArith List Bool Lia.
From Verif Require Import Base BaseFacts Codec CodecSwap CodecProofs TableModel TableSpec TableDec FramingModel Frame FrameSpec FrameProofs FrameInit FrameStream Time Net NetApi NetSpec NetFacts NetOrder NetWell NetRpc NetWait NetTyped NetProg NetFuel NetRx Prop_Frame Prop_Receive Prop_Safe Prop_Publish.
Import ListNotations.
Local Open Scope Z_scope.

(** ** Specification *)
(** the rounds a loop may need: one per byte of one read, for every answer of the
    operating system; the bytes and frames that are waiting; one per call *)
Definition rounds (c : conn) (ev : list event) (calls : list api) : Z :=
  (SOCK_BUFFER_SIZE + 2) * zlen ev + zlen (c_sbuf c) + 1 + zlen (c_queue c) + zlen calls.
(** the frame sizes passed to amqp_tune_connection and amqp_login are below 2^30 *)
Definition sizes_ok (a : api) : Prop :=
  match a with Tune _ fm _ => 0 <= fm < 2 ^ 30 | Login _ _ _ fm _ _ _ => fm < 2 ^ 30 | _ => True end.
(** the connection is between two frames (or new), and its buffers have sizes a C
    program can have *)
Definition between_frames (c : conn) : Prop :=
  (idle (c_in c) /\ 0 <= i_frame_max (c_in c) < 2 ^ 30 \/ exists fd, c_in c = c_in (new_connection fd)) /\
  zlen (c_sbuf c) <= SOCK_BUFFER_SIZE /\ zlen (c_outbuf c) < 2 ^ 31.

(** ** Proofs *)
Lemma between_K c : between_frames c -> K c.
Proof.
  intros ([[Hi Hf]|[fd Hn]] & H2 & H3); (split; [|split; assumption]).
  - split; [apply idle_in_ok; assumption|]. destruct Hi as (G1 & G2 & G3 & G4 & G5). rewrite G3, G4. change HEADER_SIZE with 7 in *. lia.
  - rewrite Hn. split; [|cbn; lia]. split; [reflexivity|]. split; [cbn; lia|exact I].
Qed.
Lemma sizes_limits calls : Forall sizes_ok calls -> Forall limits_ok calls.
Proof. apply Forall_impl. intros a H. destruct a; exact H. Qed.
Lemma mu_rounds c ev calls : mu c ev + zlen calls <= rounds c ev calls.
Proof. unfold mu, rounds, nu. destruct (_ <? _); lia. Qed.

(** For every sequence of calls on every connection between two frames, every schedule
    and every behaviour of the allocator: a run never reaches the bound. *)
Theorem C57_never_spins :
  forall (N : nat) (E : nat -> aenv) (calls : list api) (c : conn) (ev : list event),
    Forall sizes_ok calls -> between_frames c -> rounds c ev calls <= Z.of_nat N ->
    match exec_all N E calls c ev with
    | Done _ _ _ _ => True
    | Halt s _ _ => s <> Fuel
    end.
Proof.
  intros N E calls c ev Ha Hc Hn. pose proof (mu_rounds c ev calls).
  pose proof (exec_all_prog N E calls c ev (sizes_limits _ Ha) (between_K _ Hc) ltac:(lia)) as W. unfold wp in W.
  destruct (exec_all N E calls c ev); [exact I|exact W].
Qed.
(** The outcome does not depend on the bound. *)
Theorem C57_bound_irrelevant :
  forall (N N' : nat) (E : nat -> aenv) (calls : list api) (c : conn) (ev : list event),
    Forall sizes_ok calls -> between_frames c -> rounds c ev calls <= Z.of_nat N -> rounds c ev calls <= Z.of_nat N' ->
    exec_all N E calls c ev = exec_all N' E calls c ev.
Proof.
  assert (forall N N' E calls c ev, Forall sizes_ok calls -> between_frames c -> rounds c ev calls <= Z.of_nat N -> (N <= N')%nat ->
    exec_all N E calls c ev = exec_all N' E calls c ev) as W.
  { intros N N' E calls c ev Ha Hc Hn Hl. pose proof (C57_never_spins N E calls c ev Ha Hc Hn) as F. pose proof (upto_exec_all N N' E Hl calls c ev) as U.
    destruct (exec_all N E calls c ev) as [a c' ev' l|s c' l]; [symmetry; exact U|]. destruct s; try (symmetry; exact U). contradiction F; reflexivity. }
  intros N N' E calls c ev Ha Hc H1 H2. destruct (Nat.le_ge_cases N N'); [apply W; assumption|symmetry; apply W; assumption].
Qed.
(** A bound below the one of C57 that was not reached either gives the same run: the
    theorems of the other files, which hold for every bound, are about this run. *)
Theorem C57_small_bounds :
  forall (N N' : nat) (E : nat -> aenv) (calls : list api) (c : conn) (ev : list event),
    Forall sizes_ok calls -> between_frames c -> rounds c ev calls <= Z.of_nat N' ->
    match exec_all N E calls c ev with
    | Halt Fuel _ _ => True
    | run => exec_all N' E calls c ev = run
    end.
Proof.
  intros N N' E calls c ev Ha Hc H2. destruct (Nat.le_ge_cases N N') as [Hl|Hl].
  - pose proof (upto_exec_all N N' E Hl calls c ev) as U. destruct (exec_all N E calls c ev) as [a c' ev' l|s c' l]; [exact U|]. destruct s; exact U.
  - rewrite (C57_bound_irrelevant N' N E calls c ev Ha Hc H2 ltac:(lia)). destruct (exec_all N E calls c ev) as [a c' ev' l|[] c' l]; reflexivity || exact I.
Qed.

(** ** C41: publishing ends *)
(** a peer that takes at least one byte each time *)
Definition takes_some (e : event) : Prop := exists n, e = EvSend (SOk n) /\ 1 <= n.
Definition calm (c : conn) : Prop := off c /\ zlen (c_outbuf c) < M31.
(** a computation that needs one answer per byte it sends *)
Definition live {A} (m : M A) (c : conn) : Prop := calm c -> forall ev, Forall takes_some ev ->
  wp m c ev (fun _ c' ev' l => calm c' /\ Forall takes_some ev' /\ zlen ev <= zlen ev' + zlen (out_bytes l) /\ in_bytes l = [])
            (fun s _ l => in_bytes l = [] /\ s <> Abort /\ (s = Blocked -> zlen ev <= zlen (out_bytes l))).
Lemma live_ret {A} (a : A) c : live (ret a) c.
Proof. intros Ho ev He. apply wp_ret. split; [exact Ho|]. split; [exact He|]. split; [change (zlen (out_bytes [])) with 0; lia|reflexivity]. Qed.
Lemma in_bytes_app l l' : in_bytes (l ++ l') = in_bytes l ++ in_bytes l'.
Proof. apply flat_map_app. Qed.
Lemma live_bind {A B} (m : M A) (k : A -> M B) c : live m c -> (forall a c', live (k a) c') -> live (bind m k) c.
Proof.
  intros Hm Hk Ho ev He. apply wp_bind. eapply wp_conseq; [apply (Hm Ho ev He)| |auto]; cbv beta. intros a c1 ev1 l1 (O1 & E1 & Z1 & I1).
  eapply wp_conseq; [apply (Hk a c1 O1 ev1 E1)| |]; cbv beta.
  - intros b c2 ev2 l2 (O2 & E2 & Z2 & I2). rewrite out_bytes_app, zlen_app, in_bytes_app, I1, I2. repeat split; try apply O2; try exact E2. lia.
  - intros s c2 l2 (I2 & A2 & Z2). rewrite out_bytes_app, zlen_app, in_bytes_app, I1, I2. split; [reflexivity|]. split; [exact A2|]. intros K. specialize (Z2 K). lia.
Qed.
Lemma live_get {B} (k : conn -> M B) c : live (k c) c -> live (bind get k) c.
Proof. intros H Ho ev He. apply wp_get_bind. apply H; assumption. Qed.
Lemma live_upd {B} f (k : unit -> M B) c : (calm c -> calm (f c)) -> live (k tt) (f c) -> live (bind (upd f) k) c.
Proof. intros Hf H Ho ev He. apply wp_upd_bind. apply H; auto. Qed.
Lemma live_halt {A} s c : s <> Abort -> s <> Blocked -> @live A (halt s) c.
Proof. intros H H' Ho ev He. apply wp_halt. repeat split; auto. contradiction. Qed.
Section Live.
Context (N : nat) (E : nat -> aenv).
Lemma live_try_send more d : forall fuel len left c, left <> [] -> live (try_send_loop N fuel len left d more) c.
Proof.
  induction fuel as [|fuel IH]; intros len left c Hne; cbn [try_send_loop]; [apply live_halt; discriminate|].
  intros Ho ev He. apply wp_bind. unfold amqp_socket_send. wstep. wstep.
  - wstep. unfold do_poll. change (0 <? AMQP_STATUS_SOCKET_CLOSED) with false. cbv iota. wstep. wstep. rewrite H. wstep.
    change (AMQP_STATUS_SOCKET_CLOSED =? AMQP_STATUS_OK) with false. change (AMQP_STATUS_SOCKET_CLOSED =? AMQP_STATUS_TIMEOUT) with false. cbv iota.
    apply wp_ret. split; [exact Ho|]. split; [exact He|]. split; [change (zlen (out_bytes _)) with 0; lia|reflexivity].
  - destruct N as [|n]; cbn [tcp_send_loop]; [apply wp_halt; repeat split; discriminate|]. apply wp_bind. unfold sys_send at 1, wp at 1.
    destruct ev as [|e ev2]; [split; [reflexivity|]; split; [discriminate|]; intros _; change (0 <= zlen (out_bytes [])); apply zlen_nonneg|]. inversion He as [|? ? [k [-> Hk]] He2]; subst. 
    assert (1 <= zlen left) as Hl by (destruct left; [contradiction|rewrite zlen_cons'; pose proof (zlen_nonneg left); lia]).
    set (m := Z.max 0 (Z.min k (zlen left))). assert (1 <= m <= zlen left) as Hm by lia. apply wp_ret. cbv zeta.
    destruct (Z.ltb_spec 0 m); [|lia].
    assert (zlen (out_bytes ([OSend more (firstn (Z.to_nat m) left)] ++ [])) = m) as Hz.
    { cbn [app out_bytes flat_map]. rewrite app_nil_r. unfold zlen in *. rewrite firstn_length. lia. }
    destruct (Z.eqb_spec (zlen (skipn (Z.to_nat m) left)) 0) as [Hz0|Hz0].
    + apply wp_ret. rewrite app_nil_r. rewrite Hz. rewrite zlen_cons'. repeat split; try apply Ho; try exact He2. lia.
    + eapply wp_conseq; [apply IH; [intros K; rewrite K in Hz0; apply Hz0; reflexivity|exact Ho|exact He2]| |]; cbv beta.
      * intros r c2 e2 l2 (O2 & E2 & Z2 & I2). rewrite out_bytes_app, zlen_app, Hz, in_bytes_app, I2, zlen_cons'. repeat split; try apply O2; try exact E2. lia.
      * intros s c2 l2 (I2 & A2 & Z2). rewrite out_bytes_app, zlen_app, Hz, in_bytes_app, I2, zlen_cons'. split; [reflexivity|]. split; [exact A2|]. intros K. specialize (Z2 K). lia.
Qed.

Lemma e_at_bounds w v mem o mem' : e_at w v mem o = Some mem' -> 0 <= o < zlen mem.
Proof.
  unfold e_at. intros H. apply write_inv in H. destruct H as (H1 & H2 & _). rewrite amqp_e_be, zlen_be in H2. destruct w; unfold wnat in H2; lia.
Qed.
Lemma frame_enc_ne f buf buf' enc : zlen buf < M31 -> amqp_frame_to_bytes f buf = FRet AMQP_STATUS_OK buf' enc -> enc <> [].
Proof.
  intros Hb.
  assert (forall n mem buf'' enc', zlen mem < M31 -> frame_finish n mem = FRet AMQP_STATUS_OK buf'' enc' -> enc' <> []) as Hf.
  { intros n mem buf'' enc' Hm. unfold frame_finish. destruct (e_at W32 _ mem 3) as [m1|] eqn:H1; [|discriminate].
    destruct (e_at W8 _ m1 _) as [m2|] eqn:H2; [|discriminate]. cbv zeta. destruct (slice _ _ _) eqn:Hs; [|discriminate].
    intros H; inversion H; subst. pose proof (zlen_write _ _ _ _ H1) as Z1. apply e_at_bounds in H2.
    assert (add_size n (HEADER_SIZE + FOOTER_SIZE) = add_size HEADER_SIZE n + 1) as Hl.
    { unfold add_size in *. change (HEADER_SIZE + FOOTER_SIZE) with (HEADER_SIZE + 1). replace (n + (HEADER_SIZE + 1)) with (HEADER_SIZE + n + 1) by lia.
      rewrite <- Zplus_mod_idemp_l. apply Z.mod_small. lia. }
    rewrite Hl in Hs. unfold slice in Hs. destruct (_ && _) eqn:Hc; [|discriminate]. injection Hs as <-. apply andb_prop in Hc. destruct Hc as [_ Hc]. apply Z.leb_le in Hc.
    intros K. apply (f_equal (@length byte)) in K. rewrite firstn_length in K. cbn [length skipn Z.to_nat] in K. unfold zlen in *. lia. }
  assert (forall w v mem o mem', e_at w v mem o = Some mem' -> zlen mem' = zlen mem) as He
    by (intros w v mem o mem'; unfold e_at; apply zlen_write).
  assert (forall o g mem r mem', encode_sub o g mem = Some (r, mem') -> zlen mem' = zlen mem) as Hs.
  { intros o g mem r mem'. unfold encode_sub. destruct (slice _ _ _); [|discriminate]. destruct (g _) as [[]|]; [|discriminate].
    destruct (write _ _ _) eqn:Hw; [|discriminate]. intros H; inversion H; subst. eapply zlen_write; eauto. }
  unfold amqp_frame_to_bytes.
  destruct (e_at W8 _ buf 0) as [m1|] eqn:H1; [|discriminate]. destruct (e_at W16 _ m1 1) as [m2|] eqn:H2; [|discriminate].
  apply He in H1, H2.
  destruct (_ =? _).
  { destruct (f_pay f); try discriminate. destruct (write _ _ _) eqn:Hw; [|discriminate]. apply zlen_write in Hw. apply Hf. lia. }
  destruct (_ =? _).
  { destruct (f_pay f); try discriminate. destruct (e_at W32 _ m2 _) eqn:H3; [|discriminate]. destruct (encode_sub _ _ _) as [[r m]|] eqn:H4; [|discriminate].
    apply He in H3. apply Hs in H4. destruct (Z.ltb_spec r 0); [intros K; inversion K; unfold AMQP_STATUS_OK in *; lia|apply Hf; lia]. }
  destruct (_ =? _).
  { destruct (f_pay f); try discriminate. destruct (e_at W16 _ m2 _) as [m3|] eqn:H3; [|discriminate]. destruct (e_at W16 _ m3 _) as [m4|] eqn:H4; [|discriminate].
    destruct (e_at W64 _ m4 _) eqn:H5; [|discriminate]. destruct (encode_sub _ _ _) as [[r m]|] eqn:H6; [|discriminate].
    apply He in H3, H4, H5. apply Hs in H6. destruct (Z.ltb_spec r 0); [intros K; inversion K; unfold AMQP_STATUS_OK in *; lia|apply Hf; lia]. }
  destruct (_ =? _); [apply Hf; lia|discriminate].
Qed.
Lemma live_next_send c : live update_next_send c.
Proof.
  unfold update_next_send. apply live_get. intros Ho. pose proof Ho as [(O1 & O2 & O3) _]. unfold amqp_heartbeat_send. rewrite O1. revert Ho.
  change (time_s_from_now 0) with (ret (AMQP_STATUS_OK, Some amqp_time_infinite)). 
  match goal with |- calm c -> ?G => change (live (bind (ret (AMQP_STATUS_OK, Some amqp_time_infinite)) (fun x => let '(res, t) := x in upd (fun c0 => match t with Some t0 => set_next_send c0 t0 | None => c0 end);; ret res)) c) end.
  intros Ho ev He. wstep. wstep. apply wp_ret. split; [destruct Ho as [(? & ? & ?) ?]; repeat split; assumption|]. split; [exact He|]. split; [change (zlen (out_bytes _)) with 0; lia|reflexivity].
Qed.
Lemma live_send_loop more : forall fuel enc c, enc <> [] -> live (send_frame_loop N E fuel enc more amqp_time_infinite) c.
Proof.
  intros [|fuel] enc c Hne; cbn [send_frame_loop]; [apply live_halt; discriminate|]. apply live_get. cbv zeta.
  intros Ho. pose proof Ho as [(O1 & O2 & O3) _]. rewrite O3. revert Ho.
  change (amqp_time_first amqp_time_infinite amqp_time_infinite) with amqp_time_infinite. change (amqp_time_equal amqp_time_infinite amqp_time_infinite) with true. cbv iota.
  match goal with |- calm c -> forall ev, _ -> wp ?m _ _ _ _ => change (live m c) end.
  apply live_bind; [apply live_try_send; exact Hne|]. intros r c1. destruct (_ <? _); [apply live_ret|]. destruct (negb _); [apply live_ret|]. apply live_next_send.
Qed.
Lemma live_send f more c : live (amqp_send_frame_inner N E f more amqp_time_infinite) c.
Proof.
  unfold amqp_send_frame_inner. apply live_get. intros Ho. pose proof Ho as [_ Hb]. revert Ho. destruct (amqp_frame_to_bytes f (c_outbuf c)) as [st buf enc|] eqn:Hf; [|apply live_halt; discriminate].
  pose proof (frame_to_bytes_len _ _ _ _ _ Hf) as Hl.
  match goal with |- calm c -> forall ev, _ -> wp ?m _ _ _ _ => change (live m c) end.
  apply live_upd; [intros [Ho Hc]; split; [exact Ho|cbn [c_outbuf set_outbuf]; lia]|].
  destruct (Z.eqb_spec st AMQP_STATUS_OK) as [->|]; cbn [negb]; [|apply live_ret]. apply live_send_loop. eapply frame_enc_ne; eassumption.
Qed.
Lemma live_body ch body u : forall fuel o c, live (publish_body N E fuel ch body u o) c.
Proof.
  induction fuel as [|fuel IH]; intros o c; cbn [publish_body]; [apply live_halt; discriminate|]. destruct (negb _); [apply live_ret|]. cbv zeta. destruct (_ =? _); [apply live_ret|].
  apply live_bind; [unfold need; destruct (slice _ _ _); [apply live_ret|apply live_halt; discriminate]|]. intros fr c1.
  apply live_bind; [apply live_send|]. intros r c2. destruct (_ <? _); [apply live_ret|apply IH].
Qed.
Lemma live_publish ch ex rk ma im p body c : live (amqp_basic_publish N E ch ex rk ma im p body) c.
Proof.
  unfold amqp_basic_publish. apply live_get. cbv zeta. intros Ho. pose proof Ho as [(O1 & O2 & O3) _]. rewrite O3. revert Ho.
  change (time_has_past amqp_time_infinite) with (ret AMQP_STATUS_OK). 
  match goal with |- calm c -> forall ev, _ -> wp ?m _ _ _ _ => change (live m c) end.
  intros Ho ev He. wstep. change (AMQP_STATUS_OK =? AMQP_STATUS_TIMER_FAILURE) with false. change (AMQP_STATUS_OK =? AMQP_STATUS_TIMEOUT) with false. cbv iota. wstep.
  change (AMQP_STATUS_OK =? AMQP_STATUS_TIMEOUT) with false. change (negb (AMQP_STATUS_OK =? AMQP_STATUS_OK)) with false. cbv iota.
  match goal with |- wp ?m _ _ _ _ => assert (live m c) as W; [|apply (W Ho ev He)] end. clear Ho ev He O1 O2 O3.
  apply live_bind; [apply live_send|]. intros r c2. destruct (_ <? _); [apply live_ret|]. apply live_bind; [apply live_send|]. intros r2 c3. destruct (_ <? _); [apply live_ret|]. apply live_body.
Qed.
End Live.

(** On an established connection (heartbeats off, nothing waiting, the limits of C41)
    amqp_basic_publish returns as soon as the peer has taken the message: it needs at
    most one answer of the operating system per byte of the message, and one more. *)
Theorem C41_publish_terminates :
  forall (N : nat) (E : nat -> aenv) (ch : Z) (exchange routing_key : bytes) (mandatory immediate : Z) (p : option props)
         (body : bytes) (header : aframe) (c : conn) (ev : list event),
    let call := Publish ch exchange routing_key mandatory immediate p body in
    arguments_ok call -> content_header p body header ->
    off c -> idle (c_in c) -> c_sbuf c = [] -> c_queue c = [] -> roomy c -> zlen (c_outbuf c) < 2 ^ 31 -> frame_max c < 2 ^ 30 ->
    never_fails E -> rounds c ev [call] <= Z.of_nat N ->
    Forall takes_some ev ->
    zlen (message_wire ch (publish_method exchange routing_key mandatory immediate) header (frame_max c) body) < zlen ev ->
    exists r c' ev' l, amqp_basic_publish N E ch exchange routing_key mandatory immediate p body c ev = Done r c' ev' l.
Proof.
  intros N E ch ex rk ma im p body h c ev call Ha Hh Ho Hi Hs Hq Hr Hb Hf HE Hn Hev Hz.
  pose proof (C40_publish N E ch ex rk ma im p body h c ev Ha Hr Hb Hh) as P40. cbv zeta in P40.
  pose proof (live_publish N E ch ex rk ma im p body c (conj Ho Hb) ev Hev) as L. unfold wp in L.
  assert (between_frames c) as Hc. { split; [left; split; [exact Hi|destruct Hr as [Hr _]; unfold frame_max in *; lia]|]. rewrite Hs. split; [apply SBUF_nil|exact Hb]. }
  pose proof (C57_never_spins N E [call] c ev ltac:(repeat constructor) Hc Hn) as F.
  pose proof (C56_established N E [call] [] c ev (Forall_cons _ Ha (Forall_nil _)) ltac:(repeat constructor) Ho Hi Hs Hq Hr Hb Hf HE (Forall_nil _)) as U.
  unfold call in F, U. cbn [exec_all exec] in F, U. unfold bind in F, U.
  destruct (amqp_basic_publish N E ch ex rk ma im p body c ev) as [r c' ev' l|s c' l]; [exists r, c', ev', l; reflexivity|exfalso].
  destruct L as (L1 & L2 & L3). destruct s.
  - destruct P40 as [rest P40]. specialize (L3 eq_refl). apply (f_equal zlen) in P40. rewrite zlen_app in P40. pose proof (zlen_nonneg rest). lia.
  - apply F. reflexivity.
  - apply U. rewrite L1. exists (ser []). reflexivity.
  - apply L2. reflexivity.
Qed.

(** ** The theorems are about something *)
(** a session: four calls with heartbeats off; publishing through a slow socket *)
Example C57_case :
  Forall sizes_ok some_calls /\ between_frames ready /\
  rounds ready [EvSend (SOk 99); EvSend (SOk 99); EvSend (SOk 99); EvRecv (ROk (ser sample_stream)); EvSend (SOk 99); EvAlloc true] some_calls = 786449.
Proof.
  split; [repeat constructor|]. split; [|reflexivity]. destruct C56_case as (_ & _ & _ & Hi & _).
  split; [left; split; [exact Hi|cbn; lia]|]. split; [apply SBUF_nil|]. change (c_outbuf ready) with (repeat x00 (Z.to_nat 65536)). unfold zlen. rewrite repeat_length. lia.
Qed.
Example C57_case_new : between_frames (new_connection 5).
Proof.
  split; [right; exists 5; reflexivity|]. split; [apply SBUF_nil|]. change (c_outbuf (new_connection 5)) with (repeat x00 (Z.to_nat 65536)). unfold zlen. rewrite repeat_length. lia.
Qed.
(** publishing two bytes to a peer that takes one byte each time *)
Definition bytewise : list event := repeat (EvSend (SOk 1)) 100.
Example C41_terminates_case :
  let call := Publish 1 [] [x71] 0 0 None [x68; x69] in
  arguments_ok call /\ content_header None [x68; x69] (AContent 2 0 [] []) /\ Forall takes_some bytewise /\
  off ready /\ idle (c_in ready) /\ roomy ready /\
  zlen (message_wire 1 (publish_method [] [x71] 0 0) (AContent 2 0 [] []) (frame_max ready) [x68; x69]) < zlen bytewise /\
  match amqp_basic_publish 100 plain_env 1 [] [x71] 0 0 None [x68; x69] ready bytewise with
  | Done r _ ev' _ => r = AMQP_STATUS_OK /\ length ev' = 50%nat
  | Halt _ _ _ => False
  end.
Proof.
  destruct C56_case as (Ha & _ & Ho & Hi & Hr & _). cbv zeta. split; [inversion Ha; assumption|]. split; [reflexivity|].
  split. { apply Forall_forall. intros e He. apply repeat_spec in He. exists 1. split; [exact He|lia]. }
  split; [exact Ho|]. split; [exact Hi|]. split; [exact Hr|]. vm_compute. repeat split.
Qed.
Print Assumptions C57_never_spins.
Print Assumptions C57_bound_irrelevant.
Print Assumptions C57_small_bounds.
Print Assumptions C41_publish_terminates.
