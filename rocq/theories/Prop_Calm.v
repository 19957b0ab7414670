(** C70: nothing fails without a cause. *)
From Coq Require Import String ZArith List Bool Lia.
From Verif Require Import Base BaseFacts Codec TableModel TableSpec TableOps FramingStmt FramingGen FramingModel MethodSpec
  Frame FrameSpec FrameProofs FrameFacts Time Sasl Net NetApi NetSpec CallSpec NetFacts NetOff NetRx NetWell NetCalm NetCalmApi NetCalmExec
  Prop_Frame Prop_Receive Prop_Calls CalmSpec.
Import ListNotations.
Local Open Scope Z_scope.

(** ** Proof *)
Lemma can_send_le n m f : n <= m -> can_send n f -> can_send m f.
Proof. intros H (ch & a & H1 & H2 & H3 & H4). exists ch, a. repeat (split; [assumption|]). lia. Qed.
Lemma spoilt_le n m fs st : n <= m -> spoilt m fs st -> spoilt n fs st.
Proof. intros H [H1 H2]. split; [exact H1|]. intros K. apply H2. eapply Forall_impl; [|exact K]. intros f. apply can_send_le, H. Qed.
Lemma fine_le n m fs st : n <= m -> fine m fs st -> fine n fs st.
Proof. intros H [H1|H1]; [left; exact H1|right; eapply spoilt_le; eauto]. Qed.
Lemma alarm_le n m a o : n <= m -> no_false_alarm m a o -> no_false_alarm n a o.
Proof.
  intros H. destruct a; destruct o; cbn [no_false_alarm]; auto; try (apply fine_le, H).
  all: intros K; eapply no_error_imp; [exact K|intros st; apply spoilt_le, H].
Qed.
(** A connection at rest, in use at time [t], and a calm schedule that delivers a
    beginning of the frames [fs]. *)
Definition settled (E : nat -> aenv) (t : Z) (c : conn) (fs : list (Z * aframe)) (ev : list event) : Prop :=
  idle (c_in c) /\ c_sbuf c = [] /\ c_queue c = [] /\ 24 <= frame_max c <= zlen (c_outbuf c) /\ frame_max c < 2 ^ 30 /\ zlen (c_outbuf c) < 2 ^ 30 /\
  in_use t c /\ 0 <= t /\ never_fails E /\
  Forall (good_frame (frame_max c)) fs /\ Forall modest_frame fs /\ calm t ev /\ prefix (inflow ev) (ser fs).
Lemma settled_happy E t c fs ev : settled E t c fs ev -> happy E (frame_max c) (zlen (c_outbuf c)) [] t fs c ev.
Proof.
  intros (Hi & Hs & Hq & Hf & Hf2 & Ho & Hu & Ht & HE & HG & HM & HC & HP). split; [exact Ht|]. split; [exact HC|]. split; [exact Hu|]. split; [exact HG|]. split; [exact HM|].
  split; [rewrite Hq; constructor|]. split; [reflexivity|]. exists []. split; [left; apply idle_pos; [exact Hi|split; [unfold frame_max in Hf; lia|exact Hf2]]|]. rewrite Hs. split; [vm_compute; discriminate|rewrite app_nil_r; exact HP].
Qed.

(** C70.  Nothing fails without a cause.  As long as the operating system and the network
    do not fail, memory suffices, the clock does not go back, and the server sends correct
    frames (all of this in any pieces and with any interruptions), the calls report what
    [no_false_alarm] allows:
    - a call that sends succeeds if what it sends has a representation that fits into a
      frame; if not, the error says so;
    - waiting for a frame succeeds, and no wait reports a timeout, a closed connection,
      or bad data;
    - an RPC with a request that fits never ends with an error of the library;
    - reading a message fails only if the server sent something else.
    Whole histories are covered: no call leaves the connection in a state that makes a
    later one fail. *)
Theorem C70_no_false_alarm :
  forall (N : nat) (E : nat -> aenv) (calls : list api) (t : Z) (c c' : conn) (fs : list (Z * aframe)) (ev ev' : list event) (os : list outcome_t) (l : list obs),
    settled E t c fs ev -> Forall keeps_limits calls -> Forall modest_call calls ->
    exec_all N E calls c ev = Done os c' ev' l ->
    Forall2 (no_false_alarm (frame_max c)) calls os.
Proof.
  intros N E calls t c c' fs ev ev' os l HS HK HC Hrun. pose proof (settled_happy _ _ _ _ _ HS) as HH.
  destruct HS as (Hi & Hs & Hq & Hf & Hf2 & Ho & Hu & Ht & HE & _).
  pose proof (calm_exec_all N E HE (frame_max c) (zlen (c_outbuf c)) Hf calls Ho HK HC t fs c ev HH) as H. unfold wp in H. rewrite Hrun in H.
  destruct H as (_ & _ & _ & _ & H). clear -H Hf. induction H; constructor; [|assumption]. eapply alarm_le; [|eassumption]. lia.
Qed.

(** The synchronous calls (queue declare, bind, consume, ...): what amqp_get_rpc_reply
    returns afterwards is an error of the library only if the documented request does not
    fit. *)
Lemma exec_all_app N E l1 : forall l2 c ev,
  exec_all N E (l1 ++ l2) c ev = bind (exec_all N E l1) (fun os1 => bind (exec_all N E l2) (fun os2 => ret (os1 ++ os2))) c ev.
Proof.
  induction l1 as [|a l1 IH]; intros l2 c ev; cbn [exec_all app].
  - unfold bind, ret. destruct (exec_all N E l2 c ev); [rewrite app_nil_r|]; reflexivity.
  - unfold bind at 1 3 4. destruct (exec N E a c ev) as [o c1 ev1 l|s c1 l]; [|reflexivity].
    unfold bind at 1. rewrite IH. unfold bind at 3. unfold bind. destruct (exec_all N E l1 c1 ev1) as [os c2 ev2 l2'|s c2 l2']; [|reflexivity].
    unfold ret; cbn [app]. destruct (exec_all N E l2 c2 ev2) as [os2 c3 ev3 l3|s c3 l3]; rewrite ?app_nil_r, ?app_assoc; reflexivity.
Qed.
Theorem C70_calls :
  forall (w : rpc_wrapper) (args : list (string * mval)),
    In w rpc_table -> given (rpc_params w) args ->
    exists cls i cls' i' fields m,
      In (rpc_name w, (cls, i), (cls', i')) documented /\ In (cls, i, fields) catalogue /\ documented_args fields args m /\
      forall (N : nat) (E : nat -> aenv) (calls : list api) (ch t : Z) (c c' : conn) (fs : list (Z * aframe)) (ev ev' : list event) (os : list outcome_t) (l : list obs),
        settled E t c fs ev -> Forall keeps_limits calls -> Forall modest_call calls ->
        exec_all N E (calls ++ [Call w ch args]) c ev = Done os c' ev' l ->
        no_error (spoilt (frame_max c) [method_frame ch (method_id cls i) m]) (c_recent c').
Proof.
  intros w args Hw Hg. destruct (call_request w args Hw Hg) as (cls & i & cls' & i' & fields & m & H1 & H2 & H3 & H4 & H5 & H6 & H7 & H8).
  exists cls, i, cls', i', fields, m. split; [exact H1|]. split; [exact H2|]. split; [exact H3|].
  intros N E calls ch t c c' fs ev ev' os l HS HK HC Hrun. pose proof (settled_happy _ _ _ _ _ HS) as HH.
  destruct HS as (Hi & Hs & Hq & Hf & Hf2 & Ho & Hu & Ht & HE & _).
  assert (calmly E (frame_max c) (zlen (c_outbuf c)) [] (bind (exec_all N E calls) (fun os1 => bind (exec_all N E [Call w ch args]) (fun os2 => ret (os1 ++ os2)))) t fs c
    (fun _ _ _ c' => no_error (spoilt (zlen (c_outbuf c)) [method_frame ch (method_id cls i) m]) (c_recent c'))) as K.
  { eapply calmly_bind; [apply calm_exec_all; try eassumption; lia|]. cbv beta. intros os1 t1 fs1 c1 T1 _.
    eapply (calmly_bind _ _ _ _ _ _ _ _ _ (fun _ _ _ c' => no_error (spoilt (zlen (c_outbuf c)) [method_frame ch (method_id cls i) m]) (c_recent c'))); [|intros; apply calmly_ret; assumption].
    cbn [exec_all exec].
    eapply (calmly_bind _ _ _ _ _ _ _ _ _ (fun _ _ _ c' => no_error (spoilt (zlen (c_outbuf c)) [method_frame ch (method_id cls i) m]) (c_recent c'))).
    2:{ intros o t2 fs2 c2 T2 HQ. apply calmly_ret_bind, calmly_ret. exact HQ. }
    eapply calmly_bind; [apply (calm_call N E HE (frame_max c) (zlen (c_outbuf c))); lia|]. cbv beta. intros o t2 fs2 c2 T2 (m' & B & HQ). apply calmly_ret.
    rewrite H8 in B. injection B as <-. rewrite H6 in HQ. exact HQ. }
  specialize (K ev HH). unfold wp in K. rewrite <- exec_all_app, Hrun in K. destruct K as (_ & _ & _ & _ & K).
  eapply no_error_imp; [exact K|]. intros st. apply spoilt_le. lia.
Qed.

(** The hypotheses are met: heartbeats are on, the server's frames arrive in pieces, calls
    are interrupted; a message is published, frames are read, a queue is purged. *)
Definition busy : conn := mkC idle0 5 (repeat x00 (Z.to_nat 8192)) [] [] 70000000000 130000000000 100 60 (c_to (new_connection 5)) RNone [] None.
Definition purge_ok : aframe := AMethod 50 31 [("message_count", Long)]%string [("message_count", VInt 7)]%string.
Definition server_stream : list (Z * aframe) := sample_stream ++ [(0, AHeartbeat); (1, purge_ok)].
Definition purge : option rpc_wrapper := find (fun w => String.eqb (rpc_name w) "amqp_queue_purge") rpc_table.
Definition busy_calls : list api :=
  [Publish 1 [] [x71] 0 0 None [x68; x69]; SetRpcTimeout (Some (mkTv 10 0)); WaitFrame (Some (mkTv 5 0)); WaitFrame None; Ack 1 7 0] ++
  match purge with Some w => [Call w 1 [("queue", VBytes [x71])]]%string | None => [] end.
Definition c70_events : list event :=
  [EvClock 10000000000; EvSend (SOk 3); EvSend SIntr; EvSend SAgain; EvClock 10000000100; EvPoll PIntr; EvClock 10000000200; EvPoll PReady; EvSend (SOk 99); EvClock 10000000300;
   EvSend (SOk 99); EvClock 10000000400; EvSend (SOk 99); EvClock 10000000500;
   EvClock 10000000600; EvClock 10000000700; EvRecv RIntr; EvRecv RAgain; EvClock 10000000800; EvPoll PReady; EvRecv (ROk (firstn 5 (ser server_stream))); EvClock 10000000900;
   EvClock 10000000950; EvRecv (ROk (firstn 40 (skipn 5 (ser server_stream)))); EvClock 10000001000;
   EvSend (SOk 99); EvClock 10000001100;
   EvClock 10000001200; EvSend (SOk 99); EvClock 10000001300; EvClock 10000001400; EvRecv (ROk (skipn 45 (ser server_stream))); EvClock 10000001500].
Lemma purge_good : good_frame (frame_max busy) (1, purge_ok).
Proof.
  split; [cbn; lia|]. split; [split; [|]|split; [reflexivity|split; [|vm_compute; discriminate]]].
  - apply cat_in. reflexivity.
  - repeat (constructor; [split; [reflexivity|cbn; lia]|]). constructor.
  - repeat constructor.
Qed.
Example C70_case :
  settled plain_env 9000000000 busy server_stream c70_events /\ Forall keeps_limits busy_calls /\ Forall modest_call busy_calls /\
  inflow c70_events = ser server_stream /\ length busy_calls = 6%nat /\
  match exec_all 100 plain_env busy_calls busy c70_events with
  | Done os c' [] l =>
      map (fun o => match o with OutStatus r | OutFrame r _ => Some r | _ => None end) os = [Some 0; Some 0; Some 0; Some 0; Some 0; None] /\
      c_recent c' = RNormal (method_id 50 31) [("message_count", VInt 7)]%string
  | _ => False
  end.
Proof.
  split.
  { split; [repeat split|]. split; [reflexivity|]. split; [reflexivity|].
    assert (zlen (c_outbuf busy) = 8192) as ZL by (cbn [busy c_outbuf]; unfold zlen; rewrite repeat_length; lia).
    rewrite ZL. change (frame_max busy) with 4096. split; [lia|]. split; [reflexivity|]. split; [reflexivity|].
    split. { unfold in_use. rewrite ZL. cbn [busy c_fd c_next_send c_next_recv c_hb c_to]. split; [discriminate|]. split; [right; lia|]. split; [right; lia|]. split; [lia|]. split; [exact I|]. split; [vm_compute; repeat split; discriminate|lia]. }
    split; [lia|]. split; [intros i; repeat split|].
    destruct C35_case as (_ & _ & _ & HG & _).
    split. { apply Forall_app. split; [exact HG|]. constructor; [|constructor; [apply purge_good|constructor]]. split; [cbn; lia|]. split; [exact I|]. split; [reflexivity|]. split; [exact I|vm_compute; discriminate]. }
    split. { repeat (constructor; [exact I|]). constructor. }
    split.
    - split; [|vm_compute; repeat split; discriminate].
      unfold c70_events.
      repeat (apply Forall_cons; [lazymatch goal with |- no_failure (EvRecv (ROk _)) => split; vm_compute; discriminate | |- no_failure (EvClock _) => split; reflexivity | _ => exact I end|]). apply Forall_nil.
    - exists []. rewrite app_nil_r. vm_compute. reflexivity. }
  split. { unfold busy_calls. apply Forall_app. split; [repeat constructor|]. destruct purge; repeat constructor. }
  split. { unfold busy_calls. apply Forall_app. split; [|destruct purge; repeat constructor].
    constructor; [exact I|]. constructor; [cbn [modest_call modest_timeout tv_sec tv_usec]; lia|]. constructor; [cbn [modest_call modest_timeout tv_sec tv_usec]; lia|]. repeat constructor. }
  split; [vm_compute; reflexivity|]. split; [reflexivity|]. vm_compute. split; reflexivity.
Qed.

Print Assumptions C70_no_false_alarm.
Print Assumptions C70_calls.
