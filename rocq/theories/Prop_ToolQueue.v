(** * C78: amqp-declare-queue and amqp-delete-queue. *)
From Coq Require Import String ZArith List Bool Lia.
From Verif Require Import Base BaseFacts Codec TableModel TableSpec FramingStmt FramingGen FramingModel MethodSpec Frame FrameSpec Time Net NetApi NetSpec NetFacts NetRoom
  NetTyped CallSpec Prop_Calls SpeakSpec NetWire Tools ToolError ReportSpec ToolQueue NetRx NetWell Prop_Frame Prop_Safe Prop_ToolError.
Import ListNotations.
Local Open Scope string_scope.
Local Open Scope list_scope.
Local Open Scope Z_scope.

(** ** Specification *)
Definition bit (b : bool) : mval := VBool (if b then 1 else 0).
(** the frame that declares (deletes) the queue, on channel 1 *)
Definition declare_request (queue : bytes) (durable : bool) : bytes :=
  ser_frame 1 (AMethod 50 10
    [("ticket", Short); ("queue", ShortStr); ("passive", Bit); ("durable", Bit); ("exclusive", Bit); ("auto_delete", Bit); ("nowait", Bit); ("arguments", Tbl)]
    [("ticket", VInt 0); ("queue", VBytes queue); ("passive", bit false); ("durable", bit durable); ("exclusive", bit false);
     ("auto_delete", bit false); ("nowait", bit false); ("arguments", VTable [])]).
Definition delete_request (queue : bytes) (if_unused if_empty : bool) : bytes :=
  ser_frame 1 (AMethod 50 40
    [("ticket", Short); ("queue", ShortStr); ("if_unused", Bit); ("if_empty", Bit); ("nowait", Bit)]
    [("ticket", VInt 0); ("queue", VBytes queue); ("if_unused", bit if_unused); ("if_empty", bit if_empty); ("nowait", bit false)]).
(** the frames that close channel 1 and the connection, with code 200 and its digits *)
Definition closes (F : list bytes) : Prop :=
  exists t1 t2, decimal_of t1 200 /\ decimal_of t2 200 /\ F = [ser_frame 1 (close_method 20 40 200 t1); ser_frame 0 (close_method 10 50 200 t2)].
(** among the frames received is this reply on channel 1 *)
Definition answered (id : Z) (m : mstruct) (l : list obs) : Prop :=
  exists f, In f (frames l) /\ f_type f = 1 /\ f_chan f = 1 /\ f_pay f = PMethod id m.
(** What the program does: exit status 0 means that the request was sent and answered, the
    answer was printed and the channel and the connection were closed; whatever happens,
    what was sent is a beginning of that (with heartbeats between the frames), and nothing
    but the answer is printed.  A failure is reported on standard error, in one line: which
    step failed and why; the reason is a status of the library or the close that the server
    sent. *)
Definition blames (context : string) (err : bytes) (l : list obs) : Prop :=
  exists step ch text, In (step, ch) [(context, 1); ("closing channel", 1); ("closing connection", 0)] /\ err = line step text /\ explained ch (frames l) text.
Definition does (request : bytes) (reply : Z) (context : string) (prints : mstruct -> bytes -> Prop) (r : run result) : Prop :=
  exists F, closes F /\
  match r with
  | Done (Returns z, out, err) _ _ l => z = 0 /\ err = [] /\ sent (request :: F) (out_bytes l) /\ exists m, answered reply m l /\ prints m out
  | Done (Dies, out, err) _ _ l => part (request :: F) (out_bytes l) /\ blames context err l /\ (out = [] \/ exists m, answered reply m l /\ prints m out)
  | Done _ _ _ _ => False
  | Halt _ _ l => part (request :: F) (out_bytes l)
  end.
(** the name up to its first NUL, a newline *)
Definition prints_name (m : mstruct) (out : bytes) : Prop :=
  exists name shown rest, lookup "queue" m = Some (VBytes name) /\ out = shown ++ [newline] /\ name = shown ++ rest /\
    ~ In x00 shown /\ (rest = [] \/ exists r, rest = x00 :: r).
(** the number of messages, a newline *)
Definition prints_count (m : mstruct) (out : bytes) : Prop :=
  exists n digits, lookup "message_count" m = Some (VInt n) /\ out = digits ++ [newline] /\ (0 <= n < M32 -> decimal_of digits n).

(** ** Proofs *)
Lemma only_part o req : sent_only o req -> part [req] o.
Proof.
  intros [H|(hb & H & ->)]; [apply part_single, H|]. apply (part_after [req] req [] hb); [apply sent_one|apply part_beats, H].
Qed.
Lemma part_more F G w : part F w -> part (F ++ G) w.
Proof. intros (w' & H & (x & ->)). exists ((w ++ x) ++ concat G). split; [apply sent_app; [exact H|apply sent_all]|]. exists (x ++ concat G). rewrite app_assoc. reflexivity. Qed.
Lemma whole_sent req hb : whole_beats hb -> sent [req] (req ++ hb).
Proof. intros H. apply (sent_app [req] req [] hb); [apply sent_one|apply sent_beats, H]. Qed.
Lemma wp_of {A} (m : M A) c ev (Q : A -> conn -> list event -> list obs -> Prop) (H : stop -> conn -> list obs -> Prop) :
  match m c ev with Done a c' ev' l => Q a c' ev' l | Halt s c' l => H s c' l end -> wp m c ev Q H.
Proof. unfold wp. destruct (m c ev); auto. Qed.
Lemma explained_more ch fs fs' text : (forall f, In f fs -> In f fs') -> explained ch fs text -> explained ch fs' text.
Proof. intros H [K|[(f & m & K & K')|(f & m & K & K')]]; [left; exact K|right; left; exists f, m; auto|right; right; exists f, m; auto]. Qed.
Lemma blames_more x err l l' : (forall f, In f (frames l) -> In f (frames l')) -> blames x err l -> blames x err l'.
Proof. intros H (s & ch & t & K1 & K2 & K3). exists s, ch, t. split; [exact K1|]. split; [exact K2|]. eapply explained_more; eauto. Qed.
Lemma frames_r a b f : In f (frames b) -> In f (frames (a ++ b)).
Proof. intros H. rewrite frames_app. apply in_or_app. auto. Qed.
Lemma frames_l a b f : In f (frames a) -> In f (frames (a ++ b)).
Proof. intros H. rewrite frames_app. apply in_or_app. auto. Qed.

Section Run.
Context (N : nat) (E : nat -> aenv).
(** closing: C55_closes for the channel, then for the connection *)
Lemma close_wire context out c ev : 20 <= zlen (c_outbuf c) < M31 -> J any_frame c ->
  exists F, closes F /\
  wp (close_connection N E out) c ev
    (fun r _ _ l => snd (fst r) = out /\
       match fst (fst r) with Returns z => z = 0 /\ snd r = [] /\ sent F (out_bytes l) | Dies => part F (out_bytes l) /\ blames context (snd r) l | _ => False end)
    (fun _ _ l => part F (out_bytes l)).
Proof.
  intros Hb HJ.
  pose proof (fun s e H => proj2 (C55_closes N E 1 200 s e H (amqp_channel_close N E 1 200) 20 40 41 1 (or_introl eq_refl))) as A. cbv zeta in A.
  pose proof (fun s e H => proj2 (C55_closes N E 1 200 s e H (amqp_connection_close N E 200) 10 50 51 0 (or_intror (or_introl eq_refl)))) as B. cbv zeta in B.
  change ((200 <? 0) || (65535 <? 200)) with false in A, B. cbv iota in A, B.
  destruct (A c ev Hb) as (t1 & T1 & A1). pose proof (room_channel_close N E 1 200 c ev) as R. unfold wp in R.
  pose proof (typed_close N E c ev HJ _ _ (or_introl eq_refl)) as Y. unfold wp in Y.
  unfold close_connection. destruct (amqp_channel_close N E 1 200 c ev) as [r c1 ev1 l1|s c1 l1] eqn:H1.
  2:{ exists [ser_frame 1 (close_method 20 40 200 t1); ser_frame 0 (close_method 10 50 200 t1)]. split; [exists t1, t1; auto|].
    apply wp_of. unfold bind. rewrite H1. apply (part_more [_] [_]), only_part, A1. }
  destruct A1 as [S1 A1]. destruct R as [R _]. destruct Y as (HJ1 & Y1 & Y2). destruct (B c1 ev1 ltac:(lia)) as (t2 & T2 & B1).
  exists [ser_frame 1 (close_method 20 40 200 t1); ser_frame 0 (close_method 10 50 200 t2)]. split; [exists t1, t2; auto|].
  apply wp_of. unfold bind at 1. rewrite H1. unfold unless_fatal at 1. pose proof (fatal 1 r (frames l1) "closing channel" Y1 Y2) as X.
  destruct (die_rpc r (lit "closing channel")) as [[rep|]|].
  { cbn [ret fst snd]. split; [reflexivity|]. rewrite app_nil_r. split; [apply (part_more [_] [_]), only_part, S1|]. destruct X as (text & -> & X). exists "closing channel", 1, text. cbn. auto. }
  { cbn [halt]. rewrite app_nil_r. apply (part_more [_] [_]), only_part, S1. }
  destruct X as (id & m & ->). destruct A1 as (_ & (hb & W1 & A1) & _).
  assert (sent [ser_frame 1 (close_method 20 40 200 t1)] (out_bytes l1)) as Q1 by (rewrite A1; apply whole_sent, W1).
  pose proof (typed_close N E c1 ev1 HJ1 _ _ (or_intror (or_introl eq_refl))) as Y. unfold wp in Y.
  unfold bind. destruct (amqp_connection_close N E 200 c1 ev1) as [r c2 ev2 l2|s c2 l2] eqn:H2.
  2:{ rewrite out_bytes_app. apply (part_after [_] _ [_]); [exact Q1|]. apply only_part, B1. }
  destruct B1 as [S2 B1]. destruct Y as (_ & Y3 & Y4). unfold unless_fatal. pose proof (fatal 0 r (frames l2) "closing connection" Y3 Y4) as X.
  destruct (die_rpc r (lit "closing connection")) as [[rep|]|].
  { cbn [ret fst snd]. rewrite app_nil_r. split; [reflexivity|]. rewrite out_bytes_app. split; [apply (part_after [_] _ [_]); [exact Q1|]; apply only_part, S2|].
    destruct X as (text & -> & X). exists "closing connection", 0, text. split; [cbn; auto|]. split; [reflexivity|]. eapply explained_more; [apply frames_r|exact X]. }
  { cbn [halt]. rewrite app_nil_r, out_bytes_app. apply (part_after [_] _ [_]); [exact Q1|]. apply only_part, S2. }
  destruct X as (id2 & m2 & ->). cbn [ret fst snd]. rewrite app_nil_r, out_bytes_app. split; [reflexivity|]. split; [reflexivity|]. split; [reflexivity|].
  destruct B1 as (_ & (hb2 & W2 & B1) & _). apply (sent_app [_] _ [_]); [exact Q1|]. rewrite B1. apply whole_sent, W2.
Qed.
(** the call, then what follows *)
Lemma call_wire name args request reply context print (prints : mstruct -> bytes -> Prop) c ev :
  20 <= zlen (c_outbuf c) < M31 -> J any_frame c ->
  (forall m out, print m = Some out -> prints m out) ->
  match rpc N E name 1 args c ev with
  | Done (Some m) c' _ l => (exists hb, whole_beats hb /\ out_bytes l = request ++ hb) /\ answered reply m l /\ zlen (c_outbuf c') = zlen (c_outbuf c) /\ J any_frame c'
  | Done None c' _ l => sent_only (out_bytes l) request /\ is_normal (c_recent c') = false /\ Forall typed (frames l) /\ said 1 (c_recent c') (frames l)
  | Halt _ _ l => sent_only (out_bytes l) request
  end ->
  does request reply context prints (bind (rpc N E name 1 args) (show N E context print) c ev).
Proof.
  intros Hb HJ Hp H. unfold does. destruct (close_wire context [] c ev Hb HJ) as (F0 & HF0 & _). unfold bind. destruct (rpc N E name 1 args c ev) as [[m|] c1 ev1 l1|s c1 l1].
  - destruct H as ((hb & W & H1) & H2 & H3 & HJ1). cbn [show]. destruct (print m) as [out|] eqn:Hpr.
    2:{ exists F0. split; [exact HF0|]. cbn [halt]. rewrite app_nil_r. apply (part_more [_]). rewrite H1. apply sent_part_of, whole_sent, W. }
    destruct (close_wire context out c1 ev1 ltac:(lia) HJ1) as (F & HF & K). exists F. split; [exact HF|]. unfold wp in K.
    assert (sent [request] (out_bytes l1)) as Q by (rewrite H1; apply whole_sent, W).
    assert (forall l2, answered reply m (l1 ++ l2)) as QA. { intros l2. destruct H2 as (f & G & G'). exists f. split; [rewrite frames_app; apply in_or_app; auto|exact G']. }
    destruct (close_connection N E out c1 ev1) as [[[[z| | |] o] e] c2 ev2 l2|s c2 l2]; cbn [fst snd] in K; rewrite ?out_bytes_app.
    + destruct K as (-> & -> & -> & K). split; [reflexivity|]. split; [reflexivity|]. split; [apply (sent_app [_] _ F); assumption|]. exists m. split; [apply QA|apply Hp, Hpr].
    + destruct K as (-> & K & K'). split; [apply (part_after [_] _ F); assumption|]. split; [eapply blames_more; [apply frames_r|exact K']|]. right. exists m. split; [apply QA|apply Hp, Hpr].
    + destruct K as (_ & []).
    + destruct K as (_ & []).
    + apply (part_after [_] _ F); assumption.
  - destruct H as (H1 & H2 & H3 & H4). cbn [show]. unfold bind, get. exists F0. split; [exact HF0|]. unfold unless_fatal. pose proof (fatal 1 (c_recent c1) (frames l1) context H3 H4) as X.
    destruct (die_rpc (c_recent c1) (lit context)) as [[rep|]|].
    + cbn [ret app]. rewrite app_nil_r. split; [apply (part_more [_]), only_part, H1|]. split; [|left; reflexivity]. destruct X as (text & -> & X). exists context, 1, text. cbn. auto.
    + cbn [halt app]. rewrite app_nil_r. apply (part_more [_]), only_part, H1.
    + destruct X as (id & m & X). rewrite X in H2. discriminate H2.
  - exists F0. split; [exact HF0|]. apply (part_more [_]), only_part, H.
Qed.
Lemma rpc_wire name w args c ev : wrapper name = Some w -> In w rpc_table -> given (rpc_params w) args -> 20 <= zlen (c_outbuf c) < M31 -> J any_frame c ->
  exists cc i c' i' fs m, In (rpc_name w, (cc, i), (c', i')) documented /\ In (cc, i, fs) catalogue /\ documented_args fs args m /\
  match rpc N E name 1 args c ev with
  | Done (Some r) c1 _ l => (exists hb, whole_beats hb /\ out_bytes l = ser_frame 1 (AMethod cc i fs m) ++ hb) /\ answered (method_id c' i') r l /\ zlen (c_outbuf c1) = zlen (c_outbuf c) /\ J any_frame c1
  | Done None c1 _ l => sent_only (out_bytes l) (ser_frame 1 (AMethod cc i fs m)) /\ is_normal (c_recent c1) = false /\ Forall typed (frames l) /\ said 1 (c_recent c1) (frames l)
  | Halt _ _ l => sent_only (out_bytes l) (ser_frame 1 (AMethod cc i fs m))
  end.
Proof.
  intros Hw Hin Hg Hb HJ. destruct (C55_calls w args Hin Hg) as (cc & i & c' & i' & fs & m & D & C & DA & K).
  exists cc, i, c', i', fs, m. split; [exact D|]. split; [exact C|]. split; [exact DA|]. unfold rpc. rewrite Hw. specialize (K N E 1 c ev Hb).
  pose proof (room_call N E w 1 args c ev) as R. unfold wp in R. pose proof (typed_call N E w 1 args c ev Hin Hg HJ) as T. unfold wp in T. pose proof (call_said N E w 1 args c ev (proj2 Hb)) as S.
  destruct (amqp_call N E w 1 args c ev) as [[r|] c1 ev1 l1|s c1 l1]; [| |exact K].
  - destruct K as (K1 & (b & f & K2 & K3) & _). split; [exact K1|]. split; [|split; [apply R|apply T]]. exists f. split; [rewrite K2; apply in_or_app; right; left; reflexivity|exact K3].
  - destruct K as [K1 K2]. split; [exact K1|]. split; [|split; [apply T|exact S]]. destruct (c_recent c1); try reflexivity. destruct K2.
Qed.
End Run.
Ltac pick H := repeat (destruct H as [H|H]; [first [discriminate H|injection H; clear H; intros; subst]|]); try contradiction H.
Ltac args_of H := repeat match goal with DA : Forall2 _ _ _ |- _ => inversion DA; clear DA; subst end;
  repeat match goal with K : fst _ = _ /\ _ |- _ => destruct K end; repeat match goal with p : (string * mval)%type |- _ => destruct p end; cbn in *;
  repeat match goal with K : Some _ = Some _ |- _ => injection K as <- end; subst.

(** ** Theorems *)
(** without a queue name nothing is done *)
Theorem C78_no_queue :
  forall (N : nat) (E : nat -> aenv) (durable if_unused if_empty : bool) (c : conn) (ev : list event),
    let message := lit "queue name not specified" ++ [newline] in
    declare_main N E None durable c ev = Done (Returns 1, [], message) c ev [] /\
    delete_main N E None if_unused if_empty c ev = Done (Returns 1, [], message) c ev [] /\
    delete_main N E (Some []) if_unused if_empty c ev = Done (Returns 1, [], message) c ev [].
Proof. repeat split. Qed.
(** the rest starts on any connection in which nothing but decoded frames waits *)
Definition usable (c : conn) : Prop := 20 <= zlen (c_outbuf c) < M31 /\ in_ok (c_in c) /\ Forall typed (queued c).
Lemma usable_J c : usable c -> J any_frame c.
Proof. intros (H1 & H2 & H3). split; [exact H2|]. split; [|apply H1]. eapply Forall_impl; [|exact H3]. intros f H. split; [exact H|exact I]. Qed.
Lemma idle_usable c : 20 <= zlen (c_outbuf c) < M31 -> idle (c_in c) -> 0 <= frame_max c < 2 ^ 30 -> c_queue c = [] -> usable c.
Proof. intros H1 H2 H3 H4. split; [exact H1|]. split; [apply idle_in_ok; assumption|]. unfold queued. rewrite H4. constructor. Qed.
Theorem C78_declare :
  forall (N : nat) (E : nat -> aenv) (queue : bytes) (durable : bool) (c : conn) (ev : list event),
    usable c -> zlen queue < M63 ->
    does (declare_request queue durable) (method_id 50 11) "queue.declare" prints_name (declare_main N E (Some queue) durable c ev).
Proof.
  intros N E q d c ev HU Hq. pose proof (proj1 HU) as Hb. pose proof (usable_J c HU) as HJ. unfold declare_main. set (args := [_; _; _; _; _; _]).
  apply call_wire; [exact Hb|exact HJ| |].
  { intros m out. unfold print_queue. destruct (lookup "queue" m) as [v|] eqn:Hl; [|discriminate]. destruct v as [z|name|t|z]; try discriminate. intros K. injection K as <-.
    destruct (upto_spec name) as (H2 & r & H1 & H3). exists name, (upto_nul name), r. auto. }
  assert (exists w, wrapper "amqp_queue_declare" = Some w /\ rpc_name w = "amqp_queue_declare" /\ In w rpc_table /\ given (rpc_params w) args) as (w & W1 & W2 & W3 & W4).
  { eexists. split; [vm_compute; reflexivity|]. split; [reflexivity|]. split; [apply (find_some (fun w => String.eqb (rpc_name w) "amqp_queue_declare")); vm_compute; reflexivity|].
    unfold given. cbn [rpc_params]. unfold args. repeat (constructor; [eexists; split; [reflexivity|cbn; try lia]|]); try constructor. all: try (destruct d; lia). all: vm_compute; tauto. }
  destruct (rpc_wire N E _ w args c ev W1 W3 W4 Hb HJ) as (cc & i & c' & i' & fs & m & D & C & DA & K). rewrite W2 in D. clear W1 W2 W3 W4.
  pick D. pick C. replace m with [("ticket", VInt 0); ("queue", VBytes q); ("passive", bit false); ("durable", bit d); ("exclusive", bit false); ("auto_delete", bit false); ("nowait", bit false); ("arguments", VTable [])] in K; [exact K|].
  clear K. unfold documented_args in DA. args_of DA. reflexivity.
Qed.
Theorem C78_delete :
  forall (N : nat) (E : nat -> aenv) (queue : bytes) (if_unused if_empty : bool) (c : conn) (ev : list event),
    usable c -> zlen queue < M63 -> queue <> [] ->
    does (delete_request queue if_unused if_empty) (method_id 50 41) "queue.delete" prints_count (delete_main N E (Some queue) if_unused if_empty c ev).
Proof.
  intros N E q u e c ev HU Hq Hne. pose proof (proj1 HU) as Hb. pose proof (usable_J c HU) as HJ. destruct q as [|b0 q0]; [contradiction|]. unfold delete_main. set (q := b0 :: q0) in *. clearbody q. set (args := [_; _; _]).
  apply call_wire; [exact Hb|exact HJ| |].
  { intros m out. unfold print_count. destruct (lookup "message_count" m) as [v|] eqn:Hl; [|discriminate]. destruct v as [z|name|t|z]; try discriminate. intros K. injection K as <-.
    exists z, (digits 10 z). split; [exact Hl|]. split; [reflexivity|]. intros Hz. apply digits_ok. change (10 ^ Z.of_nat 10) with 10000000000. lia. }
  assert (exists w, wrapper "amqp_queue_delete" = Some w /\ rpc_name w = "amqp_queue_delete" /\ In w rpc_table /\ given (rpc_params w) args) as (w & W1 & W2 & W3 & W4).
  { eexists. split; [vm_compute; reflexivity|]. split; [reflexivity|]. split; [apply (find_some (fun w => String.eqb (rpc_name w) "amqp_queue_delete")); vm_compute; reflexivity|].
    unfold given. cbn [rpc_params]. unfold args. repeat (constructor; [eexists; split; [reflexivity|cbn; try lia]|]); try constructor. all: try (destruct u; lia). all: try (destruct e; lia). }
  destruct (rpc_wire N E _ w args c ev W1 W3 W4 Hb HJ) as (cc & i & c' & i' & fs & m & D & C & DA & K). rewrite W2 in D. clear W1 W2 W3 W4.
  pick D. pick C. replace m with [("ticket", VInt 0); ("queue", VBytes q); ("if_unused", bit u); ("if_empty", bit e); ("nowait", bit false)] in K; [exact K|].
  clear K. unfold documented_args in DA. args_of DA. reflexivity.
Qed.

(** ** Cases: the server names the queue, closes follow, with a heartbeat in between *)
Definition declared (name : bytes) : aframe :=
  AMethod 50 11 [("queue", ShortStr); ("message_count", Long); ("consumer_count", Long)] [("queue", VBytes name); ("message_count", VInt 3); ("consumer_count", VInt 0)].
Definition deleted (n : Z) : aframe := AMethod 50 41 [("message_count", Long)] [("message_count", VInt n)].
Definition answers (x : aframe) : list (Z * aframe) := [(1, x); (0, AHeartbeat); (1, AMethod 20 41 [] []); (0, AMethod 10 51 [] [])].
Example C78_declare_case :
  match declare_main 100 plain_env (Some []) true ready [EvSend (SOk 9); EvSend (SOk 99); EvRecv (ROk (ser (answers (declared [x71; x31])))); EvSend (SOk 99); EvSend (SOk 99)] with
  | Done r _ _ l => r = (Returns 0, [x71; x31; x0a], []) /\ zlen (frames l) = 4 /\
      out_bytes l = declare_request [] true ++ ser_frame 1 (close_method 20 40 200 [x32; x30; x30]) ++ ser_frame 0 (close_method 10 50 200 [x32; x30; x30])
  | Halt _ _ _ => False
  end.
Proof. vm_compute. repeat split. Qed.
(** the channel is closed by the server: the program dies after printing *)
Example C78_delete_case :
  match delete_main 100 plain_env (Some [x71]) true false ready [EvSend (SOk 99); EvRecv (ROk (ser [(1, deleted 4294967295)])); EvSend (SOk 99); EvRecv RErr] with
  | Done r _ _ l => r = (Dies, [x34; x32; x39; x34; x39; x36; x37; x32; x39; x35; x0a], lit "closing channel: a socket error occurred" ++ [newline])
  | Halt _ _ _ => False
  end.
Proof. vm_compute. reflexivity. Qed.

(** the queue is in use: nothing is printed, the server's reason is reported *)
Example C78_refused_case :
  match delete_main 100 plain_env (Some [x71]) true false ready [EvSend (SOk 99); EvRecv (ROk (ser [(1, refusal (lit "PRECONDITION_FAILED - queue 'q' in use"))]))] with
  | Done r _ _ l => r = (Dies, [], lit "queue.delete: server channel error 404, message: PRECONDITION_FAILED - queue 'q' in use" ++ [newline])
  | Halt _ _ _ => False
  end /\ usable ready.
Proof.
  split; [vm_compute; reflexivity|]. apply idle_usable; try reflexivity; [|repeat split|vm_compute; intuition congruence].
  change (c_outbuf ready) with (repeat x00 (Z.to_nat 65536)). unfold zlen. rewrite repeat_length. lia.
Qed.

Print Assumptions C78_no_queue.
Print Assumptions C78_declare.
Print Assumptions C78_delete.
