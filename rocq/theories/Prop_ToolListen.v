(** C85: amqp-consume as a whole program. *)
From Coq Require Import String ZArith List Bool Lia.
From Verif Require Import Base BaseFacts Codec TableModel TableSpec FramingStmt FramingGen FramingModel MethodSpec Frame FrameSpec Time Sasl Net NetApi NetSpec NetFacts NetRoom
  NetWait NetRpc NetCalls NetOrder NetLogin NetTyped NetLoginWire CallSpec SpeakSpec ParleySpec NetWire Os ConnectSpec OsFacts Tools ToolOpts ToolError ReportSpec ToolConsume ToolQueue ToolMain ToolGet ToolListen ProgramSpec RunSpec GetSpec ListenSpec
  NetRx NetWell Prop_Frame Prop_Safe Prop_Calls Prop_ToolError Prop_ToolQueue Prop_ToolMain Prop_ToolRun Prop_ToolGet.
From Verif Require LoginSpec Sockets Prop_Login Prop_ToolOpts Prop_Url Prop_Tools Prop_Rpc ToolSpec Prop_ToolConsume.
Import ListNotations.
Local Open Scope string_scope.
Local Open Scope list_scope.
Local Open Scope Z_scope.

(** ** Interleavings *)
Lemma interleaving_app {A} (a b l a' b' l' : list A) : interleaving a b l -> interleaving a' b' l' -> interleaving (a ++ a') (b ++ b') (l ++ l').
Proof. induction 1; intros H'; cbn [app]; [exact H'|constructor; auto|constructor; auto]. Qed.
Lemma interleaving_right {A} (l : list A) : interleaving [] l l.
Proof. induction l; constructor; assumption. Qed.
Lemma no_hb_right a b l : interleaving a b (no_hb l) -> no_hb b = b.
Proof.
  assert (Forall (fun f => is_heartbeat f = false) (no_hb l)) as H. { apply Forall_forall. intros f Hf. apply filter_In in Hf. destruct Hf as [_ Hf]. destruct (is_heartbeat f); [discriminate|reflexivity]. }
  intros K. revert H. induction K as [|x a b m K IH|x a b m K IH]; intros H; [reflexivity| |]; inversion H as [|? ? H1 H2]; subst; [auto|].
  unfold no_hb in *. cbn [filter]. rewrite H1. cbn [negb]. rewrite IH by assumption. reflexivity.
Qed.
(** [ids] were answered, the other frames are waiting *)
Definition replied (ids : list Z) (D : list frame) (c c' : conn) (l : list obs) : Prop :=
  no_lost l -> no_oom_obs l -> exists R O, interleaving R O (no_hb (frames l)) /\ Forall2 replying ids R /\ no_hb (D ++ queued c') = no_hb (queued c) ++ O.
Lemma replied_app i1 i2 D1 D2 c c1 c2 l1 l2 : replied i1 D1 c c1 l1 -> replied i2 D2 c1 c2 l2 -> replied (i1 ++ i2) (D1 ++ D2) c c2 (l1 ++ l2).
Proof.
  intros A B Hl Ho. apply no_lost_app in Hl. apply no_oom_obs_app in Ho. destruct Hl as [Hl1 Hl2], Ho as [Ho1 Ho2]. destruct (A Hl1 Ho1) as (R & O & A1 & A2 & A3). destruct (B Hl2 Ho2) as (R' & O' & B1 & B2 & B3).
  exists (R ++ R'), (O ++ O'). split; [rewrite frames_app, no_hb_app; apply interleaving_app; assumption|]. split; [apply Forall2_app; assumption|].
  rewrite <- app_assoc, no_hb_app, B3, !app_assoc, <- A3, no_hb_app. reflexivity.
Qed.
Lemma taken_replied seen D c c' l : taken seen D c c' l -> replied [] D c c' l.
Proof. intros [_ H] Hl Ho. exists [], (no_hb (frames l)). split; [apply interleaving_right|]. split; [constructor|]. rewrite (H Hl Ho), no_hb_app. reflexivity. Qed.
Lemma replied_none c : replied [] [] c c [].
Proof. intros _ _. exists [], []. change (no_hb (frames [])) with (@nil frame). split; [constructor|]. split; [constructor|]. rewrite app_nil_r. reflexivity. Qed.
Lemma set_up_nil fm seen c : set_up fm seen c -> set_up fm (seen ++ frames []) c.
Proof. change (frames []) with (@nil frame). rewrite app_nil_r. auto. Qed.

Section Listen.
Context (N : nat) (E : nat -> aenv).
(** ** A synchronous call *)
Lemma call_ok name w args req id fm seen c ev :
  wrapper name = Some w -> In w rpc_table -> CallSpec.given (rpc_params w) args ->
  (forall cc i c' i' fs m, In (rpc_name w, (cc, i), (c', i')) documented -> In (cc, i, fs) catalogue -> documented_args fs args m -> ser_frame 1 (AMethod cc i fs m) = req /\ method_id c' i' = id) ->
  set_up fm seen c ->
  match rpc N E name 1 args c ev with
  | Done (Some m) c' _ l => set_up fm (seen ++ frames l) c' /\ sent [req] (out_bytes l) /\ answered id m l /\ Forall typed (frames l) /\ replied [id] [] c c' l
  | Done None c' _ l => part [req] (out_bytes l) /\ is_normal (c_recent c') = false /\ Forall typed (frames l) /\ said 1 (c_recent c') (frames l)
  | Halt _ _ l => part [req] (out_bytes l)
  end.
Proof.
  intros Hw Hin Hg Hreq HS. pose proof HS as (HU & Hfm & Hob & Hr & Hse).
  destruct (C55_calls w args Hin Hg) as (cc & i & c0 & i0 & fs & m0 & D1 & D2 & D3 & K).
  destruct (Hreq _ _ _ _ _ _ D1 D2 D3) as [<- <-]. clear Hreq. specialize (K N E 1 c ev (proj1 HU)).
  pose proof (room_call N E w 1 args c ev) as R. unfold wp in R. pose proof (call_said N E w 1 args c ev ltac:(apply HU)) as S.
  pose proof (arguments_fine (Call w 1 args) (conj Hin Hg)) as HA. cbn [call_fine] in HA. destruct HA as (rq & HA1 & HA2).
  assert (forall X, ty_at X (fun _ _ => True) (amqp_call N E w 1 args) anyt c) as T.
  { intros X. unfold amqp_call. rewrite HA1. apply ty_rpc_decoded; auto. }
  apply (fun T => ty_seen _ _ c ev seen T (usable_J c HU) Hse) in T.
  unfold rpc in *. rewrite Hw in *.
  assert (match amqp_call N E w 1 args c ev with Done (Some m) c' _ l => no_oom_obs l -> exists others f, no_hb (frames l) = others ++ [f] /\ no_hb (queued c') = no_hb (queued c) ++ others | _ => True end) as A.
  { unfold amqp_call. rewrite HA1. unfold amqp_simple_rpc_decoded, bind, upd, ret.
    pose proof (fun r c' ev' l => Prop_Rpc.C38_rpc N E 1 (rpc_request w) [rpc_reply w] rq c c' ev ev' r l ltac:(apply HU)) as A.
    destruct (amqp_simple_rpc N E 1 _ _ _ c ev) as [r c1 ev1 l|]; [|exact I]. destruct (A r c1 ev1 l eq_refl) as [_ A']. cbn [app]. rewrite app_nil_r. destruct r as [|rid rm|st|rid rm]; try exact I.
    intros Ho. destruct (A' Ho) as (others & reply & B1 & B2 & f & -> & _). exists others, f. auto. }
  destruct (amqp_call N E w 1 args c ev) as [[m|] c1 ev1 l|s c1 l]; [| |apply only_part, K].
  - destruct R as [R1 R2]. destruct T as (T1 & T2 & _ & T4). destruct K as ((hb & W & K1) & (b & f & K2 & K3 & K4 & K5) & _).
    split. { split; [apply J_usable; [exact T1|lia]|]. split; [congruence|]. split; [congruence|]. split; [exact Hr|exact T4]. }
    split; [rewrite K1; apply whole_sent, W|]. split; [exists f; split; [rewrite K2; apply in_or_app; right; left; reflexivity|auto]|]. split; [exact T2|].
    intros _ Ho. destruct (A Ho) as (others & f' & A1 & A2). assert (f' = f) as ->.
    { rewrite K2, no_hb_app in A1. assert (no_hb [f] = [f]) as G. { unfold no_hb, is_heartbeat. cbn [filter]. rewrite K3. reflexivity. }
      rewrite G in A1. apply app_inj_tail in A1. symmetry. apply A1. }
    exists [f], others. split; [|split; [constructor; [|constructor]; split; [exact K3|split; [exact K4|eauto]]|exact A2]].
    rewrite A1. assert (interleaving ([] ++ [f]) (others ++ []) (others ++ [f])) as G. { apply interleaving_app; [apply interleaving_right|constructor; constructor]. }
    rewrite app_nil_r in G. exact G.
  - destruct K as [K1 K2]. split; [apply only_part, K1|]. split; [|split; [apply T|exact S]]. destruct (c_recent c1); try reflexivity. destruct K2.
Qed.
(** the calls of a part of the program *)
Definition calls {A} (Q : list step) (note : bytes) (P : A -> list obs -> Prop) (fm : Z) (seen : list frame) (c : conn) (r : run (stage A)) : Prop :=
  match r with
  | Done (Go a) c' _ l => set_up fm (seen ++ frames l) c' /\ sent (map s_request Q) (out_bytes l) /\ Forall typed (frames l) /\ replied (map s_reply Q) [] c c' l /\ P a l
  | Done (Die err) _ _ l => exists Q1 s Q2 text, Q = Q1 ++ s :: Q2 /\ part (map s_request (Q1 ++ [s])) (out_bytes l) /\ err = note ++ line (s_name s) text /\ explained 1 (frames l) text
  | Halt _ _ l => part (map s_request Q) (out_bytes l)
  end.
Definition answering (id : Z) (a : option mstruct) (l : list obs) : Prop := exists m, a = Some m /\ answered id m l /\ Forall typed (frames l).
Lemma call_or_die_ok name w args req id context note fm seen c ev :
  wrapper name = Some w -> In w rpc_table -> CallSpec.given (rpc_params w) args ->
  (forall cc i c' i' fs m, In (rpc_name w, (cc, i), (c', i')) documented -> In (cc, i, fs) catalogue -> documented_args fs args m -> ser_frame 1 (AMethod cc i fs m) = req /\ method_id c' i' = id) ->
  set_up fm seen c ->
  calls [mkStep context req id] note (answering id) fm seen c (call_or_die N E name args context note c ev).
Proof.
  intros H1 H2 H3 H4 HS. unfold call_or_die, bind, get. pose proof (call_ok name w args req id fm seen c ev H1 H2 H3 H4 HS) as K. destruct (rpc N E name 1 args c ev) as [[m|] c1 ev1 l|s c1 l].
  - cbn [ret calls]. rewrite app_nil_r. destruct K as (K1 & K2 & K3 & K4 & K5). split; [exact K1|]. split; [exact K2|]. split; [exact K4|]. split; [exact K5|]. exists m. auto.
  - destruct K as (K1 & K2 & K3 & K4). pose proof (fatal 1 (c_recent c1) (frames l) context K3 K4) as X. destruct (die_rpc (c_recent c1) (lit context)) as [[rep|]|].
    + cbn [ret app calls]. rewrite app_nil_r. destruct X as (text & -> & X). exists [], (mkStep context req id), [], text. split; [reflexivity|]. split; [exact K1|]. split; [reflexivity|exact X].
    + cbn [halt app calls]. rewrite app_nil_r. exact K1.
    + destruct X as (j & mm & X). rewrite X in K2. discriminate K2.
  - exact K.
Qed.
(** one part after the other *)
Lemma calls_then {A B} Q1 Q2 note (P : A -> list obs -> Prop) (R : B -> list obs -> Prop) fm seen c ev (m : M (stage A)) (k : stage A -> M (stage B)) :
  calls Q1 note P fm seen c (m c ev) ->
  (forall err, k (Die err) = ret (Die err)) ->
  (forall a c' ev' l, P a l -> set_up fm (seen ++ frames l) c' -> Forall typed (frames l) -> calls Q2 note (fun b l' => R b (l ++ l')) fm (seen ++ frames l) c' (k (Go a) c' ev')) ->
  calls (Q1 ++ Q2) note R fm seen c (bind m k c ev).
Proof.
  intros H1 Hd H2. unfold bind. destruct (m c ev) as [[a|err] c1 ev1 l1|s c1 l1]; cbn [calls] in H1.
  - destruct H1 as (S1 & W1 & T1 & R1 & P1). specialize (H2 a c1 ev1 l1 P1 S1 T1). destruct (k (Go a) c1 ev1) as [[b|err] c2 ev2 l2|s c2 l2]; cbn [calls] in *; rewrite ?frames_app, ?out_bytes_app, ?map_app.
    + destruct H2 as (S2 & W2 & T2 & R2 & P2). rewrite app_assoc. split; [exact S2|]. split; [apply sent_app; assumption|]. split; [apply Forall_app; auto|]. split; [apply (replied_app _ _ [] [] c c1 c2); assumption|exact P2].
    + destruct H2 as (Qa & s & Qb & text & -> & W2 & -> & X). exists (Q1 ++ Qa), s, Qb, text. split; [rewrite app_assoc; reflexivity|]. rewrite <- app_assoc, map_app. split; [apply part_after; assumption|]. split; [reflexivity|].
      eapply explained_more; [|exact X]. intros f Hf. apply in_or_app. right. exact Hf.
    + apply part_after; assumption.
  - destruct H1 as (Qa & s & Qb & text & -> & W & -> & X). rewrite Hd. cbn [ret calls]. rewrite app_nil_r. exists Qa, s, (Qb ++ Q2), text. rewrite <- app_assoc. cbn [app]. auto.
  - cbn [calls]. rewrite map_app. apply part_more, H1.
Qed.

(** ** The calls before the first message *)
Ltac the_call name := eexists; split; [vm_compute; reflexivity|]; split; [apply (find_some (fun w => String.eqb (rpc_name w) name)); vm_compute; reflexivity|].
Ltac fine := unfold CallSpec.given; cbn [rpc_params]; repeat match goal with |- Forall _ (_ :: _) => constructor; [eexists; split; [reflexivity|cbn; try lia]|] | |- Forall _ [] => constructor end.
Ltac only_request := let D := fresh "D" in let C := fresh "C" in let DA := fresh "DA" in
  intros cc i c' i' fs m D C DA; cbn [rpc_name] in D; pick D; pick C; split; [|reflexivity]; unfold declare_auto_delete, bind_request, qos_request, consume_request;
  match goal with |- ser_frame _ (AMethod _ _ _ ?m1) = ser_frame _ (AMethod _ _ _ ?m2) => cut (m1 = m2); [intros ->; reflexivity|] end;
  unfold documented_args in DA; args_of DA; reflexivity.
Lemma declare_call q x note fm seen c ev : zlen q < M63 -> set_up fm seen c ->
  calls [mkStep "queue.declare" (declare_auto_delete q x) (method_id 50 11)] note (answering (method_id 50 11)) fm seen c
    (call_or_die N E "amqp_queue_declare" [("queue", VBytes q); ("passive", VBool 0); ("durable", VBool 0); ("exclusive", VBool (if x then 1 else 0)); ("auto_delete", VBool 1); ("arguments", VTable [])] "queue.declare" note c ev).
Proof.
  intros Hq HS. set (args := [_; _; _; _; _; _]).
  assert (exists w, wrapper "amqp_queue_declare" = Some w /\ In w rpc_table /\ CallSpec.given (rpc_params w) args /\
    (forall cc i c' i' fs m, In (rpc_name w, (cc, i), (c', i')) documented -> In (cc, i, fs) catalogue -> documented_args fs args m -> ser_frame 1 (AMethod cc i fs m) = declare_auto_delete q x /\ method_id c' i' = method_id 50 11)) as (w & W1 & W2 & W3 & W4).
  { the_call "amqp_queue_declare". split; [unfold args; fine; try (destruct x; lia); vm_compute; tauto|]. only_request. }
  apply (call_or_die_ok _ w); assumption.
Qed.
Lemma bind_call q e k note fm seen c ev : zlen q < M63 -> zlen e < M63 -> zlen k < M63 -> set_up fm seen c ->
  calls [mkStep "queue.bind" (bind_request q e k) (method_id 50 21)] note (answering (method_id 50 21)) fm seen c
    (call_or_die N E "amqp_queue_bind" [("queue", VBytes q); ("exchange", VBytes e); ("routing_key", VBytes k); ("arguments", VTable [])] "queue.bind" note c ev).
Proof.
  intros Hq He Hk HS. set (args := [_; _; _; _]).
  assert (exists w, wrapper "amqp_queue_bind" = Some w /\ In w rpc_table /\ CallSpec.given (rpc_params w) args /\
    (forall cc i c' i' fs m, In (rpc_name w, (cc, i), (c', i')) documented -> In (cc, i, fs) catalogue -> documented_args fs args m -> ser_frame 1 (AMethod cc i fs m) = bind_request q e k /\ method_id c' i' = method_id 50 21)) as (w & W1 & W2 & W3 & W4).
  { the_call "amqp_queue_bind". split; [unfold args; fine; vm_compute; tauto|]. only_request. }
  apply (call_or_die_ok _ w); assumption.
Qed.
Lemma qos_call n note fm seen c ev : 0 <= n < M16 -> set_up fm seen c ->
  calls [mkStep "basic.qos" (qos_request n) (method_id 60 11)] note (answering (method_id 60 11)) fm seen c
    (call_or_die N E "amqp_basic_qos" [("prefetch_size", VInt 0); ("prefetch_count", VInt n); ("global", VBool 0)] "basic.qos" note c ev).
Proof.
  intros Hn HS. set (args := [_; _; _]).
  assert (exists w, wrapper "amqp_basic_qos" = Some w /\ In w rpc_table /\ CallSpec.given (rpc_params w) args /\
    (forall cc i c' i' fs m, In (rpc_name w, (cc, i), (c', i')) documented -> In (cc, i, fs) catalogue -> documented_args fs args m -> ser_frame 1 (AMethod cc i fs m) = qos_request n /\ method_id c' i' = method_id 60 11)) as (w & W1 & W2 & W3 & W4).
  { the_call "amqp_basic_qos". split; [unfold args; fine|]. only_request. }
  apply (call_or_die_ok _ w); assumption.
Qed.
Lemma consume_call q no_ack note fm seen c ev : zlen q < M63 -> set_up fm seen c ->
  calls [mkStep "basic.consume" (consume_request q no_ack) (method_id 60 21)] note (answering (method_id 60 21)) fm seen c
    (call_or_die N E "amqp_basic_consume" [("queue", VBytes q); ("consumer_tag", VBytes []); ("no_local", VBool 0); ("no_ack", VBool (if no_ack then 1 else 0)); ("exclusive", VBool 0); ("arguments", VTable [])] "basic.consume" note c ev).
Proof.
  intros Hq HS. set (args := [_; _; _; _; _; _]).
  assert (exists w, wrapper "amqp_basic_consume" = Some w /\ In w rpc_table /\ CallSpec.given (rpc_params w) args /\
    (forall cc i c' i' fs m, In (rpc_name w, (cc, i), (c', i')) documented -> In (cc, i, fs) catalogue -> documented_args fs args m -> ser_frame 1 (AMethod cc i fs m) = consume_request q no_ack /\ method_id c' i' = method_id 60 21)) as (w & W1 & W2 & W3 & W4).
  { the_call "amqp_basic_consume". split; [unfold args; fine; try (destruct no_ack; lia); try (change (zlen (@nil byte)) with 0; lia); vm_compute; tauto|]. only_request. }
  apply (call_or_die_ok _ w); assumption.
Qed.
Lemma calls_nil {A} note (P : A -> list obs -> Prop) (a : A) fm seen c ev : set_up fm seen c -> P a [] -> calls [] note P fm seen c (Done (Go a) c ev []).
Proof. intros HS HP. split; [apply set_up_nil, HS|]. split; [constructor|]. split; [constructor|]. split; [apply replied_none|exact HP]. Qed.
Lemma calls_post {A} Q note (P P' : A -> list obs -> Prop) fm seen c r : calls Q note P fm seen c r -> (forall a l, P a l -> P' a l) -> calls Q note P' fm seen c r.
Proof. intros H K. destruct r as [[a|err] c' ev' l|s c' l]; cbn [calls] in *; try exact H. intuition. Qed.
Definition anyway {A} (_ : A) (_ : list obs) : Prop := True.
Lemma bind_each_ok q e note : zlen q < M63 -> zlen e < M63 -> forall keys, Forall (fun k => zlen k < M63) keys -> forall fm seen c ev, set_up fm seen c ->
  calls (map (fun k => mkStep "queue.bind" (bind_request q e k) (method_id 50 21)) keys) note anyway fm seen c (bind_each N E q e keys note c ev).
Proof.
  intros Hq He. induction 1 as [|k keys Hk Hks IH]; intros fm seen c ev HS; cbn [bind_each map]; [apply calls_nil; [exact HS|exact I]|].
  apply (calls_then [_] _ note (answering (method_id 50 21)) anyway); [apply bind_call; assumption|reflexivity|].
  intros a c' ev' l _ HS' _. apply IH, HS'.
Qed.
Lemma qos_each_ok note : forall ns, Forall (fun n => 0 <= n < M16) ns -> forall fm seen c ev, set_up fm seen c ->
  calls (map (fun n => mkStep "basic.qos" (qos_request n) (method_id 60 11)) ns) note anyway fm seen c (qos_each N E ns note c ev).
Proof.
  induction 1 as [|k keys Hk Hks IH]; intros fm seen c ev HS; cbn [qos_each map]; [apply calls_nil; [exact HS|exact I]|].
  apply (calls_then [_] _ note (answering (method_id 60 11)) anyway); [apply qos_call; assumption|reflexivity|].
  intros a c' ev' l _ HS' _. apply IH, HS'.
Qed.
Lemma qos_limits count prefetch : qos_calls count prefetch = limits count prefetch /\ Forall (fun n => 0 <= n < M16) (limits count prefetch).
Proof.
  unfold qos_calls, limits, counted, AMQP_CONSUME_MAX_PREFETCH_COUNT.
  replace (1 <=? count) with (0 <? count) by (destruct (Z.ltb_spec 0 count), (Z.leb_spec 1 count); lia). replace (1 <=? prefetch) with (0 <? prefetch) by (destruct (Z.ltb_spec 0 prefetch), (Z.leb_spec 1 prefetch); lia).
  destruct (Z.ltb_spec 0 count), (Z.leb_spec count 65535), (Z.ltb_spec 0 prefetch), (Z.leb_spec prefetch 65535), (Z.leb_spec count prefetch), (Z.ltb_spec prefetch count); cbn [andb negb app]; try lia; (split; [reflexivity|]); repeat (constructor; [lia|]); constructor.
Qed.
Lemma subscribe_ok q no_ack count prefetch note fm seen c ev : zlen q < M63 -> set_up fm seen c ->
  calls (map (fun n => mkStep "basic.qos" (qos_request n) (method_id 60 11)) (limits count prefetch) ++ [mkStep "basic.consume" (consume_request q no_ack) (method_id 60 21)]) note anyway fm seen c
    (subscribe N E q no_ack count prefetch note c ev).
Proof.
  intros Hq HS. unfold subscribe. destruct (qos_limits count prefetch) as [-> HL].
  apply (calls_then _ [_] note anyway anyway); [apply qos_each_ok; assumption|reflexivity|].
  intros a c' ev' l _ HS' _. rewrite <- (app_nil_r [_]). apply (calls_then [_] [] note (answering (method_id 60 21))); [apply consume_call; assumption|reflexivity|].
  intros b c2 ev2 l2 _ HS2 _. apply calls_nil; [exact HS2|exact I].
Qed.
Lemma escaped b : octal_escape b = escape b.
Proof. destruct b; reflexivity. Qed.
Lemma provided_name name : exists s, stringify_bytes name = Some s /\ s = concat (map octal_escape name).
Proof.
  destruct (Prop_ToolConsume.C64_printed_name name) as (s & H & _). exists s. split; [exact H|]. unfold stringify_bytes in H. destruct (_ <=? _); [|discriminate]. injection H as <-. f_equal. apply map_ext. intros b. symmetry. apply escaped.
Qed.
Lemma keys_tokens k parts : ToolSpec.comma_separated k parts -> tokens k None = filter (fun p => negb (zlen p =? 0)) parts.
Proof.
  intros H. rewrite (Prop_ToolConsume.tokens_are _ _ H). apply filter_ext. intros [|b p]; [reflexivity|]. cbn. symmetry. apply negb_true_iff, Z.eqb_neq. unfold zlen. cbn [length]. lia.
Qed.
Lemma answered_name m l : answered (method_id 50 11) m l -> Forall typed (frames l) -> exists name, lookup "queue" m = Some (VBytes name) /\ zlen name < M63.
Proof.
  intros (f & F1 & F2 & F3 & F4) HT. rewrite Forall_forall in HT. destruct (typed_method f (HT f F1) F2) as (id & m' & Hp & _ & Hw & _). rewrite F4 in Hp. injection Hp as <- <-.
  change (fields_of (method_id 50 11)) with [("queue", ShortStr); ("message_count", Long); ("consumer_count", Long)] in Hw. inversion Hw as [|? ? ? ? [H1 H2] _]; subst. destruct y as [n v]. cbn [fst snd] in *. subst n. destruct v; try contradiction. exists b. split; [reflexivity|exact H2].
Qed.
Section Options.
Context (o : consume_options) (keys : list bytes).
Hypothesis Hkeys : keys_are o keys.
Hypothesis Hsmall : (forall q, co_queue o = Some q -> zlen q < M63) /\ (forall e, co_exchange o = Some e -> zlen e < M63) /\ Forall (fun k => zlen k < M63) keys.
Definition binds (q : bytes) : list step := map (fun k => mkStep "queue.bind" (bind_request q (match co_exchange o with Some e => e | None => [] end) k) (method_id 50 21)) keys.
Lemma declares_ok : if negb (is_some (co_queue o)) || is_some (co_exchange o) || co_declare o || co_exclusive o
  then declares o = [mkStep "queue.declare" (declare_auto_delete (cstring (co_queue o)) (co_exclusive o)) (method_id 50 11)] else declares o = [] /\ exists q, co_queue o = Some q /\ co_exchange o = None.
Proof. unfold declares. destruct (co_queue o), (co_exchange o), (co_declare o), (co_exclusive o); cbn [is_some negb orb]; try reflexivity. split; [reflexivity|eauto]. Qed.
Lemma prepare_ok fm seen c ev : set_up fm seen c ->
  match prepare N E o c ev with
  | Done (Go (q, note)) c' _ l => named o q note l /\ zlen q < M63 /\
      set_up fm (seen ++ frames l) c' /\ sent (map s_request (declares o ++ binds q)) (out_bytes l) /\ Forall typed (frames l) /\ replied (map s_reply (declares o ++ binds q)) [] c c' l
  | Done (Die err) _ _ l =>
      (l = [] /\ co_exchange o = None /\ co_routing_key o <> None /\ err = lit "--routing-key option requires an exchange name to be provided with --exchange" ++ [newline]) \/
      (exists s text, declares o = [s] /\ part [s_request s] (out_bytes l) /\ err = line (s_name s) text /\ explained 1 (frames l) text) \/
      (exists q note Q1 s Q2 text, named o q note l /\ declares o ++ binds q = Q1 ++ s :: Q2 /\ part (map s_request (Q1 ++ [s])) (out_bytes l) /\ err = note ++ line (s_name s) text /\ explained 1 (frames l) text)
  | Halt _ _ l => part (map s_request (declares o)) (out_bytes l) \/ exists q note, named o q note l /\ part (map s_request (declares o ++ binds q)) (out_bytes l)
  end.
Proof.
  intros HS. destruct Hsmall as (Hq & He & Hk). unfold prepare. destruct (negb (is_some (co_exchange o)) && is_some (co_routing_key o)) eqn:Hopt.
  { cbn [ret]. left. apply andb_true_iff in Hopt. destruct Hopt as [H1 H2]. split; [reflexivity|]. split; [destruct (co_exchange o); [discriminate|reflexivity]|]. split; [destruct (co_routing_key o); [discriminate|discriminate]|reflexivity]. }
  pose proof declares_ok as HD. destruct (negb (is_some (co_queue o)) || is_some (co_exchange o) || co_declare o || co_exclusive o).
  2:{ destruct HD as (HD & q & H1 & H2). rewrite HD. cbn [ret]. unfold keys_are in Hkeys. unfold named, binds. rewrite H2 in *. subst keys. rewrite H1. cbn [cstring map app]. split; [auto|]. split; [apply Hq, H1|].
      split; [apply set_up_nil, HS|]. split; [constructor|]. split; [constructor|apply replied_none]. }
  set (s0 := mkStep "queue.declare" (declare_auto_delete (cstring (co_queue o)) (co_exclusive o)) (method_id 50 11)) in *. rewrite HD.
  assert (zlen (cstring (co_queue o)) < M63) as Hq0. { destruct (co_queue o) as [q|]; [apply Hq; reflexivity|reflexivity]. }
  unfold bind at 1. pose proof (declare_call (cstring (co_queue o)) (co_exclusive o) [] fm seen c ev Hq0 HS) as D. fold s0 in D.
  destruct (call_or_die N E "amqp_queue_declare" _ _ _ c ev) as [[m|err] c1 ev1 l1|s c1 l1]; cbn [calls] in D.
  2:{ cbn [ret]. rewrite app_nil_r. right; left. destruct D as (Q1 & s & Q2 & text & D1 & D2 & D3 & D4). assert (Q1 = [] /\ s = s0) as [-> ->].
      { destruct Q1 as [|? [|? ?]]; [injection D1 as <- _; auto|discriminate D1|discriminate D1]. }
      exists s0, text. auto. }
  2:{ left. exact D. }
  destruct D as (D1 & D2 & D3 & D4 & m' & -> & D5 & _). cbv beta iota. unfold bind at 1.
  assert (exists q note, (match co_queue o with None => provided (Some m') | Some q => ret (q, []) end) c1 ev1 = Done (q, note) c1 ev1 [] /\ (forall l2, named o q note (l1 ++ l2)) /\ zlen q < M63) as (q & note & -> & HN & Hqq).
  { unfold named. destruct (co_queue o) as [q|]; [exists q, []; split; [reflexivity|split; [auto|apply Hq; reflexivity]]|].
    destruct (answered_name m' l1 D5 D3) as (name & N1 & N2). destruct (provided_name name) as (str & N3 & N4). exists name, (lit "Server provided queue name: " ++ str ++ [newline]).
    split; [unfold provided; rewrite N1, N3; reflexivity|]. split; [|exact N2]. intros l2. exists m'. split; [|split; [exact N1|rewrite N4; reflexivity]].
    destruct D5 as (f & F1 & F2). exists f. split; [apply frames_l, F1|exact F2]. } 
  clear D5 m'. cbn [fst snd].
  assert (set_up fm (seen ++ frames l1) c1) as HS1 by exact D1. unfold keys_are in Hkeys. unfold binds in *. destruct (co_exchange o) as [e|] eqn:Hex.
  - destruct Hkeys as (k & parts & Hk1 & Hk2 & Hk3). rewrite Hk1. rewrite (keys_tokens _ _ Hk2), <- Hk3. cbn [app]. unfold bind.
    pose proof (bind_each_ok q e note Hqq (He e eq_refl) keys Hk fm _ c1 ev1 HS1) as B. fold (map (fun k => mkStep "queue.bind" (bind_request q e k) (method_id 50 21)) keys) in B. set (Qb := map _ keys) in *.
    destruct (bind_each N E q e keys note c1 ev1) as [[u|err] c2 ev2 l2|s c2 l2]; cbn [calls] in B; cbn [ret app]; rewrite ?app_nil_r.
    + destruct B as (B1 & B2 & B3 & B4 & _). rewrite frames_app, out_bytes_app, app_assoc. split; [apply HN|]. split; [exact Hqq|]. split; [exact B1|]. split; [apply (sent_app [_]); assumption|]. split; [apply Forall_app; auto|].
      apply (replied_app [_] _ [] [] c c1 c2); assumption.
    + right; right. destruct B as (Q1 & s & Q2 & text & B1 & B2 & B3 & B4). exists q, note, (s0 :: Q1), s, Q2, text. split; [apply HN|]. split; [exact (f_equal (cons s0) B1)|]. rewrite out_bytes_app. split; [apply (part_after [_]); assumption|]. split; [exact B3|].
      eapply explained_more; [apply frames_r|exact B4].
    + right. exists q, note. split; [apply HN|]. rewrite out_bytes_app. apply (part_after [_]); assumption.
  - subst keys. cbn [ret map app]. rewrite app_nil_r. specialize (HN []). rewrite app_nil_r in HN. auto 8.
Qed.
End Options.
(** ** The messages *)
Lemma ack_ok tag fm seen c ev : 0 <= tag < M64 -> set_up fm seen c ->
  match amqp_basic_ack N E 1 tag 0 c ev with
  | Done r c' _ l => r <= 0 /\ part [ack_request tag] (out_bytes l) /\ (r = 0 -> sent [ack_request tag] (out_bytes l)) /\ set_up fm (seen ++ frames l) c' /\ taken seen [] c c' l
  | Halt _ _ l => part [ack_request tag] (out_bytes l)
  end.
Proof.
  intros Ht HS. pose proof HS as (HU & Hfm & Hob & Hr & Hse).
  destruct (C55_acks N E 1 tag 0 0 c ev (proj1 HU) Ht ltac:(lia) ltac:(lia) _ _ _ _ (or_introl eq_refl)) as [_ A].
  change (ser_frame 1 _) with (ack_request tag) in A.
  pose proof (room_send_method N E 1 BASIC_ACK [("delivery_tag", VInt tag); ("multiple", VBool 0)] c ev) as R. unfold wp in R.
  assert (sendm 1 BASIC_ACK [("delivery_tag", VInt tag); ("multiple", VBool 0)]) as Hsend. { apply (asendm 1 60 80 [("delivery_tag", Longlong); ("multiple", Bit)]); [apply cat_in; reflexivity|]. unfold well_typed. repeat (constructor; [split; [reflexivity|cbn [snd dom_val]; lia]|]). constructor. }
  assert (forall X, ty_at X (fun _ _ => True) (amqp_basic_ack N E 1 tag 0) anyt c) as T by (intros X; apply ty_send_method; auto).
  apply (fun T => ty_seen _ _ c ev seen T (usable_J c HU) Hse) in T.
  pose proof (send_frame_ok N E (mkFrame AMQP_FRAME_METHOD 1 (PMethod BASIC_ACK [("delivery_tag", VInt tag); ("multiple", VBool 0)]) 0) false amqp_time_infinite c ev ltac:(lia)) as O. unfold wp in O.
  change (amqp_send_frame_inner N E (mkFrame AMQP_FRAME_METHOD 1 (PMethod BASIC_ACK [("delivery_tag", VInt tag); ("multiple", VBool 0)]) 0) false amqp_time_infinite c ev) with (amqp_basic_ack N E 1 tag 0 c ev) in O.
  change (amqp_send_method N E 1 BASIC_ACK [("delivery_tag", VInt tag); ("multiple", VBool 0)] c ev) with (amqp_basic_ack N E 1 tag 0 c ev) in R.
  destruct (amqp_basic_ack N E 1 tag 0 c ev) as [r c1 ev1 l|s c1 l]; [|apply part_single, A].
  destruct A as (A1 & A2 & A3). destruct R as [R1 R2]. destruct T as (T1 & T2 & _ & T4). destruct (sent_f_facts _ _ _ _ _ _ O) as (O1 & _).
  split; [exact A3|]. split; [apply part_single, A1|]. split; [intros K; rewrite (A2 K); apply sent_one|].
  split. { split; [apply J_usable; [exact T1|lia]|]. split; [congruence|]. split; [congruence|]. split; [exact Hr|exact T4]. }
  apply taken_nil. intros _ Ho. rewrite (O1 Ho). reflexivity.
Qed.
Lemma release_ok fm seen c ev : set_up fm seen c ->
  match amqp_maybe_release_buffers c ev with Done _ c' _ l => l = [] /\ set_up fm seen c' /\ queued c' = queued c | Halt _ _ l => l = [] end.
Proof.
  intros (HU & Hfm & Hob & Hr & Hse). unfold amqp_maybe_release_buffers, amqp_release_buffers, bind, get, upd, ret, halt.
  destruct (amqp_release_buffers_ok c); [|split; [reflexivity|]; split; [exact (conj HU (conj Hfm (conj Hob (conj Hr Hse))))|reflexivity]].
  destruct (i_state (c_in c)); try reflexivity. destruct (negb _); [reflexivity|]. split; [reflexivity|]. split; [exact (conj HU (conj Hfm (conj Hob (conj Hr Hse))))|reflexivity].
Qed.
Lemma delivery_ok f : typed f ->
  match delivery f with
  | None => forall tag, ~ ToolSpec.is_delivery f tag
  | Some None => False
  | Some (Some tag) => ToolSpec.is_delivery f tag /\ 0 <= tag < M64
  end.
Proof.
  intros HT. unfold delivery, ToolSpec.is_delivery. change AMQP_FRAME_METHOD with 1. destruct (Z.eqb_spec (f_type f) 1) as [Hty|Hty]; cbn [negb]; [|intros tag [K _]; contradiction].
  destruct (typed_method f HT Hty) as (id & m & Hp & _ & Hw & _). rewrite Hp. change AMQP_BASIC_DELIVER_METHOD with (method_id 60 60). destruct (Z.eqb_spec id (method_id 60 60)) as [->|Hid]; cbn [negb].
  2:{ intros tag [_ (m' & K & _)]. injection K as K _. contradiction. }
  change (fields_of (method_id 60 60)) with [("consumer_tag", ShortStr); ("delivery_tag", Longlong); ("redelivered", Bit); ("exchange", ShortStr); ("routing_key", ShortStr)] in Hw.
  inversion Hw as [|? ? ? ? [H1 _] Hw2]; subst. inversion Hw2 as [|? ? ? ? [H2 H3] _]; subst. destruct y as [n1 v1], y0 as [n2 v2]. cbn [fst snd] in *. subst n1 n2. destruct v2; try contradiction.
  change (lookup "delivery_tag" (("consumer_tag", v1) :: ("delivery_tag", VInt z) :: l'0)) with (Some (VInt z)). split; [|exact H3]. split; [exact Hty|]. eexists. split; reflexivity.
Qed.
Definition acted (no_ack : bool) (tag : Z) (j : job) (D : list frame) (t : list act) : Prop :=
  exists size body status, content D size body /\ complete size body /\ c_spawned (j_command j) = true /\ c_exit (j_command j) = Some status /\
    t = Ran body (status =? 0) :: (if (status =? 0) && negb no_ack then [Acked tag] else []).
Lemma handle_ok no_ack f tag j jobs fm seen c ev : ToolSpec.is_delivery f tag -> 0 <= tag < M64 -> set_up fm seen c ->
  match handle N E no_ack tag j c ev with
  | Done (t, Go _) c' _ l => exists D, acted no_ack tag j D t /\ set_up fm (seen ++ frames l) c' /\ sent (acknowledgements t) (out_bytes l) /\ taken seen D c c' l
  | Done (t, Die err) c' _ l => exists D A, taken seen D c c' l /\ part A (out_bytes l) /\ interrupted no_ack (j :: jobs) (f :: D) t A err
  | Halt _ _ l => beats (out_bytes l) \/ exists D t c1 l1 l2, l = l1 ++ l2 /\ acted no_ack tag j D t /\ taken seen D c c1 l1 /\ part (acknowledgements t) (out_bytes l)
  end.
Proof.
  intros Hf Ht HS. unfold handle. destruct (c_spawned (j_command j)) eqn:Hsp; cbn [negb].
  2:{ cbn [ret]. exists [], []. split; [apply taken_nil; intros _ _; change (frames []) with (@nil frame); rewrite app_nil_r; reflexivity|]. split; [apply part_nil|]. right. exists f, tag, [], j, jobs. auto 10. }
  unfold bind at 1. pose proof (message_ok N E (j_why j) (c_writes (j_command j)) fm seen c ev HS) as K. destruct (copy_message N E _ _ c ev) as [[s' out|out err] c1 ev1 l1|s c1 l1].
  - destruct K as (D & size & K1 & K2 & K3 & K4 & K5). unfold finish_pipeline. destruct (c_exit (j_command j)) as [status|] eqn:Hex; cbv iota.
    + assert (acted no_ack tag j D (Ran out (status =? 0) :: (if (status =? 0) && negb no_ack then [Acked tag] else []))) as HA by (exists size, out, status; auto 8).
      assert (forall t l2 ev2 c2, set_up fm (seen ++ frames (l1 ++ l2)) c2 -> taken seen D c c2 (l1 ++ l2) -> acted no_ack tag j D t -> sent (acknowledgements t) (out_bytes (l1 ++ l2)) ->
        match (match bind amqp_maybe_release_buffers (fun _ => ret (t, Go tt)) c2 ev2 with Done a c' ev' l => Done a c' ev' ((l1 ++ l2) ++ l) | Halt s c' l => Halt s c' ((l1 ++ l2) ++ l) end) with
        | Done (t, Go _) c' _ l => exists D, acted no_ack tag j D t /\ set_up fm (seen ++ frames l) c' /\ sent (acknowledgements t) (out_bytes l) /\ taken seen D c c' l
        | Done (t, Die err) c' _ l => exists D A, taken seen D c c' l /\ part A (out_bytes l) /\ interrupted no_ack (j :: jobs) (f :: D) t A err
        | Halt _ _ l => beats (out_bytes l) \/ exists D t c1 l1 l2, l = l1 ++ l2 /\ acted no_ack tag j D t /\ taken seen D c c1 l1 /\ part (acknowledgements t) (out_bytes l)
        end) as HR.
      { intros t l2 ev2 c2 G1 G3 G4 G5. unfold bind. pose proof (release_ok fm _ c2 ev2 G1) as R. destruct (amqp_maybe_release_buffers c2 ev2) as [u c3 ev3 l3|s c3 l3].
        - destruct R as (-> & R1 & R2). cbn [ret app]. rewrite !app_nil_r. exists D. split; [exact G4|]. split; [exact R1|]. split; [exact G5|]. unfold taken in *. rewrite R2. exact G3.
        - subst l3. rewrite app_nil_r. right. exists D, t, c2, (l1 ++ l2), []. rewrite app_nil_r. split; [reflexivity|]. split; [exact G4|]. split; [exact G3|]. apply sent_part_of, G5. }
      destruct ((status =? 0) && negb no_ack) eqn:Hok.
      * unfold bind at 1. pose proof (ack_ok tag fm _ c1 ev1 Ht K3) as A. apply andb_true_iff in Hok. destruct Hok as [Hst Hna]. apply Z.eqb_eq in Hst. subst status. apply negb_true_iff in Hna. subst no_ack. cbn [Z.eqb] in *.
        destruct (amqp_basic_ack N E 1 tag 0 c1 ev1) as [r c2 ev2 l2|s c2 l2].
        -- destruct A as (A1 & A2 & A3 & A4 & A5). assert (taken seen D c c2 (l1 ++ l2)) as HT. { rewrite <- (app_nil_r D). apply (taken_app seen D [] c c1 c2); assumption. }
           unfold unless_status. pose proof (status_report r "basic.ack") as X. destruct (die_amqp_error r _) as [[rep|]|].
           ++ cbn [ret]. rewrite app_nil_r. exists D, [ack_request tag]. split; [exact HT|]. rewrite out_bytes_app. split; [apply (part_after []); [apply sent_beats, K4|exact A2]|].
              right. exists f, tag, D, j, jobs. split; [reflexivity|]. split; [exact Hf|]. split; [reflexivity|]. right; right. exists size, out. split; [exact K1|]. split; [exact K2|]. right. destruct X as [X ->]. eauto 10.
           ++ cbn [halt]. rewrite app_nil_r. right. exists D, [Ran out true; Acked tag], c1, l1, l2. split; [reflexivity|]. split; [exact HA|]. split; [exact K5|]. rewrite out_bytes_app. apply (part_after []); [apply sent_beats, K4|exact A2].
           ++ assert (r = 0) as Hr0 by lia. specialize (HR [Ran out true; Acked tag] l2 ev2 c2). rewrite frames_app, app_assoc in HR. specialize (HR A4 HT HA). 
              assert (sent (acknowledgements [Ran out true; Acked tag]) (out_bytes (l1 ++ l2))) as HW. { rewrite out_bytes_app. apply (sent_app []); [apply sent_beats, K4|apply A3, Hr0]. }
              specialize (HR HW). destruct (bind amqp_maybe_release_buffers _ c2 ev2) as [[t [u|err]] c3 ev3 l3|s c3 l3]; rewrite app_assoc; exact HR.
        -- right. exists D, [Ran out true; Acked tag], c1, l1, l2. split; [reflexivity|]. split; [exact HA|]. split; [exact K5|]. rewrite out_bytes_app. apply (part_after []); [apply sent_beats, K4|exact A].
      * specialize (HR [Ran out (status =? 0)] [] ev1 c1). rewrite !app_nil_r in HR. specialize (HR K3 K5 HA (sent_beats _ K4)).
        destruct (bind amqp_maybe_release_buffers _ c1 ev1) as [[t [u|err]] c3 ev3 l3|s c3 l3]; exact HR.
    + cbn [ret]. rewrite app_nil_r. exists D, []. split; [exact K5|]. split; [apply part_beats, whole_beats_beats, K4|]. right. exists f, tag, D, j, jobs. split; [reflexivity|]. split; [exact Hf|]. split; [reflexivity|]. right; right. exists size, out. auto 8.
  - destruct K as (K1 & D & K2 & K3). cbn [ret]. rewrite app_nil_r. exists D, []. split; [exact K2|]. split; [apply part_beats, K1|]. right. exists f, tag, D, j, jobs. split; [reflexivity|]. split; [exact Hf|]. split; [reflexivity|]. right; left. eauto.
  - left. exact K.
Qed.
Lemma acks_app a b : acknowledgements (a ++ b) = acknowledgements a ++ acknowledgements b.
Proof. induction a as [|x a IH]; [reflexivity|]. destruct x; cbn [app acknowledgements]; rewrite IH; reflexivity. Qed.
Lemma consumed_acted no_ack n f tag D j t frames jobs acts : ToolSpec.is_delivery f tag -> acted no_ack tag j D t -> consumed no_ack n frames jobs acts ->
  consumed no_ack (S n) (f :: D ++ frames) (j :: jobs) (t ++ acts).
Proof. intros H (size & body & status & A1 & A2 & A3 & A4 & ->) HC. cbn [app]. eapply consumed_message; eassumption. Qed.
Lemma serve_ok no_ack count : forall fuel i jobs fm seen c ev, 0 <= i -> set_up fm seen c ->
  match serve N E fuel no_ack count i jobs c ev with
  | Done (t, Go _) c' _ l => exists n D ju jr, jobs = ju ++ jr /\ consumed no_ack n D ju t /\ 0 <= count /\ (i + Z.of_nat n = count \/ (n = 0%nat /\ count <= i)) /\
      set_up fm (seen ++ frames l) c' /\ sent (acknowledgements t) (out_bytes l) /\ taken seen D c c' l
  | Done (acts, Die err) c' _ l => exists n D D' ju jr t t' A, acts = t ++ t' /\ jobs = ju ++ jr /\ consumed no_ack n D ju t /\ (0 <= count -> i + Z.of_nat n <= count) /\
      taken seen (D ++ D') c c' l /\ interrupted no_ack jr D' t' A err /\ part (acknowledgements t ++ A) (out_bytes l)
  | Halt _ _ l => exists n D ju jr t c1 l1 l2, l = l1 ++ l2 /\ jobs = ju ++ jr /\ consumed no_ack n D ju t /\ (0 <= count -> i <= count -> i + Z.of_nat n <= count) /\
      taken seen D c c1 l1 /\ part (acknowledgements t) (out_bytes l)
  end.
Proof.
  induction fuel as [|fuel IH]; intros i jobs fm seen c ev Hi HS; cbn [serve].
  { cbn [halt]. exists 0%nat, [], [], jobs, [], c, [], []. split; [reflexivity|]. split; [reflexivity|]. split; [constructor|]. split; [lia|]. split; [apply taken_nil; intros _ _; change (frames []) with (@nil frame); rewrite app_nil_r; reflexivity|apply part_nil]. }
  assert (taken seen [] c c []) as T0 by (apply taken_nil; intros _ _; change (frames []) with (@nil frame); rewrite app_nil_r; reflexivity).
  assert (forall l, beats (out_bytes l) -> exists n D ju jr t c1 l1 l2, l = l1 ++ l2 /\ jobs = ju ++ jr /\ consumed no_ack n D ju t /\ (0 <= count -> i <= count -> i + Z.of_nat n <= count) /\ taken seen D c c1 l1 /\ part (acknowledgements t) (out_bytes l)) as HH.
  { intros l Hl. exists 0%nat, [], [], jobs, [], c, [], l. split; [reflexivity|]. split; [reflexivity|]. split; [constructor|]. split; [lia|]. split; [exact T0|apply part_beats, Hl]. }
  destruct ((count <? 0) || (i <? count)) eqn:Hgo; cbn [negb].
  2:{ apply orb_false_iff in Hgo. destruct Hgo as [G1 G2]. apply Z.ltb_ge in G1. apply Z.ltb_ge in G2. cbn [ret]. exists 0%nat, [], [], jobs. split; [reflexivity|]. split; [constructor|]. split; [lia|]. split; [right; split; [reflexivity|lia]|].
      split; [apply set_up_nil, HS|]. split; [constructor|exact T0]. }
  assert (0 <= count -> i < count) as Hic. { intros H. apply orb_true_iff in Hgo. destruct Hgo as [G|G]; apply Z.ltb_lt in G; lia. }
  unfold bind at 1. pose proof (next_ok N E fm seen c ev HS) as K. destruct (amqp_simple_wait_frame N E c ev) as [[r f] c1 ev1 l1|s c1 l1]; [|apply HH, K].
  destruct K as (K1 & K2 & K3 & K4 & K5). cbn [fst snd]. unfold unless_status. pose proof (status_report r "waiting for header frame") as X. destruct (die_amqp_error r _) as [[rep|]|].
  { destruct X as [X ->]. cbn [ret]. rewrite app_nil_r. exists 0%nat, [], [], [], jobs, [], [], []. split; [reflexivity|]. split; [reflexivity|]. split; [constructor|]. split; [lia|]. split; [apply K5; lia|]. split; [left; eauto 8|apply part_beats, K2]. }
  { cbn [halt]. rewrite app_nil_r. apply HH, K2. }
  assert (r = 0) as Hr0 by lia. destruct (K4 Hr0) as (W & HT & HK). clear K4 K5 X. pose proof (delivery_ok f HT) as HD. destruct (delivery f) as [[tag|]|].
  2:{ destruct HD. }
  - destruct HD as [HD Htag]. destruct jobs as [|j jobs]; [cbn [halt]; rewrite app_nil_r; apply HH, K2|].
    unfold bind at 1. pose proof (handle_ok no_ack f tag j jobs fm _ c1 ev1 HD Htag K3) as H. destruct (handle N E no_ack tag j c1 ev1) as [[t [u|err]] c2 ev2 l2|s c2 l2]; cbn [fst snd].
    + destruct H as (D & H1 & H2 & H3 & H4). assert (taken seen (f :: D) c c2 (l1 ++ l2)) as HT2 by (apply (taken_app seen [f] D c c1 c2); assumption).
      assert (sent (acknowledgements t) (out_bytes (l1 ++ l2))) as HW2 by (rewrite out_bytes_app; apply (sent_app []); [apply sent_beats, W|exact H3]).
      assert (set_up fm (seen ++ frames (l1 ++ l2)) c2) as HS2 by (rewrite frames_app, app_assoc; exact H2).
      assert (consumed no_ack 1 (f :: D) [j] t) as HC1. { pose proof (consumed_acted no_ack 0 f tag D j t [] [] [] HD H1 (consumed_none _)) as Q. rewrite !app_nil_r in Q. exact Q. }
      destruct (i =? INT_MAX) eqn:HM.
      { cbn [halt]. unfold act_first, bind. cbn [halt]. rewrite app_nil_r. exists 1%nat, (f :: D), [j], jobs, t, c2, (l1 ++ l2), []. rewrite app_nil_r. split; [reflexivity|]. split; [reflexivity|]. split; [exact HC1|]. split; [lia|]. split; [exact HT2|apply sent_part_of, HW2]. }
      unfold act_first, bind. specialize (IH (i + 1) jobs fm _ c2 ev2 ltac:(lia) HS2). destruct (serve N E fuel no_ack count (i + 1) jobs c2 ev2) as [[t3 [u3|err]] c3 ev3 l3|s c3 l3]; cbn [ret fst snd]; rewrite ?app_nil_r, ?app_assoc.
      * destruct IH as (n & D3 & ju & jr & -> & I2 & I3 & I4 & I5 & I6 & I7). exists (S n), (f :: D ++ D3), (j :: ju), jr. split; [reflexivity|]. split; [eapply consumed_acted; eassumption|]. split; [exact I3|]. split; [left; lia|].
        rewrite frames_app, app_assoc, acks_app, out_bytes_app. split; [exact I5|]. split; [apply sent_app; assumption|]. apply (taken_app seen (f :: D) D3 c c2 c3); assumption.
      * destruct IH as (n & D3 & D' & ju & jr & t1 & t' & A & -> & -> & I2 & I3 & I4 & I5 & I6). exists (S n), (f :: D ++ D3), D', (j :: ju), jr, (t ++ t1), t', A. split; [apply app_assoc|]. split; [reflexivity|]. split; [eapply consumed_acted; eassumption|]. split; [lia|].
        split; [cbn [app]; rewrite <- app_assoc; apply (taken_app seen (f :: D) (D3 ++ D') c c2 c3); assumption|]. split; [exact I5|]. rewrite acks_app, <- app_assoc, out_bytes_app. apply part_after; assumption.
      * destruct IH as (n & D3 & ju & jr & t1 & c4 & la & lb & -> & -> & I2 & I3 & I4 & I5). exists (S n), (f :: D ++ D3), (j :: ju), jr, (t ++ t1), c4, ((l1 ++ l2) ++ la), lb. rewrite <- !app_assoc. split; [reflexivity|]. split; [reflexivity|]. split; [eapply consumed_acted; eassumption|]. split; [lia|].
        split; [rewrite (app_assoc l1 l2 la); apply (taken_app seen (f :: D) D3 c c2 c4); assumption|]. rewrite (app_assoc l1 l2), acks_app, out_bytes_app. apply part_after; assumption.
    + destruct H as (D & A & H1 & H2 & H3). cbn [ret]. rewrite app_nil_r. exists 0%nat, [], (f :: D), [], (j :: jobs), [], t, A. split; [reflexivity|]. split; [reflexivity|]. split; [constructor|]. split; [lia|]. split; [apply (taken_app seen [f] D c c1 c2); assumption|]. split; [exact H3|].
      rewrite out_bytes_app. apply (part_after []); [apply sent_beats, W|exact H2].
    + destruct H as [H|(D & t & c3 & la & lb & -> & H1 & H2 & H3)]; [apply HH; rewrite out_bytes_app; apply beats_app; assumption|].
      exists 1%nat, (f :: D), [j], jobs, t, c3, (l1 ++ la), lb. rewrite app_assoc. split; [reflexivity|]. split; [reflexivity|]. split. { pose proof (consumed_acted no_ack 0 f tag D j t [] [] [] HD H1 (consumed_none _)) as Q. rewrite !app_nil_r in Q. exact Q. }
      split; [lia|]. split; [apply (taken_app seen [f] D c c1 c3); assumption|]. rewrite <- app_assoc, out_bytes_app. apply (part_after []); [apply sent_beats, W|exact H3].
  - destruct (i =? INT_MAX) eqn:HM; [cbn [halt]; rewrite app_nil_r; apply HH, K2|]. specialize (IH (i + 1) jobs fm _ c1 ev1 ltac:(lia) K3).
    destruct (serve N E fuel no_ack count (i + 1) jobs c1 ev1) as [[t3 [u3|err]] c3 ev3 l3|s c3 l3].
    * destruct IH as (n & D3 & ju & jr & -> & I2 & I3 & I4 & I5 & I6 & I7). exists (S n), (f :: D3), ju, jr. split; [reflexivity|]. split; [apply consumed_other; assumption|]. split; [exact I3|]. split; [left; lia|].
      rewrite frames_app, app_assoc, out_bytes_app. split; [exact I5|]. split; [apply (sent_app []); [apply sent_beats, W|exact I6]|]. apply (taken_app seen [f] D3 c c1 c3); assumption.
    * destruct IH as (n & D3 & D' & ju & jr & t1 & t' & A & -> & -> & I2 & I3 & I4 & I5 & I6). exists (S n), (f :: D3), D', ju, jr, t1, t', A. split; [reflexivity|]. split; [reflexivity|]. split; [apply consumed_other; assumption|]. split; [lia|].
      split; [apply (taken_app seen [f] (D3 ++ D') c c1 c3); assumption|]. split; [exact I5|]. rewrite out_bytes_app. apply (part_after []); [apply sent_beats, W|exact I6].
    * destruct IH as (n & D3 & ju & jr & t1 & c4 & la & lb & -> & -> & I2 & I3 & I4 & I5). exists (S n), (f :: D3), ju, jr, t1, c4, (l1 ++ la), lb. split; [apply app_assoc|]. split; [reflexivity|]. split; [apply consumed_other; assumption|]. split; [lia|].
      split; [apply (taken_app seen [f] D3 c c1 c4); assumption|]. rewrite out_bytes_app. apply (part_after []); [apply sent_beats, W|exact I5].
Qed.
Lemma in_turn_ok seen ids D c c' l : Forall (fun f => In f seen) (queued c) -> (forall f, In f D -> In f (seen ++ frames l)) -> replied ids D c c' l -> in_turn seen ids D l.
Proof.
  intros Hse HD HR. split; [exact HD|]. intros Hl Ho. destruct (HR Hl Ho) as (R & O & H1 & H2 & H3). exists (queued c), R, O, (no_hb (queued c')). split; [apply Forall_forall, Hse|]. split; [exact H1|]. split; [exact H2|].
  rewrite no_hb_app, (no_hb_right _ _ _ H1), <- H3, no_hb_app. reflexivity.
Qed.
Lemma named_more o q note l l' : named o q note l -> named o q note (l ++ l').
Proof. unfold named. destruct (co_queue o); [auto|]. intros (m & (f & F1 & F2) & H). exists m. split; [exists f; split; [apply frames_l, F1|exact F2]|exact H]. Qed.
Definition listen_exit (a : listened) : outcome Z := fst (fst (fst a)).
Lemma listen_works o no_ack count prefetch jobs keys : keys_are o keys ->
  (forall q, co_queue o = Some q -> zlen q < M63) /\ (forall e, co_exchange o = Some e -> zlen e < M63) /\ Forall (fun k => zlen k < M63) keys ->
  forall fm seen c ev, set_up fm seen c ->
  works listen_exit (heard o no_ack count prefetch jobs) (hearing o no_ack count prefetch jobs) fm seen (listen_session N E o no_ack count prefetch jobs c ev).
Proof.
  intros Hkeys Hsmall fm seen c ev HS. unfold works, listen_session, bind at 1. pose proof (prepare_ok o keys Hkeys Hsmall fm seen c ev HS) as P.
  assert (Forall (fun f => In f seen) (queued c)) as Hse by apply HS.
  set (Qs := fun q => map (fun n => mkStep "basic.qos" (qos_request n) (method_id 60 11)) (limits count prefetch) ++ [mkStep "basic.consume" (consume_request q no_ack) (method_id 60 21)]).
  assert (forall q, plan o no_ack count prefetch q ((declares o ++ binds o keys q) ++ Qs q)) as HP. { intros q. exists keys. split; [exact Hkeys|]. unfold Qs, binds. rewrite <- app_assoc. reflexivity. }
  destruct (prepare N E o c ev) as [[[q note]|err] c1 ev1 l1|s c1 l1].
  - destruct P as (HN & Hq & P1 & P2 & P3 & P4). unfold bind at 1. pose proof (subscribe_ok q no_ack count prefetch note fm _ c1 ev1 Hq P1) as S. change (map _ (limits count prefetch) ++ _) with (Qs q) in S.
    set (Qp := declares o ++ binds o keys q) in *.
    destruct (subscribe N E q no_ack count prefetch note c1 ev1) as [[u|err] c2 ev2 l2|s c2 l2]; cbn [calls] in S.
    + destruct S as (S1 & S2 & S3 & S4 & _). unfold bind at 1. set (Q := Qp ++ Qs q) in *.
      assert (sent (map s_request Q) (out_bytes (l1 ++ l2))) as HW by (unfold Q; rewrite map_app, out_bytes_app; apply sent_app; assumption).
      assert (replied (map s_reply Q) [] c c2 (l1 ++ l2)) as HR by (unfold Q; rewrite map_app; apply (replied_app _ _ [] [] c c1 c2); assumption).
      assert (set_up fm (seen ++ frames (l1 ++ l2)) c2) as HS2 by (rewrite frames_app, app_assoc; exact S1).
      assert (forall n D D' ju jr t c3 l3, jobs = ju ++ jr -> consumed no_ack n D ju t -> (0 <= count -> Z.of_nat n <= count) -> taken (seen ++ frames (l1 ++ l2)) (D ++ D') c2 c3 l3 ->
        progress o no_ack count prefetch jobs seen Q note n D' jr t ((l1 ++ l2) ++ l3)) as HG.
      { intros n D D' ju jr t c3 l3 G1 G2 G3 G4. exists q, D, ju. split; [rewrite <- app_assoc; apply named_more, HN|]. split; [apply HP|]. split; [exact G1|]. split; [exact G2|]. split; [exact G3|].
        apply (in_turn_ok seen _ _ c c3); [exact Hse| |].
        - intros f Hf. apply (proj1 G4) in Hf. rewrite <- app_assoc in Hf. rewrite frames_app. exact Hf.
        - rewrite <- (app_nil_r (map s_reply Q)). apply (replied_app _ [] [] (D ++ D') c c2 c3); [exact HR|eapply taken_replied, G4]. }
      pose proof (serve_ok no_ack count N 0 jobs fm _ c2 ev2 ltac:(lia) HS2) as K.
      destruct (serve N E N no_ack count 0 jobs c2 ev2) as [[t [u3|err]] c3 ev3 l3|s c3 l3]; cbn [fst snd].
      * destruct K as (n & D & ju & jr & K1 & K2 & K3 & K4 & K5 & K6 & K7). assert (Z.of_nat n = count) as Hn by lia.
        assert (progress o no_ack count prefetch jobs seen Q note (Z.to_nat count) [] jr t ((l1 ++ l2) ++ l3)) as HGn. { replace (Z.to_nat count) with n by lia. apply (HG n D [] ju jr t c3 l3); [exact K1|exact K2|lia|rewrite app_nil_r; exact K7]. }
        assert (sent (map s_request Q ++ acknowledgements t) (out_bytes ((l1 ++ l2) ++ l3))) as HW3 by (rewrite out_bytes_app; apply sent_app; assumption).
        unfold bind. destruct (close_wire N E "closing channel" [] c3 ev3 (proj1 (proj1 K5)) (usable_J c3 (proj1 K5))) as (C & HC & Z). unfold wp in Z.
        destruct (close_connection N E [] c3 ev3) as [[[[z| | |] out] err] c4 ev4 l4|s c4 l4]; cbn [fst snd] in Z; cbn [ret fst snd listen_exit]; rewrite ?app_nil_r, ?app_assoc; try (destruct Z; contradiction).
        -- destruct Z as (-> & -> & -> & Z). exists (map s_request Q ++ acknowledgements t ++ C). split; [rewrite app_assoc, out_bytes_app; apply sent_app; assumption|]. cbn [heard]. split; [reflexivity|]. split; [reflexivity|].
           exists ((l1 ++ l2) ++ l3), l4. rewrite app_nil_r. split; [reflexivity|]. exists Q, jr, C. auto.
        -- destruct Z as (-> & Z & B). exists (map s_request Q ++ acknowledgements t ++ C). split; [rewrite app_assoc, out_bytes_app; apply part_after; assumption|]. cbn [heard]. split; [reflexivity|]. right; right; right.
           exists ((l1 ++ l2) ++ l3), l4, note, err. split; [split; [reflexivity|]; exists Q, jr, C; auto|]. split; [reflexivity|].
           destruct B as (st & ch & x & B1 & B2 & B3). exists st, ch, x. split; [|auto]. cbn [app In] in *. intuition.
        -- exists (map s_request Q ++ acknowledgements t ++ C). split; [rewrite app_assoc, out_bytes_app; apply part_after; assumption|]. right; right. exists ((l1 ++ l2) ++ l3), l4, Q, note, (Z.to_nat count), jr, t, C. split; [reflexivity|]. split; [exact HGn|]. split; [right; split; [lia|exact HC]|reflexivity].
      * destruct K as (n & D & D' & ju & jr & t1 & t' & A & -> & K1 & K2 & K3 & K4 & K5 & K6). cbn [ret listen_exit fst]. rewrite app_nil_r, app_assoc. exists (map s_request Q ++ acknowledgements t1 ++ A). split; [rewrite out_bytes_app; apply part_after; assumption|].
        cbn [heard]. split; [reflexivity|]. right; right; left. exists Q, note, n, D', jr, t1, t', A, err. split; [reflexivity|]. split; [reflexivity|]. split; [eapply HG; [exact K1|exact K2|lia|exact K4]|]. split; [exact K5|reflexivity].
      * destruct K as (n & D & ju & jr & t1 & c4 & la & lb & -> & K1 & K2 & K3 & K4 & K5). rewrite !app_assoc. exists (map s_request Q ++ acknowledgements t1). split; [rewrite <- app_assoc, out_bytes_app; apply part_after; assumption|].
        right; right. exists ((l1 ++ l2) ++ la), lb, Q, note, n, jr, t1, []. split; [reflexivity|]. split; [eapply HG; [exact K1|exact K2|lia|rewrite app_nil_r; exact K4]|]. split; [left; reflexivity|rewrite app_nil_r; reflexivity].
    + destruct S as (Q1 & s & Q2 & text & S1 & S2 & S3 & S4). cbn [ret listen_exit fst]. rewrite app_nil_r. exists (map s_request ((Qp ++ Q1) ++ [s])). rewrite out_bytes_app. split; [rewrite <- app_assoc, map_app; apply part_after; assumption|].
      cbn [heard]. split; [reflexivity|]. right; left. split; [reflexivity|]. exists (Qp ++ Q1), s, note, text. split; [reflexivity|]. split; [exact S3|]. split; [eapply explained_more; [apply frames_r|exact S4]|]. right. exists q, Q2. split; [apply named_more, HN|].
      rewrite <- app_assoc, <- S1. apply HP.
    + exists (map s_request (Qp ++ Qs q)). rewrite out_bytes_app, map_app. split; [apply part_after; assumption|]. right; left. exists q, note, (Qp ++ Qs q). split; [apply named_more, HN|]. split; [apply HP|rewrite map_app; reflexivity].
  - cbn [ret listen_exit fst]. rewrite app_nil_r. destruct P as [(-> & P1 & P2 & ->)|[(s & text & P1 & P2 & -> & P3)|(q & note & Q1 & s & Q2 & text & P1 & P2 & P3 & -> & P4)]].
    + exists []. split; [apply part_nil|]. split; [reflexivity|]. left. auto 8.
    + exists [s_request s]. split; [exact P2|]. split; [reflexivity|]. right; left. split; [reflexivity|]. exists [], s, [], text. split; [reflexivity|]. split; [reflexivity|]. split; [exact P3|]. left. auto.
    + exists (map s_request (Q1 ++ [s])). split; [exact P3|]. split; [reflexivity|]. right; left. split; [reflexivity|]. exists Q1, s, note, text. split; [reflexivity|]. split; [reflexivity|]. split; [exact P4|]. right. exists q, (Q2 ++ Qs q). split; [exact P1|].
      replace (Q1 ++ s :: Q2 ++ Qs q) with ((Q1 ++ s :: Q2) ++ Qs q) by (rewrite <- app_assoc; reflexivity). rewrite <- P2. apply HP.
  - destruct P as [P|(q & note & P1 & P2)].
    + exists (map s_request (declares o)). split; [exact P|]. left. reflexivity.
    + exists (map s_request ((declares o ++ binds o keys q) ++ Qs q)). split; [rewrite map_app; apply part_more, P2|]. right; left. exists q, note, ((declares o ++ binds o keys q) ++ Qs q). split; [exact P1|]. split; [apply HP|reflexivity].
Qed.
End Listen.

(** ** C85 *)
(** amqp-consume with a command; with an exchange, a routing key must be given (C64).
    [None]: it exits with a message about its connection options (C60), and only if they do
    not determine where to connect. *)
Definition sane_listening (o : consume_options) : Prop :=
  (co_exchange o <> None -> co_routing_key o <> None) /\ (forall s, co_queue o = Some s \/ co_exchange o = Some s \/ co_routing_key o = Some s -> zlen s < M63).
Lemma comma_parts : forall s, exists parts, ToolSpec.comma_separated s parts.
Proof.
  assert (forall n (s : bytes), (length s < n)%nat -> exists parts, ToolSpec.comma_separated s parts) as H.
  { induction n as [|n IH]; intros s Hs; [lia|]. destruct (in_dec byte_eq_dec comma s) as [Hc|Hc]; [|exists [s]; constructor; exact Hc].
    assert (exists a b, s = a ++ comma :: b /\ ~ In comma a) as (a & b & -> & Ha).
    { clear - Hc. induction s as [|x s IHs]; [destruct Hc|]. destruct (byte_eq_dec x comma) as [->|Hx]; [exists [], s; split; [reflexivity|intros []]|]. destruct Hc as [Hc|Hc]; [contradiction|]. destruct (IHs Hc) as (a & b & -> & Ha).
      exists (x :: a), b. split; [reflexivity|]. intros [K|K]; [contradiction|contradiction]. }
    destruct (IH b) as (parts & Hp). { rewrite app_length in Hs. cbn [length] in Hs. lia. } exists (a :: parts). constructor; assumption. }
  intros s. apply (H (S (length s))). lia.
Qed.
Lemma part_small k parts : ToolSpec.comma_separated k parts -> Forall (fun p => zlen p <= zlen k) parts.
Proof.
  induction 1 as [k Hk|k s ks Hk Hs IH]; [constructor; [lia|constructor]|]. rewrite zlen_app. unfold zlen in *. cbn [length]. constructor; [lia|]. eapply Forall_impl; [|exact IH]. intros p Hp. cbv beta in *. lia.
Qed.
Theorem C85_consume :
  forall (N : nat) (E : nat -> aenv) (cm : Z) (ox : bool) (platform : string) (co : consume_options) (no_ack : bool) (count prefetch_count : Z) (jobs : list job)
         (o : options) (ans : list answer) (ev : list event),
    zlen (lit platform) < M63 -> sane_options cm ox o -> sane_listening co ->
    match listen_program N E cm ox platform true co no_ack count prefetch_count jobs o ans ev with
    | None => forall t, ~ Prop_ToolOpts.options_say cm ox o t
    | Some p => (p = Runs [] [] /\ forall t, ~ Prop_ToolOpts.options_say cm ox o t) \/
        exists t, Prop_ToolOpts.options_say cm ox o t /\
          session listen_exit exits_listening platform t (o_heartbeat o) (heard co no_ack count prefetch_count jobs) (hearing co no_ack count prefetch_count jobs) p
    end.
Proof.
  intros N E cm ox pf co no_ack count prefetch jobs o ans ev Hp Ho [Hk Hs].
  assert (exists keys, keys_are co keys /\ Forall (fun k => zlen k < M63) keys) as (keys & K1 & K2).
  { unfold keys_are. destruct (co_exchange co) as [e|] eqn:He; [|exists []; auto]. destruct (co_routing_key co) as [k|] eqn:Hkey; [|destruct Hk; [discriminate|reflexivity]].
    destruct (comma_parts k) as (parts & HC). eexists. split; [exists k, parts; split; [reflexivity|]; split; [exact HC|reflexivity]|]. pose proof (part_small k parts HC) as Hsm. rewrite Forall_forall in *. intros p Hpp. apply filter_In in Hpp. specialize (Hsm p (proj1 Hpp)). specialize (Hs k ltac:(auto)). lia. }
  apply (session_connection N E pf listen_exit exits_listening); [reflexivity| |exact Hp|exact Ho]. apply (listen_works N E co no_ack count prefetch jobs keys K1). split; [intros q Hq; apply Hs; auto|]. split; [intros e He; apply Hs; auto|exact K2].
Qed.
(** without a command nothing is done: no connection is made *)
Theorem C85_no_command :
  forall (N : nat) (E : nat -> aenv) (cm : Z) (ox : bool) (platform : string) (co : consume_options) (no_ack : bool) (count prefetch_count : Z) (jobs : list job) (o : options) (ans : list answer) (ev : list event),
    listen_program N E cm ox platform false co no_ack count prefetch_count jobs o ans ev = Some (Ends ((Returns 1, [], lit "consuming command not specified" ++ [newline]), []) [] []).
Proof. reflexivity. Qed.
Print Assumptions C85_consume.
Print Assumptions C85_no_command.

(** ** Cases: amqp-consume -e logs -r a,,b -c 2 cmd, to localhost; the server names the queue;
    the first frame of the message comes before basic.consume-ok, and a heartbeat comes
    between the body frames; the command succeeds with the first message and fails with the
    second one *)
Definition logs : consume_options := mkConsume None (Some (lit "logs")) (Some (lit "a,,b")) false false.
Definition delivered (tag : Z) : aframe := AMethod 60 60 [("consumer_tag", ShortStr); ("delivery_tag", Longlong); ("redelivered", Bit); ("exchange", ShortStr); ("routing_key", ShortStr)]
  [("consumer_tag", VBytes (lit "c")); ("delivery_tag", VInt tag); ("redelivered", VBool 0); ("exchange", VBytes (lit "logs")); ("routing_key", VBytes (lit "a"))].
Definition replies (x : list (Z * aframe)) : list event := [EvSend (SOk 99); EvRecv (ROk (ser x))].
Definition the_setup (early : list (Z * aframe)) : list event :=
  replies [(1, opened_channel)] ++ replies [(1, declared (lit "amq.1"))] ++ replies [(1, AMethod 50 21 [] [])] ++ replies [(1, AMethod 50 21 [] [])] ++
  replies [(1, AMethod 60 11 [] [])] ++ replies (early ++ [(1, AMethod 60 21 [("consumer_tag", ShortStr)] [("consumer_tag", VBytes (lit "c"))])]) ++ map (fun _ => EvAlloc true) early.
Definition two_jobs : list job := [mkJob (mkCommand true [WChunk 1; WChunk 9; WChunk 9] (Some 0)) [] []; mkJob (mkCommand true [WChunk 9] (Some 1)) [] []].
Definition listen_case (jobs : list job) (last : list event) : option (program listened) :=
  listen_program 100 Prop_Login.zero_env 0 false "Linux" true logs false 2 (-1) jobs Prop_ToolOpts.no_options dial_answers (talks (the_setup [(1, delivered 7)] ++ last)).
Definition listen_note : bytes := lit "Server provided queue name: amq.1" ++ [newline].
Example C85_success :
  sane_listening logs /\
  match listen_case two_jobs ([EvRecv (ROk (ser [(1, AContent 5 0 [] []); (1, ABody (lit "ab")); (0, AHeartbeat); (1, ABody (lit "cde"))])); EvSend (SOk 99);
                               EvRecv (ROk (ser [(1, delivered 8); (1, AContent 1 0 [] []); (1, ABody (lit "x"))]))] ++ closing_events) with
  | Some (Ends r d l) => r = ((Returns 0, [], listen_note), [Ran (lit "abcde") true; Acked 7; Ran (lit "x") false]) /\
      let last := channel_open ++ declare_auto_delete [] false ++ bind_request (lit "amq.1") (lit "logs") (lit "a") ++ bind_request (lit "amq.1") (lit "logs") (lit "b") ++
        qos_request 2 ++ consume_request (lit "amq.1") false ++ ack_request 7 ++ ser_frame 1 (close_method 20 40 200 (lit "200")) ++ ser_frame 0 (close_method 10 50 200 (lit "200")) in
      skipn (length (out_bytes l) - length last) (out_bytes l) = last
  | _ => False
  end.
Proof.
  split; [|vm_compute; split; reflexivity]. unfold sane_listening. split; [intros _; discriminate|]. intros s [H|[H|H]]; [discriminate H| |]; injection H as <-; reflexivity.
Qed.
(** the command cannot be started for the second message; the socket breaks *)
Example C85_failure :
  match listen_case [hd (mkJob (mkCommand true [] None) [] []) two_jobs; mkJob (mkCommand false [] None) [] (lit "posix_spawnp: cmd: No such file or directory" ++ [newline])]
          [EvRecv (ROk (ser [(1, AContent 1 0 [] []); (1, ABody (lit "a"))])); EvSend (SOk 99); EvRecv (ROk (ser [(1, delivered 8)]))] with
  | Some (Ends r d l) => r = ((Dies, [], listen_note ++ lit "posix_spawnp: cmd: No such file or directory" ++ [newline]), [Ran (lit "a") true; Acked 7])
  | _ => False
  end /\
  match listen_case two_jobs [EvRecv (ROk (ser [(1, AContent 2 0 [] []); (1, ABody (lit "a"))])); EvRecv RErr] with
  | Some (Ends r d l) => r = ((Dies, [], listen_note ++ line "waiting for body frame" (status_text AMQP_STATUS_SOCKET_ERROR)), [Broken (lit "a")])
  | _ => False
  end.
Proof. vm_compute. split; reflexivity. Qed.
