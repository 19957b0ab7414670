(** C83: amqp-publish as a whole program. *)
From Coq Require Import String ZArith List Bool Lia.
From Verif Require Import Base BaseFacts Codec TableModel TableSpec FramingStmt FramingGen FramingModel MethodSpec Frame FrameSpec Time Sasl Net NetApi NetSpec NetFacts NetRoom
  NetLogin NetTyped NetLoginWire CallSpec SpeakSpec ParleySpec NetWire Os ConnectSpec OsFacts Tools ToolOpts ToolError ReportSpec ToolQueue ToolMain ToolPublish ToolSpec ToolRun ProgramSpec RunSpec
  NetRx NetWell Prop_Frame Prop_Safe Prop_ToolError Prop_ToolQueue Prop_ToolMain Prop_Publish Prop_ToolPublish.
From Verif Require LoginSpec Sockets Prop_Login Prop_Calls Prop_ToolOpts Prop_Url Prop_Tools.
Import ListNotations.
Local Open Scope string_scope.
Local Open Scope list_scope.
Local Open Scope Z_scope.

(** ** Any tool *)
(** a connection after the login and the opening of the channel *)
Definition set_up (fm : Z) (seen : list frame) (c : conn) : Prop :=
  usable c /\ frame_max c = fm /\ zlen (c_outbuf c) = fm /\ 20 <= fm < 2 ^ 30 /\ Forall (fun f => In f seen) (queued c).
Definition works {A} (exit : A -> outcome Z) (ends : Z -> list frame -> list bytes -> A -> list obs -> Prop) (runs : Z -> list frame -> list bytes -> list obs -> Prop) (fm : Z) (seen : list frame) (r : run A) : Prop :=
  match r with
  | Done a _ _ l =>
    match exit a with
    | Returns _ => exists F, sent F (out_bytes l) /\ ends fm seen F a l
    | Dies => exists F, part F (out_bytes l) /\ ends fm seen F a l
    | _ => False
    end
  | Halt _ _ l => exists F, part F (out_bytes l) /\ runs fm seen F l
  end.
(** what is queued was received *)
Definition of_seen (seen : list frame) (f : frame) : Prop := In f seen.
Lemma J_seen c seen : J any_frame c -> Forall (of_seen seen) (queued c) -> J (of_seen seen) c.
Proof.
  intros (H1 & H2 & H3) H. split; [exact H1|]. split; [|exact H3]. rewrite Forall_forall in *. intros f Hf. split; [apply (H2 f Hf)|apply H, Hf].
Qed.
Lemma seen_J c seen : J (of_seen seen) c -> Forall (of_seen seen) (queued c).
Proof. intros (_ & H & _). eapply Forall_impl; [|exact H]. intros f [_ K]. exact K. Qed.
Lemma seen_frames l0 l : Forall (of_seen (l0 ++ frames l)) (frames l).
Proof. apply Forall_forall. intros f H. apply in_or_app. right. exact H. Qed.
Lemma seen_mono a b c : (forall f, In f a -> In f b) -> Forall (of_seen a) (queued c) -> Forall (of_seen b) (queued c).
Proof. intros H K. eapply Forall_impl; [|exact K]. intros f Hf. apply H, Hf. Qed.
(** a call that is well-behaved whatever frames come *)
Lemma ty_seen {A} (m : M A) (P : A -> Prop) c ev seen :
  (forall X, ty_at X (fun _ _ => True) m P c) -> J any_frame c -> Forall (of_seen seen) (queued c) ->
  match m c ev with Done a c' _ l => J any_frame c' /\ Forall typed (frames l) /\ P a /\ Forall (of_seen (seen ++ frames l)) (queued c') | Halt _ c' l => Forall typed (frames l) end.
Proof.
  intros H HJ HS. pose proof (H any_frame ev HJ) as A1. unfold wp in A1.
  destruct (m c ev) as [a c' ev' l|s c' l] eqn:R.
  - destruct A1 as (A1 & A2 & A3); [apply Forall_forall; intros; exact I|]. split; [exact A1|]. split; [exact A2|]. split; [exact A3|].
    assert (J (of_seen (seen ++ frames l)) c) as HJ'. { apply J_seen; [exact HJ|]. eapply seen_mono; [|exact HS]. intros f K. apply in_or_app. left. exact K. }
    pose proof (H (of_seen (seen ++ frames l)) ev HJ') as B. unfold wp in B. rewrite R in B. destruct B as (B & _); [apply seen_frames|]. apply seen_J, B.
  - destruct A1 as (_ & A2 & _); [apply Forall_forall; intros; exact I|]. exact A2.
Qed.
Section Any.
Context (N : nat) (E : nat -> aenv) (platform : string).
Lemma open_seen c ev seen : usable c -> Forall (of_seen seen) (queued c) ->
  match rpc N E "amqp_channel_open" 1 [] c ev with
  | Done _ c' _ l => zlen (c_outbuf c') = zlen (c_outbuf c) /\ frame_max c' = frame_max c /\ Forall (of_seen (seen ++ frames l)) (queued c')
  | Halt _ _ _ => True
  end.
Proof.
  intros HU HS. unfold rpc. destruct (wrapper "amqp_channel_open") as [w|] eqn:Hw; [|exact I].
  assert (In w rpc_table /\ CallSpec.given (rpc_params w) []) as [W1 W2].
  { split; [apply (find_some (fun w => String.eqb (rpc_name w) "amqp_channel_open")); exact Hw|]. vm_compute in Hw. injection Hw as <-. constructor. }
  pose proof (room_call N E w 1 [] c ev) as R. unfold wp in R.
  pose proof (arguments_fine (Call w 1 []) (conj W1 W2)) as HA. cbn [call_fine] in HA. destruct HA as (req & HA1 & HA2).
  assert (forall X, ty_at X (fun _ _ => True) (amqp_call N E w 1 []) anyt c) as T.
  { intros X. unfold amqp_call. rewrite HA1. apply ty_rpc_decoded; auto. }
  pose proof (ty_seen _ _ c ev seen T (usable_J c HU) HS) as K. destruct (amqp_call N E w 1 [] c ev); [|exact I]. destruct R as [R1 R2]. destruct K as (_ & _ & _ & K). auto.
Qed.
Lemma login_seen t hb fd ev : zlen (lit platform) < M63 -> small t ->
  match amqp_login N E platform (t_vhost t) 0 131072 hb (Plain (t_user t) (t_password t)) (new_connection fd) ev with
  | Done _ c' _ l => Forall (of_seen (frames l)) (queued c')
  | Halt _ _ _ => True
  end.
Proof.
  intros Hp [Hv Hcr]. unfold amqp_login, bind, get. set (tv := amqp_get_handshake_timeout _). pose proof (Prop_Login.fresh_new fd) as Hf.
  assert (cprops_fine (Some [])) as Hn. { split; [|split; constructor || exact I]. vm_compute. intuition. }
  assert (J any_frame (new_connection fd)) as HJ. { destruct Hf as (F1 & F2 & F3 & F4). split; [exact F3|]. split; [unfold queued; rewrite F2; constructor|exact F4]. }
  assert (forall X, ty_at X (fun _ _ => True) (amqp_login_inner N E platform (t_vhost t) 0 131072 hb (Some []) tv (Plain (t_user t) (t_password t))) anyt (new_connection fd)) as T.
  { intros X e HX. eapply wp_conseq; [apply (ty_login N E X (fun _ _ => True) ltac:(intros; exact I) ltac:(intros; exact I) ltac:(intros; exact I) ltac:(intros; exact I) platform (t_vhost t) 0 131072 hb (Some []) tv (Plain (t_user t) (t_password t)) (new_connection fd) Hp Hv ltac:(lia) Hn Hcr e HX)| |].
    - cbv beta. intros a c' ev' l K HXl. destruct (K HXl) as (K1 & K2 & _). split; [exact K1|]. split; [exact K2|exact I].
    - cbv beta. intros s c' l K. exact K. }
  assert (Forall (of_seen []) (queued (new_connection fd))) as HS by constructor.
  pose proof (ty_seen _ _ (new_connection fd) ev [] T HJ HS) as K. cbn [app] in K.
  destruct (amqp_login_inner _ _ _ _ _ _ _ _ _ _ _ _); [|exact I]. cbn [app]. apply K.
Qed.
Context {A : Type} (exit : A -> outcome Z) (dies : bytes -> A).
Hypothesis Hdies : forall rep, exit (dies rep) = Dies.
Context (ends : Z -> list frame -> list bytes -> A -> list obs -> Prop) (runs : Z -> list frame -> list bytes -> list obs -> Prop) (main : M A).
Hypothesis Hmain : forall fm seen c ev, set_up fm seen c -> works exit ends runs fm seen (main c ev).
Lemma session_talk t hb fd d ev : zlen (lit platform) < M63 -> small t -> connected t fd d ->
  session exit dies platform t hb ends runs
    (match talk N E platform dies t hb main (new_connection fd) ev with Done r _ _ l => Ends r d l | Halt _ _ l => Runs d l end).
Proof.
  intros Hp Hs Hd. assert (exists fd, connected t fd d) as Hc by eauto. pose proof (login_all N E platform t hb fd ev Hp Hs) as L. unfold wp in L.
  pose proof (login_seen t hb fd ev Hp Hs) as LS.
  unfold talk, bind at 1. destruct (amqp_login _ _ _ _ _ _ _ _ _ _) as [r c1 ev1 l1|s c1 l1]; [|right; split; [exact Hc|left; exact L]].
  destruct L as (L1 & L2 & L3 & L4). pose proof (login_report platform t hb fd r c1 l1 "logging in to AMQP server" L2 L4) as R. unfold or_dies at 1.
  destruct (die_rpc r _) as [[rep|]|].
  { cbn [ret]. rewrite app_nil_r. cbn [session]. rewrite Hdies. right. split; [exact Hc|]. left. split; [exact L1|]. destruct R as (text & -> & R). exists text. auto. }
  { cbn [halt]. rewrite app_nil_r. right. split; [exact Hc|]. left. exact L1. }
  destruct R as (id & m & ->). cbn [login_post] in L2. destruct L2 as (_ & _ & hdr & props & sprops & scm & sfm & shb & la & lb & lc & HL & G1 & G2 & G3 & G4 & _ & G7 & _ & G5 & G6 & _).
  assert (logged_in_at platform t hb (frame_max c1) l1) as HI. { exists hdr, props, sprops, scm, sfm, shb, la, lb, lc. repeat (split; [assumption|]). exact G7. }
  assert (usable c1) as HU by (apply J_usable; [exact L3|lia]). remember (frame_max c1) as fm eqn:Hfm. clear G1 G2 G3 G4 G7 HL L1 L3 L4.
  unfold bind at 1. pose proof (open_channel_wire N E c1 ev1 HU) as O. pose proof (open_seen c1 ev1 (frames l1) HU LS) as OR.
  destruct (rpc N E "amqp_channel_open" 1 [] c1 ev1) as [[mo|] c2 ev2 l2|s c2 l2].
  - destruct O as ((hbs & W & O1) & O2 & HU2). destruct OR as (OR1 & OR2 & OR3). rewrite <- frames_app in OR3.
    assert (set_up fm (frames (l1 ++ l2)) c2) as HS by (split; [exact HU2|]; split; [congruence|]; split; [congruence|split; [exact G6|exact OR3]]).
    specialize (Hmain fm _ c2 ev2 HS). unfold works in Hmain.
    assert (opened_channel_1 l2) as Q. { split; [rewrite O1; apply whole_sent, W|exists mo; exact O2]. }
    assert (forall l3 (P : Z -> list frame -> list bytes -> list obs -> Prop), (exists F, P fm (frames (l1 ++ l2)) F l3) -> exists fm l1' l2' l3', l1 ++ l2 ++ l3 = l1' ++ l2' ++ l3' /\ logged_in_at platform t hb fm l1' /\ opened_channel_1 l2' /\
      exists F, P fm (frames (l1' ++ l2')) F l3') as Hw. { intros l3 P HP. exists fm, l1, l2, l3. auto. }
    destruct (main c2 ev2) as [a c3 ev3 l3|s c3 l3].
    + cbn [session]. destruct (exit a) as [z| | |].
      * split; [exact Hc|]. apply (Hw l3 (fun fm seen F l3 => sent F (out_bytes l3) /\ ends fm seen F a l3)). exact Hmain.
      * right. split; [exact Hc|]. right; right. apply (Hw l3 (fun fm seen F l3 => part F (out_bytes l3) /\ ends fm seen F a l3)). exact Hmain.
      * destruct Hmain.
      * destruct Hmain.
    + right. split; [exact Hc|]. right; right. apply (Hw l3 (fun fm seen F l3 => part F (out_bytes l3) /\ runs fm seen F l3)). exact Hmain.
  - destruct O as (O1 & O2 & O3 & O4). unfold bind, get. unfold or_dies. pose proof (fatal 1 (c_recent c2) (frames l2) "opening channel" O3 O4) as X.
    destruct (die_rpc (c_recent c2) _) as [[rep|]|].
    + cbn [ret app]. rewrite app_nil_r. cbn [session]. rewrite Hdies. right. split; [exact Hc|]. right; left. exists fm, l1, l2. split; [reflexivity|]. split; [exact HI|]. split; [apply only_part, O1|].
      destruct X as (text & -> & X). exists text. auto.
    + cbn [halt app]. rewrite app_nil_r. right. split; [exact Hc|]. right; left. exists fm, l1, l2. split; [reflexivity|]. split; [exact HI|]. split; [apply only_part, O1|exact I].
    + destruct X as (i & mm & X). rewrite X in O2. discriminate O2.
  - right. split; [exact Hc|]. right; left. exists fm, l1, l2. split; [reflexivity|]. split; [exact HI|]. split; [apply only_part, O|exact I].
Qed.
Context (cm : Z) (ox : bool).
Lemma session_connection o ans ev : zlen (lit platform) < M63 -> sane_options cm ox o ->
  match with_connection N E cm ox platform dies o main ans ev with
  | None => forall t, ~ Prop_ToolOpts.options_say cm ox o t
  | Some p => (p = Runs [] [] /\ forall t, ~ Prop_ToolOpts.options_say cm ox o t) \/
      exists t, Prop_ToolOpts.options_say cm ox o t /\ session exit dies platform t (o_heartbeat o) ends runs p
  end.
Proof.
  intros Hp Ho. pose proof (fun t => Prop_ToolOpts.C60_options_exact cm ox o t (proj1 Ho)) as X. unfold with_connection.
  assert (forall t, init_connection_info cm ox o <> Returns t -> ~ Prop_ToolOpts.options_say cm ox o t) as XN by (intros t K1 K2; apply K1, X, K2).
  destruct (init_connection_info cm ox o) as [t| | |] eqn:Hi; try (left; split; [reflexivity|]); try (intros t; apply XN; discriminate). clear XN.
  right. exists t. assert (Prop_ToolOpts.options_say cm ox o t) as Ht by (apply X; reflexivity). split; [exact Ht|].
  pose proof (dial_ok N t (port_ok cm ox o t Ho Ht) ans) as D. destruct (dial N t ans) as [[fd|rep] rest d|s d].
  - apply session_talk; [exact Hp|apply Ho, Ht|exact D].
  - cbn [session]. rewrite Hdies. left. eauto.
  - left. reflexivity.
Qed.
End Any.

(** ** amqp-publish *)
(** What the user asks for: the messages [ls], each complete, one after the other, then the
    channel and the connection are closed.  Exit status 0: all of that was sent, nothing is
    on standard error.  Failure: a beginning of it was sent, and one line says which step
    failed and why; if reading standard input has failed, nothing is published. *)
Definition published (o : publish_options) (t : table) (ls : list bytes) (why : bytes) (fm : Z) (_ : list frame) (F : list bytes) (r : ToolQueue.result) (l : list obs) : Prop :=
  let all := exists C, closes C /\ F = map (message_of o t fm) ls ++ C in
  snd (fst r) = [] /\
  match fst (fst r) with
  | Returns z => z = 0 /\ snd r = [] /\ all
  | _ => (all /\ blamed [("basic.publish", 1)] (snd r) l) \/ (F = [] /\ body o = None /\ line_buffered o = false /\ snd r = line "reading" why)
  end.
Definition publishing (o : publish_options) (t : table) (ls : list bytes) (fm : Z) (_ : list frame) (F : list bytes) (_ : list obs) : Prop :=
  exists C, closes C /\ F = map (message_of o t fm) ls ++ C.

Lemma blamed_more steps err l0 l : blamed steps err l -> blamed steps err (l0 ++ l).
Proof. intros (s & ch & x & H1 & H2 & H3). exists s, ch, x. split; [exact H1|]. split; [exact H2|]. eapply explained_more; [apply frames_r|exact H3]. Qed.
Lemma blames_blamed steps x err l : blames x err l -> In (x, 1) steps -> blamed steps err l.
Proof.
  intros (s & ch & t & H1 & H2 & H3) Hx. exists s, ch, t. split; [|split; assumption]. apply in_or_app.
  destruct H1 as [H1|H1]; [injection H1 as <- <-; left; exact Hx|right; exact H1].
Qed.
Section Publish.
Context (N : nat) (E : nat -> aenv) (o : publish_options) (t : table) (why : bytes).
Hypothesis HF : options_fit o.
Hypothesis Hc : Forall (fun h => In colon h) (headers o).
Hypothesis Hh : headers_are (headers o) t.
Definition all_published (ls : list bytes) (fm : Z) (_ : list frame) (F : list bytes) (r : ToolQueue.result) (l : list obs) : Prop :=
  snd (fst r) = [] /\ (exists C, closes C /\ F = map (message_of o t fm) ls ++ C) /\
  match fst (fst r) with Returns z => z = 0 /\ snd r = [] | _ => blamed [("basic.publish", 1)] (snd r) l end.
Definition mails (ls : list bytes) (m : M ToolQueue.result) : Prop :=
  forall fm seen c ev, set_up fm seen c -> works exit_of (all_published ls) (publishing o t ls) fm seen (m c ev).
Lemma mails_close : mails [] (close_connection N E []).
Proof.
  intros fm seen c ev (HU & _). destruct (close_wire N E "basic.publish" [] c ev (proj1 HU) (usable_J c HU)) as (C & HC & K). unfold wp in K. unfold works.
  destruct (close_connection N E [] c ev) as [[[[z| | |] out] err] c' ev' l|s c' l]; cbn [fst snd] in K.
  - destruct K as (-> & -> & -> & K). exists C. split; [exact K|]. split; [reflexivity|]. split; [exists C; auto|]. split; reflexivity.
  - destruct K as (-> & K & B). exists C. split; [exact K|]. split; [reflexivity|]. split; [exists C; auto|]. eapply blames_blamed; [exact B|left; reflexivity].
  - destruct K as (_ & []).
  - destruct K as (_ & []).
  - exists C. split; [exact K|]. exists C. auto.
Qed.
Lemma status_report st context : match die_amqp_error st (lit context) with
  | None => 0 <= st
  | Some (Some rep) => st < 0 /\ rep = line context (status_text st)
  | Some None => True
  end.
Proof.
  unfold die_amqp_error. destruct (Z.leb_spec 0 st); [assumption|]. destruct (Z.eq_dec st (- M31)) as [->|Hn]; [vm_compute; exact I|].
  rewrite (status_string st Hn). split; [assumption|reflexivity].
Qed.
Lemma mails_more x ls go : in_memory x -> mails ls go -> mails (x :: ls) (publish_then N E o x go).
Proof.
  intros HM Hgo fm seen c ev HS. pose proof HS as (HU & Hfm & Hob & Hr & Hse). destruct closes_any as (C0 & HC0).
  destruct (props_are o t Hc Hh) as (P1 & P2 & P3). pose proof (props_types o t HF Hh) as P4. pose proof HF as (F1 & F2 & _).
  assert (forall x, some_in_memory x -> zlen (cstring_bytes x) < M63) as K.
  { intros [s|] Hs; cbn [cstring_bytes]; [specialize (Hs s eq_refl); unfold in_memory in Hs; lia|reflexivity]. }
  assert (props_fine (Some (publish_props o))) as Hpf. { cbn [props_fine]. exists (map snd (properties o t)). rewrite P1. auto. }
  assert (zlen x < M63) as Hx by (unfold in_memory in HM; lia).
  assert (roomy c) as HR by (unfold roomy; lia). assert (zlen (c_outbuf c) < M31) as HB by lia.
  pose proof (publish_ok N E 1 (cstring_bytes (exchange o)) (cstring_bytes (routing_key o)) 0 0 (Some (publish_props o)) x
      (AContent (zlen x) (flags_of o t) (pfields (publish_props o)) (map snd (properties o t))) c (K _ F1) (K _ F2) ltac:(lia) ltac:(lia) Hpf Hx HR HB) as A.
  assert (content_header (Some (publish_props o)) x (AContent (zlen x) (flags_of o t) (pfields (publish_props o)) (map snd (properties o t)))) as Hch.
  { cbn [content_header]. exists (map snd (properties o t)). rewrite P1. auto. }
  specialize (A Hch ev). unfold wp in A.
  assert (forall X, ty_at X (fun _ _ => True) (amqp_basic_publish N E 1 (cstring_bytes (exchange o)) (cstring_bytes (routing_key o)) 0 0 (Some (publish_props o)) x) anyt c) as T
    by (intros X; apply ty_publish; auto; lia).
  apply (fun T => ty_seen _ _ c ev seen T (usable_J c HU) Hse) in T.
  assert (message_wire 1 (publish_method (cstring_bytes (exchange o)) (cstring_bytes (routing_key o)) 0 0) (AContent (zlen x) (flags_of o t) (pfields (publish_props o)) (map snd (properties o t))) (frame_max c) x = message_of o t fm x) as HW by (rewrite Hfm; reflexivity).
  rewrite HW in A. clear HW. set (m := message_of o t fm x) in *.
  unfold publish_then, works, bind. destruct (amqp_basic_publish _ _ _ _ _ _ _ _ _ c ev) as [r c1 ev1 l1|s c1 l1].
  2:{ exists (m :: map (message_of o t fm) ls ++ C0). split; [apply (part_more [_]), part_single, A|]. exists C0. auto. }
  destruct A as (A1 & A2 & A3 & A4 & A5). destruct T as (T1 & _ & _ & T4).
  unfold unless_error. pose proof (status_report r "basic.publish") as X. destruct (die_amqp_error r _) as [[rep|]|].
  - destruct X as [X ->]. cbn [ret]. rewrite app_nil_r. exists (m :: map (message_of o t fm) ls ++ C0). split; [apply (part_more [_]), part_single, A2|].
    split; [reflexivity|]. split; [exists C0; auto|]. exists "basic.publish", 1, (status_text r). split; [left; reflexivity|]. split; [reflexivity|]. left. exists r. auto.
  - cbn [halt]. rewrite app_nil_r. exists (m :: map (message_of o t fm) ls ++ C0). split; [apply (part_more [_]), part_single, A2|]. exists C0. auto.
  - assert (out_bytes l1 = m) as HO by (apply A3; unfold AMQP_STATUS_OK; lia). assert (sent [m] (out_bytes l1)) as Q by (rewrite HO; apply sent_one).
    assert (set_up fm (seen ++ frames l1) c1) as HS1. { split; [apply J_usable; [exact T1|lia]|]. split; [congruence|]. split; [congruence|]. split; [exact Hr|exact T4]. }
    specialize (Hgo fm _ c1 ev1 HS1). unfold works in Hgo. destruct (go c1 ev1) as [[[[z| | |] out] err] c2 ev2 l2|s c2 l2]; rewrite ?out_bytes_app.
    + destruct Hgo as (F & G1 & G2 & (C & HC & ->) & G3 & G4). exists (m :: map (message_of o t fm) ls ++ C). split; [apply (sent_app [_]); assumption|].
      split; [exact G2|]. split; [exists C; auto|]. split; assumption.
    + destruct Hgo as (F & G1 & G2 & (C & HC & ->) & G4). exists (m :: map (message_of o t fm) ls ++ C). split; [apply (part_after [_]); assumption|].
      split; [exact G2|]. split; [exists C; auto|apply blamed_more, G4].
    + destruct Hgo.
    + destruct Hgo.
    + destruct Hgo as (F & G1 & C & HC & ->). exists (m :: map (message_of o t fm) ls ++ C). split; [apply (part_after [_]); assumption|]. exists C. auto.
Qed.
Lemma mails_lines : forall input ls, lines input ls -> Forall plain_line ls -> forall fuel, (length input < fuel)%nat ->
  mails ls (publish_lines_then N E fuel o input (close_connection N E [])).
Proof.
  assert (forall l, plain_line l -> in_memory l) as Hpl by (unfold plain_line, in_memory; intros l []; lia).
  induction 1 as [|l Hne Hnl|l text ls Hnl Hls IH]; intros Hp fuel Hf.
  - destruct fuel; [lia|]. cbn [publish_lines_then fgets]. apply mails_close.
  - inversion Hp as [|? ? Q1 Q2]; subst. destruct fuel as [|fuel]; [lia|]. cbn [publish_lines_then]. unfold fgets. assert (match l with [] => None | _ :: _ => Some (take_line (Z.to_nat (MAX_LINE_LENGTH - 1)) l) end = Some (take_line (Z.to_nat (MAX_LINE_LENGTH - 1)) l)) as -> by (destruct l; [contradiction|reflexivity]).
    assert (take_line (Z.to_nat (MAX_LINE_LENGTH - 1)) l = (l, [])) as ->. { apply take_line_last; [exact Hnl|]. destruct Q1 as [Q1 _]. unfold zlen in Q1. unfold MAX_LINE_LENGTH. lia. }
    rewrite (upto_nul_all l) by apply Q1. apply mails_more; [auto|]. destruct fuel; [destruct l; [contradiction|cbn [length] in Hf; lia]|]. apply mails_close.
  - inversion Hp as [|? ? Q1 Q2]; subst. destruct fuel as [|fuel]; [lia|]. cbn [publish_lines_then].
    assert (fgets MAX_LINE_LENGTH (l ++ newline :: text) = Some (l ++ [newline], text)) as ->.
    { unfold fgets. destruct (l ++ newline :: text) eqn:El; [destruct l; discriminate|]. rewrite <- El. f_equal. apply take_line_more; [exact Hnl|].
      destruct Q1 as [Q1 _]. unfold zlen in Q1. rewrite app_length in Q1. cbn [length] in Q1. unfold MAX_LINE_LENGTH. lia. }
    rewrite (upto_nul_all (l ++ [newline])) by apply Q1. apply mails_more; [auto|]. apply IH; [exact Q2|]. rewrite app_length in Hf. cbn [length] in Hf. lia.
Qed.
Lemma mails_all ls m : mails ls m -> forall fm seen c ev, set_up fm seen c -> works exit_of (published o t ls why) (publishing o t ls) fm seen (m c ev).
Proof.
  intros H fm seen c ev HS. specialize (H fm seen c ev HS). unfold works in *. destruct (m c ev) as [[[[z| | |] out] err] c' ev' l|s c' l]; try exact H; destruct H as (F & H1 & H2); exists F; (split; [exact H1|]).
  - destruct H2 as (A & B & C1 & C2). split; [exact A|]. split; [exact C1|]. split; [exact C2|exact B].
  - destruct H2 as (A & B & C1). split; [exact A|]. left. split; [exact B|exact C1].
Qed.
Lemma publish_works sched input mem ls : in_memory input -> ~ In false mem -> messages o input ls -> (body o = None \/ line_buffered o = false) -> (line_buffered o = true -> Forall plain_line ls) ->
  forall fm seen c ev, set_up fm seen c -> works exit_of (published o t ls why) (publishing o t ls) fm seen (publish_session N E o sched input mem why c ev).
Proof.
  intros HI Hm Hls Hb Hl. unfold publish_session. cbv zeta. unfold messages in Hls.
  assert (forall x, in_memory x -> mails [x] (publish_then N E o x (close_connection N E []))) as Hone by (intros x Hx; apply mails_more; [exact Hx|apply mails_close]).
  destruct closes_any as (C0 & HC0).
  assert (forall s fm seen c, works exit_of (published o t ls why) (publishing o t ls) fm seen (Halt s c [])) as Hhalt. { intros s fm seen c. exists (map (message_of o t fm) ls ++ C0). split; [apply part_nil|]. exists C0. auto. }
  destruct (body o) as [b|] eqn:Eb.
  - destruct Hb as [Hb|Hb]; [discriminate|]. rewrite Hb. subst ls. apply mails_all, Hone. destruct HF as (_ & _ & _ & _ & _ & HF6 & _). apply HF6, Eb.
  - destruct (line_buffered o) eqn:El; [apply mails_all, mails_lines; auto|]. subst ls.
    pose proof (Prop_Tools.C52_read_all_partial sched input mem HI) as R. destruct (read_all sched input mem) as [[[b|] n]| | |]; [| | | |].
    + rewrite R. apply mails_all, Hone, HI.
    + contradiction.
    + intros fm seen c ev _. cbn [ret]. exists []. split; [apply part_nil|]. split; [reflexivity|]. right. auto.
    + intros fm seen c ev _. apply Hhalt.
    + contradiction.
Qed.
End Publish.
Lemma no_warnings l : Forall (fun h => In colon h) l -> concat (map ignored_header l) = [].
Proof.
  induction 1 as [|h l H _ IH]; [reflexivity|]. cbn [map concat]. rewrite IH, app_nil_r. destruct (in_split _ _ H) as (a & b & ->). unfold ignored_header.
  assert (forall a, exists k v, split_at colon (a ++ colon :: b) = Some (k, v)) as K.
  { clear. induction a as [|x a IH]; cbn [app split_at]; [rewrite eqb_self; eauto|]. destruct (Byte.eqb x colon); [eauto|]. destruct IH as (k & v & ->). eauto. }
  destruct (K a) as (k & v & ->). reflexivity.
Qed.
(** ** C83 *)
(** amqp-publish with an exchange or a routing key.  [None]: it exits with a message about
    its connection options (C60), and only if they do not determine where to connect.
    Partial in the same way as C62: not with --body and --line-buffered together, with a
    header without colon, with a line of 32768 bytes or more or with a NUL in it, or out
    of memory. *)
Theorem C83_publish_partial :
  forall (N : nat) (E : nat -> aenv) (cm : Z) (ox : bool) (platform : string) (po : publish_options) (sched : list rd) (input : bytes) (mem : list bool) (why : bytes)
         (headers_sent : table) (ls : list bytes) (o : options) (ans : list answer) (ev : list event),
    zlen (lit platform) < M63 -> sane_options cm ox o ->
    options_fit po -> in_memory input -> headers_are (headers po) headers_sent -> messages po input ls ->
    Forall (fun h => In colon h) (headers po) -> ~ In false mem -> (body po = None \/ line_buffered po = false) -> (line_buffered po = true -> Forall plain_line ls) ->
    exchange po <> None \/ routing_key po <> None ->
    match publish_program N E cm ox platform po sched input mem why o ans ev with
    | None => forall t, ~ Prop_ToolOpts.options_say cm ox o t
    | Some p => (p = Runs [] [] /\ forall t, ~ Prop_ToolOpts.options_say cm ox o t) \/
        exists t, Prop_ToolOpts.options_say cm ox o t /\
          session exit_of exits platform t (o_heartbeat o) (published po headers_sent ls why) (publishing po headers_sent ls) p
    end.
Proof.
  intros N E cm ox pf po sched input mem why ht ls o ans ev Hp Ho HF HI Hh Hls Hc Hm Hb Hl Hd. unfold publish_program. rewrite (no_warnings _ Hc).
  pose proof (session_connection N E pf exit_of exits ltac:(reflexivity) (published po ht ls why) (publishing po ht ls) (publish_session N E po sched input mem why)) as S.
  assert (match with_connection N E cm ox pf exits o (publish_session N E po sched input mem why) ans ev with
    | None => forall t, ~ Prop_ToolOpts.options_say cm ox o t
    | Some p => (p = Runs [] [] /\ forall t, ~ Prop_ToolOpts.options_say cm ox o t) \/
        exists t, Prop_ToolOpts.options_say cm ox o t /\ session exit_of exits pf t (o_heartbeat o) (published po ht ls why) (publishing po ht ls) p
    end) as K.
  { apply S; [|exact Hp|exact Ho]. apply publish_works; assumption. }
  assert (forall p, warned [] p = p) as W by (intros [[[r out] err] d l|d l]; reflexivity).
  destruct (with_connection N E cm ox pf exits o _ ans ev) as [p|]; [|destruct (exchange po), (routing_key po); try exact K; destruct Hd as [[]|[]]; reflexivity].
  destruct (exchange po), (routing_key po); try (rewrite W; exact K). destruct Hd as [[]|[]]; reflexivity.
Qed.
(** without an exchange and a routing key nothing is done: no connection is made *)
Theorem C83_no_destination :
  forall (N : nat) (E : nat -> aenv) (cm : Z) (ox : bool) (platform : string) (po : publish_options) (sched : list rd) (input : bytes) (mem : list bool) (why : bytes)
         (o : options) (ans : list answer) (ev : list event),
    exchange po = None -> routing_key po = None ->
    publish_program N E cm ox platform po sched input mem why o ans ev =
    Some (Ends (Returns 1, [], lit "neither exchange nor routing key specified" ++ [newline]) [] []).
Proof. intros N E cm ox pf po sched input mem why o ans ev H1 H2. unfold publish_program. rewrite H1, H2. reflexivity. Qed.

(** ** Headers that are ignored *)
(** one line for each header without a colon, in order *)
Inductive warnings : list bytes -> bytes -> Prop :=
| warnings_nil : warnings [] []
| warnings_fine h hs w : In colon h -> warnings hs w -> warnings (h :: hs) w
| warnings_ignored h hs w : ~ In colon h -> warnings hs w ->
    warnings (h :: hs) (lit "Ignored header definition missing ':' delimiter in """ ++ h ++ lit """" ++ [newline] ++ w).
Lemma split_colon h : match split_at colon h with Some _ => In colon h | None => ~ In colon h end.
Proof.
  induction h as [|x h IH]; cbn [split_at]; [intros []|]. destruct (Byte.eqb x colon) eqn:Ex; [left; apply Byte.byte_dec_bl, Ex|].
  destruct (split_at colon h) as [[k v]|]; [right; exact IH|]. intros [->|H]; [rewrite eqb_self in Ex; discriminate|exact (IH H)].
Qed.
Lemma warnings_are hs : warnings hs (concat (map ignored_header hs)).
Proof.
  induction hs as [|h hs IH]; [constructor|]. cbn [map concat]. unfold ignored_header at 1. pose proof (split_colon h) as H. destruct (split_at colon h); [constructor; assumption|].
  rewrite <- !app_assoc. constructor; assumption.
Qed.
(** Whatever becomes of the program, what it writes to standard error begins with exactly
    these lines. *)
Theorem C83_ignored_headers :
  forall (N : nat) (E : nat -> aenv) (cm : Z) (ox : bool) (platform : string) (po : publish_options) (sched : list rd) (input : bytes) (mem : list bool) (why : bytes)
         (o : options) (ans : list answer) (ev : list event) r out err d l,
    exchange po <> None \/ routing_key po <> None ->
    publish_program N E cm ox platform po sched input mem why o ans ev = Some (Ends (r, out, err) d l) ->
    exists w rest, warnings (headers po) w /\ err = w ++ rest.
Proof.
  intros N E cm ox pf po sched input mem why o ans ev r out err d l Hd H. unfold publish_program in H. exists (concat (map ignored_header (headers po))).
  assert (match with_connection N E cm ox pf exits o (publish_session N E po sched input mem why) ans ev with
          | Some p => Some (warned (concat (map ignored_header (headers po))) p) | None => None end = Some (Ends (r, out, err) d l)) as K.
  { destruct (exchange po), (routing_key po); try exact H. destruct Hd as [[]|[]]; reflexivity. }
  destruct (with_connection N E cm ox pf exits o _ ans ev) as [[[[r0 out0] err0] d0 l0|d0 l0]|]; cbn [warned] in K; try discriminate.
  injection K as <- <- <- <- <-. exists err0. split; [apply warnings_are|reflexivity].
Qed.

(** ** Cases: amqp-publish -r k -l, to localhost, with two lines *)
Definition two_lines := mkPublish None (Some (lit "k")) None None None None false true [lit "a: b"].
Example C83_success :
  headers_are (headers two_lines) [(lit "a", FUtf8 (lit "b"))] /\ options_fit two_lines /\ lines (lit "1" ++ [newline] ++ lit "2") [lit "1" ++ [newline]; lit "2"] /\
  match publish_program 100 Prop_Login.zero_env 0 false "Linux" two_lines [] (lit "1" ++ [newline] ++ lit "2") [] [] Prop_ToolOpts.no_options dial_answers
    (talks [EvSend (SOk 99); EvRecv (ROk (ser [(1, opened_channel)])); EvSend (SOk 999); EvSend (SOk 999); EvSend (SOk 999); EvSend (SOk 999); EvSend (SOk 999); EvSend (SOk 999);
            EvSend (SOk 99); EvRecv (ROk (ser [(1, AMethod 20 41 [] [])])); EvSend (SOk 99); EvRecv (ROk (ser [(0, AMethod 10 51 [] [])]))]) with
  | Some (Ends r d l) => r = (Returns 0, [], []) /\
      let last := channel_open ++ message_of two_lines [(lit "a", FUtf8 (lit "b"))] 4096 (lit "1" ++ [newline]) ++ message_of two_lines [(lit "a", FUtf8 (lit "b"))] 4096 (lit "2") ++
        ser_frame 1 (close_method 20 40 200 (lit "200")) ++ ser_frame 0 (close_method 10 50 200 (lit "200")) in
      skipn (length (out_bytes l) - length last) (out_bytes l) = last
  | _ => False
  end.
Proof.
  split; [constructor; [split; [intros [H|[]]; discriminate H|split; [discriminate|exists 1%nat; reflexivity]]|constructor]|].
  split; [repeat split; try (intros s H; try discriminate H; injection H as <-; reflexivity); repeat constructor|].
  split; [apply (lines_more [x31] [x32]); [intros [H|[]]; discriminate H|apply lines_last; [discriminate|intros [H|[]]; discriminate H]]|].
  vm_compute. split; reflexivity.
Qed.
(** the socket breaks in the second message *)
Example C83_failure :
  match publish_program 100 Prop_Login.zero_env 0 false "Linux" two_lines [] (lit "1" ++ [newline] ++ lit "2") [] [] Prop_ToolOpts.no_options dial_answers
    (talks [EvSend (SOk 99); EvRecv (ROk (ser [(1, opened_channel)])); EvSend (SOk 999); EvSend (SOk 999); EvSend (SOk 999); EvSend (SOk 999); EvSend SErr]) with
  | Some (Ends r d l) => r = (Dies, [], line "basic.publish" (status_text AMQP_STATUS_SOCKET_ERROR))
  | _ => False
  end.
Proof. vm_compute. reflexivity. Qed.
Print Assumptions C83_publish_partial.
(** two bad headers; the resolver knows no such host *)
Example C83_ignored_case :
  match publish_program 100 Prop_Login.zero_env 0 false "Linux" (mkPublish None (Some (lit "k")) None None None None false true [lit "a: b"; lit "c"; lit "d"]) [] [] [] [] Prop_ToolOpts.no_options [mkAns 1 0 None; mkAns 0 0 None] [] with
  | Some (Ends (r, _, err) _ _) => r = Dies /\ exists rest, err = lit "Ignored header definition missing ':' delimiter in ""c""" ++ [newline] ++ lit "Ignored header definition missing ':' delimiter in ""d""" ++ [newline] ++ rest
  | _ => False
  end.
Proof. vm_compute. split; [reflexivity|eexists; reflexivity]. Qed.
Print Assumptions C83_no_destination.
Print Assumptions C83_ignored_headers.
