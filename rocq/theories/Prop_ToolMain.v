(** C82: amqp-declare-queue and amqp-delete-queue as whole programs. *)
From Coq Require Import String ZArith List Bool Lia.
From Verif Require Import Base BaseFacts Codec TableModel TableSpec FramingStmt FramingGen FramingModel MethodSpec Frame FrameSpec Time Sasl Net NetApi NetSpec NetFacts NetRoom
  NetLogin NetTyped NetLoginWire CallSpec Prop_Calls SpeakSpec ParleySpec NetWire Os ConnectSpec OsFacts Tools ToolOpts ToolError ReportSpec ToolQueue ToolMain ProgramSpec
  NetRx NetWell Prop_Frame Prop_Safe Prop_ToolError Prop_ToolQueue.
From Verif Require LoginSpec Sockets Prop_Login Prop_Connect Prop_Tls Prop_ToolOpts Prop_Url.
Import ListNotations.
Local Open Scope string_scope.
Local Open Scope list_scope.
Local Open Scope Z_scope.

Section Main.
Context (N : nat) (E : nat -> aenv) (platform : string).

(** ** Connecting *)
Lemma report_open t st : 0 <= t_port t < 2 ^ 31 -> st < 0 ->
  match die_amqp_error st (lit "opening socket to " ++ t_host t ++ lit ":" ++ digits 10 (t_port t)) with
  | None => False | Some None => True | Some (Some report) => unreachable t report
  end.
Proof.
  intros Hp Hs. unfold die_amqp_error. destruct (Z.leb_spec 0 st); [lia|]. destruct (Z.eq_dec st (- M31)) as [->|Hn]; [vm_compute; exact I|].
  rewrite (status_string st Hn). right; right. exists (digits 10 (t_port t)), st. split; [apply digits_ok; change (10 ^ Z.of_nat 10) with 10000000000; lia|]. split; [exact Hs|].
  unfold status_text. rewrite <- !app_assoc. reflexivity.
Qed.
(** whatever the answers, if [m] ends it ends in [Q] *)
Definition odone {A} (m : Io A) (Q : A -> list entry -> Prop) : Prop := forall ans, match m ans with ODone a _ l => Q a l | OHalt _ _ => True end.
Lemma odone_bind {A B} (m : Io A) (k : A -> Io B) (Q : B -> list entry -> Prop) : odone m (fun a l => odone (k a) (fun b l' => Q b (l ++ l'))) -> odone (obind m k) Q.
Proof. intros H ans. specialize (H ans). unfold obind. destruct (m ans) as [a r l|s l]; [|exact I]. specialize (H r). destruct (k a r); exact H. Qed.
Lemma odone_ask {B} (c : call) (k : answer -> Io B) (Q : B -> list entry -> Prop) : (forall a, odone (k a) (fun b l => Q b ((c, a) :: l))) -> odone (obind (ask c) k) Q.
Proof. intros H. apply odone_bind. intros ans. unfold ask. destruct ans; [exact I|apply H]. Qed.
Lemma odone_ret {A} (a : A) (Q : A -> list entry -> Prop) : Q a [] -> odone (oret a) Q.
Proof. intros H ans. exact H. Qed.
Lemma odone_any {A} (m : Io A) (Q : A -> list entry -> Prop) : (forall a l, Q a l) -> odone m Q.
Proof. intros H ans. destruct (m ans); [apply H|exact I]. Qed.
Lemma odone_conseq {A} (m : Io A) (P Q : A -> list entry -> Prop) : odone m P -> (forall a l, P a l -> Q a l) -> odone m Q.
Proof. intros H K ans. specialize (H ans). destruct (m ans); auto. Qed.
Lemma odone_owp {A} (m : Io A) (Q : A -> list entry -> Prop) : owp m Q -> odone m Q.
Proof. intros H ans. specialize (H ans). destruct (m ans); [exact H|exact I]. Qed.
Lemma tls_new : odone (Sockets.amqp_ssl_socket_new None) (fun p _ => fst p = true -> snd p = Some (Sockets.Tls new_ssl_socket)).
Proof.
  unfold Sockets.amqp_ssl_socket_new. apply odone_ask. intros a1. destruct (_ =? 0); [apply odone_ret; discriminate|].
  apply odone_ask. intros a2. destruct (_ =? 0); [apply odone_bind, odone_any; intros; apply odone_ret; discriminate|].
  apply odone_ask. intros a3. destruct (_ =? 0); [apply odone_bind, odone_any; intros; apply odone_ret; discriminate|].
  apply odone_ask. intros a4. destruct (_ =? 0); [apply odone_bind, odone_any; intros; apply odone_ret; discriminate|].
  apply odone_bind. unfold Sockets.amqp_set_socket. apply odone_bind. cbn [Sockets.amqp_socket_delete]. apply odone_ret. apply odone_ret. apply odone_ret. intros _. reflexivity.
Qed.
Lemma tcp_new : odone (Sockets.amqp_tcp_socket_new None) (fun p _ => fst p = true -> snd p = Some (Sockets.Tcp (-1))).
Proof.
  unfold Sockets.amqp_tcp_socket_new. apply odone_ask. intros a1. destruct (_ =? 0); [apply odone_ret; discriminate|].
  apply odone_bind. unfold Sockets.amqp_set_socket. apply odone_bind. cbn [Sockets.amqp_socket_delete]. apply odone_ret. apply odone_ret. apply odone_ret. intros _. reflexivity.
Qed.
Lemma dial_ok t : 0 <= t_port t < 2 ^ 31 ->
  odone (dial N t) (fun r d => match r with inl fd => connected t fd d | inr report => unreachable t report end).
Proof.
  intros Hp. unfold dial. apply odone_bind. destruct (t_ssl t) eqn:Hssl.
  - eapply odone_conseq; [apply tls_new|]; cbv beta. intros [[] s] d1 Hs; cbn [fst snd] in Hs; [|apply odone_ret; right; left; reflexivity]. rewrite (Hs eq_refl). apply odone_bind.
    unfold Sockets.amqp_socket_open, Sockets.amqp_socket_open_noblock. apply odone_bind.
    eapply odone_conseq; [apply odone_owp, (Prop_Tls.tls_open_ok N new_ssl_socket (t_host t) (t_port t) None eq_refl)|]; cbv beta.
    intros [r s'] d2 [H _]. cbn [fst snd] in *. apply odone_ret. cbn [fst snd Sockets.amqp_get_sockfd]. rewrite app_nil_r.
    destruct H as [(-> & _ & _ & dl & l1 & l2 & l3 & h & l4 & -> & H1 & H2 & H3 & H4 & H5 & _)|H].
    + change (AMQP_STATUS_OK =? 0) with true. cbv iota. apply odone_ret. rewrite app_nil_r. split; [exact H2|]. rewrite Hssl. exists dl, (d1 ++ l1), l2, l3, h, l4. rewrite <- app_assoc. auto.
    + assert (r < 0) as Hr by (destruct H as [[H _]|[H _]]; exact H). destruct (Z.eqb_spec r 0); [lia|]. pose proof (report_open t r Hp Hr) as K.
      destruct (die_amqp_error _ _) as [[rep|]|]; [apply odone_ret; exact K|intros ans; exact I|destruct K].
  - eapply odone_conseq; [apply tcp_new|]; cbv beta. intros [[] s] d1 Hs; cbn [fst snd] in Hs; [|apply odone_ret; left; reflexivity]. rewrite (Hs eq_refl). apply odone_bind.
    unfold Sockets.amqp_socket_open, Sockets.amqp_socket_open_noblock. apply odone_bind. unfold amqp_tcp_socket_open. change (negb (-1 =? -1)) with false. cbv iota. apply odone_bind.
    eapply odone_conseq; [apply odone_owp, Prop_Connect.noblock_ok|]; cbv beta. intros fd d2 H.
    destruct (Z.ltb_spec fd 0) as [Hf|Hf]; apply odone_ret; apply odone_ret; cbn [fst snd Sockets.amqp_get_sockfd]; rewrite !app_nil_r.
    + destruct (Z.eqb_spec fd 0); [lia|]. pose proof (report_open t fd Hp Hf) as K. destruct (die_amqp_error _ _) as [[rep|]|]; [apply odone_ret; exact K|intros ans; exact I|destruct K].
    + change (AMQP_STATUS_OK =? 0) with true. cbv iota. apply odone_ret. rewrite app_nil_r. split; [exact Hf|]. rewrite Hssl. destruct H as [[H _]|(dl & l0 & l1 & -> & [-> ->] & H)]; [lia|]. exists d1, l1. auto.
Qed.

(** ** The conversation *)
Definition small (t : target) : Prop := zlen (t_vhost t) < M63 /\ zlen (t_user t) + zlen (t_password t) + 2 < M63.
Definition begun (t : target) (hb : Z) : list obs -> Prop := never_ahead platform (t_vhost t) 0 131072 hb (Some []) (credentials_of t).
Lemma J_usable c : J any_frame c -> 20 <= zlen (c_outbuf c) -> usable c.
Proof. intros (H1 & H2 & H3) H4. split; [lia|]. split; [exact H1|]. eapply Forall_impl; [|exact H2]. intros f [H _]. exact H. Qed.
Lemma login_all t hb fd ev : zlen (lit platform) < M63 -> small t ->
  wp (amqp_login N E platform (t_vhost t) 0 131072 hb (Plain (t_user t) (t_password t))) (new_connection fd) ev
    (fun r c' _ l => begun t hb l /\ login_post platform (t_vhost t) 0 131072 hb (Some []) (credentials_of t) (new_connection fd) r c' l /\ J any_frame c' /\ Forall typed (frames l))
    (fun _ _ l => begun t hb l).
Proof.
  intros Hp [Hv Hc]. unfold amqp_login. wstep. set (tv := amqp_get_handshake_timeout _). pose proof (Prop_Login.fresh_new fd) as Hf.
  assert (cprops_fine (Some [])) as Hn. { split; [|split; constructor || exact I]. vm_compute. intuition. }
  assert (cred_fine (Plain (t_user t) (t_password t))) as Hcr by exact Hc.
  assert (J any_frame (new_connection fd)) as HJ. { destruct Hf as (F1 & F2 & F3 & F4). split; [exact F3|]. split; [unfold queued; rewrite F2; constructor|exact F4]. }
  pose proof (login_wire N E platform (t_vhost t) 0 131072 hb (Some []) (credentials_of t) tv (new_connection fd) Hf Hp Hv ltac:(lia) Hn Hcr ev) as A.
  pose proof (login_inner_ok N E platform (t_vhost t) 0 131072 hb (Some []) tv (credentials_of t) (new_connection fd) ev Hf Hp Hv ltac:(lia) Hn Hcr) as B.
  pose proof (ty_login N E any_frame (fun _ _ => True) ltac:(intros; exact I) ltac:(intros; exact I) ltac:(intros; exact I) ltac:(intros; exact I) platform (t_vhost t) 0 131072 hb (Some []) tv (credentials_of t) (new_connection fd) Hp Hv ltac:(lia) Hn Hcr ev HJ) as C.
  unfold wp in *. unfold credentials_of in *. destruct (amqp_login_inner _ _ _ _ _ _ _ _ _ _ _ _) as [r c' ev' l|s c' l].
  - split; [exact A|]. split; [exact B|]. destruct C as (C1 & C2 & _); [apply Forall_forall; intros; exact I|]. auto.
  - exact A.
Qed.
Lemma open_channel_wire c ev : usable c ->
  match rpc N E "amqp_channel_open" 1 [] c ev with
  | Done (Some m) c' _ l => (exists hb, whole_beats hb /\ out_bytes l = channel_open ++ hb) /\ answered (method_id 20 11) m l /\ usable c'
  | Done None c' _ l => sent_only (out_bytes l) channel_open /\ is_normal (c_recent c') = false /\ Forall typed (frames l) /\ said 1 (c_recent c') (frames l)
  | Halt _ _ l => sent_only (out_bytes l) channel_open
  end.
Proof.
  intros HU. pose proof (usable_J c HU) as HJ. pose proof (proj1 HU) as Hb.
  assert (exists w, wrapper "amqp_channel_open" = Some w /\ rpc_name w = "amqp_channel_open" /\ In w rpc_table /\ CallSpec.given (rpc_params w) []) as (w & W1 & W2 & W3 & W4).
  { eexists. split; [vm_compute; reflexivity|]. split; [reflexivity|]. split; [apply (find_some (fun w => String.eqb (rpc_name w) "amqp_channel_open")); vm_compute; reflexivity|]. constructor. }
  destruct (rpc_wire N E _ w [] c ev W1 W3 W4 Hb HJ) as (cc & i & c' & i' & fs & m & D & C & DA & K). rewrite W2 in D. clear W1 W2 W3 W4.
  pick D. pick C. replace m with [("out_of_band", VBytes [])] in K; [|clear K; unfold documented_args in DA; args_of DA; reflexivity].
  fold channel_open in K. destruct (rpc N E "amqp_channel_open" 1 [] c ev) as [[r|] c1 ev1 l1|s c1 l1]; [|exact K|exact K].
  destruct K as (K1 & K2 & K3 & K4). split; [exact K1|]. split; [exact K2|]. apply J_usable; [exact K4|lia].
Qed.
Lemma login_report t hb fd r c' l context : login_post platform (t_vhost t) 0 131072 hb (Some []) (credentials_of t) (new_connection fd) r c' l -> Forall typed (frames l) ->
  match die_rpc r (lit context) with
  | None => exists id m, r = RNormal id m
  | Some (Some report) => exists text, report = line context text /\ login_trouble (frames l) text
  | Some None => True
  end.
Proof.
  intros H HT. destruct r as [|id m|st|id m]; cbn [login_post] in H.
  - destruct H.
  - cbn. eauto.
  - unfold die_rpc. cbn [is_normal amqp_rpc_reply_string]. destruct (Z.eq_dec st (- M31)) as [->|Hn]; [vm_compute; exact I|]. rewrite (status_string st Hn). eexists. split; [reflexivity|]. left. exists st. reflexivity.
  - destruct H as (Hid & pre & f & Hf & (F1 & F2 & F3)).
    assert (said 0 (RServer id m) (frames l)) as HS. { exists f. split; [rewrite Hf; apply in_or_app; right; left; reflexivity|]. split; [exact F1|]. split; [exact F3|]. destruct Hid as [->| ->]; auto. }
    pose proof (fatal 0 (RServer id m) (frames l) context HT HS) as K. destruct (die_rpc _ _) as [[rep|]|]; [|exact I|exact K]. destruct K as (text & K1 & K2). exists text. split; [exact K1|]. right. exact K2.
Qed.
Lemma closes_any : exists F, closes F.
Proof. exists [ser_frame 1 (close_method 20 40 200 (digits 5 200)); ser_frame 0 (close_method 10 50 200 (digits 5 200))], (digits 5 200), (digits 5 200). split; [|split; [|reflexivity]]; apply digits_ok; vm_compute; split; congruence. Qed.
Context (request : bytes) (reply : Z) (context : string) (prints : mstruct -> bytes -> Prop) (main : M ToolQueue.result).
Hypothesis Hmain : forall c ev, usable c -> does request reply context prints (main c ev).
Lemma talk_ok t hb fd d ev : zlen (lit platform) < M63 -> small t -> connected t fd d ->
  whole platform t hb request reply context prints
    (match talk N E platform exits t hb main (new_connection fd) ev with Done r _ _ l => Ends r d l | Halt _ _ l => Runs d l end).
Proof.
  intros Hp Hs Hd. assert (exists fd, connected t fd d) as Hc by eauto. pose proof (login_all t hb fd ev Hp Hs) as L. unfold wp in L.
  unfold talk, bind at 1. destruct (amqp_login _ _ _ _ _ _ _ _ _ _) as [r c1 ev1 l1|s c1 l1]; [|right; split; [exact Hc|left; exact L]].
  destruct L as (L1 & L2 & L3 & L4). pose proof (login_report t hb fd r c1 l1 "logging in to AMQP server" L2 L4) as R. unfold or_dies at 1.
  destruct (die_rpc r _) as [[rep|]|].
  { cbn [ret]. rewrite app_nil_r. right. split; [exact Hc|]. left. split; [reflexivity|]. split; [exact L1|exact R]. }
  { cbn [halt]. rewrite app_nil_r. right. split; [exact Hc|]. left. exact L1. }
  destruct R as (id & m & ->). cbn [login_post] in L2. destruct L2 as (_ & _ & hdr & props & sprops & scm & sfm & shb & la & lb & lc & HL & G1 & G2 & G3 & G4 & _ & _ & _ & G5 & G6 & _).
  assert (logged_in platform t hb l1) as HI. { exists hdr, props, sprops, scm, sfm, shb, la, lb, lc. auto. }
  assert (usable c1) as HU by (apply J_usable; [exact L3|lia]). clear G1 G2 G3 G4 G5 G6 HL L1 L3 L4.
  unfold bind at 1. pose proof (open_channel_wire c1 ev1 HU) as O. destruct closes_any as (F0 & HF0).
  assert (forall l2, sent_only (out_bytes l2) channel_open -> part (channel_open :: request :: F0) (out_bytes l2)) as P1 by (intros l2 H; apply (part_more [_]), only_part, H).
  destruct (rpc N E "amqp_channel_open" 1 [] c1 ev1) as [[mo|] c2 ev2 l2|s c2 l2].
  - destruct O as ((hbs & W & O1) & O2 & HU2). specialize (Hmain c2 ev2 HU2). unfold does in Hmain. destruct Hmain as (F & HF & K).
    assert (sent [channel_open] (out_bytes l2)) as Q by (rewrite O1; apply whole_sent, W).
    assert (forall i mm l3, answered i mm l3 -> answered i mm (l2 ++ l3)) as QA. { intros i mm l3 (f & A1 & A2). exists f. split; [apply frames_r, A1|exact A2]. }
    assert (exists mm, forall l3, answered (method_id 20 11) mm (l2 ++ l3)) as (mm & QO). { exists mo. intros l3. destruct O2 as (f & A1 & A2). exists f. split; [apply frames_l, A1|exact A2]. }
    destruct (main c2 ev2) as [[[[z| | |] out] err] c3 ev3 l3|s c3 l3].
    + destruct K as (-> & -> & K1 & mr & K2 & K3). split; [reflexivity|]. split; [reflexivity|]. split; [exact Hc|]. exists l1, (l2 ++ l3), F. split; [reflexivity|]. split; [exact HI|]. split; [exact HF|].
      rewrite out_bytes_app. split; [apply (sent_app [_] _ (request :: F)); assumption|]. split; [exists mm; apply QO|]. exists mr. split; [apply QA, K2|exact K3].
    + destruct K as (K1 & (step & ch & text & B1 & B2 & B3) & K3). right. split; [exact Hc|]. right. exists l1, (l2 ++ l3), F. split; [reflexivity|]. split; [exact HI|]. split; [exact HF|].
      rewrite out_bytes_app. split; [apply (part_after [_] _ (request :: F)); assumption|].
      split; [exists step, ch, text; split; [right; exact B1|]; split; [exact B2|eapply explained_more; [apply frames_r|exact B3]]|].
      destruct K3 as [->|(mr & K2 & K4)]; [left; reflexivity|right; exists mr; split; [apply QA, K2|exact K4]].
    + destruct K.
    + destruct K.
    + right. split; [exact Hc|]. right. exists l1, (l2 ++ l3), F. split; [reflexivity|]. split; [exact HI|]. split; [exact HF|]. rewrite out_bytes_app. apply (part_after [_] _ (request :: F)); assumption.
  - destruct O as (O1 & O2 & O3 & O4). unfold bind, get. unfold or_dies. pose proof (fatal 1 (c_recent c2) (frames l2) "opening channel" O3 O4) as X.
    destruct (die_rpc (c_recent c2) _) as [[rep|]|].
    + cbn [ret app]. rewrite app_nil_r. right. split; [exact Hc|]. right. exists l1, l2, F0. split; [reflexivity|]. split; [exact HI|]. split; [exact HF0|]. split; [apply P1, O1|].
      split; [|left; reflexivity]. destruct X as (text & -> & X). exists "opening channel", 1, text. cbn. auto.
    + cbn [halt app]. rewrite app_nil_r. right. split; [exact Hc|]. right. exists l1, l2, F0. split; [reflexivity|]. split; [exact HI|]. split; [exact HF0|]. apply P1, O1.
    + destruct X as (i & mm & X). rewrite X in O2. discriminate O2.
  - right. split; [exact Hc|]. right. exists l1, l2, F0. split; [reflexivity|]. split; [exact HI|]. split; [exact HF0|]. apply P1, O.
Qed.
End Main.

(** ** Theorems *)
(** The options are those of a command line: the URL has no NUL, the port is an int; the
    strings are not absurdly long. *)
Definition sane_options (cm : Z) (ox : bool) (o : options) : Prop :=
  (forall u, o_url o = Some u -> ~ In x00 u) /\ o_port o < 2 ^ 31 /\ forall t, Prop_ToolOpts.options_say cm ox o t -> small t.
Lemma port_ok cm ox o t : sane_options cm ox o -> Prop_ToolOpts.options_say cm ox o t -> 0 <= t_port t < 2 ^ 31.
Proof.
  intros (H1 & H2 & _) (_ & H). destruct (o_url o) as [u|].
  - destruct H as (_ & _ & _ & _ & _ & _ & _ & ci & m & P & _ & _ & _ & _ & <- & _).
    destruct (Prop_Url.C27_parse_url_total cm ox u [] (H1 u eq_refl)) as (st & ci' & s' & P' & _ & _ & K). rewrite P in P'. injection P' as <- <- _. specialize (K eq_refl). lia.
  - destruct H as ((port & S & [[_ ->]|(A & _ & ->)]) & _); [|lia]. inversion S as [|h Hh|h p n Hh Hn]; subst; [lia|destruct (o_ssl o); lia|].
    destruct Hn as (b & sg & d & v & _ & _ & _ & _ & _ & K). lia.
Qed.
Section All.
Context (N : nat) (E : nat -> aenv) (cm : Z) (ox : bool) (platform : string).
Lemma with_connection_ok request reply context prints main o ans ev :
  (forall c ev, usable c -> does request reply context prints (main c ev)) -> zlen (lit platform) < M63 -> sane_options cm ox o ->
  match with_connection N E cm ox platform exits o main ans ev with
  | None => forall t, ~ Prop_ToolOpts.options_say cm ox o t
  | Some p => (p = Runs [] [] /\ forall t, ~ Prop_ToolOpts.options_say cm ox o t) \/
      exists t, Prop_ToolOpts.options_say cm ox o t /\ whole platform t (o_heartbeat o) request reply context prints p
  end.
Proof.
  intros Hm Hp Ho. pose proof (fun t => Prop_ToolOpts.C60_options_exact cm ox o t (proj1 Ho)) as X. unfold with_connection.
  assert (forall t, init_connection_info cm ox o <> Returns t -> ~ Prop_ToolOpts.options_say cm ox o t) as XN by (intros t K1 K2; apply K1, X, K2).
  destruct (init_connection_info cm ox o) as [t| | |] eqn:Hi; try (left; split; [reflexivity|]); try (intros t; apply XN; discriminate). clear XN.
  right. exists t. assert (Prop_ToolOpts.options_say cm ox o t) as Ht by (apply X; reflexivity). split; [exact Ht|].
  pose proof (dial_ok N t (port_ok cm ox o t Ho Ht) ans) as D. destruct (dial N t ans) as [[fd|rep] rest d|s d].
  - apply talk_ok; [exact Hm|exact Hp|apply Ho, Ht|exact D].
  - left. auto.
  - left. reflexivity.
Qed.
End All.

(** amqp-declare-queue with a queue name.  [None]: it exits with a message about its
    options (C60), and only if they do not determine where to connect; else it is doing, or
    has done, what they say ([whole]).  (It may also be inside a read of a malformed
    authentication file: C59.) *)
Theorem C82_declare :
  forall (N : nat) (E : nat -> aenv) (cm : Z) (ox : bool) (platform : string) (queue : bytes) (durable : bool) (o : options) (ans : list answer) (ev : list event),
    zlen (lit platform) < M63 -> zlen queue < M63 -> sane_options cm ox o ->
    match declare_program N E cm ox platform (Some queue) durable o ans ev with
    | None => forall t, ~ Prop_ToolOpts.options_say cm ox o t
    | Some p => (p = Runs [] [] /\ forall t, ~ Prop_ToolOpts.options_say cm ox o t) \/
        exists t, Prop_ToolOpts.options_say cm ox o t /\
          whole platform t (o_heartbeat o) (declare_request queue durable) (method_id 50 11) "queue.declare" prints_name p
    end.
Proof. intros N E cm ox pf q d o ans ev Hp Hq Ho. apply with_connection_ok; [|exact Hp|exact Ho]. intros c e HU. apply C78_declare; assumption. Qed.
Theorem C82_delete :
  forall (N : nat) (E : nat -> aenv) (cm : Z) (ox : bool) (platform : string) (queue : bytes) (if_unused if_empty : bool) (o : options) (ans : list answer) (ev : list event),
    zlen (lit platform) < M63 -> zlen queue < M63 -> queue <> [] -> sane_options cm ox o ->
    match delete_program N E cm ox platform (Some queue) if_unused if_empty o ans ev with
    | None => forall t, ~ Prop_ToolOpts.options_say cm ox o t
    | Some p => (p = Runs [] [] /\ forall t, ~ Prop_ToolOpts.options_say cm ox o t) \/
        exists t, Prop_ToolOpts.options_say cm ox o t /\
          whole platform t (o_heartbeat o) (delete_request queue if_unused if_empty) (method_id 50 41) "queue.delete" prints_count p
    end.
Proof.
  intros N E cm ox pf q u e o ans ev Hp Hq Hne Ho. unfold delete_program. destruct q as [|b q0]; [contradiction|]. apply with_connection_ok; [|exact Hp|exact Ho].
  intros c e' HU. apply C78_delete; assumption.
Qed.
(** without a queue name nothing is done: no connection is made *)
Theorem C82_no_queue :
  forall (N : nat) (E : nat -> aenv) (cm : Z) (ox : bool) (platform : string) (durable if_unused if_empty : bool) (o : options) (ans : list answer) (ev : list event),
    let refused := Some (Ends (Returns 1, [], lit "queue name not specified" ++ [newline]) [] []) in
    declare_program N E cm ox platform None durable o ans ev = refused /\
    delete_program N E cm ox platform None if_unused if_empty o ans ev = refused /\
    delete_program N E cm ox platform (Some []) if_unused if_empty o ans ev = refused.
Proof. repeat split. Qed.

(** ** Cases: amqp-declare-queue -q q1 -d, to localhost *)
Definition dial_answers : list answer :=
  let ok := mkAns 0 0 None in [mkAns 1 0 None; mkAns 0 0 (Some [7]); mkAns 5 0 None; ok; ok; ok; ok; ok; ok; ok].
Definition talks (rest : list event) : list event :=
  Prop_Login.whole_login (Prop_Login.the_tune 2047 4096 60) ([EvAlloc true; EvSend (SOk 999); EvSend (SOk 999); EvRecv (ROk Prop_Login.the_open_ok)] ++ rest).
Definition opened_channel : aframe := AMethod 20 11 [("channel_id", LongStr)] [("channel_id", VBytes [])].
Example C82_success :
  match declare_program 100 Prop_Login.zero_env 0 false "Linux" (Some (lit "q1")) true Prop_ToolOpts.no_options dial_answers
    (talks [EvSend (SOk 99); EvRecv (ROk (ser [(1, opened_channel)])); EvSend (SOk 99); EvRecv (ROk (ser (answers (declared (lit "q1"))))); EvSend (SOk 99); EvSend (SOk 99)]) with
  | Some (Ends r d l) => r = (Returns 0, lit "q1" ++ [newline], []) /\ In (Resolve (lit "localhost") 5672) (map fst d) /\ In (Connect 5 7) (map fst d) /\
      let last := channel_open ++ declare_request (lit "q1") true ++ ser_frame 1 (close_method 20 40 200 (lit "200")) ++ ser_frame 0 (close_method 10 50 200 (lit "200")) in
      skipn (length (out_bytes l) - length last) (out_bytes l) = last
  | _ => False
  end.
Proof.
  vm_compute. split; [reflexivity|]. split; [repeat (first [left; reflexivity|right])|]. split; [repeat (first [left; reflexivity|right])|]. reflexivity.
Qed.
(** the host does not exist *)
Example C82_no_host :
  declare_program 100 Prop_Login.zero_env 0 false "Linux" (Some (lit "q1")) true (mkOpts None (Some (lit "nowhere")) (-1) None None None 0 None false) [mkAns 1 0 None; mkAns 0 0 None] [] =
  Some (Ends (Dies, [], lit "opening socket to nowhere:5672: hostname lookup failed" ++ [newline]) [(Calloc, mkAns 1 0 None); (Resolve (lit "nowhere") 5672, mkAns 0 0 None)] []).
Proof. vm_compute. reflexivity. Qed.
(** the server refuses the password: it closes the socket instead of proposing limits *)
Example C82_refused :
  match declare_program 100 Prop_Login.zero_env 0 false "Linux" (Some (lit "q1")) true Prop_ToolOpts.no_options dial_answers
    [EvClock 1; EvSend (SOk 8); EvClock 1; EvClock 2; EvRecv (ROk Prop_Login.the_start); EvClone (fun _ => false); EvAlloc true; EvClone (fun _ => false);
     EvSend (SOk 9999); EvClock 3; EvClock 4; EvRecv (ROk []); EvClose true] with
  | Some (Ends r _ l) => fst (fst r) = Dies /\ snd r = line "logging in to AMQP server" (status_text AMQP_STATUS_CONNECTION_CLOSED)
  | _ => False
  end.
Proof. vm_compute. split; reflexivity. Qed.
Example C82_options : sane_options 0 false Prop_ToolOpts.no_options.
Proof.
  split; [discriminate|]. split; [cbn; lia|]. intros t (_ & _ & H2 & H3 & _). destruct H2 as [(_ & H2 & H2')|(_ & _ & f & H2 & _)]; [|discriminate H2].
  unfold small. rewrite H2, H2', H3. split; reflexivity.
Qed.
Print Assumptions C82_declare.
Print Assumptions C82_delete.
Print Assumptions C82_no_queue.
