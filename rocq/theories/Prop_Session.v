(** C71: a session with a well-behaved server works, from the login on. *)
From Coq Require Import String ZArith List Bool Lia.
From Coq Require Permutation.
From Verif Require Import Base BaseFacts Codec TableModel TableSpec TableOps FramingStmt FramingGen FramingModel MethodSpec
  Frame FrameSpec FrameProofs FrameStream FrameInit FrameFacts Time Sasl Net NetApi NetSpec CallSpec LoginSpec NetFacts NetOff NetRx NetWell NetCalm NetCalmApi NetCalmExec NetCalmLogin
  Prop_Frame Prop_Receive Prop_Calls CalmSpec Prop_Calm SessionSpec.
From Verif Require Prop_TableOps.
Import ListNotations.
Local Open Scope Z_scope.

(** ** Proof *)
Lemma greeting_modest s hbs : heartbeats hbs -> Forall modest_frame (greeting s hbs).
Proof.
  intros H. apply Forall_cons; [exact I|]. apply Forall_app. split; [|apply Forall_cons; [exact I|apply Forall_nil]].
  eapply Forall_impl; [|exact H]. intros [ch f] K. cbn in K. subst. exact I.
Qed.
Lemma session_modest s hbs rest : heartbeats hbs -> Forall modest_frame rest -> Forall modest_frame (session s hbs rest).
Proof.
  intros H R. apply Forall_app. split; [|apply Forall_cons; [exact I|exact R]].
  eapply Forall_impl; [|exact H]. intros [ch f] K. cbn in K. subst. exact I.
Qed.
Lemma ser_greeting s hbs w : exists b1 b2 b3 b4 rest, ser (greeting s hbs) ++ w = x01 :: x00 :: x00 :: b1 :: b2 :: b3 :: b4 :: x00 :: rest.
Proof.
  unfold greeting, ser. cbn [map concat]. set (r := concat _). clearbody r. unfold ser_frame, wire. cbn [start type_of ser_payload snd fst].
  set (n := zlen _). clearbody n. set (m := ser_method _ _). clearbody m. cbn [be app]. do 5 eexists. rewrite <- !app_assoc. cbn [app]. reflexivity.
Qed.
Lemma ser_both f1 f2 : ser f1 ++ ser f2 = ser (f1 ++ f2).
Proof. unfold ser. rewrite map_app, concat_app. reflexivity. Qed.

(** The client connects, the operating system and the network do not fail, memory
    suffices, the clock does not go back; the library has a connection on which nothing has
    been done.  (The first block of memory comes from calloc, amqp_mem.c:89 and 111, so that
    its byte 7 is 0.) *)
Definition connected (E : nat -> aenv) (t : Z) (c : conn) (ev : list event) : Prop :=
  never_fails E /\ ae_junk (E 0%nat) 7 = x00 /\ just_opened c /\ 0 <= t /\ calm t ev.
(** The server: offers the mechanism and limits that suit the request; its frames are
    correct, and no longer than what holds when they are sent: 65536 bytes before
    Tune-Ok, the agreed maximum after it.  [rest] is what it sends after the login. *)
Definition well_served (s : server) (a : login) (hb1 hb2 rest : list (Z * aframe)) (ev : list event) : Prop :=
  welcomes s a /\ heartbeats hb1 /\ heartbeats hb2 /\
  Forall (good_frame 65536) (greeting s hb1) /\ Forall (good_frame (agreed s a)) (session s hb2 rest) /\ Forall modest_frame rest /\
  prefix (inflow ev) (ser (greeting s hb1 ++ session s hb2 rest)).

Lemma connected_happy E t c ev s a hb1 hb2 rest :
  connected E t c ev -> well_served s a hb1 hb2 rest ev -> happy E 65536 65536 (ser (session s hb2 rest)) t (greeting s hb1) c ev.
Proof.
  intros (HE & HJ & HO & Ht & HC) (HW & H1 & H2 & HG & HS & HM & HP). destruct HO as (fd & to & -> & Hfd & Hto1 & Hto2).
  split; [exact Ht|]. split; [exact HC|]. split.
  { unfold in_use. cbn [set_to new_connection c_fd c_next_send c_next_recv c_hb c_to c_outbuf]. split; [exact Hfd|]. split; [left; reflexivity|]. split; [left; reflexivity|]. split; [lia|]. split; [exact Hto1|]. split; [exact Hto2|].
    unfold zlen. rewrite repeat_length. vm_compute. reflexivity. }
  split; [exact HG|]. split; [apply greeting_modest, H1|]. split; [constructor|]. split; [unfold zlen; cbn [set_to new_connection c_outbuf]; rewrite repeat_length; reflexivity|].
  exists []. split.
  - right. exists (mkB 65536 (repeat x00 8) (fun _ => 0%nat) 0%nat). split; [reflexivity|]. split; [split; [cbn [b_fm]; split; [lia|reflexivity]|reflexivity]|]. split; [reflexivity|]. split; [reflexivity|]. split; [exact HJ|].
    destruct (ser_greeting s hb1 (ser (session s hb2 rest))) as (b1 & b2 & b3 & b4 & r & ->). split; [reflexivity|].
    unfold is_magic. destruct (list_eq_dec _ _ _) as [e|]; [discriminate e|reflexivity].
  - split; [vm_compute; discriminate|]. cbn [set_to new_connection c_sbuf app]. rewrite ser_both. exact HP.
Qed.

Lemma session_start N E t c ev s a hb1 hb2 rest :
  connected E t c ev -> well_served s a hb1 hb2 rest ev -> proper a -> fits_in a (agreed s a) ->
  wp (exec N E (Log_in a)) c ev (fun o c' ev' _ => o = OutReply (RNormal 0 []) /\ exists t', t <= t' /\ happy E (agreed s a) (agreed s a) [] t' rest c' ev') (fun _ _ _ => True).
Proof.
  intros HC HS HP HF. pose proof (connected_happy _ _ _ _ _ _ _ _ _ HC HS) as HH.
  destruct HC as (HE & _ & (fd & to & Ec & _ & _ & Hto) & _ & _). destruct HS as (HW & H1 & H2 & HG & HS & HM & _).
  assert (c_queue c = []) as Hq by (rewrite Ec; reflexivity). assert (modest_timeout (amqp_get_handshake_timeout (c_to c))) as Hto' by (rewrite Ec; exact Hto). clear Ec.
  pose proof (calm_login_inner N E HE s a HP HF HW hb1 hb2 rest H1 H2 HS (session_modest s hb2 rest H2 HM) _ t c Hto' Hq HG ev HH) as K.
  cbn [exec Log_in]. unfold amqp_login_with_properties. apply wp_bind. apply wp_get_bind. eapply wp_conseq; [exact K| |auto].
  intros r c' ev' l (t' & fs' & T & HH' & -> & ->). apply wp_ret. split; [reflexivity|]. exists t'. split; assumption.
Qed.

(** C71.  A program opens a connection, logs in and makes any calls.  If nothing fails
    and the server behaves, then the login succeeds, and the calls after it report errors
    only where C70 allows it: when the arguments do not fit into a frame of the negotiated
    size, or when the server sends something else than what the call is for. *)
Theorem C71_session_works :
  forall (N : nat) (E : nat -> aenv) (s : server) (a : login) (hb1 hb2 rest : list (Z * aframe)) (calls : list api)
         (t : Z) (c c' : conn) (ev ev' : list event) (os : list outcome_t) (l : list obs),
    connected E t c ev -> well_served s a hb1 hb2 rest ev -> proper a -> fits_in a (agreed s a) ->
    Forall keeps_limits calls -> Forall modest_call calls ->
    exec_all N E (Log_in a :: calls) c ev = Done os c' ev' l ->
    exists os', os = OutReply (RNormal 0 []) :: os' /\ Forall2 (no_false_alarm (agreed s a)) calls os'.
Proof.
  intros N E s a hb1 hb2 rest calls t c c' ev ev' os l HC HS HP HF HK HMc Hrun.
  assert (never_fails E) as HE by apply HC. assert (24 <= agreed s a < 2 ^ 30) as Hag by apply HS.
  assert (wp (exec_all N E (Log_in a :: calls)) c ev (fun os _ _ _ => exists os', os = OutReply (RNormal 0 []) :: os' /\ Forall2 (no_false_alarm (agreed s a)) calls os') (fun _ _ _ => True)) as K.
  { cbn [exec_all]. apply wp_bind. eapply wp_conseq; [eapply session_start; eassumption| |auto]. intros o c1 ev1 _ (-> & t1 & T1 & H1). apply wp_bind.
    eapply wp_conseq; [apply (calm_exec_all N E HE (agreed s a) (agreed s a) ltac:(lia) calls ltac:(lia) HK HMc t1 rest c1 ev1 H1)| |auto].
    intros os1 c2 ev2 _ (_ & _ & _ & _ & H2). apply wp_ret. eauto. }
  unfold wp in K. rewrite Hrun in K. exact K.
Qed.

(** The synchronous calls in such a session. *)
Theorem C71_session_calls :
  forall (w : rpc_wrapper) (args : list (string * mval)),
    In w rpc_table -> given (rpc_params w) args ->
    exists cls i cls' i' fields m,
      In (rpc_name w, (cls, i), (cls', i')) documented /\ In (cls, i, fields) catalogue /\ documented_args fields args m /\
      forall (N : nat) (E : nat -> aenv) (s : server) (a : login) (hb1 hb2 rest : list (Z * aframe)) (calls : list api) (ch : Z)
             (t : Z) (c c' : conn) (ev ev' : list event) (os : list outcome_t) (l : list obs),
        connected E t c ev -> well_served s a hb1 hb2 rest ev -> proper a -> fits_in a (agreed s a) ->
        Forall keeps_limits calls -> Forall modest_call calls ->
        exec_all N E (Log_in a :: calls ++ [Call w ch args]) c ev = Done os c' ev' l ->
        no_error (spoilt (agreed s a) [method_frame ch (method_id cls i) m]) (c_recent c').
Proof.
  intros w args Hw Hg. destruct (call_request w args Hw Hg) as (cls & i & cls' & i' & fields & m & H1 & H2 & H3 & H4 & H5 & H6 & H7 & H8).
  exists cls, i, cls', i', fields, m. split; [exact H1|]. split; [exact H2|]. split; [exact H3|].
  intros N E s a hb1 hb2 rest calls ch t c c' ev ev' os l HC HS HP HF HK HMc Hrun.
  assert (never_fails E) as HE by apply HC. assert (24 <= agreed s a < 2 ^ 30) as Hag by apply HS.
  assert (wp (exec_all N E (Log_in a :: calls ++ [Call w ch args])) c ev (fun _ c' _ _ => no_error (spoilt (agreed s a) [method_frame ch (method_id cls i) m]) (c_recent c')) (fun _ _ _ => True)) as K.
  { cbn [exec_all]. apply wp_bind. eapply wp_conseq; [eapply session_start; eassumption| |auto]. intros o c1 ev1 _ (_ & t1 & T1 & HH). apply wp_bind.
    assert (calmly E (agreed s a) (agreed s a) [] (bind (exec_all N E calls) (fun os1 => bind (exec_all N E [Call w ch args]) (fun os2 => ret (os1 ++ os2)))) t1 rest c1
      (fun _ _ _ c' => no_error (spoilt (agreed s a) [method_frame ch (method_id cls i) m]) (c_recent c'))) as K.
    { eapply calmly_bind; [apply calm_exec_all; try eassumption; lia|]. cbv beta. intros os1 t2 fs2 c2 T2 _.
      eapply (calmly_bind _ _ _ _ _ _ _ _ _ (fun _ _ _ c' => no_error (spoilt (agreed s a) [method_frame ch (method_id cls i) m]) (c_recent c'))); [|intros; apply calmly_ret; assumption].
      cbn [exec_all exec].
      eapply (calmly_bind _ _ _ _ _ _ _ _ _ (fun _ _ _ c' => no_error (spoilt (agreed s a) [method_frame ch (method_id cls i) m]) (c_recent c'))).
      2:{ intros o3 t3 fs3 c3 T3 HQ. apply calmly_ret_bind, calmly_ret. exact HQ. }
      eapply calmly_bind; [apply (calm_call N E HE (agreed s a) (agreed s a)); lia|]. cbv beta. intros o3 t3 fs3 c3 T3 (m' & B & HQ). apply calmly_ret.
      rewrite H8 in B. injection B as <-. rewrite H6 in HQ. exact HQ. }
    specialize (K ev1 HH). unfold wp at 1. unfold wp in K. rewrite exec_all_app. destruct (bind (exec_all N E calls) _ c1 ev1) as [os2 c2 ev2 l2|]; [|exact I].
    destruct K as (_ & _ & _ & _ & K). exact K. }
  unfold wp in K. rewrite Hrun in K. exact K.
Qed.

(** ** The usual login: amqp_login, without client properties *)
Lemma lookup_In k v t : NoDup (map fst t) -> (Prop_TableOps.lookup k t = Some v <-> In (k, v) t).
Proof.
  induction t as [|[k' v'] t IH]; cbn [map fst Prop_TableOps.lookup In]; intros ND; [split; [discriminate|intros []]|].
  apply NoDup_cons_iff in ND. destruct ND as [N1 N2]. specialize (IH N2). destruct (list_eq_dec Byte.byte_eq_dec k' k) as [->|Ne].
  - split; [intros [= ->]; left; reflexivity|]. intros [K|K]; [injection K as ->; reflexivity|]. exfalso. apply N1. apply (in_map fst) in K. exact K.
  - rewrite IH. split; [right; assumption|]. intros [K|K]; [injection K as -> _; congruence|exact K].
Qed.
Lemma merge_nothing base r : NoDup (map fst base) -> Prop_TableOps.is_merge base [] r -> Permutation.Permutation base r.
Proof.
  intros ND [_ _ H3 ND']. apply Permutation.NoDup_Permutation.
  - eapply NoDup_map_inv; exact ND.
  - eapply NoDup_map_inv; exact ND'.
  - intros [k v]. rewrite <- (lookup_In k v base ND), <- (lookup_In k v r ND'). rewrite H3 by reflexivity. reflexivity.
Qed.
Lemma perm_size (g : bytes * fv -> bytes) t t' : Permutation.Permutation t t' -> zlen (concat (map g t)) = zlen (concat (map g t')).
Proof. induction 1; cbn [map concat]; rewrite ?zlen_app; try lia. Qed.
Lemma known_perm t t' : Permutation.Permutation t t' -> known_table t = known_table t'.
Proof. unfold known_table. induction 1; cbn [forallb]; try congruence. destruct (known_kinds (snd x)), (known_kinds (snd y)); reflexivity. Qed.
Lemma all_Forall {A} (P : A -> Prop) l : all P l <-> Forall P l.
Proof. induction l as [|x l IH]; cbn [all]; [split; constructor|]. rewrite IH, Forall_cons_iff. reflexivity. Qed.
Lemma c_table_perm t t' : Permutation.Permutation t t' -> c_table t -> c_table t'.
Proof. unfold c_table. intros H. rewrite !all_Forall. apply Permutation.Permutation_Forall, H. Qed.

(** arguments in the documented ranges, names and passwords of at most 60000 bytes *)
Definition usual (a : login) (fm : Z) : Prop :=
  0 <= l_channel_max a <= 65535 /\ 24 <= l_frame_max a /\ 0 <= l_heartbeat a <= 65535 /\
  (l_props a = None \/ l_props a = Some []) /\
  zlen (lit (l_platform a)) + zlen (sasl_answer (l_cred a)) <= 60000 /\ sasl_answer (l_cred a) <> [] /\
  zlen (l_vhost a) <= 255 /\ zlen (l_vhost a) + 15 <= fm.
Lemma ser_table_len t : zlen (ser_table t) = 4 + zlen (concat (map (fun e => shortstr (fst e) ++ ser_value (snd e)) t)).
Proof. unfold ser_table, longstr. rewrite zlen_app, CodecSwap.zlen_be. lia. Qed.
Lemma usual_fits a fm : usual a fm -> proper a /\ fits_in a fm.
Proof.
  intros (H1 & H2 & H3 & HP & HL & HA & HV & HV2). split.
  { split; [exact H1|]. split; [exact H2|]. split; [exact H3|]. split; [exact HA|]. destruct HP as [-> | ->]; [exact I|].
    split; [split; [constructor|exact I]|]. split; [reflexivity|]. split; [left; discriminate|exact I]. }
  pose proof (zlen_nonneg (sasl_answer (l_cred a))) as Z1. pose proof (zlen_nonneg (lit (l_platform a))) as Z2. pose proof (zlen_nonneg (l_vhost a)) as Z3.
  split.
  - intros props Hs. assert (Permutation.Permutation (default_properties (l_platform a)) props) as PM.
    { destruct HP as [E|E]; rewrite E in Hs; cbn [properties_sent] in Hs; [subst; apply Permutation.Permutation_refl|]. apply merge_nothing; [|exact Hs]. apply default_distinct. }
    assert (zlen (mechanism (l_cred a)) <= 8) as ZM by (destruct (l_cred a); vm_compute; discriminate).
    pose proof (zlen_nonneg (mechanism (l_cred a))) as Z4.
    assert (c_table props) as CT.
    { apply (c_table_perm _ _ PM). unfold c_table, default_properties, utf8_entry. set (p := lit (l_platform a)) in *. clearbody p. cbn [all fst snd c_value].
      assert (zlen p < M63) as LP by (change M63 with 9223372036854775808; lia).
      do 2 (split; [split; reflexivity|]). split; [split; [reflexivity|exact LP]|]. do 2 (split; [split; reflexivity|]). split; [split; [reflexivity|]|exact I]. vm_compute. repeat split; discriminate. }
    assert (known_table props = true) as KT by (rewrite <- (known_perm _ _ PM); reflexivity).
    assert (zlen (ser_table props) <= 400 + zlen (lit (l_platform a))) as ZT.
    { rewrite ser_table_len, <- (perm_size _ _ _ PM). unfold default_properties, utf8_entry. set (p := lit (l_platform a)) in *. clearbody p. cbn [map concat fst snd]. rewrite !zlen_app.
      assert (forall k, zlen (shortstr k) = 1 + zlen k) as S1 by (intros k; unfold shortstr; rewrite zlen_app, CodecSwap.zlen_be; lia).
      assert (forall v, zlen (ser_value (FUtf8 v)) = 5 + zlen v) as S2 by (intros v; cbn [ser_value]; unfold longstr; rewrite zlen_cons, zlen_app, CodecSwap.zlen_be; lia).
      set (q := ser_value (FTable _)). assert (zlen q <= 70) by (vm_compute; discriminate). clearbody q.
      rewrite ?zlen_app, !S1, !S2. change (zlen (@nil byte)) with 0.
      change (zlen (lit "product")) with 7. change (zlen (lit "rabbitmq-c")) with 10. change (zlen (lit "version")) with 7. change (zlen (lit "0.16.0-pre")) with 10. change (zlen (lit "platform")) with 8.
      change (zlen (lit "copyright")) with 9. change (zlen (lit "Copyright (c) 2007-2014 VMWare Inc, Tony Garnock-Jones, and Alan Antonuk.")) with 73. change (zlen (lit "information")) with 11.
      change (zlen (lit "See https://github.com/alanxz/rabbitmq-c")) with 40. change (zlen (lit "capabilities")) with 12. lia. }
    exists 0, (AMethod 10 11 [("client_properties", Tbl); ("mechanism", ShortStr); ("response", LongStr); ("locale", ShortStr)]%string
      [("client_properties", VTable props); ("mechanism", VBytes (mechanism (l_cred a))); ("response", VBytes (sasl_answer (l_cred a))); ("locale", VBytes (lit "en_US"))]%string).
    split; [reflexivity|]. split; [split; [apply cat_in; reflexivity|]|split].
    + unfold well_typed. constructor; [split; [reflexivity|exact CT]|]. constructor; [split; [reflexivity|cbn [snd dom_val]; change M63 with 9223372036854775808; lia]|]. constructor; [split; [reflexivity|cbn [snd dom_val]; change M63 with 9223372036854775808; lia]|]. constructor; [split; [reflexivity|vm_compute; reflexivity]|]. constructor.
    + cbn [aframe_representable representable_args map combine forallb fst snd representable]. unfold representable_args. cbn [map combine forallb fst snd representable]. rewrite KT.
      destruct (Z.leb_spec (zlen (mechanism (l_cred a))) 255); [|lia]. destruct (Z.leb_spec (zlen (sasl_answer (l_cred a))) 0xffffffff); [reflexivity|lia].
    + unfold ser_frame. rewrite zlen_wire. cbn [ser_payload]. rewrite !zlen_app, !CodecSwap.zlen_be. unfold ser_method. cbn [map combine snd fst ser_args ser_arg flush_bits app]. rewrite !zlen_app. unfold shortstr, longstr. rewrite !zlen_app. repeat rewrite CodecSwap.zlen_be.
      change (zlen (@nil byte)) with 0. change (zlen (lit "en_US")) with 5. lia.
  - exists 0, (AMethod 10 40 [("virtual_host", ShortStr); ("capabilities", ShortStr); ("insist", Bit)]%string [("virtual_host", VBytes (l_vhost a)); ("capabilities", VBytes []); ("insist", VBool 1)]%string).
    split; [reflexivity|]. split; [split; [apply cat_in; reflexivity|]|split].
    + unfold well_typed. constructor; [split; [reflexivity|cbn [snd dom_val]; change M63 with 9223372036854775808; lia]|]. constructor; [split; reflexivity|]. constructor; [split; [reflexivity|cbn [snd dom_val]; change M31 with 2147483648; lia]|]. constructor.
    + cbn [aframe_representable]. unfold representable_args. cbn [map combine forallb fst snd representable]. destruct (Z.leb_spec (zlen (l_vhost a)) 255); [reflexivity|lia].
    + unfold ser_frame. rewrite zlen_wire. cbn [ser_payload]. rewrite !zlen_app, !CodecSwap.zlen_be. unfold ser_method. cbn [map combine snd fst ser_args ser_arg flush_bits app octet_of_bits]. rewrite !zlen_app. unfold shortstr. rewrite !zlen_app. repeat rewrite CodecSwap.zlen_be. change (zlen (@nil byte)) with 0. lia.
Qed.
(** C71 for amqp_login: a virtual host that fits into a frame and names of any ordinary
    length are enough. *)
Theorem C71_usual_login_works :
  forall (N : nat) (E : nat -> aenv) (s : server) (a : login) (hb1 hb2 rest : list (Z * aframe)) (calls : list api)
         (t : Z) (c c' : conn) (ev ev' : list event) (os : list outcome_t) (l : list obs),
    connected E t c ev -> well_served s a hb1 hb2 rest ev -> usual a (agreed s a) ->
    Forall keeps_limits calls -> Forall modest_call calls ->
    exec_all N E (Log_in a :: calls) c ev = Done os c' ev' l ->
    exists os', os = OutReply (RNormal 0 []) :: os' /\ Forall2 (no_false_alarm (agreed s a)) calls os'.
Proof. intros until l. intros HC HS HU. destruct (usual_fits _ _ HU). eapply C71_session_works; eassumption. Qed.

(** The hypotheses are met: heartbeats between the server's frames, the data arrives in
    odd pieces and with interruptions; after the login a message is published, a frame is
    read, a queue is purged. *)
Definition zeroed : nat -> aenv := fun _ => mkA false false (fun _ => x00) no_oom.
Definition the_server : server :=
  mkServer [(lit "product", FUtf8 (lit "RabbitMQ")); (lit "capabilities", FTable [(lit "basic.nack", FBool 1)])] (lit "AMQPLAIN PLAIN") (lit "en_US") 2047 131072 60 [].
Definition the_login : login := mkLogin "Linux" (lit "/") 0 4096 10 (Some []) (Plain (lit "guest") (lit "guest")).
Definition hb : list (Z * aframe) := [(0, AHeartbeat)].
Definition after_login : list (Z * aframe) := [(0, AHeartbeat); (1, purge_ok)].
Definition all_of_it : bytes := ser (greeting the_server hb ++ session the_server hb after_login).
Definition c71_calls : list api :=
  [SetRpcTimeout (Some (mkTv 10 0)); Publish 1 [] [x71] 0 0 None [x68; x69]] ++
  match purge with Some w => [Call w 1 [("queue", VBytes [x71])]]%string | None => [] end.
Definition piece (i n : nat) : event := EvRecv (ROk (firstn n (skipn i all_of_it))).
Definition c71_events : list event :=
  [EvClock 1000; EvSend (SOk 3); EvSend (SOk 8); EvClock 2000; EvClock 3000; EvRecv RAgain; EvClock 3500; EvPoll PReady; piece 0 3; EvRecv RIntr; piece 3 103;
   EvClone (fun _ => false); EvAlloc true; EvClone (fun _ => false); EvSend (SOk 99999); EvClock 5000; EvClock 6000; piece 106 1; piece 107 18;
   EvClock 7000; EvClock 7100; EvAlloc true; EvSend (SOk 99); EvClock 7200; EvSend (SOk 99); EvClock 7300; EvClock 7400; piece 125 20; EvClock 7500; EvClock 7600; piece 145 1; EvClock 7700; EvClock 7750;
   EvSend (SOk 99); EvClock 7800; EvSend (SOk 99); EvClock 7900; EvSend (SOk 99); EvClock 8000; EvClock 8100; EvSend (SOk 99); EvClock 8200; EvClock 8300; piece 146 24; EvClock 8500].
Example C71_case :
  connected zeroed 0 (new_connection 5) c71_events /\ well_served the_server the_login hb hb after_login c71_events /\
  usual the_login (agreed the_server the_login) /\ Forall keeps_limits c71_calls /\ Forall modest_call c71_calls /\
  inflow c71_events = all_of_it /\ length c71_calls = 3%nat /\ agreed the_server the_login = 4096 /\
  match exec_all 100 zeroed (Log_in the_login :: c71_calls) (new_connection 5) c71_events with
  | Done os c' [] l => os = [OutReply (RNormal 0 []); OutStatus 0; OutStatus 0; OutDecoded (Some [("message_count", VInt 7)])]%string
  | _ => False
  end.
Proof.
  assert (inflow c71_events = all_of_it) as HI by (vm_compute; reflexivity).
  assert (forall n, 40 <= n -> good_frame n (0, AHeartbeat)) as HB.
  { intros n Hn. split; [cbn; lia|]. split; [exact I|]. split; [reflexivity|]. split; [exact I|]. cbn [fst snd]. change (zlen (ser_frame 0 AHeartbeat)) with 8. lia. }
  split.
  { split; [intros i; repeat split|]. split; [reflexivity|]. split.
    { exists 5, (c_to (new_connection 5)). split; [reflexivity|]. split; [discriminate|]. split; [exact I|vm_compute; repeat split; discriminate]. }
    split; [lia|]. split; [|vm_compute; repeat split; discriminate]. unfold c71_events, piece.
    repeat (apply Forall_cons; [lazymatch goal with |- no_failure (EvRecv (ROk _)) => split; vm_compute; discriminate | |- no_failure (EvClock _) => split; reflexivity | |- no_failure (EvClone _) => intros ?; reflexivity | |- no_failure (EvAlloc _) => reflexivity | _ => exact I end|]). apply Forall_nil. }
  split.
  { split. { split; [exists (lit "AMQPLAIN "), []; split; [reflexivity|split; [right; exists (lit "AMQPLAIN"); reflexivity|split; [left; reflexivity|cbn; intuition discriminate]]]|]. split; [reflexivity|]. change (agreed the_server the_login) with 4096. split; [lia|reflexivity]. }
    split; [repeat constructor|]. split; [repeat constructor|]. split; [|split; [|split]].
    - unfold greeting. apply Forall_cons; [|apply Forall_app; split; [apply Forall_cons; [apply HB; lia|apply Forall_nil]|apply Forall_cons; [|apply Forall_nil]]].
      + split; [cbn; lia|]. split; [split; [apply cat_in; reflexivity|]|split; [reflexivity|split; [|vm_compute; discriminate]]].
        * unfold well_typed. repeat (apply Forall2_cons; [split; [reflexivity|]|]); [cbn; lia|cbn; lia|vm_compute; repeat split; discriminate|reflexivity|reflexivity|constructor].
        * vm_compute. repeat (apply Forall_cons; [repeat split; try discriminate|]); try apply Forall_nil.
      + split; [cbn; lia|]. split; [split; [apply cat_in; reflexivity|]|split; [reflexivity|split; [|vm_compute; discriminate]]].
        * unfold well_typed. repeat (apply Forall2_cons; [split; [reflexivity|cbn; lia]|]). constructor.
        * repeat constructor.
    - change (agreed the_server the_login) with 4096. unfold session. apply Forall_app. split; [apply Forall_cons; [apply HB; lia|apply Forall_nil]|]. apply Forall_cons.
      + split; [cbn; lia|]. split; [split; [apply cat_in; reflexivity|]|split; [reflexivity|split; [|vm_compute; discriminate]]].
        * unfold well_typed. repeat (apply Forall2_cons; [split; reflexivity|]). constructor.
        * repeat constructor.
      + apply Forall_cons; [apply HB; lia|]. apply Forall_cons; [exact purge_good|apply Forall_nil].
    - repeat (apply Forall_cons; [exact I|]). apply Forall_nil.
    - rewrite HI. exists []. symmetry. apply app_nil_r. }
  split. { change (agreed the_server the_login) with 4096. cbn [the_login l_channel_max l_frame_max l_heartbeat l_props l_platform l_cred l_vhost].
    split; [cbn; lia|]. split; [cbn; lia|]. split; [cbn; lia|]. split; [right; reflexivity|]. split; [vm_compute; discriminate|]. split; [discriminate|]. split; vm_compute; discriminate. }
  split. { unfold c71_calls. apply Forall_app. split; [repeat constructor|]. destruct purge; repeat constructor. }
  split. { unfold c71_calls. apply Forall_app. split; [|destruct purge; repeat constructor].
    constructor; [cbn [modest_call modest_timeout tv_sec tv_usec]; lia|]. repeat constructor. }
  split; [exact HI|]. split; [reflexivity|]. split; [reflexivity|]. vm_compute. reflexivity.
Qed.

Print Assumptions C71_session_works.
Print Assumptions C71_session_calls.
Print Assumptions C71_usual_login_works.
