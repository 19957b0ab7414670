(** Proofs for C71: logging in when nothing fails. *)
From Coq Require Import String ZArith List Bool Lia.
From Verif Require CodecSwap.
From Verif Require Import Base BaseFacts Codec TableModel TableSpec TableOps FramingStmt FramingGen FramingModel MethodSpec
  Frame FrameSpec FrameProofs FrameStream FrameFacts FrameInit FrameNew Time Sasl Net NetApi NetSpec NetFacts NetSend NetRecv NetWalk NetAcct NetOrder NetWait NetRx NetWell EncStatus CalmSpec NetTyped Prop_Frame
  NetCalm NetCalmApi NetCalmExec LoginSpec SessionSpec.
From Verif Require Prop_TableOps Prop_Sasl.
Import ListNotations.
Local Open Scope Z_scope.

Section Trans.
Context (N : nat) (E : nat -> aenv) (HE : never_fails E).

(** from one stage of a connection to another *)
Definition trans {A} fm ob tail fm' ob' tail' (m : M A) (t : Z) (fs : list (Z * aframe)) (c : conn) (Q : A -> Z -> list (Z * aframe) -> conn -> Prop) : Prop :=
  forall ev, happy E fm ob tail t fs c ev -> wp m c ev (fun a c' ev' _ => exists t' fs', t <= t' /\ happy E fm' ob' tail' t' fs' c' ev' /\ Q a t' fs' c') (fun _ _ _ => True).
Lemma trans_bind {A B} fm ob tail f1 o1 l1 fm' ob' tail' (m : M A) (k : A -> M B) t fs c Q1 (Q : B -> Z -> list (Z * aframe) -> conn -> Prop) :
  trans fm ob tail f1 o1 l1 m t fs c Q1 -> (forall a t1 fs1 c1, t <= t1 -> Q1 a t1 fs1 c1 -> trans f1 o1 l1 fm' ob' tail' (k a) t1 fs1 c1 Q) ->
  trans fm ob tail fm' ob' tail' (bind m k) t fs c Q.
Proof.
  intros Hm Hk ev HH. apply wp_bind. eapply wp_conseq; [apply Hm, HH| |auto].
  intros a c1 ev1 l0 (t1 & fs1 & T1 & H1 & Q1a). eapply wp_conseq; [apply (Hk a t1 fs1 c1 T1 Q1a ev1 H1)| |auto].
  intros b c2 ev2 l2 (t2 & fs2 & T2 & H2 & Qb). exists t2, fs2. split; [lia|auto].
Qed.
Lemma trans_need {A B} fm ob tail fm' ob' tail' (o : option A) (k : A -> M B) t fs c a (Q : B -> Z -> list (Z * aframe) -> conn -> Prop) :
  o = Some a -> trans fm ob tail fm' ob' tail' (k a) t fs c Q -> trans fm ob tail fm' ob' tail' (bind (need o) k) t fs c Q.
Proof. intros -> H ev HH. apply wp_ret_bind, H, HH. Qed.
Lemma calmly_sprops fm ob tail p t fs c (Q : unit -> Z -> list (Z * aframe) -> conn -> Prop) : Q tt t fs (set_sprops c p) -> calmly E fm ob tail (upd (fun c => set_sprops c p)) t fs c Q.
Proof. intros HQ ev HH. apply wp_upd. exists t, fs. split; [lia|]. split; [exact HH|exact HQ]. Qed.
Lemma calmly_cprops fm ob tail p t fs c (Q : unit -> Z -> list (Z * aframe) -> conn -> Prop) : Q tt t fs (set_cprops c (p c)) -> calmly E fm ob tail (upd (fun c => set_cprops c (p c))) t fs c Q.
Proof. intros HQ ev HH. apply wp_upd. exists t, fs. split; [lia|]. split; [exact HH|exact HQ]. Qed.

(** sending what fits *)
Lemma calm_send_tail fm ob tail f more d t fs c : 24 <= ob -> can_send ob f -> modest_deadline t d ->
  calmly E fm ob tail (amqp_send_frame_inner N E f more d) t fs c (fun r t' fs' c' => r = AMQP_STATUS_OK /\ fs' = fs /\ c_sbuf c' = c_sbuf c /\ c_queue c' = c_queue c).
Proof.
  intros Hob Hs Hd. apply calmly_use. intros (_ & _ & _ & _ & _ & _ & U7) Eob _. eapply calmly_conseq; [apply calm_send_frame_inner, Hd|]. cbv beta.
  intros r t1 fs1 c1 T1 (He & Hr & H). split; [|exact H]. eapply encodes_det; [exact He|]. apply (sendable_encodes ob ob); [lia|exact Hs|exact Eob|lia].
Qed.
Lemma calm_header fm ob tail d t fs c : modest_deadline t d ->
  calmly E fm ob tail (send_header_inner N d) t fs c (fun r t' fs' c' => r = AMQP_STATUS_OK /\ fs' = fs /\ c' = c).
Proof.
  intros Hd. unfold send_header_inner, amqp_try_send. eapply calmly_bind; [apply calm_try_send_loop, Hd|]. cbv beta. intros r t1 fs1 c1 T1 (-> & -> & ->).
  rewrite Z.eqb_refl. apply calmly_ret. auto.
Qed.

(** ** New limits *)
Lemma calm_tune fm ob tail fm' cm hb F t c : tail = ser F -> Forall (good_frame fm') F -> Forall modest_frame F -> 24 <= fm' < 2 ^ 30 -> 0 <= hb <= 65535 ->
  trans fm ob tail fm' fm' [] (amqp_tune_connection cm fm' hb) t [] c (fun r t' fs' c' => r = AMQP_STATUS_OK /\ fs' = F /\ c_queue c' = c_queue c).
Proof.
  intros HT HG HM Hfm' Hhb ev HH. change (2 ^ 30) with 1073741824 in *. unfold amqp_tune_connection. apply wp_get_bind. destruct (i_state (c_in c)) eqn:Hi; try exact I.
  apply wp_upd_bind. destruct (Z.ltb_spec hb 0); [lia|]. set (c0 := set_limits c cm fm' hb).
  assert (happy E fm' ob [] t F c0 ev) as HH0.
  { destruct HH as (H0 & Hc & (A1 & A2 & A3 & A4 & A5) & H3 & H4 & H5 & (Hob & a & [(B & HB & [HB1 HB2] & HI & Hf)|(B & HB & _)] & Z0 & Pr)); [|rewrite HB in Hi; discriminate].
    assert (reads E (c_in c) false a) as HR by (exists B; split; [exact HB|split; [split; assumption|exact HI]]).
    destruct (idle_reads E _ _ _ Hi HR) as (_ & -> & _).
    split; [exact H0|]. split; [exact Hc|]. split; [split; [exact A1|]; split; [exact A2|]; split; [exact A3|]; split; [exact Hhb|exact A5]|]. split; [exact HG|]. split; [exact HM|]. split; [exact H5|].
    split; [exact Hob|]. exists []. split; [|split; [exact Z0|rewrite app_nil_r; cbn [ser map concat app] in Pr; rewrite <- HT; exact Pr]].
    left. exists (mkB fm' (b_hdr B) (b_gens B) (b_nf B)). split; [|split; [split; [cbn; lia|exact HB2]|split; [left; reflexivity|reflexivity]]].
    unfold c0, set_limits. cbn [c_in]. rewrite HB. reflexivity. }
  assert (c_queue c0 = c_queue c) as Q0 by reflexivity. clearbody c0. clear HH. revert ev HH0.
  lazymatch goal with |- forall ev, _ -> wp ?m _ ev _ _ => change (trans fm' ob [] fm' fm' [] m t F c0 (fun r t' fs' c' => r = AMQP_STATUS_OK /\ fs' = F /\ c_queue c' = c_queue c)) end.
  eapply trans_bind; [apply (calm_next_send E fm' ob [])|]. cbv beta. intros r t1 fs1 c1 T1 (-> & -> & _ & Q1). ok0.
  eapply trans_bind; [apply (calm_next_recv E fm' ob [])|]. cbv beta. intros r t2 fs2 c2 T2 (-> & -> & _ & Q2). ok0.
  eapply trans_bind; [apply (calm_alloc E fm' ob [])|]. cbv beta. intros ok t3 fs3 c3 T3 (-> & -> & ->). cbv iota.
  intros ev HH. apply wp_upd_bind, wp_ret. exists t3, F. split; [lia|]. split; [|split; [reflexivity|split; [reflexivity|cbn [c_queue set_outbuf]; congruence]]].
  set (b := firstn _ _ ++ _). assert (zlen b = fm') as Lb. { unfold b, zlen. rewrite app_length, firstn_length, repeat_length. lia. }
  clearbody b. destruct HH as (H0 & Hc & (A1 & A2 & A3 & A4 & A5 & A6 & A7) & H3 & H4 & H5 & (Hob & H6)).
  split; [exact H0|]. split; [exact Hc|]. split; [split; [exact A1|]; split; [exact A2|]; split; [exact A3|]; split; [exact A4|]; split; [exact A5|]; split; [exact A6|cbn [c_outbuf set_outbuf]; lia]|].
  split; [exact H3|]. split; [exact H4|]. split; [exact H5|]. split; [exact Lb|exact H6].
Qed.

(** ** The frames *)
Lemma received_method f ch cls i fields args : received f (ch, AMethod cls i fields args) ->
  f_type f = AMQP_FRAME_METHOD /\ f_chan f = ch /\ method_of f = Some (method_id cls i, norm_struct args).
Proof. intros [gen ->]. repeat split. Qed.
Lemma beats_is hbs : heartbeats hbs -> Forall is_beat hbs.
Proof. intros H. eapply Forall_impl; [|exact H]. intros [ch a]. cbn. intros ->. reflexivity. Qed.
Lemma next_method hbs ch cls i fields args rest : heartbeats hbs -> next_is (hbs ++ (ch, AMethod cls i fields args) :: rest) (ch, AMethod cls i fields args) rest.
Proof. intros H. exists hbs. split; [reflexivity|]. split; [apply beats_is, H|]. discriminate. Qed.
Lemma calm_expect fm ob tail ids d t c ch cls i fields args hbs rest : modest_deadline t d -> heartbeats hbs -> In (method_id cls i) ids -> c_queue c = [] ->
  calmly E fm ob tail (amqp_simple_wait_method_list N E ch ids d) t (hbs ++ (ch, AMethod cls i fields args) :: rest) c
    (fun p t' fs' c' => p = (AMQP_STATUS_OK, (method_id cls i, norm_struct args)) /\ fs' = rest /\ c_queue c' = []).
Proof.
  intros Hd Hh Hin Hq. pose proof (next_method hbs ch cls i fields args rest Hh) as Hn.
  eapply calmly_conseq; [apply calm_wait_method_list; [exact HE|exact Hd|right; eexists; eexists; exact Hn]|].
  cbv beta. intros p t1 fs1 c1 T1 (_ & K). destruct (K Hq) as (Q1 & f & HT & HP). destruct (takes_next _ _ _ _ _ HT Hn) as [Hr ->].
  destruct (received_method _ _ _ _ _ _ Hr) as (R1 & R2 & R3). split; [exact (HP R1 R2 _ _ R3 Hin)|auto].
Qed.

Lemma tune_limit_smaller s c : 0 < c -> tune_limit s c = smaller s c.
Proof.
  intros H. unfold tune_limit, smaller. destruct (Z.eqb_spec s 0); cbn [negb andb]; [reflexivity|]. destruct (Z.eqb_spec c 0); [lia|]. destruct (Z.ltb_spec s c); lia.
Qed.
Lemma tune_ok_sendable n cm fm hb : 24 <= n -> 0 <= cm <= 65535 -> 0 <= fm < M32 -> 0 <= hb <= 65535 ->
  can_send n (method_frame 0 CONNECTION_TUNE_OK [("channel_max", VInt cm); ("frame_max", VInt fm); ("heartbeat", VInt hb)]%string).
Proof.
  intros Hn Hc Hf Hh. exists 0, (AMethod 10 31 [("channel_max", Short); ("frame_max", Long); ("heartbeat", Short)]%string [("channel_max", VInt cm); ("frame_max", VInt fm); ("heartbeat", VInt hb)]%string).
  split; [reflexivity|]. split; [split; [apply cat_in; reflexivity|unfold well_typed; repeat (constructor; [split; [reflexivity|cbn; lia]|]); constructor]|]. split; [reflexivity|].
  unfold ser_frame. rewrite zlen_wire. cbn [ser_payload]. rewrite !zlen_app, !CodecSwap.zlen_be. unfold ser_method. cbn [map combine snd fst ser_args ser_arg flush_bits]. rewrite !zlen_app. repeat rewrite CodecSwap.zlen_be. change (zlen (@nil byte)) with 0. lia.
Qed.

Lemma calm_open fm tail hbs kh rest vhost d t c : tail = [] -> 24 <= fm < M31 -> can_send fm (method_frame 0 CONNECTION_OPEN [("virtual_host", VBytes vhost); ("capabilities", VBytes []); ("insist", VBool 1)]%string) ->
  modest_deadline t d -> heartbeats hbs ->
  calmly E fm fm tail (login_open N E vhost d) t (hbs ++ (0, open_ok kh) :: rest) c (fun r t' fs' c' => r = RNormal 0 [] /\ fs' = rest).
Proof.
  intros HT Hfm Hs Hd Hh. unfold login_open. apply calmly_use. intros (_ & _ & _ & _ & _ & _ & U7) Eob _.
  eapply calmly_bind; [apply calm_rpc_inner; [exact HE|intros; left; exact HT|exact Hd]|]. cbv beta. intros r t1 fs1 c1 T1 (_ & K).
  destruct (K (sendable_encodes fm fm ltac:(lia) _ _ Hs Eob ltac:(lia))) as (_ & K2).
  destruct (K2 (0, open_ok kh) rest CONNECTION_OPEN_OK (norm_struct [("known_hosts", VBytes kh)]%string)) as (-> & -> & _).
  { apply next_method, Hh. } { intros f Hf. destruct Hf as [gen ->]. split; reflexivity. } { left. reflexivity. }
  eapply calmly_bind; [apply calm_maybe_release|]. cbv beta. intros _ t2 fs2 c2 T2 ->. apply calmly_ret. auto.
Qed.

(** the properties received are those sent, with booleans normalised *)
Lemma norm_cloneable_fv : forall v, Prop_TableOps.cloneable (norm v) = Prop_TableOps.cloneable v.
Proof.
  fix IH 1. intros v. destruct v as [| | | | | | | | | | | | | |l| |t| |]; cbn [norm Prop_TableOps.cloneable]; try reflexivity.
  - induction l as [|v l IHl]; cbn [map forallb]; [reflexivity|]. rewrite IH, IHl. reflexivity.
  - induction t as [|[k v] t IHt]; cbn [map forallb fst snd]; [reflexivity|]. rewrite IH, IHt. reflexivity.
Qed.
Lemma norm_cloneable t : cloneable_table (norm_table t) = cloneable_table t.
Proof. unfold cloneable_table, norm_table. induction t as [|[k v] t IHt]; cbn [map forallb fst snd]; [reflexivity|]. rewrite norm_cloneable_fv, IHt. reflexivity. Qed.
Lemma default_distinct pf : Prop_TableOps.distinct (FTable (default_properties pf)).
Proof.
  cbn [Prop_TableOps.distinct default_properties utf8_entry map fst snd all]. split; [|split; [exact I|split; [exact I|split; [exact I|split; [exact I|split; [exact I|split; [|exact I]]]]]]].
  - repeat (constructor; [intros K; cbn in K; repeat (destruct K as [K|K]; [discriminate K|]); exact K|]). constructor.
  - split; [|repeat split]. repeat (constructor; [intros K; cbn in K; repeat (destruct K as [K|K]; [discriminate K|]); exact K|]). constructor.
Qed.
Lemma default_cloneable pf : cloneable_table (default_properties pf) = true.
Proof. reflexivity. Qed.

Section Login.
Context (s : server) (a : login) (Hp : proper a) (Hf : fits_in a (agreed s a)) (Hw : welcomes s a).
Context (hb1 hb2 rest : list (Z * aframe)) (Hh1 : heartbeats hb1) (Hh2 : heartbeats hb2).
Context (HG : Forall (good_frame (agreed s a)) (session s hb2 rest)) (HM : Forall modest_frame (session s hb2 rest)).
Let tail := ser (session s hb2 rest).
Notation fm' := (agreed s a).

Lemma calm_login_tune d t c : modest_deadline t d -> c_queue c = [] -> Forall (good_frame 65536) (greeting s hb1) ->
  trans 65536 65536 tail fm' fm' [] (login_tune N E (l_vhost a) (l_channel_max a) (l_frame_max a) (l_heartbeat a) d) t
    (hb1 ++ [(0, tune (s_channel_max s) (s_frame_max s) (s_heartbeat s))]) c (fun r t' fs' c' => r = RNormal 0 [] /\ fs' = rest).
Proof.
  intros Hd Hq Hgr. destruct Hp as (P1 & P2 & P3 & _). destruct Hw as (_ & _ & W3). destruct Hf as [_ F2]. change (2 ^ 30) with 1073741824 in W3.
  assert (0 <= s_channel_max s < 65536 /\ 0 <= s_frame_max s < M32 /\ 0 <= s_heartbeat s < 65536) as (R1 & R2 & R3).
  { unfold greeting in Hgr. apply Forall_inv_tail in Hgr. apply Forall_app in Hgr. destruct Hgr as [_ Hgr]. apply Forall_inv in Hgr. destruct Hgr as (_ & (_ & Ht) & _).
    unfold well_typed in Ht. cbn [tune] in Ht. inversion Ht as [|? ? ? ? [_ V1] Ht2]; subst. inversion Ht2 as [|? ? ? ? [_ V2] Ht3]; subst. inversion Ht3 as [|? ? ? ? [_ V3] _]; subst. cbn in V1, V2, V3. lia. }
  unfold login_tune. eapply trans_bind; [apply (calm_release E 65536 65536 tail)|]. cbv beta. intros _ t1 fs1 c1 T1 (-> & _ & Q1). rewrite Hq in Q1.
  eapply trans_bind; [apply (calm_expect 65536 65536 tail); [eapply modest_later; eassumption|exact Hh1|left; reflexivity|exact Q1]|]. cbv beta. intros p t2 fs2 c2 T2 (-> & -> & Q2). ok0.
  change (method_id 10 30 =? CONNECTION_CLOSE) with false. cbv iota.
  eapply trans_need; [reflexivity|]. eapply trans_need; [reflexivity|]. eapply trans_need; [reflexivity|]. cbv zeta.
  set (cm := tune_channel_max _ _). assert (0 <= cm <= 65535) as Hcm.
  { unfold cm, tune_channel_max, u16. rewrite Z.mod_small by lia. destruct (_ && _); [lia|]. destruct (_ && _); lia. }
  assert (tune_limit (u32 (s_frame_max s)) (l_frame_max a) = fm') as ->.
  { unfold u32. rewrite Z.mod_small by lia. apply tune_limit_smaller. lia. }
  set (hb := tune_limit _ _). assert (0 <= hb <= 65535) as Hhb.
  { unfold hb, tune_limit, u16. rewrite Z.mod_small by lia. destruct (_ && _); lia. }
  clearbody cm hb.
  eapply trans_bind; [apply (calm_tune 65536 65536 tail fm' cm hb (session s hb2 rest)); [reflexivity|exact HG|exact HM|exact W3|exact Hhb]|]. cbv beta.
  intros r t3 fs3 c3 T3 (-> & -> & Q3). change (AMQP_STATUS_OK <? 0) with false. cbv iota.
  eapply trans_bind; [apply (calm_send_tail fm' fm' []); [lia|apply tune_ok_sendable; lia|eapply modest_later; [|exact Hd]; lia]|]. cbv beta. intros r t4 fs4 c4 T4 (-> & -> & _ & Q4).
  change (AMQP_STATUS_OK <? 0) with false. cbv iota.
  eapply trans_bind; [apply (calm_release E fm' fm' [])|]. cbv beta. intros _ t5 fs5 c5 T5 (-> & _ & _).
  apply (calm_open fm' [] hb2 (s_known_hosts s) rest); [reflexivity|lia|exact F2|eapply modest_later; [|exact Hd]; lia|exact Hh2].
Qed.

Lemma merge_ok oom : (forall i, oom i = false) ->
  exists m n', amqp_merge_capabilities oom (default_properties (l_platform a)) (l_props a) 0 = Some (inr m, n') /\ properties_sent (l_platform a) (l_props a) m.
Proof.
  intros Ho. destruct Hp as (_ & _ & _ & _ & P5). destruct (l_props a) as [add|].
  - destruct P5 as (D & C & M). apply Prop_TableOps.C23_merge_succeeds_partial; [apply default_distinct|exact D|exact Ho|apply default_cloneable|exact C|exact M].
  - destruct (Prop_TableOps.C23_nothing_to_add oom (default_properties (l_platform a)) 0%nat Ho (default_cloneable _)) as [n' H]. exists (default_properties (l_platform a)), n'. split; [exact H|reflexivity].
Qed.
Lemma calm_login_inner tv t c : modest_timeout tv -> c_queue c = [] -> Forall (good_frame 65536) (greeting s hb1) ->
  trans 65536 65536 tail fm' fm' [] (amqp_login_inner N E (l_platform a) (l_vhost a) (l_channel_max a) (l_frame_max a) (l_heartbeat a) (l_props a) tv (l_cred a)) t
    (greeting s hb1) c (fun r t' fs' c' => r = RNormal 0 [] /\ fs' = rest).
Proof.
  intros Htv Hq Hgr. pose proof Hp as (P1 & P2 & P3 & P4 & P5). pose proof Hw as (W1 & W2 & W3). pose proof Hf as [F1 F2].
  unfold amqp_login_inner. destruct (Z.ltb_spec (l_channel_max a) 0); [lia|]. destruct (Z.ltb_spec 65535 (l_channel_max a)); [lia|].
  destruct (Z.ltb_spec (l_frame_max a) 0); [lia|]. destruct (Z.ltb_spec (l_heartbeat a) 0); [lia|]. destruct (Z.ltb_spec 65535 (l_heartbeat a)); [lia|]. cbn [orb].
  eapply trans_bind; [apply (calm_from_now E 65536 65536 tail), Htv|]. cbv beta. intros p t1 fs1 c1 T1 (d & -> & Hd & -> & ->). cbv iota. ok0.
  eapply trans_bind; [apply (calm_header 65536 65536 tail), Hd|]. cbv beta. intros r t2 fs2 c2 T2 (-> & -> & ->). ok0.
  eapply trans_bind; [apply (calm_expect 65536 65536 tail [CONNECTION_START] d t2 c 0 10 10 _ _ [] (hb1 ++ [(0, tune (s_channel_max s) (s_frame_max s) (s_heartbeat s))])); [eapply modest_later; eassumption|constructor|left; reflexivity|exact Hq]|].
  cbv beta. intros p t3 fs3 c3 T3 (-> & -> & Q3). cbv iota. ok0.
  eapply trans_need; [reflexivity|]. eapply trans_need; [reflexivity|]. change (negb (0 =? 0) || negb (9 =? 9)) with false. cbv iota.
  eapply trans_need; [reflexivity|].
  eapply trans_bind; [apply (calm_clone E 65536 65536 tail)|]. cbv beta. intros oom t4 fs4 c4 T4 (Ho & -> & ->).
  rewrite (Prop_TableOps.C22_clone oom _ 0%nat Ho), norm_cloneable, W2. cbv iota.
  eapply trans_bind; [apply (calmly_sprops 65536 65536 tail _ _ _ _ (fun _ _ fs' c' => fs' = hb1 ++ [(0, tune (s_channel_max s) (s_frame_max s) (s_heartbeat s))] /\ c_queue c' = [])); split; [reflexivity|exact Q3]|]. cbv beta. intros _ t5 fs5 c5 T5 (-> & Q5).
  eapply trans_need; [reflexivity|].
  destruct (Prop_Sasl.C30_whole_words (s_mechanisms s) (cred_method (l_cred a))) as (found & Es & Hfound). rewrite <- Prop_Sasl.names_registered in Hfound. rewrite Es.
  assert (sasl_method_name (cred_method (l_cred a)) = mechanism (l_cred a)) as EM by (destruct (l_cred a); reflexivity).
  assert (found = true) as ->. { apply Hfound. rewrite EM. exact W1. }
  eapply trans_bind; [apply (calm_alloc E 65536 65536 tail)|]. cbv beta. intros ok t6 fs6 c6 T6 (-> & -> & ->). cbn [negb].
  assert (sasl_response false (l_cred a) = RBytes (sasl_answer (l_cred a))) as ->.
  { destruct (l_cred a) as [u pw|i]; cbn [sasl_response sasl_answer] in *; [apply Prop_Sasl.C31_plain_response|apply (Prop_Sasl.C31_external_response_partial false); exact P4]. }
  eapply trans_bind; [apply (calm_clone E 65536 65536 tail)|]. cbv beta. intros oom2 t7 fs7 c7 T7 (Ho2 & -> & ->).
  destruct (merge_ok oom2 Ho2) as (m & n' & EMg & Hm). eapply trans_need; [exact EMg|]. cbn [fst].
  eapply trans_bind; [apply (calmly_cprops 65536 65536 tail _ _ _ _ (fun _ _ fs' c' => fs' = hb1 ++ [(0, tune (s_channel_max s) (s_frame_max s) (s_heartbeat s))] /\ c_queue c' = [])); split; [reflexivity|exact Q5]|]. cbv beta. intros _ t8 fs8 c8 T8 (-> & Q8).
  rewrite EM. eapply trans_bind; [apply (calm_send_tail 65536 65536 tail); [lia|exact (F1 m Hm)|eapply modest_later; [|exact Hd]; lia]|]. cbv beta. intros r t9 fs9 c9 T9 (-> & -> & _ & Q9).
  change (AMQP_STATUS_OK <? 0) with false. cbv iota.
  apply calm_login_tune; [eapply modest_later; [|exact Hd]; lia|congruence|exact Hgr].
Qed.
End Login.
End Trans.
