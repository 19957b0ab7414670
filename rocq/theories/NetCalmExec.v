(** Proofs for C70, continued: every call. *)
From Coq Require Import String ZArith List Bool Lia.
From Verif Require CodecSwap.
From Verif Require Import Base BaseFacts Codec TableModel TableSpec TableOps FramingStmt FramingGen FramingModel MethodSpec
  Frame FrameSpec FrameProofs FrameStream FrameFacts FrameInit FrameNew Time Sasl Net NetApi NetSpec NetFacts NetSend NetRecv NetWalk NetAcct NetOrder NetWait NetRx NetWell EncStatus CalmSpec NetTyped Prop_Frame NetCalm NetCalmApi.
Import ListNotations.
Local Open Scope Z_scope.

Section CalmExec.
Context (N : nat) (E : nat -> aenv) (HE : never_fails E) (fm ob : Z) (Hob : 24 <= ob) (Hfm : 24 <= fm <= ob).
Notation calmly := (calmly E fm ob []).
Notation happy := (happy E fm ob []).
Lemma all_known fs : enough [] fs.
Proof. left; reflexivity. Qed.

Lemma sendable_encodes f buf : can_send ob f -> zlen buf = ob -> ob < M31 -> encodes f buf AMQP_STATUS_OK.
Proof.
  intros (ch & a & -> & F1 & F2 & F3) Eob U7.
  destruct (C10_frame_bytes ch a buf F1 ltac:(lia)) as (st & b2 & e2 & E1 & _ & C).
  { intros b ->. unfold ser_frame in F3. rewrite zlen_wire in F3. cbn [ser_payload] in F3. lia. }
  destruct C as [(-> & _)|(_ & C)]; [exists b2, e2; exact E1|]. exfalso. clear -C F2 F3 Eob. intuition (congruence || lia).
Qed.
Lemma encodes_det f buf r r' : encodes f buf r -> encodes f buf r' -> r = r'.
Proof. intros (b & e & H) (b' & e' & H'). congruence. Qed.
Lemma encodes_fine f buf r : encodes f buf r -> r = AMQP_STATUS_OK \/ blames_caller r -> zlen buf = ob -> ob < M31 -> fine ob [f] r.
Proof.
  intros He [->|Hr] H1 H2; [left; reflexivity|]. right. split; [exact Hr|]. intros K. apply Forall_inv in K.
  pose proof (encodes_det _ _ _ _ He (sendable_encodes _ _ K H1 H2)) as ->. discriminate (blames_neg _ Hr).
Qed.
Lemma calm_send_fine f more d t fs c : modest_deadline t d ->
  calmly (amqp_send_frame_inner N E f more d) t fs c (fun r t' fs' c' => fine ob [f] r /\ fs' = fs /\ c_sbuf c' = c_sbuf c /\ c_queue c' = c_queue c).
Proof.
  intros Hd. apply calmly_use. intros (_ & _ & _ & _ & _ & _ & U7) Eob _. eapply calmly_conseq; [apply calm_send_frame_inner, Hd|]. cbv beta.
  intros r t1 fs1 c1 T1 (He & Hr & H). split; [|exact H]. eapply encodes_fine; try eassumption. lia.
Qed.
Lemma calm_send_sendable f more d t fs c : can_send ob f -> modest_deadline t d ->
  calmly (amqp_send_frame_inner N E f more d) t fs c (fun r t' fs' c' => r = AMQP_STATUS_OK /\ fs' = fs /\ c_sbuf c' = c_sbuf c /\ c_queue c' = c_queue c).
Proof.
  intros Hs Hd. eapply calmly_conseq; [apply calm_send_fine, Hd|]. cbv beta. intros r t1 fs1 c1 T1 (Hr & H). split; [|exact H].
  destruct Hr as [->|[_ K]]; [reflexivity|]. exfalso. apply K. repeat constructor; exact Hs.
Qed.
Lemma calm_rpc_fine ch id ids m t fs c :
  calmly (amqp_simple_rpc N E ch id ids m) t fs c (fun r t' fs' c' => no_error (spoilt ob [method_frame ch id m]) r).
Proof.
  apply calmly_use. intros (_ & _ & _ & _ & _ & _ & U7) Eob _. eapply calmly_conseq; [apply calm_rpc; [exact HE|apply all_known]|]. cbv beta. intros r t1 fs1 c1 T1 [K1 K2].
  destruct r as [| |st|]; try exact I. split; [exact K1|]. intros K. apply Forall_inv in K. apply K2. apply sendable_encodes; [exact K|exact Eob|lia].
Qed.

(** ** Publishing *)
Lemma body_sendable ch frag : zlen frag + 8 <= ob -> can_send ob (mkFrame AMQP_FRAME_BODY ch (PBody frag) 0).
Proof. intros H. exists ch, (ABody frag). split; [reflexivity|]. split; [exact I|]. split; [reflexivity|]. unfold ser_frame. rewrite zlen_wire. cbn [ser_payload]. lia. Qed.
Lemma calm_body_fine fuel ch body : forall off t fs c, calmly (publish_body N E fuel ch body (fm - 8) off) t fs c (fun r t' fs' c' => r = AMQP_STATUS_OK).
Proof.
  induction fuel as [|fuel IH]; intros off t fs c; cbn [publish_body]; [apply calmly_halt|]. destruct (negb _); [apply calmly_ret; auto|]. cbv zeta. destruct (_ =? 0); [apply calmly_ret; auto|].
  apply calmly_need. intros frag Hf. eapply calmly_bind; [apply calm_send_sendable; [|apply inf_modest]|].
  - apply body_sendable. pose proof (slice_len _ _ _ _ Hf) as HL. destruct (Z.leb_spec (fm - 8) (sub_size (zlen body) off)); lia.
  - cbv beta. intros r t1 fs1 c1 T1 (-> & _). change (AMQP_STATUS_OK <? 0) with false. cbv iota. apply IH.
Qed.
Lemma calm_publish_fine ch ex rk ma im p body t fs c : ob < 2 ^ 30 ->
  calmly (amqp_basic_publish N E ch ex rk ma im p body) t fs c (fun r t' fs' c' => fine ob [publish_frame ch ex rk ma im; header_frame ch p body] r).
Proof.
  intros HM. unfold amqp_basic_publish. apply calmly_use. intros _ _ HP. apply calmly_get_bind. intros _ _ _. cbv zeta.
  assert (u64 (frame_max c - (HEADER_SIZE + FOOTER_SIZE)) = fm - 8) as ->.
  { unfold frame_max. rewrite HP. change (HEADER_SIZE + FOOTER_SIZE) with 8. apply u64_id. change (2 ^ 30) with 1073741824 in HM. lia. }
  eapply calmly_bind; [apply calm_has_past|]. cbv beta. intros r t1 fs1 c1 T1 (Hr & -> & ->).
  assert (r =? AMQP_STATUS_TIMER_FAILURE = false) as -> by (destruct Hr as [->| ->]; reflexivity).
  eapply (calmly_bind _ _ _ _ _ _ _ _ _ (fun r _ _ _ => r = AMQP_STATUS_OK)).
  { destruct Hr as [->| ->]; cbv iota.
    - change (AMQP_STATUS_OK =? AMQP_STATUS_TIMEOUT) with false. cbv iota. apply calmly_ret. reflexivity.
    - change (AMQP_STATUS_TIMEOUT =? AMQP_STATUS_TIMEOUT) with true. cbv iota. apply calm_try_recv; [exact HE|apply all_known]. }
  intros r2 t2 fs2 c2 T2 ->. change (AMQP_STATUS_OK =? AMQP_STATUS_TIMEOUT) with false. ok0.
  eapply calmly_bind; [apply calm_send_fine, inf_modest|]. cbv beta. intros r3 t3 fs3 c3 T3 ([->|[H3 K3]] & _).
  2:{ pose proof (blames_neg _ H3) as Hn. destruct (Z.ltb_spec r3 0); [|lia]. apply calmly_ret. right. split; [exact H3|]. intros K. apply K3. inversion K. repeat constructor; assumption. }
  change (AMQP_STATUS_OK <? 0) with false. cbv iota.
  eapply calmly_bind; [apply calm_send_fine, inf_modest|]. cbv beta. intros r4 t4 fs4 c4 T4 ([->|[H4 K4]] & _).
  2:{ pose proof (blames_neg _ H4) as Hn. destruct (Z.ltb_spec r4 0); [|lia]. apply calmly_ret. right. split; [exact H4|]. intros K. apply K4. inversion K as [|? ? _ K']. exact K'. }
  change (AMQP_STATUS_OK <? 0) with false. cbv iota. eapply calmly_conseq; [apply calm_body_fine|]. intros ? ? ? ? _ ->. left. reflexivity.
Qed.

(** ** Closing *)
Lemma close_sendable ch cls i code : In (cls, i, [("reply_code", Short); ("reply_text", ShortStr); ("class_id", Short); ("method_id", Short)]%string) catalogue ->
  0 <= code <= 65535 -> can_send ob (method_frame ch (method_id cls i) (close_request code)).
Proof.
  intros Hin Hc. exists ch. eexists (AMethod cls i _ (close_request code)). split; [reflexivity|].
  pose proof (digits_len 5 code) as HL. pose proof (zlen_nonneg (digits 5 code)) as HL0. change (Z.of_nat 5) with 5 in HL.
  unfold close_request. set (text := digits 5 code) in *. clearbody text.
  split; [split; [exact Hin|]|split].
  - repeat (constructor; [split; [reflexivity|cbn [snd dom_val]; lia]|]). constructor.
  - unfold aframe_representable, representable_args. cbn [map combine snd fst forallb representable andb]. 
    destruct (Z.leb_spec (zlen text) 255); [reflexivity|lia].
  - unfold ser_frame. rewrite zlen_wire. cbn [ser_payload]. rewrite !zlen_app, !CodecSwap.zlen_be. unfold ser_method. cbn [map combine snd fst ser_args ser_arg flush_bits]. rewrite !zlen_app. repeat rewrite CodecSwap.zlen_be. unfold shortstr. rewrite ?zlen_app, ?CodecSwap.zlen_be. change (zlen (@nil byte)) with 0.
    lia.
Qed.

(** ** All calls *)
Lemma happy_to t fs c ev to : happy t fs c ev -> modest_timeout (amqp_get_rpc_timeout to) -> modest_timeout (amqp_get_handshake_timeout to) -> happy t fs (set_to c to) ev.
Proof.
  intros (H0 & H1 & (A1 & A2 & A3 & A4 & A5 & A6 & A7) & H3 & H4 & H5 & H6) K1 K2. split; [exact H0|]. split; [exact H1|].
  split; [split; [exact A1|]; split; [exact A2|]; split; [exact A3|]; split; [exact A4|]; split; [exact K1|]; split; [exact K2|exact A7]|].
  split; [exact H3|]. split; [exact H4|]. split; [exact H5|exact H6].
Qed.
Lemma calmly_recent r t fs c (Q : unit -> Z -> list (Z * aframe) -> conn -> Prop) : Q tt t fs (set_recent c r) -> calmly (upd (fun c => set_recent c r)) t fs c Q.
Proof.
  intros HQ ev HH. apply wp_upd. exists t, fs. split; [lia|]. split; [|exact HQ]. exact HH.
Qed.
Lemma timeout_ok tv : modest_timeout (Some tv) -> (tv_sec tv <? 0) || (tv_usec tv <? 0) = false.
Proof. intros (H1 & H2 & _). destruct (Z.ltb_spec (tv_sec tv) 0); [lia|]. destruct (Z.ltb_spec (tv_usec tv) 0); [lia|reflexivity]. Qed.
Lemma calm_close ch cls i ids code t fs c :
  In (cls, i, [("reply_code", Short); ("reply_text", ShortStr); ("class_id", Short); ("method_id", Short)]%string) catalogue ->
  calmly (if (code <? 0) || (65535 <? code) then ret (RLibrary AMQP_STATUS_INVALID_PARAMETER) else amqp_simple_rpc N E ch (method_id cls i) ids (close_request code)) t fs c
    (fun r _ _ _ => no_error (fun st => blames_caller st /\ ~ 0 <= code <= 65535) r).
Proof.
  intros Hin. destruct ((code <? 0) || (65535 <? code)) eqn:B.
  - apply calmly_ret. split; [right; right; left; reflexivity|]. intros K. apply orb_true_iff in B. rewrite !Z.ltb_lt in B. lia.
  - apply orb_false_iff in B. rewrite !Z.ltb_ge in B. eapply calmly_conseq; [apply calm_rpc_fine|]. cbv beta. intros r t1 fs1 c1 T1 K. destruct r; try exact I. cbn [no_error] in *.
    exfalso. destruct K as [_ K]. apply K. constructor; [|constructor]. apply close_sendable; [exact Hin|lia].
Qed.

Lemma calm_exec a t fs c : ob < 2 ^ 30 -> keeps_limits a -> modest_call a -> calmly (exec N E a) t fs c (fun o t' fs' c' => no_false_alarm ob a o).
Proof.
  intros HM HK HC. destruct a; cbn [keeps_limits] in HK; try contradiction; cbn [modest_call] in HC; cbn [exec].
  - eapply calmly_bind; [|intros r t1 fs1 c1 T1 HQ; apply calmly_ret; exact HQ]. unfold amqp_send_header, send_header_inner, amqp_try_send. eapply calmly_bind; [apply calm_try_send_loop, inf_modest|]. cbv beta.
    intros r t1 fs1 c1 T1 (-> & _). rewrite Z.eqb_refl. apply calmly_ret. reflexivity.
  - eapply calmly_bind; [apply calm_send_fine, inf_modest|]. cbv beta. intros r t1 fs1 c1 T1 (HQ & _). apply calmly_ret; exact HQ.
  - eapply calmly_bind; [apply calm_send_fine, inf_modest|]. cbv beta. intros r t1 fs1 c1 T1 (HQ & _). apply calmly_ret; exact HQ.
  - eapply calmly_bind; [apply calm_noblock; [exact HE|exact HC|apply all_known]|]. cbv beta. intros [r f] t1 fs1 c1 T1 (HQ & _). apply calmly_ret; exact HQ.
  - eapply calmly_bind; [apply calm_wait_method_list; [exact HE|apply inf_modest|apply all_known]|]. cbv beta. intros [r [i m]] t1 fs1 c1 T1 (HQ & _). apply calmly_ret; exact HQ.
  - eapply calmly_bind; [apply calm_rpc_fine|]. cbv beta. intros r t1 fs1 c1 T1 HQ. apply calmly_ret; exact HQ.
  - eapply (calmly_bind _ _ _ _ _ _ _ _ _ (fun _ _ _ _ => True)); [|intros; apply calmly_ret; exact I]. unfold amqp_call. destruct (build_request _ _ _); [|apply calmly_halt].
    unfold amqp_simple_rpc_decoded. eapply calmly_bind; [apply calm_rpc_fine|]. cbv beta. intros r t1 fs1 c1 T1 HQ.
    eapply (calmly_bind _ _ _ _ _ _ _ _ _ (fun _ _ _ _ => True)); [apply calmly_recent; exact I|]. intros _ t2 fs2 c2 T2 _. apply calmly_ret. exact I.
  - eapply calmly_bind; [apply (calm_close channel 20 40)|]. { vm_compute. tauto. } cbv beta. intros r t1 fs1 c1 T1 HQ. apply calmly_ret; exact HQ.
  - eapply calmly_bind; [apply (calm_close 0 10 50)|]. { vm_compute. tauto. } cbv beta. intros r t1 fs1 c1 T1 HQ. apply calmly_ret; exact HQ.
  - eapply calmly_bind; [apply calm_publish_fine; exact HM|]. cbv beta. intros r t1 fs1 c1 T1 HQ. apply calmly_ret; exact HQ.
  - eapply calmly_bind; [apply calm_send_fine, inf_modest|]. cbv beta. intros r t1 fs1 c1 T1 (HQ & _). apply calmly_ret; exact HQ.
  - eapply calmly_bind; [apply calm_send_fine, inf_modest|]. cbv beta. intros r t1 fs1 c1 T1 (HQ & _). apply calmly_ret; exact HQ.
  - eapply calmly_bind; [apply calm_send_fine, inf_modest|]. cbv beta. intros r t1 fs1 c1 T1 (HQ & _). apply calmly_ret; exact HQ.
  - eapply (calmly_bind _ _ _ _ _ _ _ _ _ (fun r _ _ _ => no_false_alarm ob (BasicGet channel queue no_ack) (OutReply r))); [|intros r t1 fs1 c1 T1 HQ; apply calmly_ret; exact HQ].
    unfold amqp_basic_get. eapply calmly_bind; [apply calm_rpc_fine|]. cbv beta. intros r t1 fs1 c1 T1 HQ.
    eapply (calmly_bind _ _ _ _ _ _ _ _ _ (fun _ _ _ _ => True)); [apply calmly_recent; exact I|]. intros _ t2 fs2 c2 T2 _. apply calmly_ret. exact HQ.
  - eapply calmly_bind; [apply calm_read; [exact HE|apply all_known]|]. cbv beta. intros [r m] t1 fs1 c1 T1 HQ. apply calmly_ret; exact HQ.
  - eapply calmly_bind; [apply calm_consume_message; [exact HE|apply all_known|exact HC]|]. cbv beta. intros [r m] t1 fs1 c1 T1 HQ. apply calmly_ret; exact HQ.
  - eapply calmly_bind; [apply calm_confirm; [exact HE|apply all_known|exact HC]|]. cbv beta. intros [r m] t1 fs1 c1 T1 HQ. apply calmly_ret; exact HQ.
  - eapply calmly_bind; [apply calm_release|]. intros; apply calmly_ret; exact I.
  - eapply calmly_bind; [apply calm_maybe_release|]. intros; apply calmly_ret; exact I.
  - eapply calmly_bind; [apply calm_release_on|]. intros; apply calmly_ret; exact I.
  - intros ev HH. apply wp_get_bind. cbv zeta. pose proof HH as (_ & _ & (_ & _ & _ & _ & A5 & A6 & _) & _).
    assert (modest_timeout (amqp_get_rpc_timeout (snd (amqp_set_handshake_timeout (c_to c) t0))) /\ modest_timeout (amqp_get_handshake_timeout (snd (amqp_set_handshake_timeout (c_to c) t0))) /\
      fst (amqp_set_handshake_timeout (c_to c) t0) = AMQP_STATUS_OK) as (K1 & K2 & K3).
    { unfold amqp_set_handshake_timeout. destruct t0 as [tv|]; [rewrite (timeout_ok _ HC)|]; (split; [exact A5|split; [|reflexivity]]); [exact HC|exact I]. }
    apply wp_upd_bind. apply wp_ret. exists t, fs. split; [lia|]. split; [|exact K3]. apply happy_to; [exact HH|exact K1|exact K2].
  - intros ev HH. apply wp_get_bind. cbv zeta. pose proof HH as (_ & _ & (_ & _ & _ & _ & A5 & A6 & _) & _).
    assert (modest_timeout (amqp_get_rpc_timeout (snd (amqp_set_rpc_timeout (c_to c) t0))) /\ modest_timeout (amqp_get_handshake_timeout (snd (amqp_set_rpc_timeout (c_to c) t0))) /\
      fst (amqp_set_rpc_timeout (c_to c) t0) = AMQP_STATUS_OK) as (K1 & K2 & K3).
    { unfold amqp_set_rpc_timeout. destruct t0 as [tv|]; [rewrite (timeout_ok _ HC)|]; (split; [|split; [exact A6|reflexivity]]); [exact HC|exact I]. }
    apply wp_upd_bind. apply wp_ret. exists t, fs. split; [lia|]. split; [|exact K3]. apply happy_to; [exact HH|exact K1|exact K2].
Qed.
Lemma calm_exec_all l : ob < 2 ^ 30 -> Forall keeps_limits l -> Forall modest_call l ->
  forall t fs c, calmly (exec_all N E l) t fs c (fun os t' fs' c' => Forall2 (no_false_alarm ob) l os).
Proof.
  intros HM. induction l as [|a l IH]; intros HK HC t fs c; cbn [exec_all]; [apply calmly_ret; constructor|]. pose proof (Forall_inv HK) as K1. pose proof (Forall_inv_tail HK) as K2. pose proof (Forall_inv HC) as C1. pose proof (Forall_inv_tail HC) as C2.
  eapply calmly_bind; [apply calm_exec; assumption|]. cbv beta. intros o t1 fs1 c1 T1 Ho. eapply calmly_bind; [apply IH; assumption|]. cbv beta. intros os t2 fs2 c2 T2 Hos. apply calmly_ret. constructor; assumption.
Qed.
(** what amqp_get_rpc_reply returns after one of the synchronous calls *)
Lemma calm_call w ch args t fs c : calmly (amqp_call N E w ch args) t fs c (fun o t' fs' c' =>
  exists m, build_request (rpc_fields w) (match find (fun p => fst p =? rpc_request w) struct_table with Some p => snd p | None => [] end) args = Some m /\
    no_error (spoilt ob [method_frame ch (rpc_request w) m]) (c_recent c')).
Proof.
  unfold amqp_call. destruct (build_request _ _ _) as [m|]; [|apply calmly_halt].
  unfold amqp_simple_rpc_decoded. eapply calmly_bind; [apply calm_rpc_fine|]. cbv beta. intros r t1 fs1 c1 T1 HQ.
  eapply (calmly_bind _ _ _ _ _ _ _ _ _ (fun _ _ _ c' => c_recent c' = r)); [apply calmly_recent; reflexivity|]. cbv beta. intros _ t2 fs2 c2 T2 R2. apply calmly_ret. exists m. split; [reflexivity|]. rewrite R2. exact HQ.
Qed.
End CalmExec.
