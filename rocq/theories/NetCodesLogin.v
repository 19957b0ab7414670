(** The statuses of a login and of every call (for C73). *)
From Coq Require Import String ZArith List Bool Lia.
From Verif Require Import Base BaseFacts Codec TableModel TableSpec TableOps FramingStmt FramingGen FramingModel MethodSpec
  Frame FrameSpec Time Sasl Net NetApi NetSpec NetFacts NetSend NetRecv NetWalk NetWait NetTyped NetSpeak EncStatus DecStatus CalmSpec SpeakSpec NetNear CodesSpec NetCodes NetCodesAll.
Import ListNotations.
Local Open Scope Z_scope.
Ltac kb L := eapply kn_bind; [eassumption|apply L; try eassumption|cbv beta].
Ltac kneed := eapply kn_bind; [eassumption|apply kn_need; eassumption|cbv beta].
Ltac kr := apply kn_ret; [eassumption|].

Lemma table_clone_err oom t n e n' : amqp_table_clone oom t n = (inl e, n') -> e = AMQP_STATUS_NO_MEMORY \/ e = AMQP_STATUS_INVALID_PARAMETER.
Proof.
  intros H. destruct (clone_value_ok oom (VTable t) n) as (k & [(e' & Hc & K)|Hc]); unfold clone_value in Hc; rewrite H in Hc; [|discriminate]. injection Hc as <- _. exact K.
Qed.
Lemma merge_value_err oom : forall v base n e n', merge_value oom v base n = Some (inl e, n') -> e = AMQP_STATUS_NO_MEMORY \/ e = AMQP_STATUS_INVALID_PARAMETER.
Proof.
  fix IH 1. intros v base n e n'. destruct v as [| | | | | | | | | | | | | | | |t| |]; try discriminate. cbn [merge_value]. destruct (_ =? _); [intros H; injection H as <- _; auto|]. destruct (oom n); [intros H; injection H as <- _; auto|].
  cbv zeta. destruct (_ <? zlen base); [discriminate|]. set (room := zlen base + zlen t). clearbody room.
  assert (forall add temp n e n', merge_loop (merge_value oom) room base add temp n = Some (inl e, n') -> (forall k v, In (k, v) add -> forall base n e n', merge_value oom v base n = Some (inl e, n') -> e = AMQP_STATUS_NO_MEMORY \/ e = AMQP_STATUS_INVALID_PARAMETER) -> e = AMQP_STATUS_NO_MEMORY \/ e = AMQP_STATUS_INVALID_PARAMETER) as Hl.
  { clear. induction add as [|[k v] add IH]; intros temp n e n' H HI; cbn [merge_loop] in H; [discriminate|].
    destruct (amqp_table_get_entry_by_key temp k) as [w|]; [|destruct (_ <=? _); [discriminate|]; apply IH in H; [exact H|intros; eapply HI; [right|]; eassumption]].
    assert (forall temp n, merge_loop (merge_value oom) room base add temp n = Some (inl e, n') -> e = AMQP_STATUS_NO_MEMORY \/ e = AMQP_STATUS_INVALID_PARAMETER) as Hnext.
    { intros temp' n1 H1. eapply IH; [exact H1|]. intros; eapply HI; [right|]; eassumption. }
    destruct v as [| | | | | | | | | | | | | | | |tv| |]; try (apply Hnext in H; exact H). destruct w; try (apply Hnext in H; exact H).
    destruct (amqp_table_get_entry_by_key base k) as [[| | | | | | | | | | | | | | | |tb| |]|]; try discriminate.
    destruct (merge_value oom (FTable tv) tb n) as [[[s|r] n2]|] eqn:Em; [|apply Hnext in H; exact H|discriminate]. injection H as <- _. eapply HI; [left; reflexivity|exact Em]. }
  destruct (merge_loop (merge_value oom) room base t base (S n)) as [[[s|temp] n2]|] eqn:El; [|intros H|discriminate].
  - intros H. injection H as <- _. eapply Hl; [exact El|]. clear - IH. revert t. fix IHt 1. intros t. destruct t as [|[k v] t]; [intros k0 v0 []|].
    intros k0 v0 [Heq|Hin]; [injection Heq as _ <-; exact (IH v)|exact (IHt t k0 v0 Hin)].
  - injection H as H. eapply table_clone_err, H.
Qed.
Lemma merge_err oom base add n e n' : amqp_merge_capabilities oom base add n = Some (inl e, n') -> e = AMQP_STATUS_NO_MEMORY \/ e = AMQP_STATUS_INVALID_PARAMETER.
Proof.
  destruct add as [t|]; cbn [amqp_merge_capabilities].
  - apply merge_value_err.
  - intros H. injection H as H. eapply table_clone_err, H.
Qed.

Section Login.
Context (N : nat) (E : nat -> aenv).
(** the number of bytes of the header that were sent *)
Definition counts (d : Z) : list Z := if d =? amqp_time_infinite then [] else [1; 2; 3; 4; 5; 6; 7].
Definition login_fails (d : Z) : list Z :=
  counts d ++ lim d ++ [AMQP_STATUS_WRONG_METHOD; AMQP_STATUS_INCOMPATIBLE_AMQP_VERSION; AMQP_STATUS_BROKER_UNSUPPORTED_SASL_METHOD] ++ send_failures.
Lemma in_login d r l : In r l -> forallb (fun x => existsb (Z.eqb x) ([AMQP_STATUS_WRONG_METHOD; AMQP_STATUS_INCOMPATIBLE_AMQP_VERSION; AMQP_STATUS_BROKER_UNSUPPORTED_SASL_METHOD] ++ send_failures)) l = true -> In r (login_fails d).
Proof. intros H K. apply in_or_app. right. apply in_or_app. right. revert H. apply in_sub, K. Qed.
Lemma in_login_lim d r l : In r (l ++ lim d) -> forallb (fun x => existsb (Z.eqb x) ([AMQP_STATUS_WRONG_METHOD; AMQP_STATUS_INCOMPATIBLE_AMQP_VERSION; AMQP_STATUS_BROKER_UNSUPPORTED_SASL_METHOD] ++ send_failures)) l = true -> In r (login_fails d).
Proof. intros H K. apply in_app_or in H. destruct H as [H|H]; [eapply in_login; eassumption|]. apply in_or_app. right. apply in_or_app. left. exact H. Qed.

Lemma kn_send_header T d c : ok_at T c -> keepd d T -> kn T (fun r _ _ => got (link_failures ++ counts d) r) (send_header_inner N d) c.
Proof.
  intros Hn Hd. unfold send_header_inner. kb kn_try_send. intros r c1 T1 _ Hn1 (-> & Hs). change (zlen protocol_header) with 8 in *. destruct (Z.eqb_spec r 8); kr; [apply got_ok|].
  destruct Hs as [Hs|[Hr Hs]]; [right; apply in_or_app; left; exact Hs|]. destruct (Z.eq_dec r 0) as [->|]; [apply got_ok|]. right. apply in_or_app. right. unfold counts.
  destruct (Z.eqb_spec d amqp_time_infinite); [specialize (Hs ltac:(assumption)); contradiction|]. cbn [In]. lia.
Qed.
Lemma kn_error T res c fs : ok_at T c -> In res fs -> kn T (fun r _ _ => reply_in fs r) (login_error res) c.
Proof. intros Hn H. unfold login_error. kb kn_close. intros _ c1 T1 _ Hn1 _. kr. exact H. Qed.
Lemma kn_open T vhost d c : ok_at T c -> keepd d T -> kn T (fun r _ _ => reply_in (login_fails d) r) (login_open N E vhost d) c.
Proof.
  intros Hn Hd. unfold login_open. kb kn_rpc_inner. intros r c1 T1 _ Hn1 Hr. destruct r; try (kr; exact Hr).
  - kb kn_maybe_release. intros _ c2 T2 _ Hn2 _. kr. exact I.
  - kr. cbn [reply_in] in *. eapply in_login_lim; [exact Hr|reflexivity].
Qed.
Lemma tune_limit_range s cl : 0 <= s -> 0 <= cl -> 0 <= tune_limit s cl <= cl.
Proof. intros H1 H2. unfold tune_limit. destruct (Z.eqb_spec s 0); cbn [negb andb]; [lia|]. destruct (Z.ltb_spec s cl); lia. Qed.
Lemma kn_login_tune T vhost cm fm hb d c : ok_at T c -> keepd d T -> 0 <= fm < M31 -> 0 <= hb <= 65535 -> kn T (fun r _ _ => reply_in (login_fails d) r) (login_tune N E vhost cm fm hb d) c.
Proof.
  intros Hn Hd Hf Hh. unfold login_tune. kb kn_release. intros _ c1 T1 HT1 Hn1 _. assert (keepd d T1) as Hd1 by (eapply keepd_later; [|exact Hd]; lia). kb kn_method_list. intros [r [id m]] c2 T2 HT2 Hn2 Hr. cbn [fst] in Hr.
  destruct (Z.eqb_spec r AMQP_STATUS_OK); cbn [negb]; [|apply kn_error; [exact Hn2|]; apply got_bad in Hr; [|assumption]; rewrite app_assoc in Hr; eapply in_login_lim; [exact Hr|reflexivity]].
  destruct (_ =? _); [kr; exact I|]. kneed. intros a1 c3 T3 HT3 Hn3 _. kneed. intros a2 c4 T4 HT4 Hn4 _. kneed. intros a3 c5 T5 HT5 Hn5 _. cbv zeta.
  assert (0 <= tune_limit (u32 a2) fm <= fm) as Hfm. { apply tune_limit_range; [|lia]. unfold u32. apply Z.mod_pos_bound. lia. }
  assert (0 <= tune_limit (u16 a3) hb <= hb) as Hhb. { apply tune_limit_range; [|lia]. unfold u16. apply Z.mod_pos_bound. lia. }
  kb kn_tune; [lia|lia|]. intros r2 c6 T6 HT6 Hn6 Hr2. destruct (Z.ltb_spec r2 0). { apply kn_error; [exact Hn6|]. apply got_bad in Hr2; [|unfold AMQP_STATUS_OK; lia]. eapply in_login; [exact Hr2|reflexivity]. }
  unfold amqp_send_method_inner. assert (keepd d T6) as Hd6 by (eapply keepd_later; [|exact Hd]; lia). kb kn_send_frame. intros r3 c7 T7 HT7 Hn7 Hr3.
  destruct (Z.ltb_spec r3 0). { apply kn_error; [exact Hn7|]. apply got_bad in Hr3; [|unfold AMQP_STATUS_OK; lia]. eapply in_login_lim; [exact Hr3|reflexivity]. }
  kb kn_release. intros _ c8 T8 HT8 Hn8 _. apply kn_open; [exact Hn8|]. eapply keepd_later; [|exact Hd]. lia.
Qed.
Lemma counts_limit t d : (t = None -> d = amqp_time_infinite) -> forall r, In r (login_fails d) ->
  In r (match t with None => [] | Some _ => [1; 2; 3; 4; 5; 6; 7] end ++ limit t ++ [AMQP_STATUS_WRONG_METHOD; AMQP_STATUS_INCOMPATIBLE_AMQP_VERSION; AMQP_STATUS_BROKER_UNSUPPORTED_SASL_METHOD] ++ send_failures).
Proof.
  intros H r K. unfold login_fails in K. apply in_app_or in K. apply in_or_app. destruct K as [K|K].
  - left. unfold counts in K. destruct (Z.eqb_spec d amqp_time_infinite); [destruct K|]. destruct t; [exact K|]. exfalso. auto.
  - right. apply in_app_or in K. apply in_or_app. destruct K as [K|K]; [left; revert K; apply lim_limit, H|right; exact K].
Qed.
Lemma kn_login T platform vhost cm fm hb p cr c : ok_at T c -> fm < M31 ->
  kn T (fun r _ _ => reply_in (failures (c_to c) (Login platform vhost cm fm hb p cr)) r) (amqp_login_with_properties N E platform vhost cm fm hb p cr) c.
Proof.
  intros Hn Hf. unfold amqp_login_with_properties, amqp_login_inner. apply kn_get. cbn [failures]. pose proof Hn as (_ & _ & _ & Ht & _). set (t := amqp_get_handshake_timeout (c_to c)) in *. clearbody t.
  destruct ((cm <? 0) || (65535 <? cm)) eqn:E1; cbn [orb]; [kr; left; reflexivity|]. destruct (Z.ltb_spec fm 0); cbn [orb]; [kr; left; reflexivity|].
  destruct ((hb <? 0) || (65535 <? hb)) eqn:E2; cbn [orb]; [kr; left; reflexivity|]. apply orb_false_elim in E2. destruct E2 as [E2 E3]. apply Z.ltb_ge in E2, E3.
  kb kn_from_now. intros [r d] c1 T1 HT1 Hn1 (-> & Hd). cbn [fst snd] in Hd.
  destruct Hd as [(-> & d' & -> & Hd & Hi)|(-> & ->)]; [|apply kn_error; [exact Hn1|]; apply in_or_app; right; apply in_or_app; right; member].
  change (AMQP_STATUS_OK =? AMQP_STATUS_OK) with true. cbn [negb]. cbv iota.
  eapply (kn_conseq T1 (fun r _ _ => reply_in (login_fails d') r)); [|cbv beta; intros a _ _; apply reply_sub, counts_limit, Hi]. clear Hi Ht t.
  kb kn_send_header. intros r c2 T2 HT2 Hn2 Hr. destruct (Z.eqb_spec r AMQP_STATUS_OK); cbn [negb].
  2:{ apply kn_error; [exact Hn2|]. apply got_bad in Hr; [|assumption]. apply in_app_or in Hr. destruct Hr as [Hr|Hr]; [eapply in_login; [exact Hr|reflexivity]|]. apply in_or_app. left. exact Hr. }
  unfold simple_wait_method_inner. assert (keepd d' T2) as Hd2 by (eapply keepd_later; [|exact Hd]; lia). kb kn_method_list. intros [r2 [id m]] c3 T3 HT3 Hn3 Hr2. cbn [fst] in Hr2.
  destruct (Z.eqb_spec r2 AMQP_STATUS_OK); cbn [negb]; [|apply kn_error; [exact Hn3|]; apply got_bad in Hr2; [|assumption]; rewrite app_assoc in Hr2; eapply in_login_lim; [exact Hr2|reflexivity]].
  assert (forall st, In st ([AMQP_STATUS_WRONG_METHOD; AMQP_STATUS_INCOMPATIBLE_AMQP_VERSION; AMQP_STATUS_BROKER_UNSUPPORTED_SASL_METHOD] ++ send_failures) -> In st (login_fails d')) as Hin.
  { intros st K. eapply in_login; [exact K|reflexivity]. }
  kneed. intros a1 c4 T4 HT4 Hn4 _. kneed. intros a2 c5 T5 HT5 Hn5 _. destruct (negb (a1 =? _) || _); [apply kn_error; [exact Hn5|apply Hin; member]|].
  kneed. intros sp c6 T6 HT6 Hn6 _. kb kn_clone. intros oom c7 T7 HT7 Hn7 _.
  destruct (amqp_table_clone oom sp 0) as [[e9|tt0] n0] eqn:Ec; cbn [fst]. { apply kn_error; [exact Hn7|]. apply table_clone_err in Ec. apply Hin. destruct Ec as [-> | ->]; member. }
  eapply kn_bind; [exact Hn7|apply (kn_upd T7 (fun c => set_sprops c tt0)); eapply ok_fields; [| | | | | |exact Hn7]; try reflexivity; apply Z.le_refl|]. cbv beta. intros _ c8 T8 HT8 Hn8 _.
  kneed. intros mech c9 T9 HT9 Hn9 _. destruct (sasl_mechanism_in_list mech (cred_method cr)) as [[|]| |]; [|apply kn_error; [exact Hn9|apply Hin; member]|apply kn_halt|apply kn_halt].
  kb kn_alloc. intros ok c10 T10 HT10 Hn10 _. destruct (sasl_response (negb ok) cr).
  all: try (apply kn_error; [exact Hn10|apply Hin; member]). all: try apply kn_halt.
  kb kn_clone. intros oom2 c11 T11 HT11 Hn11 _. kneed. intros merged c12 T12 HT12 Hn12 (Hm & _). destruct merged as [[e8|props] n1]; cbn [fst].
  { apply kn_error; [exact Hn12|]. apply merge_err in Hm. apply Hin. destruct Hm as [-> | ->]; member. }
  eapply kn_bind; [exact Hn12|apply (kn_upd T12 (fun c => set_cprops c (props, gens c 0))); eapply ok_fields; [| | | | | |exact Hn12]; try reflexivity; apply Z.le_refl|]. cbv beta. intros _ c13 T13 HT13 Hn13 _.
  unfold amqp_send_method_inner. assert (keepd d' T13) as Hd13 by (eapply keepd_later; [|exact Hd]; lia). kb kn_send_frame. intros r3 c14 T14 HT14 Hn14 Hr3.
  destruct (Z.ltb_spec r3 0). { apply kn_error; [exact Hn14|]. apply got_bad in Hr3; [|unfold AMQP_STATUS_OK; lia]. eapply in_login_lim; [exact Hr3|reflexivity]. }
  apply kn_login_tune; [exact Hn14|eapply keepd_later; [|exact Hd]; lia|lia|lia].
Qed.

(** ** Every call *)
Lemma to_modest_hs s t : given_timeout t -> modest_timeout (amqp_get_rpc_timeout s) -> modest_timeout (amqp_get_handshake_timeout s) ->
  let r := amqp_set_handshake_timeout s t in got (if negative t then [AMQP_STATUS_INVALID_PARAMETER] else []) (fst r) /\ modest_timeout (amqp_get_rpc_timeout (snd r)) /\ modest_timeout (amqp_get_handshake_timeout (snd r)).
Proof.
  intros Hg H1 H2. cbv zeta. destruct t as [tv|]; cbn [amqp_set_handshake_timeout negative]; [|split; [apply got_ok|split; [exact H1|exact I]]].
  destruct ((tv_sec tv <? 0) || (tv_usec tv <? 0)) eqn:En; [split; [right; left; reflexivity|split; assumption]|]. split; [apply got_ok|]. split; [exact H1|]. destruct Hg as [Hg|Hg]; [cbn [negative] in Hg; congruence|exact Hg].
Qed.
Lemma to_modest_rpc s t : given_timeout t -> modest_timeout (amqp_get_rpc_timeout s) -> modest_timeout (amqp_get_handshake_timeout s) ->
  let r := amqp_set_rpc_timeout s t in got (if negative t then [AMQP_STATUS_INVALID_PARAMETER] else []) (fst r) /\ modest_timeout (amqp_get_rpc_timeout (snd r)) /\ modest_timeout (amqp_get_handshake_timeout (snd r)).
Proof.
  intros Hg H1 H2. cbv zeta. destruct t as [tv|]; cbn [amqp_set_rpc_timeout negative]; [|split; [apply got_ok|split; [exact I|exact H2]]].
  destruct ((tv_sec tv <? 0) || (tv_usec tv <? 0)) eqn:En; [split; [right; left; reflexivity|split; assumption]|]. split; [apply got_ok|]. split; [|exact H2]. destruct Hg as [Hg|Hg]; [cbn [negative] in Hg; congruence|exact Hg].
Qed.
Lemma ok_to T c to : ok_at T c -> modest_timeout (amqp_get_rpc_timeout to) -> modest_timeout (amqp_get_handshake_timeout to) -> ok_at T (set_to c to).
Proof. intros (A1 & A2 & _ & _ & A5) H1 H2. split; [exact A1|]. split; [exact A2|]. split; [exact H1|]. split; [exact H2|exact A5]. Qed.
Theorem kn_exec T a c : ok_at T c -> given_args a -> kn T (fun o c' _ => reports (failures (c_to c) a) o (c_recent c')) (exec N E a) c.
Proof.
  intros Hn Hg. destruct a; cbn [exec given_args] in *; unfold amqp_send_header, amqp_basic_ack, amqp_basic_nack, amqp_basic_reject, amqp_send_frame, amqp_send_method, amqp_send_method_inner.
  - eapply kn_bind; [exact Hn|apply (kn_send_header T amqp_time_infinite c Hn); eapply keepd_infinite, Hn|]. cbv beta. intros r c1 T1 _ Hn1 Hr. kr. unfold counts in Hr. rewrite Z.eqb_refl, app_nil_r in Hr. exact Hr.
  - kb kn_send. intros r c1 T1 _ Hn1 Hr. kr. exact Hr.
  - kb kn_send. intros r c1 T1 _ Hn1 Hr. kr. exact Hr.
  - kb kn_noblock'. intros [r f] c1 T1 _ Hn1 Hr. kr. exact Hr.
  - unfold amqp_simple_wait_method, simple_wait_method_inner. eapply kn_bind; [exact Hn|apply (kn_method_list N E T _ _ amqp_time_infinite c Hn); eapply keepd_infinite, Hn|]. cbv beta.
    intros [r [i m]] c1 T1 _ Hn1 Hr. kr. cbn [fst] in Hr. unfold lim in Hr. rewrite Z.eqb_refl, app_nil_r in Hr. exact Hr.
  - kb kn_rpc. intros r c1 T1 _ Hn1 Hr. kr. exact Hr.
  - kb kn_call. intros r c1 T1 _ Hn1 Hr. kr. exact Hr.
  - kb kn_channel_close. intros r c1 T1 _ Hn1 Hr. kr. exact Hr.
  - kb kn_connection_close. intros r c1 T1 _ Hn1 Hr. kr. exact Hr.
  - kb kn_publish. intros r c1 T1 _ Hn1 Hr. kr. exact Hr.
  - kb kn_send. intros r c1 T1 _ Hn1 Hr. kr. exact Hr.
  - kb kn_send. intros r c1 T1 _ Hn1 Hr. kr. exact Hr.
  - kb kn_send. intros r c1 T1 _ Hn1 Hr. kr. exact Hr.
  - kb kn_get_call. intros r c1 T1 _ Hn1 Hr. kr. exact Hr.
  - kb kn_read. intros [r m] c1 T1 _ Hn1 Hr. kr. exact Hr.
  - kb kn_consume_message. intros [r m] c1 T1 _ Hn1 Hr. kr. exact Hr.
  - kb kn_confirm. intros [r m] c1 T1 _ Hn1 Hr. kr. exact Hr.
  - kb kn_release. intros _ c1 T1 _ Hn1 _. kr. exact I.
  - kb kn_maybe_release. intros _ c1 T1 _ Hn1 _. kr. exact I.
  - kb kn_release_on. intros _ c1 T1 _ Hn1 _. kr. exact I.
  - destruct Hg as [Hg1 Hg2]. kb kn_tune. intros r c1 T1 _ Hn1 Hr. kr. exact Hr.
  - apply kn_get. cbv zeta. pose proof Hn as (_ & _ & M1 & M2 & _). destruct (to_modest_hs (c_to c) t Hg M1 M2) as (R1 & R2 & R3).
    eapply kn_bind; [exact Hn|apply (kn_upd T (fun c0 => set_to c0 (snd (amqp_set_handshake_timeout (c_to c) t)))); apply ok_to; assumption|]. cbv beta. intros _ c1 T1 _ Hn1 _. kr. exact R1.
  - apply kn_get. cbv zeta. pose proof Hn as (_ & _ & M1 & M2 & _). destruct (to_modest_rpc (c_to c) t Hg M1 M2) as (R1 & R2 & R3).
    eapply kn_bind; [exact Hn|apply (kn_upd T (fun c0 => set_to c0 (snd (amqp_set_rpc_timeout (c_to c) t)))); apply ok_to; assumption|]. cbv beta. intros _ c1 T1 _ Hn1 _. kr. exact R1.
  - kb kn_login. intros r c1 T1 _ Hn1 Hr. kr. exact Hr.
Qed.
Lemma kn_exec_all calls : forall T c, ok_at T c -> Forall given_args calls -> kn T (fun _ _ _ => True) (exec_all N E calls) c.
Proof.
  induction calls as [|a calls IH]; intros T c Hn HF; cbn [exec_all]; [kr; exact I|]. kb kn_exec; [exact (Forall_inv HF)|]. intros o c1 T1 _ Hn1 _.
  eapply kn_bind; [exact Hn1|apply (IH T1 c1 Hn1 (Forall_inv_tail HF))|]. cbv beta. intros os c2 T2 _ Hn2 _. kr. exact I.
Qed.
End Login.
