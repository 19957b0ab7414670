(** The statuses of sending and waiting (for C73). *)
From Coq Require Import String ZArith List Bool Lia.
From Verif Require Import Base BaseFacts Codec TableModel TableSpec TableOps FramingStmt FramingGen FramingModel MethodSpec
  Frame FrameSpec Time Sasl Net NetApi NetSpec NetFacts NetSend NetRecv NetWalk NetWait NetTyped NetSpeak EncStatus DecStatus CalmSpec SpeakSpec NetNear CodesSpec NetCodes.
Import ListNotations.
Local Open Scope Z_scope.

Lemma got_app l1 l2 r : got (l1 ++ l2) r <-> got l1 r \/ In r l2.
Proof. unfold got. rewrite in_app_iff. tauto. Qed.
Lemma got_left l1 l2 r : got l1 r -> got (l1 ++ l2) r.
Proof. rewrite got_app. auto. Qed.
Lemma got_lim l l' d r : forallb (fun x => existsb (Z.eqb x) l') l = true -> got (l ++ lim d) r -> got (l' ++ lim d) r.
Proof. rewrite !got_app. intros H [K|K]; [left; eapply got_sub; eassumption|auto]. Qed.
Lemma got_bad l r : got l r -> r <> AMQP_STATUS_OK -> In r l.
Proof. intros [H|H] K; [contradiction|exact H]. Qed.
Lemma modest_first T a b : modest_deadline T a -> modest_deadline T b -> modest_deadline T (amqp_time_first a b).
Proof. unfold amqp_time_first. destruct (_ <? _); auto. Qed.
Lemma modest_range T d : 0 <= T < M63 -> modest_deadline T d -> 0 <= d <= amqp_time_infinite.
Proof. unfold modest_deadline, amqp_time_infinite, UINT64_MAX. intros H [->|K]; unfold amqp_time_infinite, UINT64_MAX; lia. Qed.
(** the first of two is infinite only if both are *)
Lemma first_infinite T a b : 0 <= T < M63 -> modest_deadline T a -> modest_deadline T b -> amqp_time_first a b = amqp_time_infinite -> a = amqp_time_infinite /\ b = amqp_time_infinite.
Proof.
  intros HT Ha Hb. pose proof (modest_range _ _ HT Ha). pose proof (modest_range _ _ HT Hb). unfold amqp_time_first. destruct (Z.ltb_spec a b); intros; split; lia.
Qed.

Section Codes.
Context (N : nat) (E : nat -> aenv).
(** one step: bind with the facts about the first part *)
Ltac kb L := eapply kn_bind; [eassumption|apply L; try eassumption|cbv beta].
Ltac kneed := eapply kn_bind; [eassumption|apply kn_need; eassumption|cbv beta].
Ltac kr := apply kn_ret; [eassumption|].

Lemma kn_recv_loop fuel : forall T len c, ok_at T c -> 0 <= len ->
  kn T (fun p c' T' => c' = c /\ T' = T /\ zlen (snd p) <= len /\ (0 <= fst p \/ In (fst p) (NEEDREAD :: NEEDWRITE :: sock_failures))) (tcp_recv_loop fuel len) c.
Proof.
  induction fuel as [|fuel IH]; intros T len c Hn Hl; cbn [tcp_recv_loop]; [apply kn_halt|].
  eapply (kn_bind _ (fun r c' T' => c' = c /\ T' = T /\ match r with ROk bs => zlen bs <= len | _ => True end)); [exact Hn| |].
  - intros ev. unfold wp, sys_recv. destruct ev as [|[| |r| | | |] ev]; auto. destruct r as [bs| | | | |]; intros Hs; cbn [last_reading]; (split; [exact Hn|]); repeat (split; [reflexivity|]); auto.
    unfold zlen. rewrite firstn_length. lia.
  - cbv beta. intros r c1 T1 HT1 Hn1 (-> & -> & Hr).
    destruct r as [bs| | | | |]; try (kr; split; [reflexivity|]; split; [reflexivity|]; split; [exact Hl|]; right; member).
    + destruct bs as [|b bs]; kr; (split; [reflexivity|]); (split; [reflexivity|]); (split; [exact Hr|]); [right; member|left; apply zlen_nonneg].
    + apply IH; assumption.
Qed.
Lemma kn_store T bs c : ok_at T c -> zlen bs < M31 -> kn T (fun _ _ _ => True) (store_received bs) c.
Proof.
  intros Hn Hb. unfold store_received. apply kn_get. eapply (kn_bind _ (fun _ _ _ => True)); [exact Hn| |].
  - destruct (c_sbuf c); [kr; exact I|]. intros ev. apply wp_note. intros _. cbn [last_reading]. auto.
  - intros _ c1 T1 _ Hn1 _. eapply kn_conseq; [apply kn_upd|auto]. destruct Hn1 as ((H1 & H2 & H3 & H4) & H5). split; [|exact H5]. split; [exact H1|]. split; [exact H2|]. split; [exact H3|exact Hb].
Qed.
Lemma kn_recv fuel : forall T d c, ok_at T c -> keepd d T -> kn T (fun r _ _ => got (link_failures ++ lim d) r) (recv_with_timeout N fuel d) c.
Proof.
  induction fuel as [|fuel IH]; intros T d c Hn Hd; cbn [recv_with_timeout]; [apply kn_halt|].
  eapply (kn_bind _ (fun p c' T' => T' = T /\ zlen (snd p) <= SOCK_BUFFER_SIZE /\ (0 <= fst p \/ In (fst p) (NEEDREAD :: NEEDWRITE :: AMQP_STATUS_SOCKET_CLOSED :: sock_failures)))); [exact Hn| |].
  { unfold amqp_socket_recv. apply kn_get. destruct (_ =? _).
    - kr. split; [reflexivity|]. split; [cbn [snd]; change (zlen (@nil byte)) with 0; unfold SOCK_BUFFER_SIZE; lia|]. right. member.
    - eapply kn_conseq; [apply kn_recv_loop; [exact Hn|unfold SOCK_BUFFER_SIZE; lia]|]. cbv beta. intros p c' T' (-> & -> & H1 & H2). split; [reflexivity|]. split; [exact H1|].
      destruct H2 as [H2|H2]; [left; exact H2|right; revert H2; apply in_sub; reflexivity]. }
  cbv beta. intros [r bs] c1 T1 HT1 Hn1 (-> & Hb & Hr). cbn [fst snd] in *. destruct (Z.ltb_spec r 0).
  - apply kn_get. destruct (_ =? _); [kr; right; left; reflexivity|]. destruct ((r =? NEEDREAD) || (r =? NEEDWRITE)) eqn:Eq.
    + kb kn_poll. intros r2 c2 T2 HT2 Hn2 (-> & Hr2). destruct (r2 =? _).
      * apply IH; [exact Hn2|]. eapply keepd_later; [|exact Hd]. lia.
      * kr. eapply got_lim; [|exact Hr2]. reflexivity.
    + kr. right. apply in_or_app. left. apply orb_false_elim in Eq. destruct Eq as [E1 E2]. apply Z.eqb_neq in E1, E2.
      destruct Hr as [Hr|[Hr|[Hr|Hr]]]; [lia|congruence|congruence|]. revert Hr. apply in_sub. reflexivity.
  - kb kn_store; [unfold SOCK_BUFFER_SIZE in Hb; lia|]. intros _ c2 T2 HT2 Hn2 _. eapply kn_conseq; [apply kn_next_recv; exact Hn2|]. cbv beta. intros. apply got_left. eapply got_sub; [|eassumption]. reflexivity.
Qed.
Lemma kn_consume T c : ok_at T c -> kn T (fun p _ _ => got input_failures (fst p)) (consume_one_frame E) c.
Proof.
  intros Hn ev. unfold wp, consume_one_frame. destruct (amqp_handle_input E (c_in c) (c_sbuf c)) as [res f s| |] eqn:Eh; auto.
  destruct (Z.ltb_spec res 0).
  - intros _. cbn [last_reading fst]. split; [eapply ok_fields; [| | | | | |exact Hn]; try reflexivity; apply Z.le_refl|].
    destruct Hn as ((_ & _ & _ & Hb) & _). pose proof (handle_input_status _ _ _ _ _ _ Hb Eh H) as K. right. destruct K as [-> | [-> | [-> | ->]]]; member.
  - intros _. split; [|apply got_ok]. destruct (_ =? _); cbn [last_reading]; (eapply ok_fields; [| | | | | |exact Hn]; try reflexivity; try apply Z.le_refl; apply zlen_skipn_le).
Qed.
Lemma kn_link T f c : ok_at T c -> kn T (fun _ _ _ => True) (create_link f) c.
Proof. intros Hn. unfold create_link. kb kn_alloc. intros ok c1 T1 _ Hn1 _. apply kn_get. kr. exact I. Qed.
Lemma kn_append T e c : ok_at T c -> kn T (fun _ _ _ => True) (append_entry e) c.
Proof. intros Hn. eapply kn_conseq; [apply kn_upd|auto]. eapply ok_fields; [| | | | | |exact Hn]; try reflexivity; apply Z.le_refl. Qed.
Lemma kn_drain fuel : forall T c, ok_at T c -> kn T (fun r _ _ => got input_failures r) (try_recv_drain E fuel) c.
Proof.
  induction fuel as [|fuel IH]; intros T c Hn; cbn [try_recv_drain]; [apply kn_halt|]. apply kn_get. destruct (negb _); [kr; apply got_ok|].
  kb kn_consume. intros [r f] c1 T1 HT1 Hn1 Hr. cbn [fst] in Hr. destruct (negb (r =? _)); [kr; exact Hr|]. destruct (negb _); [|apply IH, Hn1].
  kb kn_link. intros [e|] c2 T2 HT2 Hn2 _; [|kr; right; member]. kb kn_append. intros u c3 T3 HT3 Hn3 _. apply IH, Hn3.
Qed.

(** a timeout that is not excessive gives such a deadline *)
Lemma kn_from_now T t c : ok_at T c -> modest_timeout t ->
  kn T (fun p c' T' => c' = c /\ ((fst p = AMQP_STATUS_OK /\ exists d, snd p = Some d /\ keepd d T' /\ (t = None -> d = amqp_time_infinite)) \/ (fst p = AMQP_STATUS_TIMER_FAILURE /\ snd p = None))) (time_from_now t) c.
Proof.
  intros Hn Ht. unfold time_from_now. destruct t as [tv|].
  2:{ kr. split; [reflexivity|]. left. split; [reflexivity|]. exists amqp_time_infinite. split; [reflexivity|]. split; [eapply keepd_infinite, Hn|reflexivity]. }
  cbn [modest_timeout] in Ht. destruct Ht as (H1 & H2 & H3). destruct (Z.ltb_spec (tv_sec tv) 0); [lia|]. destruct (Z.ltb_spec (tv_usec tv) 0); [lia|]. cbn [orb].
  kb kn_clock. intros now c1 T' HT Hn' [-> Hnow]. kr. split; [reflexivity|]. unfold amqp_time_from_now.
  destruct (Z.ltb_spec (tv_sec tv) 0); [lia|]. destruct (Z.ltb_spec (tv_usec tv) 0); [lia|]. cbn [orb]. destruct (Z.eqb_spec now 0) as [Hz|Hz]; [right; auto|].
  destruct Hnow as [Hnow|Hnow]; [contradiction|]. subst T'. left. pose proof (ok_range _ _ Hn) as HR. unfold AMQP_NS_PER_S, AMQP_NS_PER_US.
  assert (u64 (tv_sec tv) = tv_sec tv) as -> by (apply Z.mod_small; lia). assert (u64 (tv_usec tv) = tv_usec tv) as -> by (apply Z.mod_small; lia).
  assert (u64 (tv_sec tv * 1000000000) = tv_sec tv * 1000000000) as -> by (apply Z.mod_small; lia).
  assert (u64 (tv_usec tv * 1000) = tv_usec tv * 1000) as -> by (apply Z.mod_small; lia).
  assert (u64 (tv_sec tv * 1000000000 + tv_usec tv * 1000) = tv_sec tv * 1000000000 + tv_usec tv * 1000) as -> by (apply Z.mod_small; lia).
  cbv zeta. set (delta := tv_sec tv * 1000000000 + tv_usec tv * 1000). assert (0 <= delta <= 2000000000000000) by (unfold delta; lia). clearbody delta.
  assert (u64 (now + delta) = now + delta) as -> by (apply Z.mod_small; lia).
  destruct (Z.ltb_spec (now + delta) now); [lia|]. destruct (Z.ltb_spec (now + delta) delta); [lia|]. cbn [orb fst snd].
  split; [reflexivity|]. eexists. split; [reflexivity|]. split; [|discriminate]. split; [right; lia|lia].
Qed.
Lemma kn_tv T d c : ok_at T c -> keepd d T ->
  kn T (fun p c' T' => c' = c /\ ((fst p = AMQP_STATUS_OK /\ exists t, snd p = Some t /\ modest_timeout t /\ (d = amqp_time_infinite -> t = None)) \/ (fst p = AMQP_STATUS_TIMER_FAILURE /\ snd p = None))) (time_tv_until d) c.
Proof.
  intros Hn Hd. unfold time_tv_until. destruct (Z.eqb_spec UINT64_MAX d) as [<-|H1].
  - kr. split; [reflexivity|]. left. unfold amqp_time_tv_until. rewrite Z.eqb_refl. split; [reflexivity|]. exists None. split; [reflexivity|]. split; [exact I|reflexivity].
  - cbn [orb]. destruct (Z.eqb_spec 0 d) as [<-|H2].
    + kr. split; [reflexivity|]. left. split; [reflexivity|]. exists (Some (mkTv 0 0)). split; [reflexivity|]. split; [cbn; lia|discriminate].
    + kb kn_clock. intros now c1 T' HT Hn' [-> Hnow]. kr. split; [reflexivity|]. unfold amqp_time_tv_until.
      destruct (Z.eqb_spec UINT64_MAX d); [contradiction|]. destruct (Z.eqb_spec 0 d); [contradiction|].
      assert (d = amqp_time_infinite -> False) as Hf by (intros K; apply H1; rewrite K; reflexivity).
      destruct (Z.eqb_spec now 0) as [Hz|Hz]; [right; auto|]. destruct Hnow as [Hnow|Hnow]; [contradiction|]. subst T'. left.
      destruct (Z.leb_spec d now). { split; [reflexivity|]. exists (Some (mkTv 0 0)). split; [reflexivity|]. split; [cbn; lia|tauto]. }
      destruct Hd as [Hm Hr]. destruct Hm as [Hm|Hm]; [contradiction|]. cbv zeta.
      assert (u64 (d - now) = d - now) as -> by (apply Z.mod_small; lia). unfold AMQP_NS_PER_S, AMQP_NS_PER_US. split; [reflexivity|]. eexists. split; [reflexivity|]. split; [|tauto].
      pose proof (Z.div_mod (d - now) 1000000000 ltac:(lia)) as Hq. pose proof (Z.mod_pos_bound (d - now) 1000000000 ltac:(lia)) as Hmb.
      set (q := (d - now) / 1000000000) in *. set (m := (d - now) mod 1000000000) in *. clearbody q m.
      pose proof (Z.div_mod m 1000 ltac:(lia)) as Hq2. pose proof (Z.mod_pos_bound m 1000 ltac:(lia)) as Hmb2. set (q2 := m / 1000) in *. set (m2 := m mod 1000) in *. clearbody q2 m2.
      cbn [modest_timeout tv_sec tv_usec]. rewrite !signed_small by lia. lia.
Qed.
Lemma kn_past T t c : ok_at T c -> kn T (fun r c' _ => c' = c /\ got [AMQP_STATUS_TIMER_FAILURE; AMQP_STATUS_TIMEOUT] r) (time_has_past t) c.
Proof.
  intros Hn. unfold time_has_past. destruct (Z.eqb_spec UINT64_MAX t) as [H|H].
  - kr. split; [reflexivity|]. unfold amqp_time_has_past. rewrite <- H, Z.eqb_refl. apply got_ok.
  - kb kn_clock. intros now c1 T1 _ Hn1 [-> _]. kr. split; [reflexivity|]. unfold amqp_time_has_past. destruct (_ =? _); [apply got_ok|]. destruct (now =? 0); [right; member|]. destruct (_ <? _); [right; member|apply got_ok].
Qed.

Definition try_failures : list Z := link_failures ++ input_failures ++ [AMQP_STATUS_TIMEOUT].
Lemma kn_try_recv T c : ok_at T c -> kn T (fun r _ _ => got try_failures r) (amqp_try_recv N E) c.
Proof.
  intros Hn. unfold amqp_try_recv. kb kn_drain. intros r c1 T1 HT1 Hn1 Hr. destruct (negb _); [kr; eapply got_sub; [|exact Hr]; reflexivity|].
  eapply kn_bind; [exact Hn1|apply (kn_from_now T1 (Some (mkTv 0 0)) c1 Hn1); cbn; lia|]. cbv beta. intros [r2 d] c2 T2 HT2 Hn2 (-> & Hd). cbn [fst snd] in Hd.
  destruct Hd as [(-> & d' & -> & Hd & _)|(-> & ->)]; [|kr; right; member]. change (AMQP_STATUS_OK =? AMQP_STATUS_OK) with true. cbv iota.
  eapply kn_conseq; [apply kn_recv; eassumption|]. cbv beta. intros a _ _ K. apply got_app in K. destruct K as [K|K]; [eapply got_sub; [|exact K]; reflexivity|].
  apply lim_out in K. destruct K as [-> _]. right. member.
Qed.
Lemma kn_send_frame_loop fuel : forall T enc more d c, ok_at T c -> keepd d T -> kn T (fun r _ _ => got (wait_failures ++ lim d) r) (send_frame_loop N E fuel enc more d) c.
Proof.
  induction fuel as [|fuel IH]; intros T enc more d c Hn Hd; cbn [send_frame_loop]; [apply kn_halt|]. apply kn_get. cbv zeta.
  pose proof Hn as ((HT & _ & Hr & _) & _). assert (keepd (amqp_time_first d (c_next_recv c)) T) as Hk. { split; [apply modest_first; [apply Hd|exact Hr]|exact HT]. }
  pose proof (first_infinite T d (c_next_recv c) HT ltac:(apply Hd) Hr) as Hi. set (nt := amqp_time_first _ _) in *.
  kb kn_try_send. intros r c1 T1 HT1 Hn1 (-> & Hs). destruct (Z.ltb_spec r 0).
  - kr. apply got_left. right. destruct Hs as [Hs|Hs]; [|lia]. apply in_or_app. left. exact Hs.
  - destruct (Z.eqb_spec (zlen enc) r) as [<-|Hne]; cbn [negb].
    + eapply kn_conseq; [apply kn_next_send; exact Hn1|]. cbv beta. intros. apply got_left. eapply got_sub; [|eassumption]. reflexivity.
    + destruct Hs as [Hs|[_ Hs]]; [exfalso; vm_compute in Hs; intuition (subst; lia)|]. specialize (Hs ltac:(congruence)).
      unfold amqp_time_equal. destruct (Z.eqb_spec nt d) as [Heq|Heq].
      * kr. right. apply in_or_app. right. apply lim_in. congruence.
      * kb kn_try_recv. intros r2 c2 T2 HT2 Hn2 Hr2. destruct (Z.eqb_spec r2 AMQP_STATUS_TIMEOUT) as [->|Hnt]; [kr; right; apply in_or_app; left; member|].
        destruct (Z.eqb_spec r2 AMQP_STATUS_OK); cbn [negb]; [apply IH; [exact Hn2|eapply keepd_later; [|exact Hd]; lia]|]. kr. apply got_left. right.
        apply got_bad in Hr2; [|assumption]. unfold try_failures in Hr2. rewrite app_assoc in Hr2. apply in_app_or in Hr2. destruct Hr2 as [Hr2|[Hr2|[]]]; [|congruence]. revert Hr2. apply in_sub. reflexivity.
Qed.
Lemma frame_kept T c buf st f enc : ok_at T c -> amqp_frame_to_bytes f (c_outbuf c) = FRet st buf enc -> ok_at T (set_outbuf c buf).
Proof. intros Hn Hf. apply NetOrder.frame_to_bytes_len in Hf. eapply ok_fields; [| | | | | |exact Hn]; try reflexivity; try apply Z.le_refl. cbn [c_outbuf set_outbuf]. lia. Qed.
Lemma kn_send_frame T f more d c : ok_at T c -> keepd d T -> kn T (fun r _ _ => got (send_failures ++ lim d) r) (amqp_send_frame_inner N E f more d) c.
Proof.
  intros Hn Hd. unfold amqp_send_frame_inner. apply kn_get. destruct (amqp_frame_to_bytes f (c_outbuf c)) as [r buf enc|] eqn:Ef; [|apply kn_halt].
  pose proof (frame_kept T c buf r f enc Hn Ef) as Hk. pose proof Hn as (_ & _ & _ & _ & Ho). pose proof (frame_to_bytes_status _ _ _ _ _ Ho Ef) as Hst.
  eapply kn_bind; [exact Hn|apply (kn_upd T (fun c => set_outbuf c buf)); exact Hk|]. cbv beta. intros _ c1 T1 HT1 Hn1 (-> & ->).
  destruct (Z.eqb_spec r AMQP_STATUS_OK); cbn [negb].
  - eapply kn_conseq; [apply kn_send_frame_loop; eassumption|]. cbv beta. intros a _ _ K. eapply got_lim; [|exact K]. reflexivity.
  - kr. apply got_left. right. destruct Hst as [Hst|Hst]; [contradiction|]. destruct Hst as [-> | [-> | [-> | [-> | ->]]]]; member.
Qed.
Lemma kn_send T f more c : ok_at T c -> kn T (fun r _ _ => got send_failures r) (amqp_send_frame_inner N E f more amqp_time_infinite) c.
Proof.
  intros Hn. eapply kn_conseq; [apply (kn_send_frame T f more amqp_time_infinite c Hn); eapply keepd_infinite, Hn|]. cbv beta. intros a _ _ K. unfold lim in K. rewrite Z.eqb_refl, app_nil_r in K. exact K.
Qed.
Lemma kn_beat T c : ok_at T c -> kn T (fun r _ _ => got wait_failures r) (amqp_send_frame N E heartbeat_frame) c.
Proof.
  intros Hn. unfold amqp_send_frame, amqp_send_frame_inner. apply kn_get. destruct (amqp_frame_to_bytes heartbeat_frame (c_outbuf c)) as [r buf enc|] eqn:Ef; [|apply kn_halt].
  pose proof (frame_kept T c buf r _ enc Hn Ef) as Hk. apply heartbeat_bytes in Ef. destruct Ef as [-> ->].
  eapply kn_bind; [exact Hn|apply (kn_upd T (fun c => set_outbuf c buf)); exact Hk|]. cbv beta. intros _ c1 T1 HT1 Hn1 (-> & ->).
  change (AMQP_STATUS_OK =? AMQP_STATUS_OK) with true. cbn [negb]. cbv iota.
  eapply kn_conseq; [apply kn_send_frame_loop; [exact Hn1|eapply keepd_infinite, Hn1]|]. cbv beta. intros a _ _ K. unfold lim in K. rewrite Z.eqb_refl, app_nil_r in K. exact K.
Qed.
Lemma kn_close T c : ok_at T c -> kn T (fun r _ _ => got [AMQP_STATUS_SOCKET_CLOSED; AMQP_STATUS_SOCKET_ERROR] r) amqp_socket_close c.
Proof.
  intros Hn. unfold amqp_socket_close. apply kn_get. destruct (_ =? _); [kr; right; member|].
  eapply (kn_bind _ (fun _ c' _ => True)); [exact Hn|intros ev; unfold wp, sys_close; destruct ev as [|[] ev]; auto|]. intros ok c1 T1 _ Hn1 _. destruct (negb ok); [kr; right; member|].
  eapply kn_bind; [exact Hn1|apply (kn_upd T1 (fun c => set_fd c (-1))); eapply ok_fields; [| | | | | |exact Hn1]; try reflexivity; apply Z.le_refl|].
  cbv beta. intros _ c2 T2 _ Hn2 _. kr. apply got_ok.
Qed.
Lemma kn_release_on T ch c : ok_at T c -> kn T (fun _ _ _ => True) (amqp_maybe_release_buffers_on_channel ch) c.
Proof.
  intros Hn. unfold amqp_maybe_release_buffers_on_channel. apply kn_get. destruct (i_state (c_in c)); try (kr; exact I). destruct (negb _); [apply kn_halt|]. destruct (existsb _ _); [kr; exact I|].
  eapply kn_conseq; [apply kn_upd|auto]. eapply ok_fields; [| | | | | |exact Hn]; try reflexivity; apply Z.le_refl.
Qed.
Lemma kn_release T c : ok_at T c -> kn T (fun _ _ _ => True) amqp_release_buffers c.
Proof.
  intros Hn. unfold amqp_release_buffers. apply kn_get. destruct (i_state (c_in c)); try apply kn_halt. destruct (negb _); [apply kn_halt|].
  eapply kn_conseq; [apply kn_upd|auto]. eapply ok_fields; [| | | | | |exact Hn]; try reflexivity; apply Z.le_refl.
Qed.
Lemma kn_maybe_release T c : ok_at T c -> kn T (fun _ _ _ => True) amqp_maybe_release_buffers c.
Proof. intros Hn. unfold amqp_maybe_release_buffers. apply kn_get. destruct (amqp_release_buffers_ok c); [apply kn_release, Hn|kr; exact I]. Qed.

Lemma kn_wait_loop fuel : forall T skip d c, ok_at T c -> keepd d T -> kn T (fun p _ _ => got (wait_failures ++ lim d) (fst p)) (wait_frame_loop N E fuel skip d) c.
Proof.
  induction fuel as [|fuel IH]; intros T skip d c Hn Hd; cbn [wait_frame_loop]; [apply kn_halt|]. apply kn_get. destruct (_ && _).
  - kb kn_consume. intros [r f] c1 T1 HT1 Hn1 Hr. cbn [fst] in Hr. assert (keepd d T1) as Hd1 by (eapply keepd_later; [|exact Hd]; lia).
    destruct (negb (r =? _)); [kr; apply got_left; eapply got_sub; [|exact Hr]; reflexivity|]. destruct (_ =? _).
    + kb kn_release_on. intros _ c2 T2 HT2 Hn2 _. apply IH; [exact Hn2|]. eapply keepd_later; [|exact Hd]. lia.
    + destruct (negb _); [kr; apply got_ok|]. apply IH; assumption.
  - kb kn_past. intros r c1 T1 HT1 Hn1 (-> & Hr). destruct (Z.eqb_spec r AMQP_STATUS_TIMER_FAILURE) as [->|Hntf]; [kr; right; apply in_or_app; left; member|].
    eapply (kn_bind _ (fun r _ _ => got wait_failures r)); [exact Hn1|destruct (_ =? _); [apply kn_beat, Hn1|kr; apply got_ok]|]. cbv beta.
    intros r2 c2 T2 HT2 Hn2 Hr2. destruct (negb _); [kr; apply got_left, Hr2|]. apply kn_get. cbv zeta.
    assert (keepd d T2) as Hd2 by (eapply keepd_later; [|exact Hd]; lia). pose proof Hn2 as ((HT & _ & Hnr & _) & Hns & _).
    set (dl := amqp_time_first d _). assert (keepd dl T2) as Hk. { split; [apply modest_first; [apply Hd2|apply modest_first; assumption]|exact HT]. }
    assert (dl = amqp_time_infinite -> d = amqp_time_infinite) as Hi. { intros K. apply (first_infinite T2 _ _ HT (proj1 Hd2) (modest_first _ _ _ Hnr Hns)) in K. apply K. }
    kb kn_recv. intros r3 c3 T3 HT3 Hn3 Hr3. assert (keepd d T3) as Hd3 by (eapply keepd_later; [|exact Hd]; lia).
    destruct (Z.eqb_spec r3 AMQP_STATUS_TIMEOUT) as [->|Hnt].
    + apply kn_get. destruct (amqp_time_equal _ _).
      { kb kn_close. intros _ c4 T4 _ Hn4 _. kr. right. apply in_or_app. left. member. }
      unfold amqp_time_equal. destruct (Z.eqb_spec dl d) as [Heq|]. { kr. right. apply in_or_app. right. apply lim_in.
        apply got_app in Hr3. destruct Hr3 as [[Hr3|Hr3]|Hr3]; [discriminate|exfalso; vm_compute in Hr3; intuition discriminate|]. apply lim_out in Hr3. destruct Hr3. congruence. }
      destruct (_ =? _); [apply IH; assumption|apply kn_halt].
    + destruct (Z.eqb_spec r3 AMQP_STATUS_OK); cbn [negb]; [apply IH; assumption|]. kr. apply got_left. right. apply got_bad in Hr3; [|assumption]. apply in_app_or in Hr3.
      destruct Hr3 as [Hr3|Hr3]; [revert Hr3; apply in_sub; reflexivity|]. apply lim_out in Hr3. destruct Hr3; contradiction.
Qed.
Lemma kn_wait T d c : ok_at T c -> keepd d T -> kn T (fun p _ _ => got (wait_failures ++ lim d) (fst p)) (wait_frame_inner N E d) c.
Proof. apply kn_wait_loop. Qed.
Lemma kn_wait_inf T c : ok_at T c -> kn T (fun p _ _ => got wait_failures (fst p)) (wait_frame_inner N E amqp_time_infinite) c.
Proof.
  intros Hn. eapply kn_conseq; [apply (kn_wait T _ c Hn); eapply keepd_infinite, Hn|]. cbv beta. intros a _ _ K. unfold lim in K. rewrite Z.eqb_refl, app_nil_r in K. exact K.
Qed.
Lemma kn_queue T f c : ok_at T c -> kn T (fun r _ _ => got [AMQP_STATUS_NO_MEMORY] r) (amqp_queue_frame f) c.
Proof. intros Hn. unfold amqp_queue_frame. kb kn_link. intros [e|] c1 T1 _ Hn1 _; [|kr; right; member]. kb kn_append. intros _ c2 T2 _ Hn2 _. kr. apply got_ok. Qed.
Lemma kn_put_back T f c : ok_at T c -> kn T (fun _ _ _ => True) (amqp_put_back_frame f) c.
Proof.
  intros Hn. unfold amqp_put_back_frame. kb kn_link. intros [e|] c1 T1 _ Hn1 _; [|kr; exact I].
  eapply kn_bind; [exact Hn1|apply (kn_upd T1 (fun c => set_queue c (e :: c_queue c))); eapply ok_fields; [| | | | | |exact Hn1]; try reflexivity; apply Z.le_refl|]. intros _ c2 T2 _ Hn2 _. kr. exact I.
Qed.
Lemma kn_on_channel_loop fuel : forall T ch c, ok_at T c -> kn T (fun p _ _ => got wait_failures (fst p)) (wait_on_channel_loop N E fuel ch) c.
Proof.
  induction fuel as [|fuel IH]; intros T ch c Hn; cbn [wait_on_channel_loop]; [apply kn_halt|]. kb kn_wait_inf. intros [r f] c1 T1 _ Hn1 Hr. cbn [fst] in Hr.
  destruct (negb _); [kr; exact Hr|]. destruct (_ =? _); [kr; apply got_ok|]. kb kn_queue. intros r2 c2 T2 _ Hn2 Hr2. destruct (negb _); [kr; eapply got_sub; [|exact Hr2]; reflexivity|apply IH, Hn2].
Qed.
Lemma kn_on_channel T ch c : ok_at T c -> kn T (fun p _ _ => got wait_failures (fst p)) (amqp_simple_wait_frame_on_channel N E ch) c.
Proof.
  intros Hn. unfold amqp_simple_wait_frame_on_channel. apply kn_get. destruct (find_on_channel _ _ _) as [[[f q]|]|]; [| |apply kn_halt].
  - eapply kn_bind; [exact Hn|apply (kn_upd T (fun c => set_queue c q)); eapply ok_fields; [| | | | | |exact Hn]; try reflexivity; apply Z.le_refl|]. intros _ c2 T2 _ Hn2 _. kr. apply got_ok.
  - apply kn_on_channel_loop, Hn.
Qed.
Lemma lim_limit t d : (t = None -> d = amqp_time_infinite) -> forall r, In r (lim d) -> In r (limit t).
Proof. intros H r K. apply lim_out in K. destruct K as [-> K]. destruct t; [left; reflexivity|]. exfalso. auto. Qed.
Lemma got_limit t d l r : (t = None -> d = amqp_time_infinite) -> got (l ++ lim d) r -> got (limit t ++ l) r.
Proof. intros H K. unfold got in *. rewrite in_app_iff in *. pose proof (lim_limit t d H r). tauto. Qed.
Lemma kn_noblock T t c : ok_at T c -> modest_timeout t -> kn T (fun p _ _ => got (limit t ++ wait_failures) (fst p)) (amqp_simple_wait_frame_noblock N E t) c.
Proof.
  intros Hn Ht. unfold amqp_simple_wait_frame_noblock. kb kn_from_now. intros [r d] c1 T1 _ Hn1 (-> & Hd). cbn [fst snd] in Hd.
  destruct Hd as [(-> & d' & -> & Hd & Hi)|(-> & ->)]; [|kr; right; apply in_or_app; right; member]. change (AMQP_STATUS_OK =? AMQP_STATUS_OK) with true. cbn [negb]. cbv iota. apply kn_get.
  destruct (c_queue c) as [|e q].
  - eapply kn_conseq; [apply kn_wait; eassumption|]. cbv beta. intros a _ _. apply got_limit, Hi.
  - destruct (negb _); [apply kn_halt|]. eapply kn_bind; [exact Hn1|apply (kn_upd T1 (fun c => set_queue c q)); eapply ok_fields; [| | | | | |exact Hn1]; try reflexivity; apply Z.le_refl|]. intros _ c2 T2 _ Hn2 _. kr. apply got_ok.
Qed.
Lemma negative_invalid t : negative t = true -> time_from_now t = ret (AMQP_STATUS_INVALID_PARAMETER, None).
Proof. destruct t as [tv|]; [|discriminate]. cbn [negative]. intros H. unfold time_from_now. rewrite H. cbn [amqp_time_from_now]. rewrite H. reflexivity. Qed.
Lemma noblock_negative t c ev : negative t = true -> amqp_simple_wait_frame_noblock N E t c ev = Done (AMQP_STATUS_INVALID_PARAMETER, no_frame) c ev [].
Proof. intros H. unfold amqp_simple_wait_frame_noblock. rewrite (negative_invalid t H). reflexivity. Qed.
Lemma kn_noblock' T t c : ok_at T c -> given_timeout t -> kn T (fun p _ _ => got (unless_negative t wait_failures) (fst p)) (amqp_simple_wait_frame_noblock N E t) c.
Proof.
  intros Hn Hg. unfold unless_negative. destruct (negative t) eqn:Et.
  - intros ev. unfold wp. rewrite (noblock_negative t c ev Et). intros _. cbn [last_reading]. split; [exact Hn|right; left; reflexivity].
  - destruct Hg as [Hg|Hg]; [congruence|]. apply kn_noblock; assumption.
Qed.
Lemma kn_method_list T ch ids d c : ok_at T c -> keepd d T -> kn T (fun p _ _ => got ([AMQP_STATUS_WRONG_METHOD] ++ wait_failures ++ lim d) (fst p)) (amqp_simple_wait_method_list N E ch ids d) c.
Proof.
  intros Hn Hd. unfold amqp_simple_wait_method_list. kb kn_tv. intros [r t] c1 T1 _ Hn1 (-> & Ht). cbn [fst snd] in Ht.
  destruct Ht as [(-> & t' & -> & Ht & Hi)|(-> & ->)]; [|kr; right; apply in_or_app; right; apply in_or_app; left; member]. change (AMQP_STATUS_OK =? AMQP_STATUS_OK) with true. cbn [negb]. cbv iota.
  kb kn_noblock. intros [r f] c2 T2 _ Hn2 Hr. cbn [fst] in Hr. destruct (negb (r =? _)).
  { kr. cbn [fst]. unfold got in *. destruct Hr as [Hr|Hr]; [left; exact Hr|right]. apply in_app_or in Hr. apply in_or_app. right. apply in_or_app. destruct Hr as [Hr|Hr]; [|left; exact Hr].
    right. destruct t' as [tv|]; [|destruct Hr]. destruct Hr as [<-|[]]. apply lim_in. intros K. specialize (Hi K). discriminate. }
  destruct (_ || _); [kr; right; left; reflexivity|]. kneed. intros [id m] c3 T3 _ Hn3 _. destruct (negb _); kr; [right; left; reflexivity|apply got_ok].
Qed.

(** ** RPC *)
Definition reply_err (fs : list Z) (r : rpc_reply_t) : Prop := match r with RNone => False | RLibrary st => In st fs | _ => True end.
Lemma kn_rpc_wait fuel : forall T ch ids d c, ok_at T c -> keepd d T -> kn T (fun r _ _ => reply_in (wait_failures ++ lim d) r) (rpc_wait N E fuel ch ids d) c.
Proof.
  induction fuel as [|fuel IH]; intros T ch ids d c Hn Hd; cbn [rpc_wait]; [apply kn_halt|]. kb kn_wait. intros [r f] c1 T1 HT1 Hn1 Hr. cbn [fst] in Hr.
  destruct (Z.eqb_spec r AMQP_STATUS_OK); cbn [negb].
  - destruct (negb _).
    + kb kn_link. intros [e0|] c2 T2 HT2 Hn2 _; [|kr; apply in_or_app; left; member]. kb kn_append. intros _ c3 T3 HT3 Hn3 _. apply IH; [exact Hn3|]. eapply keepd_later; [|exact Hd]. lia.
    + kneed. intros [id m] c2 T2 _ Hn2 _. kr. destruct (amqp_id_in_reply_list _ _); exact I.
  - eapply (kn_bind _ (fun _ _ _ => True)); [exact Hn1|destruct (_ =? _); [eapply kn_conseq; [apply kn_close, Hn1|auto]|kr; exact I]|]. intros _ c2 T2 _ Hn2 _. kr. cbn [reply_in]. apply got_bad; assumption.
Qed.
Lemma reply_sub l l' r : (forall x, In x l -> In x l') -> reply_in l r -> reply_in l' r.
Proof. intros H. destruct r; cbn [reply_in]; auto. Qed.
Lemma kn_rpc_inner T ch id ids m d c : ok_at T c -> keepd d T -> kn T (fun r _ _ => reply_in (send_failures ++ lim d) r) (simple_rpc_inner N E ch id ids m d) c.
Proof.
  intros Hn Hd. unfold simple_rpc_inner, amqp_send_method, amqp_send_method_inner. kb kn_send. intros r c1 T1 HT1 Hn1 Hr. destruct (Z.ltb_spec r 0).
  - kr. cbn [reply_in]. apply in_or_app. left. apply got_bad in Hr; [exact Hr|]. unfold AMQP_STATUS_OK. lia.
  - eapply kn_conseq; [apply kn_rpc_wait; [exact Hn1|eapply keepd_later; [|exact Hd]; lia]|]. cbv beta. intros a _ _. apply reply_sub. intros x K. apply in_app_or in K. apply in_or_app.
    destruct K as [K|K]; [left; revert K; apply in_sub; reflexivity|right; exact K].
Qed.
Lemma kn_rpc T ch id ids m c : ok_at T c -> kn T (fun r _ _ => reply_in (limit (amqp_get_rpc_timeout (c_to c)) ++ send_failures) r) (amqp_simple_rpc N E ch id ids m) c.
Proof.
  intros Hn. unfold amqp_simple_rpc. apply kn_get. pose proof Hn as (_ & _ & Ht & _). set (t := amqp_get_rpc_timeout (c_to c)) in *. clearbody t.
  kb kn_from_now. intros [r d] c1 T1 _ Hn1 (-> & Hd). cbn [fst snd] in Hd.
  destruct Hd as [(-> & d' & -> & Hd & Hi)|(-> & ->)]; [|kr; apply in_or_app; right; member]. change (AMQP_STATUS_OK =? AMQP_STATUS_OK) with true. cbn [negb]. cbv iota.
  eapply kn_conseq; [apply kn_rpc_inner; eassumption|]. cbv beta. intros a _ _. apply reply_sub. intros x K. apply in_app_or in K. apply in_or_app. destruct K as [K|K]; [right; exact K|left; revert K; apply lim_limit, Hi].
Qed.
Lemma kn_recent T (r : rpc_reply_t) c : ok_at T c -> kn T (fun _ c' _ => c_recent c' = r) (upd (fun c => set_recent c r)) c.
Proof. intros Hn. eapply kn_conseq; [apply kn_upd|cbv beta; intros _ c' T' [-> _]; reflexivity]. eapply ok_fields; [| | | | | |exact Hn]; try reflexivity; apply Z.le_refl. Qed.
Lemma kn_call T w ch args c : ok_at T c -> kn T (fun _ c' _ => reply_in (limit (amqp_get_rpc_timeout (c_to c)) ++ send_failures) (c_recent c')) (amqp_call N E w ch args) c.
Proof.
  intros Hn. unfold amqp_call. destruct (build_request _ _ _); [|apply kn_halt]. unfold amqp_simple_rpc_decoded. kb kn_rpc. intros r c1 T1 _ Hn1 Hr.
  eapply kn_bind; [exact Hn1|apply (kn_recent T1 r c1 Hn1)|]. cbv beta. intros _ c2 T2 _ Hn2 E2. kr. rewrite E2. exact Hr.
Qed.
Lemma kn_get_call T ch q na c : ok_at T c -> kn T (fun r _ _ => reply_in (limit (amqp_get_rpc_timeout (c_to c)) ++ send_failures) r) (amqp_basic_get N E ch q na) c.
Proof.
  intros Hn. unfold amqp_basic_get. kb kn_rpc. intros r c1 T1 _ Hn1 Hr.
  eapply kn_bind; [exact Hn1|apply (kn_recent T1 r c1 Hn1)|]. cbv beta. intros _ c2 T2 _ Hn2 E2. kr. exact Hr.
Qed.
Lemma kn_channel_close T ch code c : ok_at T c ->
  kn T (fun r _ _ => reply_in (code_refused code (limit (amqp_get_rpc_timeout (c_to c)) ++ send_failures)) r) (amqp_channel_close N E ch code) c.
Proof.
  intros Hn. unfold amqp_channel_close, code_refused. destruct (Z.ltb_spec code 0); destruct (Z.leb_spec 0 code); try lia; cbn [orb andb]; [kr; left; reflexivity|].
  destruct (Z.ltb_spec 65535 code); destruct (Z.leb_spec code 65535); try lia; [kr; left; reflexivity|]. apply kn_rpc, Hn.
Qed.
Lemma kn_connection_close T code c : ok_at T c ->
  kn T (fun r _ _ => reply_in (code_refused code (limit (amqp_get_rpc_timeout (c_to c)) ++ send_failures)) r) (amqp_connection_close N E code) c.
Proof.
  intros Hn. unfold amqp_connection_close, code_refused. destruct (Z.ltb_spec code 0); destruct (Z.leb_spec 0 code); try lia; cbn [orb andb]; [kr; left; reflexivity|].
  destruct (Z.ltb_spec 65535 code); destruct (Z.leb_spec code 65535); try lia; [kr; left; reflexivity|]. apply kn_rpc, Hn.
Qed.
(** ** Publishing *)
Lemma kn_publish_body fuel : forall T ch b u o c, ok_at T c -> kn T (fun r _ _ => got send_failures r) (publish_body N E fuel ch b u o) c.
Proof.
  induction fuel as [|fuel IH]; intros T ch b u o c Hn; cbn [publish_body]; [apply kn_halt|]. destruct (negb _); [kr; apply got_ok|]. cbv zeta. destruct (_ =? _); [kr; apply got_ok|].
  kneed. intros fr c1 T1 _ Hn1 _. kb kn_send. intros r c2 T2 _ Hn2 Hr. destruct (_ <? _); [kr; exact Hr|apply IH, Hn2].
Qed.
Lemma kn_publish T ch x k ma im p b c : ok_at T c -> kn T (fun r _ _ => got send_failures r) (amqp_basic_publish N E ch x k ma im p b) c.
Proof.
  intros Hn. unfold amqp_basic_publish. apply kn_get. cbv zeta. kb kn_past. intros r c1 T1 _ Hn1 (-> & Hr). destruct (Z.eqb_spec r AMQP_STATUS_TIMER_FAILURE) as [->|]; [kr; right; member|].
  eapply (kn_bind _ (fun r _ _ => got try_failures r)); [exact Hn1|destruct (_ =? _); [apply kn_try_recv, Hn1|kr; apply got_ok]|]. cbv beta. intros r2 c2 T2 _ Hn2 Hr2.
  destruct (Z.eqb_spec r2 AMQP_STATUS_TIMEOUT); [kr; right; member|]. destruct (Z.eqb_spec r2 AMQP_STATUS_OK); cbn [negb].
  - unfold amqp_send_method_inner. kb kn_send. intros r3 c3 T3 _ Hn3 Hr3. destruct (_ <? _); [kr; exact Hr3|]. kb kn_send. intros r4 c4 T4 _ Hn4 Hr4. destruct (_ <? _); [kr; exact Hr4|]. apply kn_publish_body, Hn4.
  - kr. right. apply got_bad in Hr2; [|assumption]. unfold try_failures in Hr2. rewrite app_assoc in Hr2. apply in_app_or in Hr2. destruct Hr2 as [Hr2|[Hr2|[]]]; [|congruence]. revert Hr2. apply in_sub. reflexivity.
Qed.
(** ** Consuming *)
Definition read_failures : list Z := AMQP_STATUS_UNEXPECTED_STATE :: AMQP_STATUS_INVALID_PARAMETER :: wait_failures.
Lemma clone_members_err oom l : forall fl m n e, clone_members oom l fl m n = Some (inl e) -> e = AMQP_STATUS_NO_MEMORY \/ e = AMQP_STATUS_INVALID_PARAMETER.
Proof.
  induction l as [|[k st] l IH]; intros fl m n e; cbn [clone_members]; [discriminate|]. destruct (_ =? _); [apply IH|]. destruct (lookup _ m) as [v|]; [|discriminate].
  destruct (clone_value_ok oom v n) as (n' & [(e' & -> & K)| ->]); [intros H; injection H as <-; exact K|].
  destruct (clone_members oom l fl m n') as [[e'|r]|] eqn:Er; try discriminate. intros H. injection H as <-. eapply IH, Er.
Qed.
Lemma kn_read_body fuel : forall T ch b o c, ok_at T c -> kn T (fun p _ _ => reply_in read_failures (fst p)) (read_body N E fuel ch b o) c.
Proof.
  induction fuel as [|fuel IH]; intros T ch b o c Hn; cbn [read_body]; [apply kn_halt|]. destruct (negb _); [kr; exact I|]. kb kn_on_channel. intros [r f] c1 T1 _ Hn1 Hr. cbn [fst] in Hr.
  destruct (Z.eqb_spec r AMQP_STATUS_OK); cbn [negb]; [|kr; cbn [fst reply_in]; apply got_bad in Hr; [|assumption]; revert Hr; apply in_sub; reflexivity].
  destruct (negb _); [destruct (is_close f) as [[id m]|]; kr; [exact I|member]|]. destruct (f_pay f); try apply kn_halt. destruct (_ <? _); [kr; member|].
  kneed. intros b2 c2 T2 _ Hn2 _. apply IH, Hn2.
Qed.
Lemma kn_malloc T n c : ok_at T c -> kn T (fun _ _ _ => True) (sys_malloc n) c.
Proof. intros Hn. unfold sys_malloc. kb kn_alloc. intros ok c1 T1 _ Hn1 _. kr. exact I. Qed.
Lemma kn_read T ch c : ok_at T c -> kn T (fun p _ _ => reply_in read_failures (fst p)) (amqp_read_message N E ch) c.
Proof.
  intros Hn. unfold amqp_read_message. kb kn_on_channel. intros [r f] c1 T1 _ Hn1 Hr. cbn [fst] in Hr.
  destruct (Z.eqb_spec r AMQP_STATUS_OK); cbn [negb]; [|kr; cbn [fst reply_in]; apply got_bad in Hr; [|assumption]; revert Hr; apply in_sub; reflexivity].
  destruct (negb _). { destruct (is_close f) as [[id m]|]; [kr; exact I|]. kb kn_put_back. intros _ c2 T2 _ Hn2 _. kr. member. }
  destruct (f_pay f); try apply kn_halt. kb kn_clone. intros oom c2 T2 _ Hn2 _. kneed. intros r2 c3 T3 _ Hn3 (Hc & _). destruct r2 as [e0|p'].
  - kr. cbn [fst reply_in]. unfold amqp_basic_properties_clone in Hc. destruct (clone_members _ _ _ _ _) as [[e1|m]|] eqn:Em; try discriminate. injection Hc as <-.
    apply clone_members_err in Em. destruct Em as [-> | ->]; member.
  - eapply (kn_bind _ (fun _ _ _ => True)); [exact Hn3|destruct (_ =? _); [kr; exact I|apply kn_malloc, Hn3]|]. intros ok c4 T4 _ Hn4 _. destruct (negb ok); [kr; member|].
    kb kn_read_body. intros [r3 b3] c5 T5 _ Hn5 Hr3. kr. exact Hr3.
Qed.
Lemma reply_unless t fs p : got (unless_negative t wait_failures) p -> p <> AMQP_STATUS_OK -> (forall x, In x wait_failures -> In x fs) -> In p (unless_negative t fs).
Proof.
  intros H K Hs. apply got_bad in H; [|exact K]. revert H. unfold unless_negative. destruct (negative t); [auto|]. rewrite !in_app_iff. intuition.
Qed.
Lemma kn_consume_message T t c : ok_at T c -> given_timeout t -> kn T (fun p _ _ => reply_in (unless_negative t read_failures) (fst p)) (amqp_consume_message N E t) c.
Proof.
  intros Hn Hg. unfold amqp_consume_message. destruct (negative t) eqn:Et.
  { intros ev. unfold wp, bind. rewrite (noblock_negative t c ev Et). cbv beta iota. change (AMQP_STATUS_INVALID_PARAMETER =? AMQP_STATUS_OK) with false. cbn [negb]. cbv iota. unfold ret. cbn [app]. intros _. split; [exact Hn|]. cbn [fst reply_in].
    unfold unless_negative. rewrite Et. left. reflexivity. }
  assert (forall x, In x read_failures -> In x (unless_negative t read_failures)) as Hu. { intros x K. unfold unless_negative. rewrite Et. apply in_or_app. right. exact K. }
  kb kn_noblock'. intros [r f] c1 T1 _ Hn1 Hr. cbn [fst] in Hr.
  destruct (Z.eqb_spec r AMQP_STATUS_OK); cbn [negb]; [|kr; cbn [fst reply_in]; eapply reply_unless; [exact Hr|assumption|intros x; apply in_sub; reflexivity]].
  assert (forall T c, ok_at T c -> kn T (fun p _ _ => reply_in (unless_negative t read_failures) (fst p)) (bind (amqp_put_back_frame f) (fun _ => ret (RLibrary AMQP_STATUS_UNEXPECTED_STATE, @None envelope))) c) as Hput.
  { intros T' c' Hn'. kb kn_put_back. intros _ c2 T2 _ Hn2 _. kr. cbn [fst reply_in]. apply Hu. left. reflexivity. }
  destruct (if _ : bool then _ else _) as [[id m]|]; [|apply Hput, Hn1]. destruct (_ =? _); [|apply Hput, Hn1].
  kneed. intros a1 c2 T2 _ Hn2 _. kneed. intros a2 c3 T3 _ Hn3 _. kneed. intros a3 c4 T4 _ Hn4 _. kneed. intros a4 c5 T5 _ Hn5 _. kneed. intros a5 c6 T6 _ Hn6 _.
  kb kn_alloc. intros ok c7 T7 _ Hn7 _. destruct (negb ok); [kr; cbn [fst reply_in]; apply Hu; member|]. kb kn_read. intros [r2 msg] c8 T8 _ Hn8 Hr2. kr. eapply reply_sub; [exact Hu|exact Hr2].
Qed.
Lemma kn_confirm T t c : ok_at T c -> given_timeout t -> kn T (fun p _ _ => reply_in (unless_negative t (AMQP_STATUS_UNEXPECTED_STATE :: wait_failures)) (fst p)) (amqp_publisher_confirm_wait N E t) c.
Proof.
  intros Hn Hg. unfold amqp_publisher_confirm_wait. destruct (negative t) eqn:Et.
  { intros ev. unfold wp, bind. rewrite (noblock_negative t c ev Et). cbv beta iota. change (AMQP_STATUS_INVALID_PARAMETER =? AMQP_STATUS_OK) with false. cbn [negb]. cbv iota. unfold ret. cbn [app]. intros _. split; [exact Hn|]. cbn [fst reply_in].
    unfold unless_negative. rewrite Et. left. reflexivity. }
  kb kn_noblock'. intros [r f] c1 T1 _ Hn1 Hr. cbn [fst] in Hr.
  destruct (Z.eqb_spec r AMQP_STATUS_OK); cbn [negb]; [|kr; cbn [fst reply_in]; eapply reply_unless; [exact Hr|assumption|intros x; apply in_sub; reflexivity]].
  assert (forall T c, ok_at T c -> kn T (fun p _ _ => reply_in (unless_negative t (AMQP_STATUS_UNEXPECTED_STATE :: wait_failures)) (fst p)) (bind (amqp_put_back_frame f) (fun _ => ret (RLibrary AMQP_STATUS_UNEXPECTED_STATE, @None (Z * Z * mstruct)))) c) as Hput.
  { intros T' c' Hn'. kb kn_put_back. intros _ c2 T2 _ Hn2 _. kr. cbn [fst reply_in]. unfold unless_negative. rewrite Et. apply in_or_app. right. left. reflexivity. }
  destruct (if _ : bool then _ else _) as [[id m]|]; [|apply Hput, Hn1]. destruct (_ || _); [kr; exact I|apply Hput, Hn1].
Qed.
(** ** Tuning and login *)
Lemma kn_tune T cm fm hb c : ok_at T c -> 0 <= fm < M31 -> hb <= 65535 -> kn T (fun r _ _ => got [AMQP_STATUS_NO_MEMORY; AMQP_STATUS_TIMER_FAILURE] r) (amqp_tune_connection cm fm hb) c.
Proof.
  intros Hn Hf Hh. unfold amqp_tune_connection. apply kn_get. destruct (i_state (c_in c)); try apply kn_halt.
  eapply kn_bind; [exact Hn|apply (kn_upd T (fun c => set_limits c cm fm (if hb <? 0 then 0 else hb)))|].
  { destruct Hn as ((H1 & H2 & H3 & H4) & H5). split; [|exact H5]. split; [exact H1|]. split; [cbn [c_hb set_limits]; destruct (Z.ltb_spec hb 0); lia|]. split; [exact H3|exact H4]. }
  cbv beta. intros _ c1 T1 _ Hn1 _. kb kn_next_send. intros r c2 T2 _ Hn2 Hr. destruct (negb _); [kr; eapply got_sub; [|exact Hr]; reflexivity|].
  kb kn_next_recv. intros r2 c3 T3 _ Hn3 Hr2. destruct (negb _); [kr; eapply got_sub; [|exact Hr2]; reflexivity|]. kb kn_alloc. intros ok c4 T4 _ Hn4 _.
  assert (forall buf, zlen buf < M31 -> ok_at T4 (set_outbuf c4 buf)) as Hset. { intros buf Hb. destruct Hn4 as (A1 & A2 & A3 & A4 & A5). split; [exact A1|]. split; [exact A2|]. split; [exact A3|]. split; [exact A4|exact Hb]. }
  destruct ok.
  - eapply kn_bind; [exact Hn4|apply (kn_upd T4 (fun c => set_outbuf c (firstn (Z.to_nat fm) (c_outbuf c) ++ repeat x00 (Z.to_nat fm - length (c_outbuf c)))))|].
    { apply Hset. unfold zlen. rewrite app_length, firstn_length, repeat_length. lia. }
    cbv beta. intros _ c5 T5 _ Hn5 _. kr. apply got_ok.
  - eapply kn_bind; [exact Hn4|apply (kn_upd T4 (fun c => set_outbuf c (if zlen (c_outbuf c) <? fm then [] else firstn (Z.to_nat fm) (c_outbuf c))))|].
    { apply Hset. destruct (_ <? _); [reflexivity|]. unfold zlen. rewrite firstn_length. lia. }
    cbv beta. intros _ c5 T5 _ Hn5 _. kr. right. left. reflexivity.
Qed.
End Codes.
