(** C87: frames over TLS, with the records of OpenSSL. *)
From Coq Require Import String ZArith List Bool Lia.
From Verif Require Prop_Receive.
From Verif Require Import Base BaseFacts Codec TableModel TableSpec FramingStmt FramingGen FramingModel MethodSpec
  Frame FrameSpec FrameProofs Prop_Frame Time Net NetApi NetSpec NetFacts NetSend NetRecv NetWalk NetAcct NetOrder EncStatus FrameFacts TlsRecords.
Import ListNotations.
Local Open Scope string_scope.
Local Open Scope list_scope.
Local Open Scope Z_scope.

(** the old record, if any, is of this address and not longer than what is to be sent *)
Definition fits (ts : tls_state) (address : Z) (buf : bytes) : Prop :=
  match t_pending ts with None => True | Some (a, record) => a = address /\ 1 <= zlen record <= zlen buf end.
(** what the peer gets if [buf] is sent *)
Definition effective (ts : tls_state) (buf : bytes) : bytes :=
  match t_pending ts with None => buf | Some (_, record) => record ++ skipn (length record) buf end.

Lemma effective_len ts a buf : fits ts a buf -> length (effective ts buf) = length buf.
Proof. unfold fits, effective. destruct (t_pending ts) as [[b r]|]; [|reflexivity]. intros [_ H]. rewrite app_length, skipn_length. unfold zlen in H. lia. Qed.
Lemma skipn_zlen {A} (n : Z) (l : list A) : 0 <= n <= zlen l -> zlen (skipn (Z.to_nat n) l) = zlen l - n.
Proof. intros H. unfold zlen in *. rewrite skipn_length. lia. Qed.
Lemma skipn_add {A} n m (l : list A) : skipn m (skipn n l) = skipn (n + m) l.
Proof. revert l. induction n as [|n IH]; intros l; [reflexivity|]. destruct l as [|x l]; [rewrite !skipn_nil; reflexivity|cbn [skipn Nat.add]; apply IH]. Qed.
Lemma firstn_add {A} n m (l : list A) : firstn (n + m) l = firstn n l ++ firstn m (skipn n l).
Proof. revert l. induction n as [|n IH]; intros l; [reflexivity|]. destruct l as [|x l]; [rewrite !firstn_nil; reflexivity|cbn [firstn skipn Nat.add app]; rewrite IH; reflexivity]. Qed.

(** ** SSL_write *)
Lemma ssl_write_ok addr more buf ts c ev : fits ts addr buf -> 1 <= zlen buf ->
  wp (tls_socket_send addr more buf ts) c ev
    (fun p c' _ l => c' = c /\
       ((1 <= fst p <= zlen buf /\ out_bytes l = firstn (Z.to_nat (fst p)) (effective ts buf) /\ t_pending (snd p) = None /\ skipn (Z.to_nat (fst p)) (effective ts buf) = skipn (Z.to_nat (fst p)) buf) \/
        (fst p < 0 /\ fst p <> AMQP_STATUS_TIMEOUT /\ out_bytes l = [] /\ fits (snd p) addr buf /\ effective (snd p) buf = effective ts buf)))
    (fun s c' l => out_bytes l = []).
Proof.
  intros Hf Hb. unfold tls_socket_send. apply wp_get_bind. destruct (c_fd c =? -1).
  { apply wp_ret. split; [reflexivity|]. right. cbn [fst snd]. split; [reflexivity|]. split; [discriminate|]. auto. }
  unfold ssl_write, wp. unfold fits in Hf. destruct (t_pending ts) as [[a rec]|] eqn:Hp.
  - destruct Hf as [-> Hr]. rewrite Z.eqb_refl, (proj2 (Z.leb_le _ _) (proj2 Hr)). cbn [andb].
    assert (forall z, z < 0 -> z <> AMQP_STATUS_TIMEOUT -> fits ts addr buf) as HF by (intros; unfold fits; rewrite Hp; auto).
    destruct ev as [|[| r | | | | |] ev]; try reflexivity. destruct r as [n| | | | | |]; try reflexivity.
    + destruct (n =? zlen rec) eqn:Hn; [|reflexivity]. apply Z.eqb_eq in Hn. subst n. split; [reflexivity|]. left. cbn [fst snd out_bytes flat_map app]. unfold effective. rewrite Hp. unfold zlen in *. rewrite Nat2Z.id.
      split; [lia|]. split; [rewrite firstn_app, Nat.sub_diag, firstn_all2 by lia; cbn [firstn]; reflexivity|]. split; [reflexivity|]. rewrite skipn_app, Nat.sub_diag, skipn_all. reflexivity.
    + split; [reflexivity|]. right. split; [reflexivity|]. split; [discriminate|].
      split; [reflexivity|]. split; [apply (HF NEEDWRITE); [reflexivity|discriminate]|reflexivity].
    + split; [reflexivity|]. right. split; [reflexivity|]. split; [discriminate|]. split; [reflexivity|]. split; [apply (HF NEEDWRITE); [reflexivity|discriminate]|reflexivity].
    + split; [reflexivity|]. right. split; [reflexivity|]. split; [discriminate|]. split; [reflexivity|]. split; [apply (HF NEEDWRITE); [reflexivity|discriminate]|reflexivity].
    + split; [reflexivity|]. right. split; [reflexivity|]. split; [discriminate|]. split; [reflexivity|]. split; [apply (HF NEEDWRITE); [reflexivity|discriminate]|reflexivity].
  - assert (fits ts addr buf) as HF by (unfold fits; rewrite Hp; exact I).
    assert (effective ts buf = buf) as HE by (unfold effective; rewrite Hp; reflexivity).
    destruct ev as [|[| r | | | | |] ev]; try reflexivity. destruct r as [n| | | | | |]; try reflexivity.
    + destruct ((1 <=? n) && (n <=? zlen buf)) eqn:Hn; [|reflexivity]. apply andb_true_iff in Hn as [N1 N2]. apply Z.leb_le in N1, N2. split; [reflexivity|]. left. cbn [fst snd]. split; [lia|]. rewrite HE. split; [cbn [out_bytes flat_map]; apply app_nil_r|]. auto.
    + destruct (t_sizes ts) as [|n sizes].
      * split; [reflexivity|]. right. split; [reflexivity|]. split; [discriminate|]. auto.
      * destruct ((1 <=? n) && (n <=? zlen buf)) eqn:Hn; [|reflexivity]. apply andb_true_iff in Hn as [N1 N2]. apply Z.leb_le in N1, N2. split; [reflexivity|]. right. split; [reflexivity|]. split; [discriminate|]. split; [reflexivity|]. cbn [snd]. unfold fits, effective at 1. cbn [t_pending].
        unfold zlen in *. rewrite firstn_length. split; [split; [reflexivity|lia]|]. rewrite HE. rewrite Nat.min_l by lia. apply firstn_skipn.
    + split; [reflexivity|]. right. split; [reflexivity|]. split; [discriminate|]. auto.
    + split; [reflexivity|]. right. split; [reflexivity|]. split; [discriminate|]. auto.
    + split; [reflexivity|]. right. split; [reflexivity|]. split; [discriminate|]. auto.
Qed.

(** ** amqp_try_send *)
(** [k] bytes were sent, the others are still to be sent *)
Definition partly (ts ts' : tls_state) (addr : Z) (buf : bytes) (k : Z) (out : bytes) : Prop :=
  0 <= k < zlen buf /\ out = firstn (Z.to_nat k) (effective ts buf) /\ fits ts' (addr + k) (skipn (Z.to_nat k) buf) /\
  effective ts' (skipn (Z.to_nat k) buf) = skipn (Z.to_nat k) (effective ts buf).
Lemma partly_none ts addr buf : fits ts addr buf -> 1 <= zlen buf -> partly ts ts addr buf 0 [].
Proof. intros H1 H2. split; [lia|]. split; [reflexivity|]. rewrite Z.add_0_r. split; [exact H1|reflexivity]. Qed.
Lemma partly_more ts t1 t2 addr buf n k out1 out2 :
  1 <= n < zlen buf -> out1 = firstn (Z.to_nat n) (effective ts buf) -> effective t1 (skipn (Z.to_nat n) buf) = skipn (Z.to_nat n) (effective ts buf) ->
  partly t1 t2 (addr + n) (skipn (Z.to_nat n) buf) k out2 -> partly ts t2 addr buf (n + k) (out1 ++ out2).
Proof.
  intros Hn -> HE (H1 & -> & H3 & H4). rewrite skipn_zlen in H1 by lia. rewrite HE in *. rewrite skipn_add in *. rewrite skipn_add in H4. replace (Z.to_nat n + Z.to_nat k)%nat with (Z.to_nat (n + k)) in * by lia.
  split; [lia|]. split; [rewrite Z2Nat.inj_add by lia; symmetry; apply firstn_add|]. rewrite Z.add_assoc. auto.
Qed.
Lemma tls_try_ok N fuel : forall len addr left d more ts c ev, fits ts addr left -> 1 <= zlen left <= len ->
  wp (tls_try_send_loop N fuel len addr left d more ts) c ev
    (fun p c' _ l => c' = c /\
       ((fst p = len /\ out_bytes l = effective ts left /\ t_pending (snd p) = None) \/
        exists k, partly ts (snd p) addr left k (out_bytes l) /\ (fst p = len - zlen left + k \/ fst p < 0)))
    (fun s c' l => prefix (out_bytes l) (effective ts left)).
Proof.
  induction fuel as [|fuel IH]; intros len addr left d more ts c ev Hf Hl; cbn [tls_try_send_loop]; [apply wp_halt, prefix_nil|].
  apply wp_bind. eapply wp_conseq; [apply (ssl_write_ok addr more left ts c ev Hf); lia| |]. 2:{ intros s c' l H. rewrite H. apply prefix_nil. }
  cbv beta. intros [r t1] c1 ev1 l1 (-> & [(Hr & Ho & Hp & Hs)|(Hr & Hrt & Ho & Hf1 & He1)]); cbn [fst snd] in *.
  - rewrite (proj2 (Z.ltb_lt 0 r)) by lia. cbv zeta. rewrite (skipn_zlen r left) by lia. pose proof (effective_len ts addr left Hf) as HEL. destruct (Z.eqb_spec (zlen left - r) 0) as [Hz|Hz].
    + apply wp_ret. split; [reflexivity|]. left. rewrite app_nil_r. cbn [fst snd]. split; [reflexivity|]. split; [|exact Hp]. rewrite Ho. apply firstn_all2. unfold zlen in *. lia.
    + assert (fits t1 (addr + r) (skipn (Z.to_nat r) left)) as F1 by (unfold fits; rewrite Hp; exact I).
      assert (effective t1 (skipn (Z.to_nat r) left) = skipn (Z.to_nat r) (effective ts left)) as E1 by (unfold effective at 1; rewrite Hp; symmetry; exact Hs).
      eapply wp_conseq; [apply (IH len (addr + r) (skipn (Z.to_nat r) left) d more t1 c ev1 F1)| |]; cbv beta.
      * rewrite skipn_zlen by lia. lia.
      * intros [r2 t2] c2 ev2 l2 (-> & H). split; [reflexivity|]. cbn [fst snd] in *. rewrite out_bytes_app. destruct H as [(-> & H2 & H3)|(k & H2 & H3)].
        -- left. split; [reflexivity|]. split; [|exact H3]. rewrite Ho, H2, E1. apply firstn_skipn.
        -- right. exists (r + k). split; [eapply partly_more; eauto; lia|]. rewrite skipn_zlen in H3 by lia. destruct H3 as [H3|H3]; [left; lia|right; exact H3].
      * intros s c2 l2 H. rewrite out_bytes_app, Ho. rewrite E1 in H. apply prefix_split, H.
  - rewrite (proj2 (Z.ltb_ge 0 r)) by lia. apply wp_bind. eapply wp_conseq; [apply (do_poll_res N r d c ev1); lia| |]; cbv beta.
    2:{ intros s c2 l2 (-> & Hq & _). rewrite out_bytes_app, Ho, (no_output_out _ (quiet_output _ Hq)). apply prefix_nil. }
    intros r2 c2 ev2 l2 (-> & Hq & Hr2 & _). pose proof (no_output_out _ (quiet_output _ Hq)) as Hq2.
    assert (partly ts t1 addr left 0 (out_bytes l1 ++ out_bytes l2)) as HP.
    { rewrite Ho, Hq2. split; [lia|]. split; [reflexivity|]. rewrite Z.add_0_r. split; [exact Hf1|exact He1]. }
    destruct (Z.eqb_spec r2 AMQP_STATUS_OK) as [->|Hok].
    + eapply wp_conseq; [apply (IH len addr left d more t1 c ev2 Hf1 Hl)| |]; cbv beta.
      * intros [r3 t3] c3 ev3 l3 (-> & H). split; [reflexivity|]. cbn [fst snd] in *. rewrite !out_bytes_app, Ho, Hq2. cbn [app]. rewrite He1 in H. destruct H as [H|(k & (K1 & K2 & K3 & K4) & H)]; [left; exact H|]. right. exists k. split; [|exact H]. rewrite He1 in *. split; [exact K1|]. auto.
      * intros s c3 l3 H. rewrite !out_bytes_app, Ho, Hq2. rewrite He1 in H. exact H.
    + destruct (Z.eqb_spec r2 AMQP_STATUS_TIMEOUT) as [->|Hto]; apply wp_ret; (split; [reflexivity|]); right; exists 0; rewrite !out_bytes_app, app_nil_r; cbn [fst snd]; (split; [exact HP|]); [left; lia|right; unfold AMQP_STATUS_OK in Hok; lia].
Qed.

(** ** amqp_send_frame_inner *)
Section Frames.
Context (N : nat) (E : nat -> aenv).
Lemma tls_loop_ok fuel : forall addr enc more d ts c ev, fits ts addr enc -> 1 <= zlen enc ->
  wp (tls_send_frame_loop N E fuel addr enc more d ts) c ev
    (fun p c' _ l => fst p <= 0 /\ c_outbuf c' = c_outbuf c /\
       ((out_bytes l = effective ts enc /\ t_pending (snd p) = None) \/ (fst p < 0 /\ exists k, partly ts (snd p) addr enc k (out_bytes l))))
    (fun s c' l => prefix (out_bytes l) (effective ts enc)).
Proof.
  induction fuel as [|fuel IH]; intros addr enc more d ts c ev Hf Hl; cbn [tls_send_frame_loop]; [apply wp_halt, prefix_nil|].
  apply wp_get_bind. cbv zeta. apply wp_bind. eapply wp_conseq; [apply (tls_try_ok N N (zlen enc) addr enc (amqp_time_first d (c_next_recv c)) more ts c ev Hf); lia| |]; cbv beta.
  2:{ auto. }
  intros [r t1] c1 ev1 l1 (-> & H). cbn [fst snd] in *.
  destruct (Z.ltb_spec r 0) as [Hr|Hr].
  - apply wp_ret. rewrite app_nil_r. cbn [fst snd]. split; [lia|]. split; [reflexivity|]. destruct H as [(-> & _)|(k & H & _)]; [lia|]. right. split; [exact Hr|]. eauto.
  - destruct (Z.eqb_spec (zlen enc) r) as [<-|Hne]; cbn [negb].
    + assert (out_bytes l1 = effective ts enc /\ t_pending t1 = None) as [Ho Hp]. { destruct H as [(_ & H1 & H2)|(k & (K1 & _) & [H|H])]; [auto|lia|lia]. }
      apply wp_bind. eapply wp_conseq; [apply update_next_send_ok| |]; cbv beta.
      * intros r2 c2 ev2 l2 (Hq & Hr2 & _ & Hc & _). apply wp_ret. cbn [fst snd]. rewrite app_nil_r, out_bytes_app, (no_output_out _ (quiet_output _ Hq)), app_nil_r. split; [exact Hr2|]. split; [destruct Hc as [->|[t ->]]; reflexivity|]. left. auto.
      * intros s c2 l2 (-> & Hq & _). rewrite out_bytes_app, (no_output_out _ (quiet_output _ Hq)), app_nil_r, Ho. apply prefix_refl.
    + destruct H as [(-> & _)|(k & HP & [Hk|Hk])]; [congruence| |lia]. assert (k = r) as -> by lia. pose proof HP as (K1 & K2 & K3 & K4).
      assert (prefix (out_bytes l1) (effective ts enc)) as Hpre by (rewrite K2; apply prefix_firstn).
      destruct (amqp_time_equal _ d); [apply wp_ret; rewrite app_nil_r; cbn [fst snd]; split; [discriminate|]; split; [reflexivity|]; right; split; [reflexivity|eauto]|].
      apply wp_bind. eapply wp_conseq; [apply try_recv_ok| |]; cbv beta.
      2:{ intros s c2 l2 Hno. rewrite out_bytes_app, (no_output_out _ Hno), app_nil_r. exact Hpre. }
      intros r2 c2 ev2 l2 (Hr2 & _ & _ & _ & Hno & _ & Hob & _). pose proof (no_output_out _ Hno) as Hq2.
      assert (exists k, partly ts t1 addr enc k (out_bytes (l1 ++ l2))) as HX by (rewrite out_bytes_app, Hq2, app_nil_r; eauto).
      destruct (r2 =? AMQP_STATUS_TIMEOUT); [apply wp_ret; rewrite app_nil_r; cbn [fst snd]; split; [discriminate|]; split; [exact Hob|]; right; split; [reflexivity|exact HX]|].
      destruct (Z.eqb_spec r2 AMQP_STATUS_OK) as [->|Hok]; cbn [negb]; [|apply wp_ret; rewrite app_nil_r; cbn [fst snd]; split; [exact Hr2|]; split; [exact Hob|]; right; split; [unfold AMQP_STATUS_OK in Hok; lia|exact HX]].
      eapply wp_conseq; [apply (IH (addr + r) (skipn (Z.to_nat r) enc) more d t1 c2 ev2 K3)| |]; cbv beta.
      * rewrite skipn_zlen by lia. lia.
      * intros [r3 t3] c3 ev3 l3 (H1 & H2 & H3). cbn [fst snd] in *. split; [exact H1|]. split; [congruence|]. rewrite !out_bytes_app, Hq2. cbn [app]. rewrite K2. destruct H3 as [(H3 & H4)|(H3 & k & H4)].
        -- left. split; [rewrite H3, K4; apply firstn_skipn|exact H4].
        -- right. split; [exact H3|]. destruct (Z.eq_dec r 0) as [->|Hr0].
           ++ exists k. cbn [Z.to_nat firstn skipn app] in *. rewrite Z.add_0_r in H4. destruct H4 as (L1 & L2 & L3 & L4). rewrite K4 in *. split; [exact L1|auto].
           ++ exists (r + k). eapply partly_more; [lia|reflexivity|exact K4|exact H4].
      * intros s c3 l3 H. rewrite !out_bytes_app, Hq2. cbn [app]. rewrite K2. rewrite K4 in H. apply prefix_split, H.
Qed.
(** a record of another address, or longer than what is to be sent: nothing is sent *)
Lemma bad_try fuel len addr buf d more ts c ev : ~ fits ts addr buf -> 1 <= zlen buf -> (match t_pending ts with Some (_, rec) => 1 <= zlen rec | None => True end) ->
  wp (tls_try_send_loop N fuel len addr buf d more ts) c ev (fun p c' _ l => c' = c /\ fst p < 0 /\ out_bytes l = [] /\ snd p = ts) (fun s c' l => out_bytes l = []).
Proof.
  intros Hf Hl Hr. destruct fuel as [|fuel]; cbn [tls_try_send_loop]; [apply wp_halt; reflexivity|]. apply wp_bind.
  eapply (wp_conseq _ _ _ (fun p c' _ l => c' = c /\ (fst p = AMQP_STATUS_SSL_ERROR \/ fst p = AMQP_STATUS_SOCKET_CLOSED) /\ out_bytes l = [] /\ snd p = ts) _ (fun s c' l => out_bytes l = [])).
  - unfold tls_socket_send. apply wp_get_bind. destruct (c_fd c =? -1); [apply wp_ret; auto 6|]. unfold ssl_write, wp. unfold fits in Hf. destruct (t_pending ts) as [[a rec]|]; [|contradiction Hf; exact I].
    destruct ((a =? addr) && (zlen rec <=? zlen buf)) eqn:Hb; [apply andb_true_iff in Hb as [B1 B2]; apply Z.eqb_eq in B1; apply Z.leb_le in B2; contradiction Hf; split; [exact B1|lia]|].
    destruct ev as [|[| r | | | | |] ev]; try reflexivity. destruct r; try reflexivity. cbn. auto 6.
  - intros [r t1] c1 ev1 l1 (-> & Hc & Ho & Ht). cbn [fst snd] in *. subst t1. assert (r < 0 /\ r <> NEEDREAD /\ r <> NEEDWRITE) as (H1 & H2 & H3) by (destruct Hc as [->| ->]; repeat split; discriminate).
    rewrite (proj2 (Z.ltb_ge 0 r)) by lia. unfold do_poll. apply wp_bind. apply wp_get_bind. destruct (c_fd c =? -1).
    + apply wp_ret. cbn. unfold wp. cbn. rewrite app_nil_r. split; [reflexivity|]. split; [reflexivity|]. split; [exact Ho|reflexivity].
    + rewrite (proj2 (Z.eqb_neq _ _) H2), (proj2 (Z.eqb_neq _ _) H3). apply wp_ret. destruct (Z.eqb_spec r AMQP_STATUS_OK) as [->|_]; [discriminate H1|]. destruct (Z.eqb_spec r AMQP_STATUS_TIMEOUT) as [->|_]; [destruct Hc; discriminate|]. apply wp_ret. rewrite !app_nil_r. auto.
  - auto.
Qed.
Lemma bad_loop fuel addr enc more d ts c ev : ~ fits ts addr enc -> 1 <= zlen enc -> (match t_pending ts with Some (_, rec) => 1 <= zlen rec | None => True end) ->
  wp (tls_send_frame_loop N E fuel addr enc more d ts) c ev (fun p c' _ l => fst p < 0 /\ out_bytes l = [] /\ snd p = ts) (fun s c' l => out_bytes l = []).
Proof.
  intros Hf Hl Hr. destruct fuel as [|fuel]; cbn [tls_send_frame_loop]; [apply wp_halt; reflexivity|]. apply wp_get_bind. cbv zeta. apply wp_bind. eapply wp_conseq; [apply (bad_try N (zlen enc) addr enc (amqp_time_first d (c_next_recv c)) more ts c ev Hf Hl Hr)| |auto]; cbv beta.
  intros [r t1] c1 ev1 l1 (-> & H1 & H2 & Ht). cbn [fst snd] in *. subst t1. rewrite (proj2 (Z.ltb_lt r 0) H1). apply wp_ret. rewrite app_nil_r. auto.
Qed.
End Frames.

(** ** C87 *)
Definition sendable_frame (room : Z) (a : aframe) : Prop := aframe_ok a /\ forall b, a = ABody b -> zlen b + 8 <= room.
Lemma frame_len chan a : 1 <= zlen (ser_frame chan a).
Proof. unfold ser_frame. rewrite zlen_wire. pose proof (zlen_nonneg (ser_payload a)). lia. Qed.
(** any record that is there *)
Lemma inner_ok N E base chan a more d ts c ev : sendable_frame (zlen (c_outbuf c)) a -> 20 <= zlen (c_outbuf c) < M31 -> fits ts base (ser_frame chan a) ->
  wp (tls_send_frame_inner N E base (c_frame chan a) more d ts) c ev
    (fun p c' _ l => fst p <= 0 /\ zlen (c_outbuf c') = zlen (c_outbuf c) /\
       ((out_bytes l = effective ts (ser_frame chan a) /\ t_pending (snd p) = None) \/
        (fst p < 0 /\ ((out_bytes l = [] /\ snd p = ts) \/ exists k, partly ts (snd p) base (ser_frame chan a) k (out_bytes l)))))
    (fun s c' l => prefix (out_bytes l) (effective ts (ser_frame chan a))).
Proof.
  intros [Ha Hbody] Hb Hf. destruct (C10_frame_bytes chan a (c_outbuf c) Ha Hb Hbody) as (st & buf' & enc & HF & Hbl & Hc).
  unfold tls_send_frame_inner. apply wp_get_bind. rewrite HF. apply wp_upd_bind. destruct Hc as [(-> & -> & _)|(Hneg & _)].
  - cbn [negb Z.eqb]. rewrite Z.eqb_refl. cbn [negb]. eapply wp_conseq; [apply (tls_loop_ok N E N base (ser_frame chan a) more d ts _ ev Hf (frame_len chan a))| |auto]; cbv beta.
    intros p c' ev' l (H1 & H2 & H3). split; [exact H1|]. split; [rewrite H2; exact Hbl|]. destruct H3 as [H3|(H3 & H4)]; auto.
  - destruct (Z.eqb_spec st AMQP_STATUS_OK) as [->|_]; [discriminate Hneg|]. cbn [negb]. apply wp_ret. cbn [fst snd]. split; [lia|]. split; [exact Hbl|]. right. auto.
Qed.
(** One frame, when OpenSSL has nothing to send: the peer gets a beginning of the frame, all
    of it if the call succeeds, and then OpenSSL has nothing to send again.  After a failure
    OpenSSL may have a record to send, which is the continuation of this frame. *)
Theorem C87_frame_partial :
  forall (N : nat) (E : nat -> aenv) (buffer chan : Z) (a : aframe) (more : bool) (deadline : Z) (ts : tls_state) (c : conn) (ev : list event),
    sendable_frame (zlen (c_outbuf c)) a -> 20 <= zlen (c_outbuf c) < M31 -> t_pending ts = None ->
    match tls_send_frame_inner N E buffer (c_frame chan a) more deadline ts c ev with
    | Done (r, ts') c' _ l =>
        r <= 0 /\ prefix (out_bytes l) (ser_frame chan a) /\ zlen (c_outbuf c') = zlen (c_outbuf c) /\
        (r = AMQP_STATUS_OK -> out_bytes l = ser_frame chan a /\ t_pending ts' = None) /\
        (forall address record, t_pending ts' = Some (address, record) ->
           address = buffer + zlen (out_bytes l) /\ prefix (out_bytes l ++ record) (ser_frame chan a))
    | Halt _ _ l => prefix (out_bytes l) (ser_frame chan a)
    end.
Proof.
  intros N E base chan a more d ts c ev Ha Hb Hp. assert (fits ts base (ser_frame chan a)) as Hf by (unfold fits; rewrite Hp; exact I).
  assert (effective ts (ser_frame chan a) = ser_frame chan a) as HE by (unfold effective; rewrite Hp; reflexivity).
  pose proof (inner_ok N E base chan a more d ts c ev Ha Hb Hf) as W. unfold wp in W. rewrite HE in W. destruct (tls_send_frame_inner N E base (c_frame chan a) more d ts c ev) as [[r t] c' ev' l|s c' l]; [|exact W]. cbn [fst snd] in W. destruct W as (W1 & W2 & W3).
  split; [exact W1|]. assert (prefix (out_bytes l) (ser_frame chan a)) as HP. { destruct W3 as [(-> & _)|(_ & [(-> & _)|(k & (_ & -> & _))])]; [apply prefix_refl|apply prefix_nil|rewrite HE; apply prefix_firstn]. }
  split; [exact HP|]. split; [exact W2|]. split.
  - intros ->. destruct W3 as [W3|(W3 & _)]; [exact W3|discriminate W3].
  - intros address rec Ht. destruct W3 as [(_ & W3)|(_ & [(_ & ->)|(k & K1 & K2 & K3 & K4)])]; [congruence|congruence|].
    unfold fits in K3. unfold effective at 1 in K4. rewrite Ht in K3, K4. destruct K3 as [-> K3]. rewrite HE in K2, K4. rewrite K2. split; [unfold zlen in *; rewrite firstn_length; lia|].
    exists (skipn (length rec) (skipn (Z.to_nat k) (ser_frame chan a))). rewrite <- app_assoc, K4. symmetry. apply firstn_skipn.
Qed.
(** Any number of frames, until a call fails: the peer gets a beginning of these frames, all
    of them if no call has failed. *)
Theorem C87_frames_partial :
  forall (N : nat) (E : nat -> aenv) (buffer : Z) (fs : list (Z * aframe)) (ts : tls_state) (c : conn) (ev : list event),
    Forall (fun ca => sendable_frame (zlen (c_outbuf c)) (snd ca)) fs -> 20 <= zlen (c_outbuf c) < M31 -> t_pending ts = None ->
    let stream := concat (map (fun ca => ser_frame (fst ca) (snd ca)) fs) in
    match tls_send_frames N E buffer (map (fun ca => c_frame (fst ca) (snd ca)) fs) ts c ev with
    | Done (r, ts') _ _ l => prefix (out_bytes l) stream /\ (r = AMQP_STATUS_OK -> out_bytes l = stream /\ t_pending ts' = None)
    | Halt _ _ l => prefix (out_bytes l) stream
    end.
Proof.
  intros N E base fs. induction fs as [|[chan a] fs IH]; intros ts c ev Hfs Hb Hp; cbn [map concat tls_send_frames fst snd].
  - cbn. split; [apply prefix_nil|auto].
  - inversion Hfs as [|? ? Ha Hr]; subst. cbn [snd] in Ha. pose proof (C87_frame_partial N E base chan a false amqp_time_infinite ts c ev Ha Hb Hp) as W. unfold tls_send_frame. unfold bind at 1.
    destruct (tls_send_frame_inner N E base (c_frame chan a) false amqp_time_infinite ts c ev) as [[r t] c1 ev1 l1|s c1 l1].
    + destruct W as (W1 & W2 & W3 & W4 & _). cbn [fst snd]. destruct (Z.eqb_spec r AMQP_STATUS_OK) as [->|Hr0].
      * destruct (W4 eq_refl) as [Ho Ht]. specialize (IH t c1 ev1). rewrite W3 in IH. specialize (IH Hr Hb Ht). cbv zeta in IH.
        destruct (tls_send_frames N E base (map (fun ca => c_frame (fst ca) (snd ca)) fs) t c1 ev1) as [[r2 t2] c2 ev2 l2|s c2 l2].
        -- destruct IH as [I1 I2]. rewrite out_bytes_app, Ho. split; [destruct I1 as [x I1]; exists x; rewrite I1, app_assoc; reflexivity|]. intros Hr2. destruct (I2 Hr2) as [-> I3]. auto.
        -- rewrite out_bytes_app, Ho. destruct IH as [x I1]. exists x. rewrite I1, app_assoc. reflexivity.
      * cbn [ret]. rewrite app_nil_r. split; [destruct W2 as [x W2]; exists (x ++ concat (map (fun ca => ser_frame (fst ca) (snd ca)) fs)); rewrite app_assoc, <- W2; reflexivity|contradiction].
    + destruct W as [x W]. exists (x ++ concat (map (fun ca => ser_frame (fst ca) (snd ca)) fs)). rewrite app_assoc, <- W. reflexivity.
Qed.
(** After a failed send a record may be left.  Then the claim is false of every later frame
    that is sent from the same buffer: if the call succeeds, the peer has got the old record
    and the rest of the frame after as many bytes. *)
Theorem C87_old_record_refuted :
  forall (N : nat) (E : nat -> aenv) (buffer chan : Z) (a : aframe) (more : bool) (deadline : Z) (ts : tls_state) (record : bytes) (c c' : conn) (ev ev' : list event) (ts' : tls_state) (l : list obs),
    sendable_frame (zlen (c_outbuf c)) a -> 20 <= zlen (c_outbuf c) < M31 -> t_pending ts = Some (buffer, record) -> 1 <= zlen record ->
    tls_send_frame_inner N E buffer (c_frame chan a) more deadline ts c ev = Done (AMQP_STATUS_OK, ts') c' ev' l ->
    out_bytes l = record ++ skipn (length record) (ser_frame chan a) /\ zlen record <= zlen (ser_frame chan a) /\
    (out_bytes l = ser_frame chan a -> prefix record (ser_frame chan a)).
Proof.
  intros N E base chan a more d ts rec c c' ev ev' ts' l Ha Hb Hp Hr H.
  assert (zlen rec <= zlen (ser_frame chan a)) as Hl.
  { destruct (Z_le_gt_dec (zlen rec) (zlen (ser_frame chan a))) as [G|G]; [exact G|exfalso]. assert (~ fits ts base (ser_frame chan a)) as Hn by (unfold fits; rewrite Hp; lia).
    destruct Ha as [Ha Hbody]. destruct (C10_frame_bytes chan a (c_outbuf c) Ha Hb Hbody) as (st & buf' & enc & HF & Hbl & Hc). unfold tls_send_frame_inner, bind, get in H. rewrite HF in H. cbn [upd] in H.
    destruct Hc as [(-> & -> & _)|(Hneg & _)].
    - rewrite Z.eqb_refl in H. cbn [negb] in H. pose proof (bad_loop N E N base (ser_frame chan a) more d ts (set_outbuf c buf') ev Hn (frame_len chan a)) as W. rewrite Hp in W. specialize (W Hr). unfold wp in W. unfold upd in H.
      destruct (tls_send_frame_loop N E N base (ser_frame chan a) more d ts (set_outbuf c buf') ev) as [[r t] c2 ev2 l2|]; [|discriminate]. injection H as -> _ _ _ _. destruct W as [W _]. discriminate W.
    - destruct (Z.eqb_spec st AMQP_STATUS_OK) as [->|Hst]; [discriminate Hneg|]. cbn in H. injection H as -> _ _ _ _. contradiction. }
  assert (fits ts base (ser_frame chan a)) as Hf by (unfold fits; rewrite Hp; auto).
  assert (effective ts (ser_frame chan a) = rec ++ skipn (length rec) (ser_frame chan a)) as HE by (unfold effective; rewrite Hp; reflexivity).
  pose proof (inner_ok N E base chan a more d ts c ev Ha Hb Hf) as W. unfold wp in W. rewrite H, HE in W. cbn [fst snd] in W. destruct W as (_ & _ & [(W & _)|(W & _)]); [|discriminate W].
  split; [exact W|]. split; [exact Hl|]. intros G. exists (skipn (length rec) (ser_frame chan a)). congruence.
Qed.
(** A frame that is shorter than the old record, or in another buffer, is not sent *)
Theorem C87_bad_retry :
  forall (N : nat) (E : nat -> aenv) (buffer chan : Z) (a : aframe) (more : bool) (deadline : Z) (ts : tls_state) (address : Z) (record : bytes) (c : conn) (ev : list event),
    sendable_frame (zlen (c_outbuf c)) a -> 20 <= zlen (c_outbuf c) < M31 -> t_pending ts = Some (address, record) -> 1 <= zlen record ->
    address <> buffer \/ zlen (ser_frame chan a) < zlen record ->
    match tls_send_frame_inner N E buffer (c_frame chan a) more deadline ts c ev with
    | Done (r, ts') _ _ l => r < 0 /\ out_bytes l = [] /\ ts' = ts
    | Halt _ _ l => out_bytes l = []
    end.
Proof.
  intros N E base chan a more d ts address rec c ev [Ha Hbody] Hb Hp Hr Hbad. assert (~ fits ts base (ser_frame chan a)) as Hn by (unfold fits; rewrite Hp; lia).
  destruct (C10_frame_bytes chan a (c_outbuf c) Ha Hb Hbody) as (st & buf' & enc & HF & Hbl & Hc). unfold tls_send_frame_inner, bind, get. rewrite HF. unfold upd.
  destruct Hc as [(-> & -> & _)|(Hneg & _)].
  - rewrite Z.eqb_refl. cbn [negb]. pose proof (bad_loop N E N base (ser_frame chan a) more d ts (set_outbuf c buf') ev Hn (frame_len chan a)) as W. rewrite Hp in W. specialize (W Hr). unfold wp in W.
    destruct (tls_send_frame_loop N E N base (ser_frame chan a) more d ts (set_outbuf c buf') ev) as [[r t] c2 ev2 l2|]; exact W.
  - destruct (Z.eqb_spec st AMQP_STATUS_OK) as [->|Hst]; [discriminate Hneg|]. cbn. auto.
Qed.
(** ** Net.v *)
(** Net.v, which has no records, is right about TLS as long as no record of a failed send is
    left: the same run on the same events *)
Definition continues (ts : tls_state) (address : Z) (buf : bytes) : Prop :=
  match t_pending ts with None => True | Some (a, record) => a = address /\ 1 <= zlen record /\ prefix record buf end.
Lemma continues_fits ts a buf : continues ts a buf -> fits ts a buf /\ effective ts buf = buf.
Proof.
  unfold continues, fits, effective. destruct (t_pending ts) as [[x rec]|]; [|auto]. intros (-> & H & (r & ->)). split; [split; [reflexivity|rewrite zlen_app; pose proof (zlen_nonneg r); lia]|]. rewrite skipn_app, skipn_all, Nat.sub_diag. reflexivity.
Qed.
Lemma net_send N addr more buf ts c ev r ts' c' ev' l : continues ts addr buf -> (0 < N)%nat ->
  tls_socket_send addr more buf ts c ev = Done (r, ts') c' ev' l ->
  Net.amqp_socket_send N more buf c ev = Done r c' ev' l /\ (r <= 0 -> continues ts' addr buf) /\ (0 < r -> t_pending ts' = None).
Proof.
  intros Hc HN H. destruct N as [|n]; [lia|]. unfold tls_socket_send, Net.amqp_socket_send, bind, get in *. destruct (c_fd c =? -1).
  { cbn in H. injection H as <- <- <- <- <-. split; [reflexivity|]. split; [intros _; exact Hc|discriminate]. }
  cbn [Net.tcp_send_loop]. unfold ssl_write in H. unfold bind, sys_send. pose proof (continues_fits _ _ _ Hc) as [Hf He]. unfold fits in Hf. pose proof Hc as HC. unfold continues in Hc. destruct (t_pending ts) as [[x rec]|] eqn:Hp.
  - destruct Hf as [-> Hf]. rewrite Z.eqb_refl, (proj2 (Z.leb_le _ _) (proj2 Hf)) in H. cbn [andb] in H. destruct Hc as (_ & _ & (z & Hz)).
    destruct ev as [|[| e | | | | |] ev]; try discriminate. destruct e as [k| | | | | |]; try discriminate; cbv iota beta in *.
    + destruct (k =? zlen rec) eqn:Hk; [|discriminate]. apply Z.eqb_eq in Hk. subst k. injection H as <- <- <- <- <-. rewrite Z.min_l, Z.max_r by lia. replace (firstn (Z.to_nat (zlen rec)) buf) with rec by (rewrite Hz; unfold zlen; rewrite Nat2Z.id, firstn_app, Nat.sub_diag, firstn_all2 by lia; cbn [firstn]; rewrite app_nil_r; reflexivity). split; [reflexivity|]. split; [unfold zlen in *; lia|reflexivity].
    + injection H as <- <- <- <- <-. split; [reflexivity|]. split; [auto|discriminate].
    + injection H as <- <- <- <- <-. split; [reflexivity|]. split; [auto|discriminate].
    + injection H as <- <- <- <- <-. split; [reflexivity|]. split; [auto|discriminate].
    + injection H as <- <- <- <- <-. split; [reflexivity|]. split; [auto|discriminate].
  - destruct ev as [|[| e | | | | |] ev]; try discriminate. destruct e as [k| | | | | |]; try discriminate; cbv iota beta in *.
    + destruct ((1 <=? k) && (k <=? zlen buf)) eqn:Hk; [|discriminate]. apply andb_true_iff in Hk as [K1 K2]. apply Z.leb_le in K1, K2. injection H as <- <- <- <- <-. rewrite Z.min_l, Z.max_r by lia. split; [reflexivity|]. split; [lia|auto].
    + destruct (t_sizes ts) as [|k sizes].
      * injection H as <- <- <- <- <-. split; [reflexivity|]. split; [auto|discriminate].
      * destruct ((1 <=? k) && (k <=? zlen buf)) eqn:Hk; [|discriminate]. apply andb_true_iff in Hk as [K1 K2]. apply Z.leb_le in K1, K2. injection H as <- <- <- <- <-. split; [reflexivity|]. split; [intros _|discriminate]. unfold continues. cbn [t_pending]. split; [reflexivity|]. split; [unfold zlen in *; rewrite firstn_length; lia|apply prefix_firstn].
    + injection H as <- <- <- <- <-. split; [reflexivity|]. split; [auto|discriminate].
    + injection H as <- <- <- <- <-. split; [reflexivity|]. split; [auto|discriminate].
    + injection H as <- <- <- <- <-. split; [reflexivity|]. split; [auto|discriminate].
Qed.
Lemma net_try N fuel : (0 < N)%nat -> forall len addr left d more ts c ev r ts' c' ev' l, continues ts addr left -> 1 <= zlen left <= len ->
  tls_try_send_loop N fuel len addr left d more ts c ev = Done (r, ts') c' ev' l ->
  try_send_loop N fuel len left d more c ev = Done r c' ev' l /\ (0 <= r < len -> continues ts' (addr + (r - (len - zlen left))) (skipn (Z.to_nat (r - (len - zlen left))) left)).
Proof.
  intros HN. induction fuel as [|fuel IH]; intros len addr left d more ts c ev r ts' c' ev' l Hc Hl H; cbn [tls_try_send_loop try_send_loop] in *; [discriminate|].
  unfold bind in *. destruct (tls_socket_send addr more left ts c ev) as [[r1 t1] c1 ev1 l1|] eqn:HS; [|discriminate]. cbv iota beta in H.
  pose proof (ssl_write_ok addr more left ts c ev (proj1 (continues_fits _ _ _ Hc)) ltac:(lia)) as W. unfold wp in W. rewrite HS in W. cbn [fst snd] in W.
  destruct (net_send N _ _ _ _ _ _ _ _ _ _ _ Hc HN HS) as (S1 & S2 & S3). rewrite S1. destruct (Z.ltb_spec 0 r1) as [Hr1|Hr1].
  - destruct W as (-> & [(W1 & _)|(W1 & _)]); [|lia]. cbv zeta in *. rewrite (skipn_zlen r1 left) in * by lia. destruct (Z.eqb_spec (zlen left - r1) 0) as [Hz|Hz].
    + cbn [ret] in *. injection H as <- <- <- <- <-. split; [reflexivity|lia].
    + destruct (tls_try_send_loop N fuel len (addr + r1) (skipn (Z.to_nat r1) left) d more t1 c ev1) as [[r2 t2] c2 ev2 l2|] eqn:HT; [|discriminate]. injection H as <- <- <- <- <-.
      assert (continues t1 (addr + r1) (skipn (Z.to_nat r1) left)) as C1 by (unfold continues; rewrite (S3 Hr1); exact I).
      assert (zlen (skipn (Z.to_nat r1) left) = zlen left - r1) as HL by (apply skipn_zlen; lia).
      destruct (IH len _ _ d more t1 c ev1 r2 t2 c2 ev2 l2 C1 ltac:(lia) HT) as [I1 I2]. rewrite I1. split; [reflexivity|]. intros Hr2. specialize (I2 Hr2).
      pose proof (tls_try_ok N fuel len _ _ d more t1 c ev1 (proj1 (continues_fits _ _ _ C1)) ltac:(lia)) as V. unfold wp in V. rewrite HT in V. cbn [fst snd] in V. destruct V as (_ & [(V & _)|(k & (V & _) & [V2|V2])]); [lia| |lia].
      rewrite HL in *. rewrite skipn_add in I2. replace (Z.to_nat r1 + Z.to_nat (r2 - (len - (zlen left - r1))))%nat with (Z.to_nat (r2 - (len - zlen left))) in I2 by lia. replace (addr + (r2 - (len - zlen left))) with (addr + r1 + (r2 - (len - (zlen left - r1)))) by lia. exact I2.
  - destruct W as (-> & [(W1 & _)|(W1 & _ & _ & W2 & W3)]); [lia|]. specialize (S2 ltac:(lia)). destruct (do_poll N r1 d c ev1) as [r2 c2 ev2 l2|] eqn:HD; [|discriminate]. cbv iota beta in H.
    pose proof (do_poll_res N r1 d c ev1 ltac:(lia)) as V. unfold wp in V. rewrite HD in V. destruct V as (-> & _ & Hr2 & _).
    destruct (r2 =? AMQP_STATUS_OK) eqn:Hok.
    + destruct (tls_try_send_loop N fuel len addr left d more t1 c ev2) as [[r3 t3] c3 ev3 l3|] eqn:HT; [|discriminate]. injection H as <- <- <- <- <-. destruct (IH len _ _ d more t1 c ev2 r3 t3 c3 ev3 l3 S2 Hl HT) as [I1 I2]. rewrite I1. auto.
    + apply Z.eqb_neq in Hok. unfold AMQP_STATUS_OK in Hok. destruct (r2 =? AMQP_STATUS_TIMEOUT) eqn:Hto; cbn [ret] in *; injection H as <- <- <- <- <-; (split; [reflexivity|]); [|lia].
      intros _. replace (len - zlen left - (len - zlen left)) with 0 by lia. rewrite Z.add_0_r. exact S2.
Qed.
(** what both models say of a frame is the same *)
Theorem C87_net :
  forall (N : nat) (E : nat -> aenv) (buffer chan : Z) (a : aframe) (more : bool) (deadline : Z) (ts ts' : tls_state) (c c' : conn) (ev ev' : list event) (r : Z) (l : list obs),
    (0 < N)%nat -> sendable_frame (zlen (c_outbuf c)) a -> 20 <= zlen (c_outbuf c) < M31 -> t_pending ts = None ->
    tls_send_frame_inner N E buffer (c_frame chan a) more deadline ts c ev = Done (r, ts') c' ev' l ->
    Net.amqp_send_frame_inner N E (c_frame chan a) more deadline c ev = Done r c' ev' l.
Proof.
  intros N E base chan a more d ts ts' c c' ev ev' r l HN [Ha Hbody] Hb Hp H. destruct (C10_frame_bytes chan a (c_outbuf c) Ha Hb Hbody) as (st & buf' & enc & HF & Hbl & Hc).
  unfold tls_send_frame_inner, Net.amqp_send_frame_inner, bind, get, upd in *. rewrite HF in *. destruct Hc as [(-> & -> & _)|(Hneg & _)].
  2:{ destruct (Z.eqb_spec st AMQP_STATUS_OK) as [->|Hst]; [discriminate Hneg|]. cbn in *. injection H as <- <- <- <- <-. reflexivity. }
  rewrite Z.eqb_refl in *. cbn [negb] in *.
  assert (forall fuel addr enc ts c ev r ts' c' ev' l, continues ts addr enc -> 1 <= zlen enc -> tls_send_frame_loop N E fuel addr enc more d ts c ev = Done (r, ts') c' ev' l -> send_frame_loop N E fuel enc more d c ev = Done r c' ev' l) as G.
  2:{ destruct (tls_send_frame_loop N E N base (ser_frame chan a) more d ts (set_outbuf c buf') ev) as [[r1 t1] c1 ev1 l1|] eqn:HT; [|discriminate]. injection H as <- <- <- <- <-. rewrite (G _ _ _ _ _ _ _ _ _ _ _ ltac:(unfold continues; rewrite Hp; exact I) (frame_len chan a) HT). reflexivity. }
  clear - HN. induction fuel as [|fuel IH]; intros addr enc ts c ev r ts' c' ev' l Hc Hl H; cbn [tls_send_frame_loop send_frame_loop] in *; [discriminate|].
  unfold bind, get in *. cbv zeta in *. unfold tls_try_send, amqp_try_send in *. destruct (tls_try_send_loop N N (zlen enc) addr enc (amqp_time_first d (c_next_recv c)) more ts c ev) as [[s1 t1] c1 ev1 l1|] eqn:HT; [|discriminate]. cbv iota beta in H.
  destruct (net_try N N HN (zlen enc) addr enc _ _ _ _ _ _ _ _ _ _ Hc (conj Hl (Z.le_refl _)) HT) as [I1 I2]. rewrite I1.
  pose proof (tls_try_ok N N (zlen enc) addr enc (amqp_time_first d (c_next_recv c)) more ts c ev (proj1 (continues_fits _ _ _ Hc)) ltac:(lia)) as W. unfold wp in W. rewrite HT in W. cbn [fst snd] in W. destruct W as (-> & W).
  destruct (Z.ltb_spec s1 0) as [Hs|Hs]; [cbn [ret] in *; injection H as <- <- <- <- <-; reflexivity|]. destruct (Z.eqb_spec (zlen enc) s1) as [He|He]; cbn [negb] in *.
  - destruct (update_next_send c ev1) as [r2 c2 ev2 l2|]; [|discriminate]. cbn in H. rewrite ?app_nil_r in H. injection H as <- <- <- <- <-. reflexivity.
  - destruct (amqp_time_equal _ d); [cbn [ret] in *; injection H as <- <- <- <- <-; reflexivity|]. destruct (amqp_try_recv N E c ev1) as [r2 c2 ev2 l2|]; [|discriminate]. cbv iota beta in H. destruct (r2 =? AMQP_STATUS_TIMEOUT); [cbn [ret] in *; injection H as <- <- <- <- <-; reflexivity|].
    destruct (negb (r2 =? AMQP_STATUS_OK)); [cbn [ret] in *; injection H as <- <- <- <- <-; reflexivity|].
    destruct (tls_send_frame_loop N E fuel (addr + s1) (skipn (Z.to_nat s1) enc) more d t1 c2 ev2) as [[r3 t3] c3 ev3 l3|] eqn:HT2; [|discriminate]. injection H as <- <- <- <- <-.
    assert (0 <= s1 < zlen enc) as Hs1 by (destruct W as [(W & _)|(k & (W & _) & [W2|W2])]; lia). specialize (I2 Hs1). replace (s1 - (zlen enc - zlen enc)) with s1 in I2 by lia.
    rewrite (IH _ _ _ _ _ _ _ _ _ _ I2 ltac:(rewrite skipn_zlen; lia) HT2). reflexivity.
Qed.
Print Assumptions C87_frame_partial.
Print Assumptions C87_frames_partial.
Print Assumptions C87_old_record_refuted.
Print Assumptions C87_bad_retry.
Print Assumptions C87_net.

(** ** Cases *)
Definition an_ack : aframe := AMethod 60 80 [("delivery_tag", Longlong); ("multiple", Bit)] [("delivery_tag", VInt 7); ("multiple", VBool 0)].
Lemma ack_sendable room : sendable_frame room an_ack.
Proof.
  split; [|discriminate]. split; [vm_compute; tauto|]. unfold well_typed. repeat (constructor; [cbn; split; [reflexivity|lia]|]). constructor.
Qed.
Lemma beat_sendable room : sendable_frame room AHeartbeat. Proof. split; [exact I|discriminate]. Qed.
(** two frames; the record of the first one blocks after 4 bytes were accepted, and once more;
    SSL_write must read before it can go on *)
Example C87_case :
  Forall (fun ca => sendable_frame (zlen (c_outbuf (new_connection 5))) (snd ca)) [(3, an_ack); (0, AHeartbeat)] /\ 20 <= zlen (c_outbuf (new_connection 5)) < M31 /\
  match tls_send_frames 100 plain_env 4096 [c_frame 3 an_ack; c_frame 0 AHeartbeat] (mkTlsState None [10]) (new_connection 5)
          [EvSend (SOk 4); EvSend SAgain; EvPoll PReady; EvSend SWantRead; EvPoll PReady; EvSend SAgain; EvPoll PReady; EvSend (SOk 10); EvSend (SOk 7); EvSend (SOk 8)] with
  | Done (r, ts) _ rest l => r = AMQP_STATUS_OK /\ rest = [] /\ t_pending ts = None /\ out_bytes l = ser_frame 3 an_ack ++ ser_frame 0 AHeartbeat
  | Halt _ _ _ => False
  end.
Proof.
  split; [repeat constructor; try apply ack_sendable; try exact I; discriminate|]. split; [vm_compute; split; [discriminate|reflexivity]|]. vm_compute. repeat split.
Qed.
(** The heartbeat blocks until the peer is overdue; the call returns
    AMQP_STATUS_HEARTBEAT_TIMEOUT and leaves the socket open (C44).  Then a message is
    acknowledged: the call succeeds, and the peer gets the heartbeat and the end of the
    acknowledgement without its beginning: no frame.  Without TLS it gets the
    acknowledgement. *)
Theorem C87_corrupted_refuted :
  exists (c : conn) (ts : tls_state) (ev1 ev2 : list event), t_pending ts = None /\ sendable_frame (zlen (c_outbuf c)) an_ack /\ 20 <= zlen (c_outbuf c) < M31 /\
    match tls_send_frame 100 plain_env 4096 (c_frame 0 AHeartbeat) ts c ev1 with
    | Done (r1, ts1) c1 _ l1 => r1 = AMQP_STATUS_HEARTBEAT_TIMEOUT /\ out_bytes l1 = [] /\ c_fd c1 = c_fd c /\
        match tls_send_frame 100 plain_env 4096 (c_frame 3 an_ack) ts1 c1 ev2 with
        | Done (r2, _) _ _ l2 => r2 = AMQP_STATUS_OK /\ out_bytes l2 = ser_frame 0 AHeartbeat ++ skipn 8 (ser_frame 3 an_ack) /\ out_bytes l2 <> ser_frame 3 an_ack
        | Halt _ _ _ => False
        end /\
        match Net.amqp_send_frame 100 plain_env (c_frame 3 an_ack) c1 ev2 with
        | Done r2 _ _ l2 => r2 = AMQP_STATUS_OK /\ out_bytes l2 = ser_frame 3 an_ack
        | Halt _ _ _ => False
        end
    | Halt _ _ _ => False
    end.
Proof.
  exists Prop_Receive.beating, (mkTlsState None [8]), [EvSend SAgain; EvClock 1500000000; EvPoll PTimeout; EvClock 2000000003; EvRecv RAgain; EvClock 2000000004; EvPoll PTimeout],
    [EvSend (SOk 8); EvSend (SOk 13); EvClock 2000000005].
  split; [reflexivity|]. split; [apply ack_sendable|]. split; [vm_compute; split; [discriminate|reflexivity]|]. vm_compute. repeat split; discriminate.
Qed.
Print Assumptions C87_corrupted_refuted.
