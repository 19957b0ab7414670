(** What the receiving functions do to the connection. *)
From Coq Require Import String ZArith List Bool Lia.
From Verif Require Import Base BaseFacts Codec TableModel TableSpec FramingStmt FramingGen FramingModel MethodSpec
  Frame FrameSpec Time Net NetSpec NetFacts NetSend.
Import ListNotations.
Local Open Scope Z_scope.

Definition dry (l : list obs) : Prop :=
  Forall (fun o => match o with OClock _ | OPoll _ _ _ | ORecv [] => True | _ => False end) l.
Lemma dry_app a b : dry (a ++ b) <-> dry a /\ dry b.
Proof. apply Forall_app. Qed.
Lemma quiet_dry l : quiet l -> dry l.
Proof. unfold quiet, dry. apply Forall_impl. intros o; destruct o; auto; contradiction. Qed.
Lemma dry_nil : dry [].
Proof. constructor. Qed.
Lemma dry_facts l : dry l -> in_bytes l = [] /\ out_bytes l = [] /\ frames l = [] /\ no_bad l /\ no_lost l /\ no_oom_obs l /\ no_output l.
Proof.
  induction 1 as [|o l Ho Hl (I1 & I2 & I3 & I4 & I5 & I6 & I7)]; [repeat split; constructor|].
  destruct o as [ |?|[|]| | | | | |]; try contradiction; cbn; repeat split; auto; constructor; auto.
Qed.

(** the clock *)
Lemma update_next_send_ok c ev :
  wp update_next_send c ev
    (fun r c' _ l => quiet l /\ r <= 0 /\ r <> AMQP_STATUS_TIMEOUT /\ (c' = c \/ exists t, c' = set_next_send c t) /\
       (c_hb c = 0 -> r = AMQP_STATUS_OK /\ c' = set_next_send c amqp_time_infinite))
    (fun s c' l => c' = c /\ quiet l /\ s <> UB /\ s <> Abort).
Proof.
  unfold update_next_send. wstep. apply wp_bind.
  eapply wp_conseq; [eapply (wp_split _ _ _ _ (fun p _ _ _ => (exists now, p = amqp_time_s_from_now now (amqp_heartbeat_send c)))
                            _ (fun _ _ _ => True)); [apply silent_time_s|]| |].
  - unfold time_s_from_now. destruct (_ <=? _); [apply wp_ret; eauto|].
    apply wp_bind. eapply wp_conseq; [apply (silent_clock c ev)|intros now c1 ev1 l1 _; apply wp_ret; eauto|auto].
  - cbv beta. intros [r t] c1 ev1 l1 [[-> Hq] [now Hp]]. unfold amqp_time_s_from_now in Hp.
    assert (r <= 0 /\ r <> AMQP_STATUS_TIMEOUT /\ (c_hb c = 0 -> r = AMQP_STATUS_OK /\ t = Some amqp_time_infinite)) as (Hr & Hr1 & Hr2).
    { unfold amqp_heartbeat_send in Hp.
      destruct (Z.leb_spec (c_hb c) 0); [injection Hp as -> ->; split; [cbv; discriminate|split; [discriminate|auto]]|].
      destruct (now =? 0); [injection Hp as -> ->; split; [cbv; discriminate|split; [discriminate|intros; lia]]|].
      cbv zeta in Hp. destruct (_ || _); injection Hp as -> ->; (split; [cbv; discriminate|split; [discriminate|intros; lia]]). }
    wstep. apply wp_ret. rewrite app_nil_r. split; [exact Hq|]. split; [exact Hr|]. split; [exact Hr1|].
    split; [destruct t; eauto|]. intros H2. destruct (Hr2 H2) as [-> ->]. auto.
  - cbv beta. intros s c' l [[-> H] _]. auto.
Qed.
Lemma update_next_recv_ok c ev :
  wp update_next_recv c ev
    (fun r c' _ l => quiet l /\ r <= 0 /\ r <> AMQP_STATUS_TIMEOUT /\ (c' = c \/ exists t, c' = set_next_recv c t) /\
       (c_hb c = 0 -> r = AMQP_STATUS_OK /\ c' = set_next_recv c amqp_time_infinite))
    (fun s c' l => c' = c /\ quiet l /\ s <> UB /\ s <> Abort).
Proof.
  unfold update_next_recv. wstep. apply wp_bind.
  eapply wp_conseq; [eapply (wp_split _ _ _ _ (fun p _ _ _ => (exists now, p = amqp_time_s_from_now now (amqp_heartbeat_recv c)))
                            _ (fun _ _ _ => True)); [apply silent_time_s|]| |].
  - unfold time_s_from_now. destruct (_ <=? _); [apply wp_ret; eauto|].
    apply wp_bind. eapply wp_conseq; [apply (silent_clock c ev)|intros now c1 ev1 l1 _; apply wp_ret; eauto|auto].
  - cbv beta. intros [r t] c1 ev1 l1 [[-> Hq] [now Hp]]. unfold amqp_time_s_from_now in Hp.
    assert (r <= 0 /\ r <> AMQP_STATUS_TIMEOUT /\ (c_hb c = 0 -> r = AMQP_STATUS_OK /\ t = Some amqp_time_infinite)) as (Hr & Hr1 & Hr2).
    { destruct (Z.leb_spec (amqp_heartbeat_recv c) 0) as [|Hp0]; [injection Hp as -> ->; split; [cbv; discriminate|split; [discriminate|auto]]|].
      assert (c_hb c <> 0) by (intros He; unfold amqp_heartbeat_recv in Hp0; rewrite He in Hp0; cbv in Hp0; discriminate).
      destruct (now =? 0); [injection Hp as -> ->; split; [cbv; discriminate|split; [discriminate|intros; lia]]|].
      cbv zeta in Hp. destruct (_ || _); injection Hp as -> ->; (split; [cbv; discriminate|split; [discriminate|intros; lia]]). }
    wstep. apply wp_ret. rewrite app_nil_r. split; [exact Hq|]. split; [exact Hr|]. split; [exact Hr1|].
    split; [destruct t; eauto|]. intros H2. destruct (Hr2 H2) as [-> ->]. auto.
  - cbv beta. intros s c' l [[-> H] _]. auto.
Qed.

(** recv *)
Lemma tcp_recv_ok fuel len c : 0 <= len -> forall ev,
  wp (tcp_recv_loop fuel len) c ev
    (fun p c' _ l => c' = c /\
       ((snd p <> [] /\ fst p = zlen (snd p) /\ zlen (snd p) <= len /\ exists l1, dry l1 /\ l = l1 ++ [ORecv (snd p)])
        \/ (fst p < 0 /\ fst p <> AMQP_STATUS_TIMEOUT /\ dry l)))
    (fun s c' l => c' = c /\ dry l /\ s <> UB /\ s <> Abort).
Proof.
  intros Hlen. induction fuel as [|fuel IH]; intros ev; cbn [tcp_recv_loop].
  - apply wp_halt. split; [reflexivity|]. split; [constructor|]. split; discriminate.
  - apply wp_bind. unfold wp at 1, sys_recv. destruct ev as [|[now|r|[bs| | | | |]|r|ok|ok|oom] ev];
      try (split; [reflexivity|split; [constructor|split; discriminate]]).
    + cbv zeta. destruct (firstn (Z.to_nat len) bs) as [|b bs'] eqn:Hf; apply wp_ret; rewrite app_nil_r; split; try reflexivity.
      * right. split; [cbv; reflexivity|]. split; [discriminate|repeat constructor].
      * left. cbn [fst snd]. split; [discriminate|]. split; [reflexivity|]. split.
        -- rewrite <- Hf. unfold zlen. rewrite firstn_length. lia.
        -- exists []. split; [constructor|reflexivity].
    + apply IH.
    + apply wp_ret. split; [reflexivity|]. right. split; [reflexivity|]. split; [discriminate|constructor].
    + apply wp_ret. split; [reflexivity|]. right. split; [reflexivity|]. split; [discriminate|constructor].
    + apply wp_ret. split; [reflexivity|]. right. split; [reflexivity|]. split; [discriminate|constructor].
    + apply wp_ret. split; [reflexivity|]. right. split; [reflexivity|]. split; [discriminate|constructor].
Qed.
Lemma socket_recv_ok N c ev :
  wp (amqp_socket_recv N SOCK_BUFFER_SIZE) c ev
    (fun p c' _ l => c' = c /\
       ((snd p <> [] /\ fst p = zlen (snd p) /\ zlen (snd p) <= SOCK_BUFFER_SIZE /\ exists l1, dry l1 /\ l = l1 ++ [ORecv (snd p)])
        \/ (fst p < 0 /\ fst p <> AMQP_STATUS_TIMEOUT /\ dry l)))
    (fun s c' l => c' = c /\ dry l /\ s <> UB /\ s <> Abort).
Proof.
  unfold amqp_socket_recv. wstep. destruct (_ =? _).
  - apply wp_ret. split; [reflexivity|]. right. split; [reflexivity|]. split; [discriminate|constructor].
  - apply tcp_recv_ok. unfold SOCK_BUFFER_SIZE. lia.
Qed.

(** bytes arrived and replaced the contents of the socket buffer *)
Definition recvd (c c' : conn) (l : list obs) : Prop :=
  exists bs l1 l2, bs <> [] /\ zlen bs <= SOCK_BUFFER_SIZE /\
    (c' = set_sbuf c bs \/ exists t, c' = set_next_recv (set_sbuf c bs) t) /\
    dry l1 /\ quiet l2 /\ l = l1 ++ [ORecv bs] ++ (match c_sbuf c with [] => [] | old => [OLost old] end) ++ l2.

Lemma recv_with_timeout_ok N fuel : forall t c ev,
  wp (recv_with_timeout N fuel t) c ev
    (fun r c' _ l => r <= 0 /\ ((c' = c /\ dry l /\ r <> AMQP_STATUS_OK /\ (r = AMQP_STATUS_TIMEOUT -> t <> amqp_time_infinite)) \/
       (recvd c c' l /\ r <> AMQP_STATUS_TIMEOUT /\
        (c_hb c = 0 -> r = AMQP_STATUS_OK /\ c_next_recv c' = amqp_time_infinite))))
    (fun s c' l => ((c' = c /\ dry l) \/ recvd c c' l) /\ s <> UB /\ s <> Abort).
Proof.
  induction fuel as [|fuel IH]; intros t c ev; cbn [recv_with_timeout].
  - apply wp_halt. split; [left; split; [reflexivity|constructor]|]. split; discriminate.
  - apply wp_bind. eapply wp_conseq; [apply socket_recv_ok| |].
    2:{ cbv beta. intros s c' l (-> & H1 & H2). split; [left; auto|exact H2]. }
    cbv beta. intros [r bs] c' ev1 l (-> & H). cbn [fst snd] in H.
    destruct H as [(Hne & -> & Hlen & l1 & Hl1 & ->)|(Hr & Hr1 & Hd)].
    + destruct (Z.ltb_spec (zlen bs) 0); [pose proof (zlen_nonneg bs); lia|].
      apply wp_bind. unfold store_received. wstep. apply wp_bind.
      assert (wp (match c_sbuf c with [] => ret tt | old => note (OLost old) end) c ev1
                (fun _ c' ev' l => c' = c /\ ev' = ev1 /\ l = match c_sbuf c with [] => [] | old => [OLost old] end) (fun _ _ _ => False)) as Hn.
      { destruct (c_sbuf c); [apply wp_ret|apply wp_note]; auto. }
      eapply wp_conseq; [exact Hn| |intros ? ? ? []]. cbv beta. intros _ c' ev2 l2 (-> & -> & ->).
      apply wp_upd. rewrite app_nil_r.
      eapply wp_conseq; [apply update_next_recv_ok| |].
      * cbv beta. intros r c' ev' l' (Hq & Hr0 & Hr1 & Hc & Hinf). split; [exact Hr0|]. right. split; [|split; [exact Hr1|]].
        -- exists bs, l1, l'. split; [exact Hne|]. split; [exact Hlen|]. split; [exact Hc|]. split; [exact Hl1|]. split; [exact Hq|].
           rewrite <- !app_assoc. reflexivity.
        -- intros H2. destruct (Hinf H2) as [-> ->]. auto.
      * cbv beta. intros s c' l' (-> & Hq & Hs). split; [right|exact Hs].
        exists bs, l1, l'. split; [exact Hne|]. split; [exact Hlen|]. split; [auto|]. split; [exact Hl1|]. split; [exact Hq|].
        rewrite <- !app_assoc. reflexivity.
    + destruct (Z.ltb_spec r 0); [|lia]. wstep.
      destruct (_ =? -1).
      * apply wp_ret. rewrite app_nil_r. split; [cbv; discriminate|]. left. split; [reflexivity|]. split; [exact Hd|]. split; discriminate.
      * destruct (_ || _).
        -- apply wp_bind. eapply wp_conseq; [apply wp_and_silent; [apply silent_amqp_poll|apply amqp_poll_res]| |].
           2:{ cbv beta. intros s c' l' (-> & Hq & Hs). split; [left; split; [reflexivity|]|exact Hs].
               apply dry_app; split; [exact Hd|apply quiet_dry, Hq]. }
           cbv beta. intros r2 c' ev2 l2 (-> & Hq & Hr2 & Ht).
           assert (dry (l ++ l2)) as Hd2 by (apply dry_app; split; [exact Hd|apply quiet_dry, Hq]).
           destruct (Z.eqb_spec r2 AMQP_STATUS_OK) as [->|Hne].
           ++ eapply wp_conseq; [apply IH| |].
              ** cbv beta. intros r3 c3 ev3 l3 [Hr3 H3]. split; [exact Hr3|].
                 destruct H3 as [(-> & H3 & H4)|[(bs' & m1 & m2 & G1 & G2 & G3 & G4 & G5 & ->) H4]].
                 --- left. split; [reflexivity|]. split; [rewrite app_assoc; apply dry_app; auto|exact H4].
                 --- right. split; [|exact H4]. exists bs', (l ++ l2 ++ m1), m2. do 3 (split; [assumption|]).
                     split; [rewrite app_assoc; apply dry_app; auto|]. split; [assumption|]. rewrite <- !app_assoc. reflexivity.
              ** cbv beta. intros s c3 l3 [H3 H4]. split; [|exact H4].
                 destruct H3 as [(-> & H3)|(bs' & m1 & m2 & G1 & G2 & G3 & G4 & G5 & ->)].
                 --- left. split; [reflexivity|]. rewrite app_assoc; apply dry_app; auto.
                 --- right. exists bs', (l ++ l2 ++ m1), m2. do 3 (split; [assumption|]).
                     split; [rewrite app_assoc; apply dry_app; auto|]. split; [assumption|]. rewrite <- !app_assoc. reflexivity.
           ++ apply wp_ret. rewrite app_nil_r. split; [exact Hr2|]. left. split; [reflexivity|]. split; [exact Hd2|]. split; [exact Hne|exact Ht].
        -- apply wp_ret. rewrite app_nil_r. split; [lia|]. left. split; [reflexivity|]. split; [exact Hd|].
           split; [unfold AMQP_STATUS_OK; lia|contradiction].
Qed.

Lemma recvd_facts c c' l : recvd c c' l ->
  c_in c' = c_in c /\ c_queue c' = c_queue c /\ c_sbuf c' <> [] /\ zlen (c_sbuf c') <= SOCK_BUFFER_SIZE /\
  in_bytes l = c_sbuf c' /\ out_bytes l = [] /\ frames l = [] /\ no_bad l /\ no_oom_obs l /\
  (no_lost l <-> c_sbuf c = []) /\ c_fd c' = c_fd c /\ c_outbuf c' = c_outbuf c /\ c_hb c' = c_hb c /\ c_next_send c' = c_next_send c.
Proof.
  intros (bs & l1 & l2 & Hne & Hlen & Hc & Hd & Hq & ->).
  destruct (dry_facts _ Hd) as (A1 & A2 & A3 & A4 & A5 & A6 & A7).
  destruct (dry_facts _ (quiet_dry _ Hq)) as (B1 & B2 & B3 & B4 & B5 & B6 & B7).
  assert (c_sbuf c' = bs /\ c_in c' = c_in c /\ c_queue c' = c_queue c /\ c_fd c' = c_fd c /\ c_outbuf c' = c_outbuf c /\
          c_hb c' = c_hb c /\ c_next_send c' = c_next_send c) as (-> & -> & -> & -> & -> & -> & ->)
    by (destruct Hc as [->|[t ->]]; repeat split).
  do 2 (split; [reflexivity|]). split; [exact Hne|]. split; [exact Hlen|].
  split. { rewrite !in_bytes_app, A1, B1. destruct (c_sbuf c); cbn; rewrite !app_nil_r; reflexivity. }
  split. { rewrite !out_bytes_app, A2, B2. destruct (c_sbuf c); reflexivity. }
  split. { rewrite !frames_app, A3, B3. destruct (c_sbuf c); reflexivity. }
  split. { rewrite !no_bad_app. destruct (c_sbuf c); repeat split; auto; repeat constructor. }
  split. { rewrite !no_oom_obs_app. destruct (c_sbuf c); repeat split; auto; repeat constructor. }
  split; [|repeat split].
  rewrite !no_lost_app. destruct (c_sbuf c).
  - split; [reflexivity|]. intros _. repeat split; auto; repeat constructor.
  - split; [|discriminate]. intros (_ & _ & H & _). inversion H; contradiction.
Qed.
