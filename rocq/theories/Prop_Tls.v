(** C49: TLS connections are opened only to verified peers; C58: socket objects own their
    descriptor (TLS) *)
From Coq Require Import ZArith List Bool Lia Strings.Byte.
From Verif Require Import Base Time Os ConnectSpec OsFacts OsAcct Prop_Connect.
Import ListNotations.
Local Open Scope Z_scope.
Local Open Scope os_scope.

(** ** Facts *)
Lemma handshake_ok N fd deadline : forall fuel,
  owp (handshake N fuel fd deadline) (fun r l => plains l /\ (r = AMQP_STATUS_OK -> exists l0 h, l = l0 ++ [(Handshake, h)] /\ result h = 1) /\
    (r <> AMQP_STATUS_OK -> r < 0)).
Proof.
  induction fuel as [|fuel IH]; cbn [handshake]; [apply owp_halt; discriminate|].
  apply owp_ask_bind. intros a. destruct (Z.eqb_spec (result a) 1) as [A|A].
  { apply owp_ret. split; [reflexivity|]. split; [|contradiction]. intros _. exists [], a. split; [reflexivity|exact A]. }
  apply owp_bind.
  assert (K : owp (if err a =? SSL_ERROR_WANT_READ then o_poll N fd false deadline
                   else if err a =? SSL_ERROR_WANT_WRITE then o_poll N fd true deadline
                   else oret AMQP_STATUS_SSL_CONNECTION_FAILED)
                  (fun r l => plains l /\ (r <> AMQP_STATUS_OK -> r < 0))).
  { destruct (_ =? _); [|destruct (_ =? _)].
    - eapply owp_conseq; [apply poll_ok|]. intros r l W. split; [eapply waits_plains; exact W|eapply waits_neg; exact W].
    - eapply owp_conseq; [apply poll_ok|]. intros r l W. split; [eapply waits_plains; exact W|eapply waits_neg; exact W].
    - apply owp_ret. split; reflexivity. }
  eapply owp_conseq; [exact K|]. intros r l [P Ng]. destruct (Z.eqb_spec r AMQP_STATUS_OK) as [E|E].
  - eapply owp_conseq; [apply IH|]. intros r' l' (P' & Q & Ng'). split; [auto with plains|]. split; [|exact Ng'].
    intros R. destruct (Q R) as (l0 & h & -> & H). exists ((Handshake, a) :: l ++ l0), h. split; [|exact H].
    cbn [app]. rewrite app_assoc. reflexivity.
  - apply owp_ret. split; [auto with plains|]. split; [contradiction|exact Ng].
Qed.

Definition same_settings (s s' : ssl_socket) : Prop :=
  s_ctx s' = s_ctx s /\ s_verify_peer s' = s_verify_peer s /\ s_verify_hostname s' = s_verify_hostname s.

(** the error exits, entered with the log [l]; [P]: a condition for the balance to hold *)
Lemma error_out1_ok (P : Prop) s st l (Q : Z * ssl_socket -> list entry -> Prop) :
  s_ssl s = true -> (P -> balance l [] 1 0) ->
  (forall l', (P -> balance (l ++ l') [] 0 0) -> Q (st, set_ssl s false) l') -> owp (error_out1 s st) Q.
Proof.
  intros S B H. unfold error_out1, ssl_free. rewrite S. apply owp_bind. apply owp_ask_bind. intros a. apply owp_ret. apply owp_ret.
  cbn [app]. apply H. intros p. apply (balance_sslfree l _ 1). exact (B p).
Qed.
Lemma error_out2_ok (P : Prop) s st l (Q : Z * ssl_socket -> list entry -> Prop) :
  s_ssl s = true -> (P -> balance l [s_fd s] 1 0) ->
  (forall l', (P -> balance (l ++ l') [] 0 0) -> Q (st, set_ssl (set_sfd s (-1)) false) l') -> owp (error_out2 s st) Q.
Proof.
  intros S B H. unfold error_out2. apply owp_ask_bind. intros a.
  apply (error_out1_ok P _ _ (l ++ [(Close (s_fd s), a)])); [exact S|intros p; apply balance_close; exact (B p)|].
  intros l' X. apply H. rewrite <- app_assoc in X. exact X.
Qed.
Lemma error_out3_ok (P : Prop) s st l (Q : Z * ssl_socket -> list entry -> Prop) :
  s_ssl s = true -> (P -> balance l [s_fd s] 1 0) ->
  (forall l', (P -> balance (l ++ l') [] 0 0) -> Q (st, set_ssl (set_sfd s (-1)) false) l') -> owp (error_out3 s st) Q.
Proof.
  intros S B H. unfold error_out3, ssl_shutdown. rewrite S. apply owp_bind. apply owp_ask_bind. intros a. apply owp_ret.
  apply (error_out2_ok P _ _ (l ++ [(Shutdown, a)])); [exact S|intros p; apply balance_plains_r; [exact (B p)|reflexivity]|].
  intros l' X. apply H. rewrite <- app_assoc in X. exact X.
Qed.
Lemma error_out4_ok (P : Prop) s st l (Q : Z * ssl_socket -> list entry -> Prop) :
  s_ssl s = true -> (P -> balance l [s_fd s] 1 1) ->
  (forall l', (P -> balance (l ++ l') [] 0 0) -> Q (st, set_ssl (set_sfd s (-1)) false) l') -> owp (error_out4 s st) Q.
Proof.
  intros S B H. unfold error_out4. apply owp_ask_bind. intros a.
  apply (error_out3_ok P _ _ (l ++ [(CertFree, a)])); [exact S|intros p; apply (balance_certfree l _ _ 1); exact (B p)|].
  intros l' X. apply H. rewrite <- app_assoc in X. exact X.
Qed.

(** [tls_outcome P s host l r s' l']: after the log [l], the calls [l'] end the opening
    of [s] with [r] and [s'] *)
Definition tls_outcome (P : Prop) (s : ssl_socket) (host : bytes) (l : list entry) (r : Z) (s' : ssl_socket) (l' : list entry) : Prop :=
  (r = AMQP_STATUS_OK /\ s' = s /\ verified (s_verify_peer s) (s_verify_hostname s) host l' /\ (P -> balance (l ++ l') [s_fd s] 1 0)) \/
  (r < 0 /\ s' = set_ssl (set_sfd s (-1)) false /\ (P -> balance (l ++ l') [] 0 0)).

Lemma in_mid {A} (x : A) l l' : In x (l ++ x :: l').
Proof. apply in_or_app. right. left. reflexivity. Qed.

Lemma check_hostname_ok (P : Prop) s host l l0 c v :
  let cert := negb (result c =? 0) in
  s_ssl s = true -> (P -> balance (l ++ l0) [s_fd s] 1 (if cert then 1 else 0)) -> In (PeerCert, c) l0 ->
  (s_verify_peer s = true -> cert = true /\ In (VerifyResult, v) l0 /\ result v = X509_V_OK) ->
  owp (check_hostname s host cert) (fun p l' => tls_outcome P s host l (fst p) (snd p) (l0 ++ l')).
Proof.
  intros cert S B C V.
  assert (D : forall st, st < 0 -> forall l', (P -> balance ((l ++ l0) ++ l') [] 0 0) -> tls_outcome P s host l st (set_ssl (set_sfd s (-1)) false) (l0 ++ l')).
  { intros st L l' X. right. split; [exact L|]. split; [reflexivity|]. rewrite app_assoc. exact X. }
  assert (F : cert = true -> result c <> 0).
  { subst cert. intros X. apply negb_true_iff in X. apply Z.eqb_neq in X. exact X. }
  assert (W : forall l', s_verify_peer s = true ->
    exists c v, In (PeerCert, c) (l0 ++ l') /\ result c <> 0 /\ In (VerifyResult, v) (l0 ++ l') /\ result v = X509_V_OK).
  { intros l' X. destruct (V X) as (V1 & V2 & V3). exists c, v. repeat split; try (apply in_or_app; left; assumption); auto. }
  assert (OKS : forall l1, plains l1 -> (s_verify_hostname s = true -> exists h, cert = true /\ In (CheckHost host, h) l1 /\ result h = 1) ->
    owp (open_success s cert) (fun p l' => tls_outcome P s host l (fst p) (snd p) (l0 ++ l1 ++ l'))).
  { intros l1 P1 H. unfold open_success.
    assert (T : forall l2, (P -> balance (l ++ l0 ++ l1 ++ l2) [s_fd s] 1 0) -> tls_outcome P s host l AMQP_STATUS_OK s (l0 ++ l1 ++ l2)).
    { intros l2 BB. left. split; [reflexivity|]. split; [reflexivity|]. split; [|exact BB]. split; [apply W|].
      intros X. destruct (H X) as (h & H1 & H2 & H3). exists c, h.
      repeat split; auto; [apply in_or_app; left; assumption|apply in_or_app; right; apply in_or_app; left; assumption]. }
    destruct cert.
    - apply owp_ask_bind. intros a. apply owp_ret. cbn [fst snd]. apply T. intros p.
      rewrite !app_assoc. apply (balance_certfree _ _ _ 1). apply balance_plains_r; [exact (B p)|exact P1].
    - apply owp_ret. cbn [fst snd]. apply T. intros p. rewrite app_nil_r, !app_assoc. apply balance_plains_r; [exact (B p)|exact P1]. }
  unfold check_hostname. destruct (s_verify_hostname s) eqn:VH.
  - destruct cert; cbn [negb].
    + apply owp_ask_bind. intros h. destruct (Z.eqb_spec (result h) 1) as [H|H]; cbn [negb].
      * eapply owp_conseq; [apply (OKS [(CheckHost host, h)]); [reflexivity|]|].
        -- intros _. exists h. repeat split; auto. left. reflexivity.
        -- intros p l' X. exact X.
      * apply (error_out4_ok P _ _ ((l ++ l0) ++ [(CheckHost host, h)])); [exact S|intros p; apply balance_plains_r; [exact (B p)|reflexivity]|].
        intros l' X. cbn [fst snd]. apply D; [reflexivity|]. rewrite <- app_assoc in X. exact X.
    + apply (error_out3_ok P _ _ (l ++ l0)); [exact S|exact B|]. intros l' X. cbn [fst snd]. apply D; [reflexivity|exact X].
  - eapply owp_conseq; [apply (OKS []); [reflexivity|discriminate]|]. intros p l' X. exact X.
Qed.

Lemma check_peer_ok (P : Prop) s host l :
  s_ssl s = true -> (P -> balance l [s_fd s] 1 0) ->
  owp (check_peer s host) (fun p l' => tls_outcome P s host l (fst p) (snd p) l').
Proof.
  intros S B. unfold check_peer. apply owp_ask_bind. intros c.
  assert (B' : P -> balance (l ++ [(PeerCert, c)]) [s_fd s] 1 (if negb (result c =? 0) then 1 else 0)).
  { intros p. pose proof (balance_cert _ _ _ _ c (B p)) as X. destruct (result c =? 0); exact X. }
  assert (CH : forall v l1, plains l1 -> (s_verify_peer s = true -> negb (result c =? 0) = true /\ In (VerifyResult, v) l1 /\ result v = X509_V_OK) ->
    owp (check_hostname s host (negb (result c =? 0))) (fun p l' => tls_outcome P s host l (fst p) (snd p) (((PeerCert, c) :: l1) ++ l'))).
  { intros v l1 P1 V. apply (check_hostname_ok P s host l ((PeerCert, c) :: l1) c v); [exact S| |left; reflexivity|].
    - intros p. change ((PeerCert, c) :: l1) with ([(PeerCert, c)] ++ l1). rewrite app_assoc. apply balance_plains_r; [exact (B' p)|exact P1].
    - intros X. destruct (V X) as (V1 & V2 & V3). split; [exact V1|]. split; [right; exact V2|exact V3]. }
  destruct (s_verify_peer s) eqn:VP.
  - destruct (negb (result c =? 0)) eqn:E; cbn [negb].
    + apply owp_ask_bind. intros v. destruct (Z.eqb_spec (result v) X509_V_OK) as [V|V]; cbn [negb].
      * eapply owp_conseq; [apply (CH v [(VerifyResult, v)]); [reflexivity|]|].
        -- intros _. split; [reflexivity|]. split; [left; reflexivity|exact V].
        -- intros p l' X. exact X.
      * apply (error_out4_ok P _ _ ((l ++ [(PeerCert, c)]) ++ [(VerifyResult, v)])); [exact S|intros p; apply balance_plains_r; [exact (B' p)|reflexivity]|].
        intros l' X. cbn [fst snd]. right. split; [reflexivity|]. split; [reflexivity|]. rewrite <- !app_assoc in X. exact X.
    + apply (error_out3_ok P _ _ (l ++ [(PeerCert, c)])); [exact S|exact B'|].
      intros l' X. cbn [fst snd]. right. split; [reflexivity|]. split; [reflexivity|]. rewrite <- !app_assoc in X. exact X.
  - eapply owp_conseq; [apply (CH c []); [reflexivity|discriminate]|]. intros p l' X. exact X.
Qed.

(** what opening a TLS socket that is not open does *)
Definition tls_opens (s : ssl_socket) (host : bytes) (port : Z) (r : Z) (s' : ssl_socket) (l : list entry) : Prop :=
  (* the connection is made, the handshake is done and the peer is verified *)
  (r = AMQP_STATUS_OK /\ s_ssl s' = true /\ same_settings s s' /\
    exists deadline l1 l2 l3 h l4, l = l1 ++ l2 ++ l3 ++ (Handshake, h) :: l4 /\
      opens host port deadline l2 (s_fd s') /\ 0 <= s_fd s' /\ In (SniName host) (map fst l3) /\
      result h = 1 /\ verified (s_verify_peer s) (s_verify_hostname s) host l4 /\
      (resolver_ok l2 -> balance l [s_fd s'] 1 0)) \/
  (* nothing is left *)
  (r < 0 /\ s_fd s' = -1 /\ s_ssl s' = false /\ same_settings s s' /\ (resolver_ok l -> balance l [] 0 0)) \/
  (* the deadline could not be computed: the TLS object is left *)
  (r < 0 /\ s' = set_ssl s true /\ balance l [] 1 0).

Lemma time_from_now_sane timeout : sane_timeout timeout ->
  owp (o_time_from_now timeout) (fun p l => clock_ok l -> fst p = AMQP_STATUS_OK).
Proof.
  unfold o_time_from_now, sane_timeout. destruct timeout as [[sec usec]|]; cbn [tv_sec tv_usec]; intros S.
  - replace ((sec <? 0) || (usec <? 0)) with false by (symmetry; apply orb_false_iff; split; apply Z.ltb_ge; lia).
    apply owp_ask_bind. intros a. apply owp_ret. intros C. specialize (C a (or_introl eq_refl)).
    unfold amqp_time_from_now. cbn [tv_sec tv_usec].
    replace ((sec <? 0) || (usec <? 0)) with false by (symmetry; apply orb_false_iff; split; apply Z.ltb_ge; lia).
    unfold AMQP_NS_PER_S, AMQP_NS_PER_US, u64.
    change (2 ^ 62) with 4611686018427387904 in C. 
    assert (U : forall x, 0 <= x < 18446744073709551616 -> x mod M64 = x) by (intros x X; apply Z.mod_small; exact X).
    rewrite (U sec), (U usec) by lia. rewrite (U (sec * _)), (U (usec * _)) by lia. rewrite (U (sec * _ + _)) by lia.
    rewrite (U (result a)) by lia. rewrite U by lia.
    replace (result a =? 0) with false by (symmetry; apply Z.eqb_neq; lia).
    match goal with |- context [(?x <? ?y) || (?z <? ?w)] => replace ((x <? y) || (z <? w)) with false by (symmetry; apply orb_false_iff; split; apply Z.ltb_ge; lia) end.
    reflexivity.
  - apply owp_ret. intros _. reflexivity.
Qed.

Lemma tls_open_ok N s host port timeout : s_fd s = -1 ->
  owp (amqp_ssl_socket_open N s host port timeout) (fun p l => tls_opens s host port (fst p) (snd p) l /\
    (sane_timeout timeout -> clock_ok l -> snd p <> set_ssl s true)).
Proof.
  intros FD. unfold amqp_ssl_socket_open. rewrite FD. cbn [Z.eqb Pos.eqb negb].
  apply owp_ask_bind. intros a. destruct (Z.eqb_spec (result a) 0) as [A|A].
  { apply owp_ret. cbn [fst snd]. split; [|intros _ _ X; inversion X]. right; left. split; [reflexivity|]. split; [exact FD|]. split; [reflexivity|].
    split; [repeat split|]. intros _. unfold balance. cbn. rewrite A. repeat split. }
  assert (BA : forall l, plains l -> balance ((SslNew, a) :: l) [] 1 0).
  { intros l Pl. destruct (plain_opened l Pl) as (X1 & X2 & X3 & X4). unfold balance, ssl_balance, cert_balance, count in *.
    cbn [opened closed fold_right]. rewrite X1, X2, X3, X4. replace (result a =? 0) with false by (symmetry; apply Z.eqb_neq; exact A).
    repeat split. }
  apply owp_bind.
  assert (TS : owp (o_time_from_now timeout) (fun p l => sane_timeout timeout -> clock_ok l -> fst p = AMQP_STATUS_OK)).
  { intros ans. pose proof (time_from_now_sane timeout) as X. destruct (o_time_from_now timeout ans) eqn:E.
    - intros Y. specialize (X Y ans). rewrite E in X. exact X.
    - pose proof (time_from_now_ok timeout ans) as Y. rewrite E in Y. exact Y. }
  eapply owp_conseq; [apply owp_and; [apply time_from_now_ok|exact TS]|]. clear TS.
  intros [st d] l ((T1 & T2 & T3 & T4) & TS). cbn [fst snd] in *.
  assert (P0 : plains l) by (destruct T4 as [->|(x & ->)]; reflexivity).
  assert (BAD : st <> AMQP_STATUS_OK -> forall l', tls_opens s host port st (set_ssl s true) ((SslNew, a) :: l) /\
    (sane_timeout timeout -> clock_ok ((SslNew, a) :: l ++ l') -> set_ssl s true <> set_ssl s true)).
  { intros D l'. split.
    - right; right. split; [apply T1; exact D|]. split; [reflexivity|apply BA; exact P0].
    - intros S C. destruct D. apply TS; [exact S|]. intros x X. apply (C x). right. apply in_or_app. left. exact X. }
  destruct d as [d|].
  2: { apply owp_ret. rewrite app_nil_r. cbn [fst snd]. pose proof (BAD (T3 eq_refl) []) as X. rewrite app_nil_r in X. exact X. }
  destruct (Z.eqb_spec st AMQP_STATUS_OK) as [E|E]; cbn [negb].
  2: { apply owp_ret. rewrite app_nil_r. cbn [fst snd]. pose proof (BAD E []) as X. rewrite app_nil_r in X. exact X. }
  clear BAD TS T1 T2 T3 T4.
  assert (NE : forall p l', (s_ssl (snd p) = false \/ 0 <= s_fd (snd p)) -> tls_opens s host port (fst p) (snd p) l' ->
     tls_opens s host port (fst p) (snd p) l' /\ (sane_timeout timeout -> clock_ok l' -> snd p <> set_ssl s true)).
  { intros p l' X T. split; [exact T|]. intros _ _ Y. rewrite Y in X. cbn in X. destruct X as [X|X]; [discriminate|]. rewrite FD in X. lia. }
  apply owp_bind. eapply owp_conseq; [apply open_inner_ok|]. intros fd l2 O.
  assert (BO : resolver_ok l2 -> balance ((SslNew, a) :: l ++ l2) (if 0 <=? fd then [fd] else []) 1 0).
  { intros R. change ((SslNew, a) :: l ++ l2) with (((SslNew, a) :: l) ++ l2). apply (balance_app _ _ _ 1 0 0 0); [apply BA; exact P0|].
    exact (opens_balance _ _ _ _ _ O R). }
  destruct (Z.ltb_spec fd 0) as [L|L].
  - replace (0 <=? fd) with false in BO by (symmetry; apply Z.leb_gt; exact L).
    apply (error_out1_ok (resolver_ok l2) _ _ ((SslNew, a) :: l ++ l2)); [reflexivity|exact BO|].
    intros l' X. cbn [app]. rewrite <- app_assoc in X || idtac.
    apply NE; [left; reflexivity|]. cbn [fst snd]. right; left. split; [exact L|]. split; [reflexivity|]. split; [reflexivity|].
    split; [repeat split|]. intros R. cbn [app] in X. rewrite <- app_assoc in X. apply X.
    intros h p x Hx. apply (R h p x). right. apply in_or_app. right. apply in_or_app. left. exact Hx.
  - replace (0 <=? fd) with true in BO by (symmetry; apply Z.leb_le; exact L).
    pose (s1 := set_sfd (set_ssl s true) fd).
    change (set_sfd (set_ssl s true) fd) with s1.
    assert (FAIL : forall st l', st < 0 -> (resolver_ok l2 -> balance ((SslNew, a) :: l ++ l2 ++ l') [] 0 0) ->
      tls_opens s host port st (set_ssl (set_sfd s1 (-1)) false) ((SslNew, a) :: l ++ l2 ++ l') /\
      (sane_timeout timeout -> clock_ok ((SslNew, a) :: l ++ l2 ++ l') -> set_ssl (set_sfd s1 (-1)) false <> set_ssl s true)).
    { intros st' l' Ng X. apply (NE (st', set_ssl (set_sfd s1 (-1)) false)); [left; reflexivity|]. cbn [fst snd].
      right; left. split; [exact Ng|]. split; [reflexivity|]. split; [reflexivity|]. split; [repeat split|].
      intros R. apply X. intros h p x Hx. apply (R h p x). right. apply in_or_app. right. apply in_or_app. left. exact Hx. }
    assert (BX : forall l', plains l' -> resolver_ok l2 -> balance ((SslNew, a) :: l ++ l2 ++ l') [fd] 1 0).
    { intros l' Pl R. replace ((SslNew, a) :: l ++ l2 ++ l') with (((SslNew, a) :: l ++ l2) ++ l') by (cbn [app]; rewrite app_assoc; reflexivity).
      apply balance_plains_r; [exact (BO R)|exact Pl]. }
    apply owp_ask_bind. intros b. destruct (Z.eqb_spec (result b) 0) as [Eb|Eb].
    { apply (error_out2_ok (resolver_ok l2) s1 _ ((SslNew, a) :: l ++ l2 ++ [(BioNew, b)])); [reflexivity|apply BX; reflexivity|].
      intros l' X. cbn [fst snd]. apply FAIL; [reflexivity|]. cbn [app] in X. rewrite <- !app_assoc in X. exact X. }
    apply owp_ask_bind. intros n. destruct (Z.eqb_spec (result n) 0) as [En|En].
    { apply (error_out2_ok (resolver_ok l2) s1 _ ((SslNew, a) :: l ++ l2 ++ [(BioNew, b); (SniName host, n)])); [reflexivity|apply BX; reflexivity|].
      intros l' X. cbn [fst snd]. apply FAIL; [reflexivity|]. cbn [app] in X. rewrite <- !app_assoc in X. exact X. }
    apply owp_bind. eapply owp_conseq; [apply handshake_ok|]. intros hs lh (Ph & Q & Ng).
    assert (P3 : plains ((BioNew, b) :: (SniName host, n) :: lh)) by auto with plains.
    destruct (Z.eqb_spec hs AMQP_STATUS_OK) as [Eh|Eh]; cbn [negb].
    2: { apply (error_out2_ok (resolver_ok l2) s1 _ ((SslNew, a) :: l ++ l2 ++ (BioNew, b) :: (SniName host, n) :: lh)); [reflexivity|apply BX; exact P3|].
      intros l' X. cbn [fst snd]. apply FAIL; [apply Ng; exact Eh|]. cbn [app] in X. rewrite <- !app_assoc in X. exact X. }
    destruct (Q Eh) as (l0 & h & -> & Hh).
    eapply owp_conseq; [apply (check_peer_ok (resolver_ok l2) s1 host ((SslNew, a) :: l ++ l2 ++ (BioNew, b) :: (SniName host, n) :: l0 ++ [(Handshake, h)])); [reflexivity|apply BX; exact P3]|].
    intros [r s'] l4 [(R & Es & V & B)|(R & Es & B)]; cbn [fst snd] in *; subst s'.
    + apply (NE (r, s1)); [right; exact L|]. cbn [fst snd]. left. split; [exact R|]. split; [reflexivity|]. split; [repeat split|].
      exists d, ((SslNew, a) :: l), l2, ((BioNew, b) :: (SniName host, n) :: l0), h, l4. cbn [app]. rewrite <- !app_assoc in *. cbn [app] in *.
      rewrite <- !app_assoc in *. cbn [app] in *. split; [reflexivity|]. split; [exact O|]. split; [exact L|]. split; [right; left; reflexivity|].
      split; [exact Hh|]. split; [exact V|]. intros Rs. specialize (B Rs). cbn [app] in B. rewrite <- ?app_assoc in B. exact B.
    + apply (FAIL r ((BioNew, b) :: (SniName host, n) :: (l0 ++ [(Handshake, h)]) ++ l4)); [exact R|]. intros Rs. specialize (B Rs). cbn [app] in *. rewrite <- ?app_assoc in *. cbn [app] in *. rewrite <- ?app_assoc in *. exact B.
Qed.

(** ** C49 *)
(** For every TLS socket, host, port and timeout and every outcome of every call: if
    opening it reports success, the socket was not open before, its descriptor is
    connected to an address of that host (opens), the host name was announced (SNI), the
    last handshake call succeeded, and after it (l4), with peer verification switched
    on, the peer presented a certificate and OpenSSL's verification succeeded, and, with
    host name verification switched on, the certificate matches the host name. *)
Theorem C49_verified N s host port timeout ans :
  match amqp_ssl_socket_open N s host port timeout ans with
  | ODone (r, s') _ l => r = AMQP_STATUS_OK -> s_fd s = -1 /\
      exists deadline l1 l2 l3 h l4, l = l1 ++ l2 ++ l3 ++ (Handshake, h) :: l4 /\
        opens host port deadline l2 (s_fd s') /\ 0 <= s_fd s' /\ s_ssl s' = true /\ In (SniName host) (map fst l3) /\
        result h = 1 /\ verified (s_verify_peer s) (s_verify_hostname s) host l4
  | OHalt st _ => st <> OUB
  end.
Proof.
  destruct (Z.eqb_spec (s_fd s) (-1)) as [E|E].
  - pose proof (tls_open_ok N s host port timeout E ans) as H.
    destruct (amqp_ssl_socket_open N s host port timeout ans) as [[r s'] rest l|st l]; [|exact H]. cbn [fst snd] in H.
    intros R. split; [exact E|]. destruct H as [[(_ & S & _ & d & l1 & l2 & l3 & h & l4 & X1 & X2 & X3 & X4 & X5 & X6 & _)|[(L & _)|(L & _)]] _].
    + exists d, l1, l2, l3, h, l4. auto 10.
    + rewrite R in L. discriminate L.
    + rewrite R in L. discriminate L.
  - unfold amqp_ssl_socket_open. replace (s_fd s =? -1) with false by (symmetry; apply Z.eqb_neq; exact E). cbn. discriminate.
Qed.
(** a socket as amqp_ssl_socket_new makes it has both verifications switched on *)
Theorem C49_default : s_verify_peer new_ssl_socket = true /\ s_verify_hostname new_ssl_socket = true.
Proof. split; reflexivity. Qed.

(** If opening a socket fails (and it was not open before), it is not open, every
    descriptor, every TLS object and every certificate has been given back.  Missing:
    a timeout that is negative or too large, or a failing clock (see C49_failure_refuted). *)
Theorem C49_failure_partial N s host port timeout ans :
  s_fd s = -1 -> s_ssl s = false -> sane_timeout timeout ->
  match amqp_ssl_socket_open N s host port timeout ans with
  | ODone (r, s') _ l => r <> AMQP_STATUS_OK -> clock_ok l -> resolver_ok l ->
      r < 0 /\ s' = s /\ opened l = closed l /\ ssl_balance l = 0 /\ cert_balance l = 0
  | OHalt st _ => st <> OUB
  end.
Proof.
  intros E S T. pose proof (tls_open_ok N s host port timeout E ans) as H.
  destruct (amqp_ssl_socket_open N s host port timeout ans) as [[r s'] rest l|st l]; [|exact H]. cbn [fst snd] in H.
  intros R C RO. destruct H as [[(X & _)|[(L & F & S' & (K1 & K2 & K3) & B)|(L & F & _)]] D]; [contradiction| |destruct (D T C F)].
  destruct (B RO) as (B1 & B2 & B3). rewrite app_nil_r in B1. split; [exact L|]. split; [|auto].
  destruct s, s'; cbn in *; congruence.
Qed.
(** a negative timeout: the TLS object stays behind (and is lost when the socket is
    opened again) *)
Theorem C49_failure_refuted : exists N s host port timeout ans,
  s_fd s = -1 /\ s_ssl s = false /\
  match amqp_ssl_socket_open N s host port timeout ans with
  | ODone (r, s') _ l => r = AMQP_STATUS_INVALID_PARAMETER /\ s_ssl s' = true /\ ssl_balance l = 1
  | OHalt _ _ => False
  end /\
  match (amqp_ssl_socket_open N s host port timeout) ans with
  | ODone (r, s') rest l =>
      match (p <- amqp_ssl_socket_open N s' host port None;; amqp_ssl_socket_delete (snd p)) rest with
      | ODone _ _ l' => ssl_balance (l ++ l') = 1 /\ opened (l ++ l') = closed (l ++ l')
      | OHalt _ _ => False
      end
  | OHalt _ _ => False
  end.
Proof.
  pose (ok := mkAns 0 0 None). pose (one := mkAns 1 0 None).
  exists 1%nat, new_ssl_socket, [x68], 5671, (Some (mkTv (-1) 0)),
    ([one; one; mkAns 0 0 (Some [1]); mkAns 5 0 None; ok; ok; ok; ok; ok; ok; ok; one; one; one; one; ok; one; one; one; one; ok; ok]).
  vm_compute. repeat split; reflexivity.
Qed.

(** ** C49: the handshake *)
(** [opost m Q]: if [m] ends, it ends in [Q] *)
Definition opost {A} (m : Io A) (Q : A -> list entry -> Prop) : Prop :=
  forall ans, match m ans with ODone a _ l => Q a l | OHalt _ _ => True end.
Lemma opost_conseq {A} (m : Io A) (P Q : A -> list entry -> Prop) : opost m P -> (forall a l, P a l -> Q a l) -> opost m Q.
Proof. intros H I ans. specialize (H ans). destruct (m ans); auto. Qed.
Lemma opost_owp {A} (m : Io A) (Q : A -> list entry -> Prop) : owp m Q -> opost m Q.
Proof. intros H ans. specialize (H ans). destruct (m ans); auto. Qed.
Lemma opost_and {A} (m : Io A) (P Q : A -> list entry -> Prop) : opost m P -> opost m Q -> opost m (fun a l => P a l /\ Q a l).
Proof. intros H I ans. specialize (H ans). specialize (I ans). destruct (m ans); auto. Qed.
Lemma opost_ret {A} (a : A) (Q : A -> list entry -> Prop) : Q a [] -> opost (oret a) Q.
Proof. intros H ans. exact H. Qed.
Lemma opost_bind {A B} (m : Io A) (k : A -> Io B) (Q : B -> list entry -> Prop) :
  opost m (fun a l => opost (k a) (fun b l' => Q b (l ++ l'))) -> opost (obind m k) Q.
Proof.
  intros H ans. specialize (H ans). unfold obind. destruct (m ans) as [a r l|s l]; [|exact I].
  specialize (H r). destruct (k a r); [exact H|exact I].
Qed.
Lemma opost_ask_bind {B} (c : call) (k : answer -> Io B) (Q : B -> list entry -> Prop) :
  (forall a, opost (k a) (fun b l => Q b ((c, a) :: l))) -> opost (obind (ask c) k) Q.
Proof. intros H. apply opost_bind. intros ans. unfold ask. destruct ans; [exact I|apply H]. Qed.
Lemma opost_halt {A} st (Q : A -> list entry -> Prop) : opost (ohalt st) Q.
Proof. intros ans. exact I. Qed.

(** no handshake call *)
Definition quiet (l : list entry) : Prop := forall a, ~ In (Handshake, a) l.
Lemma quiet_nil : quiet [].
Proof. intros a H. exact H. Qed.
Lemma quiet_app l l' : quiet l -> quiet l' -> quiet (l ++ l').
Proof. intros H H' a I. apply in_app_or in I. destruct I as [I|I]; [exact (H a I)|exact (H' a I)]. Qed.
Lemma quiet_cons c a l : c <> Handshake -> quiet l -> quiet ((c, a) :: l).
Proof. intros N H b [E|I]; [congruence|exact (H b I)]. Qed.
Lemma quiet_patience d l ms : patience d l ms -> quiet l.
Proof.
  intros [(_ & -> & _)|[(_ & -> & _)|(a & -> & _)]]; [apply quiet_nil|apply quiet_nil|].
  apply quiet_cons; [discriminate|apply quiet_nil].
Qed.
Lemma quiet_waits fd w d l r : waits fd w d l r -> quiet l.
Proof.
  induction 1; try (apply quiet_app; [eapply quiet_patience; eassumption|apply quiet_cons; [discriminate|assumption || apply quiet_nil]]).
  eapply quiet_patience; eassumption.
Qed.
Lemma quiet_configured fd done l : configured fd done l -> quiet l.
Proof.
  induction 1 as [|s e ss l (a & -> & _) _ IH]; [apply quiet_nil|]. apply quiet_cons; [discriminate|exact IH].
Qed.
Local Hint Resolve quiet_nil quiet_app quiet_cons quiet_waits quiet_configured : quiet.
Local Hint Extern 1 (_ <> Handshake) => discriminate : quiet.
Lemma quiet_accepts x d l r : accepts x d l r -> quiet l.
Proof. destruct 1; eauto 10 with quiet. Qed.
Lemma quiet_rejects x d l r : rejects x d l r -> quiet l.
Proof.
  destruct 1 as [|s fd l r c E L S]; [eauto with quiet|]. apply quiet_cons; [discriminate|]. apply quiet_app; [|eauto with quiet].
  destruct S; eauto 10 with quiet.
Qed.
Lemma quiet_tries d addrs l r : tries d addrs l r -> quiet l.
Proof. induction 1; eauto using quiet_accepts, quiet_rejects with quiet. Qed.
Lemma quiet_opens host port d l r : opens host port d l r -> quiet l.
Proof. destruct 1; eauto using quiet_tries with quiet. Qed.

Lemma handshake_shakes N fd deadline : forall fuel, owp (handshake N fuel fd deadline) (fun r l => shakes fd deadline l r).
Proof.
  induction fuel as [|fuel IH]; cbn [handshake]; [apply owp_halt; discriminate|].
  apply owp_ask_bind. intros a. destruct (Z.eqb_spec (result a) 1) as [A|A]; [apply owp_ret; apply H_done; exact A|].
  apply owp_bind.
  assert (K : forall w, wants a w -> owp (o_poll N fd w deadline) (fun status l =>
     owp (if status =? AMQP_STATUS_OK then handshake N fuel fd deadline else oret status)
       (fun b l' => shakes fd deadline ((Handshake, a) :: l ++ l') b))).
  { intros w W. eapply owp_conseq; [apply poll_ok|]. intros r l H. destruct (Z.eqb_spec r AMQP_STATUS_OK) as [E|E].
    - subst r. eapply owp_conseq; [apply IH|]. intros r' l' H'. eapply H_again; eassumption.
    - apply owp_ret. rewrite app_nil_r. eapply H_gives_up; eassumption. }
  destruct (Z.eqb_spec (err a) SSL_ERROR_WANT_READ) as [E1|E1]; [apply (K false E1)|].
  destruct (Z.eqb_spec (err a) SSL_ERROR_WANT_WRITE) as [E2|E2]; [apply (K true E2)|].
  apply owp_ret. change (AMQP_STATUS_SSL_CONNECTION_FAILED =? AMQP_STATUS_OK) with false. apply owp_ret. apply H_error; assumption.
Qed.
(** the calls after the handshake *)
Lemma quiet_out1 s st : opost (error_out1 s st) (fun p l => fst p = st /\ quiet l).
Proof.
  unfold error_out1, ssl_free. apply opost_bind. destruct (s_ssl s).
  - apply opost_ask_bind. intros a. apply opost_ret. apply opost_ret. cbn; auto with quiet.
  - apply opost_ret. apply opost_ret. cbn; auto with quiet.
Qed.
Lemma quiet_out2 s st : opost (error_out2 s st) (fun p l => fst p = st /\ quiet l).
Proof. unfold error_out2. apply opost_ask_bind. intros a. eapply opost_conseq; [apply quiet_out1|]. intros p l [H K]. auto with quiet. Qed.
Lemma quiet_out3 s st : opost (error_out3 s st) (fun p l => fst p = st /\ quiet l).
Proof.
  unfold error_out3, ssl_shutdown. apply opost_bind. destruct (s_ssl s); [|apply opost_halt].
  apply opost_ask_bind. intros a. apply opost_ret. eapply opost_conseq; [apply quiet_out2|]. intros p l [H K]. cbn. auto with quiet.
Qed.
Lemma quiet_out4 s st : opost (error_out4 s st) (fun p l => fst p = st /\ quiet l).
Proof. unfold error_out4. apply opost_ask_bind. intros a. eapply opost_conseq; [apply quiet_out3|]. intros p l [H K]. auto with quiet. Qed.
Lemma quiet_hostname s host cert : opost (check_hostname s host cert) (fun _ l => quiet l).
Proof.
  assert (K : opost (open_success s cert) (fun _ l => quiet l)).
  { unfold open_success. destruct cert; [apply opost_ask_bind; intros a|]; apply opost_ret; auto with quiet. }
  unfold check_hostname. destruct (s_verify_hostname s); [|exact K]. destruct cert; cbn [negb].
  - apply opost_ask_bind. intros a. destruct (negb _).
    + eapply opost_conseq; [apply quiet_out4|]. intros p l [_ H]. auto with quiet.
    + eapply opost_conseq; [apply K|]. auto with quiet.
  - eapply opost_conseq; [apply quiet_out3|]. intros p l [_ H]. exact H.
Qed.
Lemma quiet_peer s host : opost (check_peer s host) (fun _ l => quiet l).
Proof.
  unfold check_peer. apply opost_ask_bind. intros c.
  assert (K : forall b, opost (check_hostname s host b) (fun _ l => quiet ((PeerCert, c) :: l))).
  { intros b. eapply opost_conseq; [apply quiet_hostname|]. auto with quiet. }
  destruct (s_verify_peer s); [|apply K]. destruct (negb (negb _)).
  - eapply opost_conseq; [apply quiet_out3|]. intros p l [_ H]. auto with quiet.
  - apply opost_ask_bind. intros v. destruct (negb _).
    + eapply opost_conseq; [apply quiet_out4|]. intros p l [_ H]. auto with quiet.
    + eapply opost_conseq; [apply quiet_hostname|]. auto with quiet.
Qed.
(** Whenever amqp_socket_open on a TLS socket comes back: either there was no handshake,
    and then the result is an error, or the calls are those that compute the deadline
    and connect to the host, the set-up of OpenSSL including the host name (SNI), then
    the handshake ([shakes]: on that connection, by that deadline) and then calls other
    than SSL_connect; a handshake that fails decides the result. *)
Theorem C49_handshake N s host port timeout ans :
  match amqp_ssl_socket_open N s host port timeout ans with
  | ODone (r, s') _ l =>
      (quiet l /\ r < 0) \/
      exists n lt deadline lo fd b sni lh h lc,
        l = (SslNew, n) :: lt ++ lo ++ (BioNew, b) :: (SniName host, sni) :: lh ++ lc /\
        due timeout lt deadline /\ opens host port deadline lo fd /\ 0 <= fd /\
        shakes fd deadline lh h /\ quiet lc /\ (h <> AMQP_STATUS_OK -> r = h) /\ (r = AMQP_STATUS_OK -> h = AMQP_STATUS_OK /\ s_fd s' = fd)
  | OHalt _ _ => True
  end.
Proof.
  assert (K : opost (amqp_ssl_socket_open N s host port timeout) (fun p l =>
      (quiet l /\ fst p < 0) \/
      exists n lt deadline lo fd b sni lh h lc,
        l = (SslNew, n) :: lt ++ lo ++ (BioNew, b) :: (SniName host, sni) :: lh ++ lc /\
        due timeout lt deadline /\ opens host port deadline lo fd /\ 0 <= fd /\
        shakes fd deadline lh h /\ quiet lc /\ (h <> AMQP_STATUS_OK -> fst p = h) /\
        (fst p = AMQP_STATUS_OK -> h = AMQP_STATUS_OK /\ s_fd (snd p) = fd))).
  2: { specialize (K ans). destruct (amqp_ssl_socket_open N s host port timeout ans) as [[r s'] rest l|st l]; [exact K|exact I]. }
  unfold amqp_ssl_socket_open. destruct (negb (s_fd s =? -1)).
  { apply opost_ret. left. split; [apply quiet_nil|reflexivity]. }
  apply opost_ask_bind. intros n. destruct (result n =? 0).
  { apply opost_ret. left. split; [auto with quiet|reflexivity]. }
  apply opost_bind. eapply opost_conseq; [apply opost_and; apply opost_owp; [apply time_from_now_ok|apply time_from_now_due]|].
  intros [st d] lt ((A & B & C & D) & F & G). cbn [fst snd] in *.
  assert (QT : quiet lt) by (destruct D as [->|(x & ->)]; auto with quiet).
  destruct d as [d|].
  2: { apply opost_ret. left. rewrite app_nil_r. cbn [fst]. split; [auto with quiet|auto]. }
  destruct (Z.eqb_spec st AMQP_STATUS_OK) as [E|E]; cbn [negb].
  2: { apply opost_ret. left. rewrite app_nil_r. cbn [fst]. split; [auto with quiet|auto]. }
  destruct (F E) as (d' & X & DUE). inversion X; subst d'. clear X.
  apply opost_bind. eapply opost_conseq; [apply opost_owp, open_inner_ok|]. intros fd lo O.
  pose proof (quiet_opens _ _ _ _ _ O) as QO.
  destruct (Z.ltb_spec fd 0) as [L|L].
  { eapply opost_conseq; [apply quiet_out1|]. intros p l [P Q]. left. rewrite P. split; [auto with quiet|exact L]. }
  apply opost_ask_bind. intros b. destruct (result b =? 0).
  { eapply opost_conseq; [apply quiet_out2|]. intros p l [P Q]. left. rewrite P. split; [auto 8 with quiet|reflexivity]. }
  apply opost_ask_bind. intros sni. destruct (result sni =? 0).
  { eapply opost_conseq; [apply quiet_out2|]. intros p l [P Q]. left. rewrite P. split; [auto 8 with quiet|reflexivity]. }
  apply opost_bind. eapply opost_conseq; [apply opost_owp, handshake_shakes|]. intros h lh S.
  destruct (Z.eqb_spec h AMQP_STATUS_OK) as [Eh|Eh]; cbn [negb].
  - eapply opost_conseq; [apply opost_and; [apply quiet_peer|apply opost_owp, (check_peer_ok False _ _ []); [reflexivity|intros []]]|].
    intros p lc [Q T]. right. exists n, lt, d, lo, fd, b, sni, lh, h, lc.
    split; [reflexivity|]. do 5 (split; [assumption|]). split; [contradiction|]. intros R. split; [exact Eh|].
    destruct T as [(_ & -> & _)|(R' & _)]; [reflexivity|]. rewrite R in R'. discriminate R'.
  - eapply opost_conseq; [apply quiet_out2|]. intros p lc [P Q]. right. exists n, lt, d, lo, fd, b, sni, lh, h, lc.
    split; [reflexivity|]. do 5 (split; [assumption|]). split; [auto|]. intros R. congruence.
Qed.

(** ** C58: sequences of calls on a TLS socket *)
Inductive tls_op := TlsOpen (host : bytes) (port : Z) (timeout : option timeval) | TlsClose (force : bool)
  | VerifyPeer (b : bool) | VerifyHostname (b : bool).
Definition tls_exec (N : nat) (s : ssl_socket) (op : tls_op) : Io (Z * ssl_socket) :=
  match op with
  | TlsOpen host port timeout => amqp_ssl_socket_open N s host port timeout
  | TlsClose force => amqp_ssl_socket_close s force
  | VerifyPeer b => oret (AMQP_STATUS_OK, amqp_ssl_socket_set_verify_peer s b)
  | VerifyHostname b => oret (AMQP_STATUS_OK, amqp_ssl_socket_set_verify_hostname s b)
  end.
Fixpoint tls_execs (N : nat) (s : ssl_socket) (ops : list tls_op) : Io ssl_socket :=
  match ops with
  | [] => oret s
  | op :: ops => p <- tls_exec N s op;; tls_execs N (snd p) ops
  end.
Definition sane_op (op : tls_op) : Prop := match op with TlsOpen _ _ timeout => sane_timeout timeout | _ => True end.
(** the assumptions about the system: names resolve to addresses, close() succeeds, the
    clock works *)
Definition good (l : list entry) : Prop := resolver_ok l /\ closes_ok l /\ clock_ok l.
Lemma good_app l l' : good (l ++ l') -> good l /\ good l'.
Proof.
  intros (A & B & C). apply resolver_ok_app in A. apply closes_ok_app in B.
  split; (split; [apply A|split; [apply B|]]); intros a I; apply C; apply in_or_app; auto.
Qed.
Definition tls_inv (s : ssl_socket) : Prop := (s_fd s = -1 /\ s_ssl s = false) \/ (0 <= s_fd s /\ s_ssl s = true).
Definition alive (s : ssl_socket) : Z := if s_fd s =? -1 then 0 else 1.
Definition accounted (s s' : ssl_socket) (l : list entry) : Prop :=
  held (s_fd s) ++ opened l = closed l ++ held (s_fd s') /\ alive s + ssl_balance l = alive s' /\ cert_balance l = 0.
Lemma accounted_app s1 s2 s3 l l' : accounted s1 s2 l -> accounted s2 s3 l' -> accounted s1 s3 (l ++ l').
Proof.
  intros (A & B & C) (A' & B' & C'). unfold accounted, ssl_balance, cert_balance in *. rewrite opened_app, closed_app, !count_app.
  split; [rewrite app_assoc, A, <- !app_assoc, A'; reflexivity|]. split; lia.
Qed.
Lemma accounted_refl s s' : s_fd s' = s_fd s -> accounted s s' [].
Proof. intros E. unfold accounted, alive. rewrite E. cbn. rewrite app_nil_r. split; [reflexivity|]. split; [lia|reflexivity]. Qed.

Lemma tls_close_ok s force : tls_inv s ->
  owp (amqp_ssl_socket_close s force) (fun p l => good l -> tls_inv (snd p) /\ accounted s (snd p) l /\ (s_fd (snd p) = -1)).
Proof.
  intros I. unfold amqp_ssl_socket_close. destruct (Z.eqb_spec (s_fd s) (-1)) as [E|E].
  - apply owp_ret. intros _. cbn [snd]. split; [exact I|]. split; [apply accounted_refl; reflexivity|exact E].
  - assert (S : s_ssl s = true) by (destruct I as [[I1 _]|[_ I2]]; [contradiction|exact I2]).
    assert (REST : forall l0, plains l0 -> owp (s <- ssl_free s;; a <- ask (Close (s_fd s));;
       (if negb (result a =? 0) then oret (AMQP_STATUS_SOCKET_ERROR, s) else oret (AMQP_STATUS_OK, set_sfd s (-1))))
       (fun p l => good (l0 ++ l) -> tls_inv (snd p) /\ accounted s (snd p) (l0 ++ l) /\ s_fd (snd p) = -1)).
    { intros l0 P0. apply owp_bind. unfold ssl_free. rewrite S. apply owp_ask_bind. intros a. apply owp_ret.
      apply owp_ask_bind. intros c. destruct (Z.eqb_spec (result c) 0) as [C|C]; cbn [negb]; apply owp_ret; cbn [snd app]; intros G.
      - split; [left; split; reflexivity|]. split; [|reflexivity].
        destruct (plain_opened l0 P0) as (A & B & D & F). unfold accounted, alive, held, ssl_balance, cert_balance in *.
        rewrite opened_app, closed_app, !count_app, A, B, D, F. cbn [s_fd set_sfd set_ssl Z.eqb Pos.eqb opened closed app].
        replace (s_fd s =? -1) with false by (symmetry; apply Z.eqb_neq; exact E). repeat split; reflexivity.
      - destruct C. destruct G as (_ & G & _). apply (G (s_fd s) c). apply in_or_app. right. right. left. reflexivity. }
    apply owp_bind. destruct force.
    + apply owp_ret. eapply owp_conseq; [apply (REST []); reflexivity|]. intros p l H. exact H.
    + unfold ssl_shutdown. rewrite S. apply owp_ask_bind. intros a. apply owp_ret.
      eapply owp_conseq; [apply (REST [(Shutdown, a)]); reflexivity|]. intros p l H. exact H.
Qed.
Lemma tls_exec_ok N s op : tls_inv s -> sane_op op ->
  owp (tls_exec N s op) (fun p l => good l -> tls_inv (snd p) /\ accounted s (snd p) l).
Proof.
  intros I S. destruct op as [host port timeout|force|b|b]; cbn [tls_exec].
  - destruct (Z.eqb_spec (s_fd s) (-1)) as [E|E].
    + eapply owp_conseq; [apply tls_open_ok; exact E|]. intros [r s'] l [H D] (R & C & K). cbn [fst snd] in *.
      assert (AL : forall fd ssl, balance l (held fd) ssl 0 -> s_fd s' = fd -> ssl = alive s' -> accounted s s' l).
      { intros fd ssl (B1 & B2 & B3) F F'. unfold accounted. rewrite B1, B2, B3, F, F'. unfold alive at 1. rewrite E. cbn [held Z.eqb Pos.eqb app].
        repeat split; reflexivity. }
      destruct H as [(_ & S1 & _ & d & l1 & l2 & l3 & h & l4 & X1 & X2 & X3 & X4 & X5 & X6 & B)|[(L & F & S1 & _ & B)|(L & F & _)]].
      * split; [right; split; assumption|]. assert (NF : (s_fd s' =? -1) = false) by (apply Z.eqb_neq; lia).
        apply (AL (s_fd s') 1); [|reflexivity|unfold alive; rewrite NF; reflexivity]. unfold held. rewrite NF. apply B.
        intros hh p x Hx. apply (R hh p x). rewrite X1. apply in_or_app. right. apply in_or_app. left. exact Hx.
      * split; [left; split; assumption|]. apply (AL (-1) 0); [exact (B R)|exact F|unfold alive; rewrite F; reflexivity].
      * destruct (D S K F).
    + unfold amqp_ssl_socket_open. replace (s_fd s =? -1) with false by (symmetry; apply Z.eqb_neq; exact E). cbn [negb].
      apply owp_ret. intros _. cbn [snd]. split; [exact I|apply accounted_refl; reflexivity].
  - eapply owp_conseq; [apply tls_close_ok; exact I|]. intros p l H G. destruct (H G) as (A & B & _). auto.
  - apply owp_ret. intros _. cbn [snd]. split; [exact I|apply accounted_refl; reflexivity].
  - apply owp_ret. intros _. cbn [snd]. split; [exact I|apply accounted_refl; reflexivity].
Qed.
(** [orun_ok]: a run that, as long as the system behaves, does not end in undefined
    behaviour and, if it ends, ends in [Q] *)
Definition runs {A} (m : Io A) (Q : A -> list entry -> Prop) : Prop :=
  forall ans, match m ans with ODone a _ l => good l -> Q a l | OHalt s l => good l -> s <> OUB end.
Lemma tls_execs_ok N : forall ops s, tls_inv s -> Forall sane_op ops ->
  runs (tls_execs N s ops) (fun s' l => tls_inv s' /\ accounted s s' l).
Proof.
  induction ops as [|op ops IH]; intros s I F ans; cbn [tls_execs].
  - cbn. intros _. split; [exact I|apply accounted_refl; reflexivity].
  - inversion F as [|? ? S F']; subst. pose proof (tls_exec_ok N s op I S ans) as H. unfold obind.
    destruct (tls_exec N s op ans) as [[st s1] rest l|st l]; [|intros _; exact H]. cbn [snd] in *.
    destruct (tls_execs N s1 ops rest) as [s2 rest2 l2|st2 l2] eqn:E.
    + intros G. apply good_app in G. destruct G as [G1 G2]. destruct (H G1) as [I1 A1].
      pose proof (IH s1 I1 F' rest) as X. rewrite E in X. destruct (X G2) as [I2 A2]. split; [exact I2|]. eapply accounted_app; eassumption.
    + intros G. apply good_app in G. destruct G as [G1 G2]. destruct (H G1) as [I1 A1].
      pose proof (IH s1 I1 F' rest) as X. rewrite E in X. exact (X G2).
Qed.
(** Any sequence of opens, closes and settings on a new TLS socket, in a system that
    behaves: no undefined behaviour, every descriptor created has been closed exactly
    once except the one the socket holds, there is a TLS object exactly while the socket
    is open, and no certificate is left. *)
Theorem C58_tls_socket_partial N ops ans : Forall sane_op ops ->
  match tls_execs N new_ssl_socket ops ans with
  | ODone s _ l => good l -> opened l = closed l ++ held (s_fd s) /\ ssl_balance l = (if s_fd s =? -1 then 0 else 1) /\ cert_balance l = 0
  | OHalt st l => good l -> st <> OUB
  end.
Proof.
  intros F. pose proof (tls_execs_ok N ops new_ssl_socket (or_introl (conj eq_refl eq_refl)) F ans) as H.
  destruct (tls_execs N new_ssl_socket ops ans) as [s rest l|st l]; [|exact H].
  intros G. destruct (H G) as (_ & A & B & C). unfold alive in B. cbn in A, B. auto.
Qed.
(** deleting the socket afterwards gives everything back *)
Theorem C58_tls_socket_delete_partial N ops ans : Forall sane_op ops ->
  match (s <- tls_execs N new_ssl_socket ops;; amqp_ssl_socket_delete s) ans with
  | ODone _ _ l => good l -> opened l = closed l /\ ssl_balance l = 0 /\ cert_balance l = 0
  | OHalt st l => good l -> st <> OUB
  end.
Proof.
  intros F. pose proof (tls_execs_ok N ops new_ssl_socket (or_introl (conj eq_refl eq_refl)) F ans) as H. unfold obind.
  destruct (tls_execs N new_ssl_socket ops ans) as [s rest l|st l]; [|exact H].
  assert (K : good l -> owp (amqp_ssl_socket_delete s) (fun _ l' => good l' -> opened (l ++ l') = closed (l ++ l') /\ ssl_balance (l ++ l') = 0 /\ cert_balance (l ++ l') = 0)).
  { intros G. destruct (H G) as [I A]. unfold amqp_ssl_socket_delete. apply owp_bind.
    eapply owp_conseq; [apply tls_close_ok; exact I|]. intros p l1 T.
    assert (X : forall l2, plains l2 -> good (l1 ++ l2) -> opened (l ++ l1 ++ l2) = closed (l ++ l1 ++ l2) /\ ssl_balance (l ++ l1 ++ l2) = 0 /\ cert_balance (l ++ l1 ++ l2) = 0).
    { intros l2 P2 G2. apply good_app in G2. destruct (T (proj1 G2)) as (_ & A1 & E1).
      destruct (accounted_app _ _ _ _ _ A A1) as (Y1 & Y2 & Y3). unfold alive in Y2. rewrite E1 in *. cbn in Y1, Y2. rewrite app_nil_r in Y1.
      rewrite app_assoc. destruct (plain_opened l2 P2) as (Z1 & Z2 & Z3 & Z4). unfold ssl_balance, cert_balance in *.
      rewrite opened_app, closed_app, !(count_app _ (l ++ l1)), Z1, Z2, Z3, Z4, Y1, Y2, Y3, !app_nil_r. repeat split; reflexivity. }
    destruct (s_ctx (snd p)).
    - apply owp_ask_bind. intros a. apply owp_ret. intros G1. apply (X [(CtxFree, a)]); [reflexivity|exact G1].
    - apply owp_ret. intros G1. apply (X []); [reflexivity|exact G1]. }
  destruct (amqp_ssl_socket_delete s rest) as [u rest2 l2|st2 l2] eqn:E.
  - intros G. apply good_app in G. destruct G as [G1 G2]. specialize (K G1 rest). rewrite E in K. exact (K G2).
  - intros G. apply good_app in G. destruct G as [G1 G2]. specialize (K G1 rest). rewrite E in K. exact K.
Qed.
(** Missing: a close() that fails.  It leaves the socket with its descriptor but
    without a TLS object: closing or deleting it then calls SSL_shutdown(NULL). *)
Theorem C58_tls_socket_refuted : exists N ops ans, Forall sane_op ops /\
  match (s <- tls_execs N new_ssl_socket ops;; amqp_ssl_socket_delete s) ans with
  | ODone _ _ _ => False
  | OHalt st l => st = OUB /\ resolver_ok l /\ clock_ok l
  end.
Proof.
  pose (ok := mkAns 0 0 None). pose (one := mkAns 1 0 None).
  exists 1%nat, [TlsOpen [x68] 5671 None; TlsClose false],
    ([one; mkAns 0 0 (Some [1]); mkAns 5 0 None; ok; ok; ok; ok; ok; ok; ok; one; one; one; one; ok; one; one; one; one; mkAns (-1) 5 None; ok; ok]).
  split; [repeat constructor|].
  match goal with |- match ?m with _ => _ end => let v := eval vm_compute in m in change m with v end.
  cbv beta iota. split; [reflexivity|]. split.
  - intros h p a H. repeat (destruct H as [H|H]; [inversion H; discriminate|]). destruct H.
  - intros a H. exfalso. repeat (destruct H as [H|H]; [discriminate H|]). exact H.
Qed.

(** ** C49: what the application switched on *)
(** the last value the application gave a verification, [true] if none *)
Fixpoint last_peer (ops : list tls_op) (b : bool) : bool :=
  match ops with [] => b | VerifyPeer b :: ops => last_peer ops b | _ :: ops => last_peer ops b end.
Fixpoint last_hostname (ops : list tls_op) (b : bool) : bool :=
  match ops with [] => b | VerifyHostname b :: ops => last_hostname ops b | _ :: ops => last_hostname ops b end.
Lemma keep_settings N s op : opost (tls_exec N s op) (fun p _ =>
  s_verify_peer (snd p) = last_peer [op] (s_verify_peer s) /\ s_verify_hostname (snd p) = last_hostname [op] (s_verify_hostname s)).
Proof.
  destruct op as [host port timeout|force|b|b]; cbn [tls_exec last_peer last_hostname].
  - destruct (Z.eqb_spec (s_fd s) (-1)) as [E|E].
    + eapply opost_conseq; [apply opost_owp, tls_open_ok; exact E|]. intros [r s'] l [H _]. cbn [fst snd] in *.
      destruct H as [(_ & _ & (_ & A & B) & _)|[(_ & _ & _ & (_ & A & B) & _)|(_ & -> & _)]]; auto.
    + unfold amqp_ssl_socket_open. replace (s_fd s =? -1) with false by (symmetry; apply Z.eqb_neq; exact E). cbn [negb].
      apply opost_ret. cbn. auto.
  - unfold amqp_ssl_socket_close. destruct (s_fd s =? -1); [apply opost_ret; cbn; auto|].
    apply opost_bind.
    assert (K : opost (if force then oret tt else ssl_shutdown s) (fun _ _ => True)).
    { intros x. destruct (_ x); exact I. }
    eapply opost_conseq; [exact K|]. intros _ l _. apply opost_bind.
    assert (K2 : opost (ssl_free s) (fun s' _ => s_verify_peer s' = s_verify_peer s /\ s_verify_hostname s' = s_verify_hostname s)).
    { unfold ssl_free. destruct (s_ssl s); [apply opost_ask_bind; intros a|]; apply opost_ret; cbn; auto. }
    eapply opost_conseq; [exact K2|]. intros s' l' [A B]. apply opost_ask_bind. intros a. destruct (negb _); apply opost_ret; cbn; auto.
  - apply opost_ret. cbn. auto.
  - apply opost_ret. cbn. auto.
Qed.
(** After any sequence of opens, closes and settings on a new TLS socket: an open that
    reports success has verified the peer (host name) unless the application's last word
    on that verification was to switch it off. *)
Theorem C49_settings N ops host port timeout ans :
  match (s <- tls_execs N new_ssl_socket ops;; amqp_ssl_socket_open N s host port timeout) ans with
  | ODone (r, s') _ l => r = AMQP_STATUS_OK ->
      exists l1 h l2, l = l1 ++ (Handshake, h) :: l2 /\ result h = 1 /\ verified (last_peer ops true) (last_hostname ops true) host l2
  | OHalt _ _ => True
  end.
Proof.
  assert (K : forall ops s, opost (tls_execs N s ops) (fun s' _ =>
    s_verify_peer s' = last_peer ops (s_verify_peer s) /\ s_verify_hostname s' = last_hostname ops (s_verify_hostname s))).
  { clear. induction ops as [|op ops IH]; intros s; cbn [tls_execs]; [apply opost_ret; auto|].
    apply opost_bind. eapply opost_conseq; [apply keep_settings|]. intros p l [A B].
    eapply opost_conseq; [apply IH|]. intros s' l' [A' B']. rewrite A', B', A, B. destruct op; auto. }
  assert (T : opost (s <- tls_execs N new_ssl_socket ops;; amqp_ssl_socket_open N s host port timeout) (fun p l =>
    fst p = AMQP_STATUS_OK -> exists l1 h l2, l = l1 ++ (Handshake, h) :: l2 /\ result h = 1 /\ verified (last_peer ops true) (last_hostname ops true) host l2)).
  { apply opost_bind. eapply opost_conseq; [apply K|]. cbn [new_ssl_socket s_verify_peer s_verify_hostname]. intros s l [A B].
    rewrite <- A, <- B. intros ans'. pose proof (C49_verified N s host port timeout ans') as H.
    destruct (amqp_ssl_socket_open N s host port timeout ans') as [[r s'] rest l'|]; [|exact I]. cbn [fst]. intros R.
    destruct (H R) as (_ & d & l1 & l2 & l3 & h & l4 & -> & _ & _ & _ & _ & X & Y). exists (l ++ l1 ++ l2 ++ l3), h, l4.
    rewrite <- !app_assoc. auto. }
  specialize (T ans). destruct ((s <- _;; _) ans) as [[r s'] rest l|]; [exact T|exact I].
Qed.

(** ** Concrete cases *)
(** a handshake that needs to read, then write, with both verifications *)
Example C49_case : forall v h : Z,
  match amqp_ssl_socket_open 3 new_ssl_socket [x68] 5671 None
    [mkAns 1 0 None; mkAns 0 0 (Some [1]); mkAns 5 0 None; ok; ok; ok; ok; ok; ok; ok; mkAns 1 0 None; mkAns 1 0 None;
     mkAns (-1) SSL_ERROR_WANT_READ None; mkAns 1 0 None; mkAns (-1) SSL_ERROR_WANT_WRITE None; mkAns 1 0 None; mkAns 1 0 None;
     mkAns 1 0 None; mkAns (if v =? 1 then 18 else 0) 0 None; mkAns (if h =? 1 then 0 else 1) 0 None; ok; ok; ok; ok] with
  | ODone (r, s) _ l =>
      (if v =? 1 then r = AMQP_STATUS_SSL_PEER_VERIFY_FAILED /\ s_fd s = -1 /\ closed l = [5] /\ ssl_balance l = 0
       else if h =? 1 then r = AMQP_STATUS_SSL_HOSTNAME_VERIFY_FAILED /\ s_fd s = -1 /\ closed l = [5] /\ ssl_balance l = 0
       else r = AMQP_STATUS_OK /\ s_fd s = 5 /\ opened l = [5] /\ closed l = [] /\ ssl_balance l = 1)
  | OHalt _ _ => False
  end.
Proof. intros v h. destruct (v =? 1); [|destruct (h =? 1)]; vm_compute; repeat split. Qed.

Print Assumptions C49_verified.
Print Assumptions C49_default.
Print Assumptions C49_handshake.
Print Assumptions C49_settings.
Print Assumptions C49_failure_partial.
Print Assumptions C49_failure_refuted.
Print Assumptions C58_tls_socket_partial.
Print Assumptions C58_tls_socket_delete_partial.
Print Assumptions C58_tls_socket_refuted.
