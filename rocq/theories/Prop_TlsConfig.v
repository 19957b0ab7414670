(** * C77: the configuration of a TLS socket. *)
From Coq Require Import ZArith List Bool Lia.
From Coq.Init Require Import Byte.
From Verif Require Import Base TlsConfig.
Import ListNotations.
Local Open Scope Z_scope.

(** ** Specification *)
(** the protocol versions, by their numbers on the wire: 3.1 is TLS 1.0, ... 3.4 is TLS 1.3 *)
Definition tls_1_2 : Z := 256 * 3 + 3.
Definition tls_1_3 : Z := 256 * 3 + 4.
(** what a context accepts in a handshake (a bound of 0: none) *)
Definition accepts (c : ctx) (v : Z) : Prop := (min_proto c = 0 \/ min_proto c <= v) /\ (max_proto c = 0 \/ v <= max_proto c).
(** the version that a constant of ssl_socket.h stands for, if it is supported *)
Inductive stands_for : Z -> Z -> Prop :=
| v_1_2 : stands_for 3 tls_1_2          (* AMQP_TLSv1_2 *)
| v_1_3 : stands_for 4 tls_1_3          (* AMQP_TLSv1_3 *)
| v_latest : stands_for 65535 tls_1_3.  (* AMQP_TLSvLATEST *)
(** objects of OpenSSL that were made and not freed *)
Definition object_eqb (a b : object) : bool := match a, b with Bio, Bio | Rsa, Rsa => true | _, _ => false end.
Fixpoint live (o : object) (l : list note) : Z :=
  match l with
  | [] => 0
  | Made p :: l => (if object_eqb p o then 1 else 0) + live o l
  | Freed p :: l => live o l - (if object_eqb p o then 1 else 0)
  end.
(** the settings that change the certificate or the key *)
Definition about_key (s : setting) : Prop := match s with SetKey _ _ | SetKeyBuffer _ _ | SetCert _ => True | _ => False end.
Definition about_versions (s : setting) : Prop := match s with SetVersions _ _ => True | _ => False end.

(** ** Proofs *)
Lemma live_app o l1 l2 : live o (l1 ++ l2) = live o l1 + live o l2.
Proof. induction l1 as [|[p|p] l1 IH]; cbn [app live]; lia. Qed.
Lemma version_spec v n : get_tls_version v = Some n <-> stands_for v n.
Proof.
  unfold get_tls_version, AMQP_TLSv1_2, AMQP_TLSv1_3, AMQP_TLSvLATEST. split.
  - destruct (Z.eqb_spec v 3) as [->|]; [intros [= <-]; constructor|]. destruct (Z.eqb_spec v 4) as [->|]; [intros [= <-]; constructor|].
    destruct (Z.eqb_spec v 65535) as [->|]; cbn; [intros [= <-]; constructor|discriminate].
  - intros []; reflexivity.
Qed.
Lemma version_none v : get_tls_version v = None <-> forall n, ~ stands_for v n.
Proof.
  split.
  - intros H n K. apply version_spec in K. congruence.
  - intros H. destruct (get_tls_version v) as [n|] eqn:E; [|reflexivity]. apply version_spec in E. destruct (H n E).
Qed.
Lemma stands_range v n : stands_for v n -> n = tls_1_2 \/ n = tls_1_3.
Proof. intros []; auto. Qed.
Lemma stands_order a b m n : stands_for a m -> stands_for b n -> a <= b -> m <= n.
Proof. intros [] []; unfold tls_1_2, tls_1_3; lia. Qed.

(** what a setting does to the versions *)
Lemma setting_versions s c ans r c' ans' l : apply_setting s c ans = (r, c', ans', l) ->
  (min_proto c' = min_proto c \/ exists v, stands_for v (min_proto c')) /\ (max_proto c' = max_proto c \/ exists v, stands_for v (max_proto c')).
Proof.
  destruct s as [mn mx| |n|cf k|cf k|cf|p]; cbn [apply_setting].
  - unfold amqp_ssl_socket_set_ssl_versions. destruct (mx <? mn); [intros [= _ <- _ _]; auto|].
    destruct (get_tls_version mn) as [a|] eqn:Ea; [|intros [= _ <- _ _]; auto]. destruct (get_tls_version mx) as [b|] eqn:Eb; [|intros [= _ <- _ _]; auto].
    apply version_spec in Ea, Eb. unfold tbind, call, tret. destruct (answer ans); cbn [negb]; [|intros [= _ <- _ _]; auto].
    destruct (answer (tl ans)); cbn [negb]; intros [= _ <- _ _]; cbn; split; eauto.
  - unfold amqp_ssl_socket_enable_default_verify_paths, tbind, call, tret. destruct (answer ans); intros [= _ <- _ _]; cbn; auto.
  - unfold amqp_ssl_socket_set_cacert, tbind, call, tret. destruct (answer ans); intros [= _ <- _ _]; cbn; auto.
  - unfold amqp_ssl_socket_set_key, tbind, call, tret. destruct (answer ans); cbn [negb]; [|intros [= _ <- _ _]; auto].
    destruct (answer (tl ans)); cbn [negb]; intros [= _ <- _ _]; cbn; auto.
  - unfold amqp_ssl_socket_set_key_buffer. destruct (_ <? _); [intros [= _ <- _ _]; auto|]. unfold tbind, call, tret, make, free. cbv zeta.
    destruct (answer ans); cbn [negb]; [|intros [= _ <- _ _]; auto].
    destruct (answer (tl ans)); cbn [negb]; [|intros [= _ <- _ _]; cbn; auto].
    destruct (answer (tl (tl ans))); cbn [negb]; [|intros [= _ <- _ _]; cbn; auto].
    destruct (answer (tl (tl (tl ans)))); cbn [negb]; intros [= _ <- _ _]; cbn; auto.
  - unfold amqp_ssl_socket_set_cert, tbind, call, tret. destruct (answer ans); intros [= _ <- _ _]; cbn; auto.
  - unfold amqp_ssl_socket_set_key_passwd. intros [= _ <- _ _]; cbn; auto.
Qed.
(** what the settings that are not about the versions (not about the key) leave alone *)
Lemma setting_other s c ans r c' ans' l : apply_setting s c ans = (r, c', ans', l) ->
  (~ about_versions s -> min_proto c' = min_proto c /\ max_proto c' = max_proto c) /\
  (~ about_key s -> certificate c' = certificate c /\ private_key c' = private_key c).
Proof.
  destruct s as [mn mx| |n|cf k|cf k|cf|p]; cbn [apply_setting about_versions about_key].
  - intros H. split; [intros K; destruct K; exact I|]. intros _. revert H. unfold amqp_ssl_socket_set_ssl_versions. destruct (mx <? mn); [intros [= _ <- _ _]; auto|].
    destruct (get_tls_version mn) as [a|] eqn:Ea; [|intros [= _ <- _ _]; auto]. destruct (get_tls_version mx) as [b|] eqn:Eb; [|intros [= _ <- _ _]; auto].
    unfold tbind, call, tret. destruct (answer ans); cbn [negb]; [|intros [= _ <- _ _]; auto].
    destruct (answer (tl ans)); cbn [negb]; intros [= _ <- _ _]; cbn; eauto.
  - unfold amqp_ssl_socket_enable_default_verify_paths, tbind, call, tret. destruct (answer ans); intros [= _ <- _ _]; cbn; auto.
  - unfold amqp_ssl_socket_set_cacert, tbind, call, tret. destruct (answer ans); intros [= _ <- _ _]; cbn; auto.
  - intros H. split; [|intros K; destruct K; exact I]. intros _. revert H. unfold amqp_ssl_socket_set_key, tbind, call, tret. destruct (answer ans); cbn [negb]; [|intros [= _ <- _ _]; auto].
    destruct (answer (tl ans)); cbn [negb]; intros [= _ <- _ _]; cbn; auto.
  - intros H. split; [|intros K; destruct K; exact I]. intros _. revert H. unfold amqp_ssl_socket_set_key_buffer. destruct (_ <? _); [intros [= _ <- _ _]; auto|]. unfold tbind, call, tret, make, free. cbv zeta.
    destruct (answer ans); cbn [negb]; [|intros [= _ <- _ _]; auto].
    destruct (answer (tl ans)); cbn [negb]; [|intros [= _ <- _ _]; cbn; auto].
    destruct (answer (tl (tl ans))); cbn [negb]; [|intros [= _ <- _ _]; cbn; auto].
    destruct (answer (tl (tl (tl ans)))); cbn [negb]; intros [= _ <- _ _]; cbn; auto.
  - intros H. split; [|intros K; destruct K; exact I]. intros _. revert H. unfold amqp_ssl_socket_set_cert, tbind, call, tret. destruct (answer ans); intros [= _ <- _ _]; cbn; auto.
  - unfold amqp_ssl_socket_set_key_passwd. intros [= _ <- _ _]; cbn; auto.
Qed.
Lemma setting_notes s c ans r c' ans' l o : apply_setting s c ans = (r, c', ans', l) -> live o l = 0.
Proof.
  destruct s as [mn mx| |n|cf k|cf k|cf|p]; cbn [apply_setting].
  - unfold amqp_ssl_socket_set_ssl_versions. destruct (mx <? mn); [intros [= _ _ _ <-]; reflexivity|].
    destruct (get_tls_version mn) as [a|] eqn:Ea; [|intros [= _ _ _ <-]; reflexivity]. destruct (get_tls_version mx) as [b|] eqn:Eb; [|intros [= _ _ _ <-]; reflexivity].
    unfold tbind, call, tret. destruct (answer ans); cbn [negb]; [|intros [= _ _ _ <-]; reflexivity].
    destruct (answer (tl ans)); cbn [negb]; intros [= _ _ _ <-]; reflexivity.
  - unfold amqp_ssl_socket_enable_default_verify_paths, tbind, call, tret. destruct (answer ans); intros [= _ _ _ <-]; reflexivity.
  - unfold amqp_ssl_socket_set_cacert, tbind, call, tret. destruct (answer ans); intros [= _ _ _ <-]; reflexivity.
  - unfold amqp_ssl_socket_set_key, tbind, call, tret. destruct (answer ans); cbn [negb]; [|intros [= _ _ _ <-]; reflexivity].
    destruct (answer (tl ans)); cbn [negb]; intros [= _ _ _ <-]; reflexivity.
  - unfold amqp_ssl_socket_set_key_buffer. destruct (_ <? _); [intros [= _ _ _ <-]; reflexivity|]. unfold tbind, call, tret, make, free. cbv zeta.
    destruct (answer ans); cbn [negb]; [|intros [= _ _ _ <-]; reflexivity].
    destruct (answer (tl ans)); cbn [negb]; [|intros [= _ _ _ <-]; reflexivity].
    destruct (answer (tl (tl ans))); cbn [negb]; [|intros [= _ _ _ <-]; destruct o; reflexivity].
    destruct (answer (tl (tl (tl ans)))); cbn [negb]; intros [= _ _ _ <-]; destruct o; reflexivity.
  - unfold amqp_ssl_socket_set_cert, tbind, call, tret. destruct (answer ans); intros [= _ _ _ <-]; reflexivity.
  - unfold amqp_ssl_socket_set_key_passwd. intros [= _ _ _ <-]; reflexivity.
Qed.
Lemma settings_cons s l c ans rs c' ans' n : apply_settings (s :: l) c ans = (rs, c', ans', n) ->
  exists r c1 ans1 n1 rs' n2, apply_setting s c ans = (r, c1, ans1, n1) /\ apply_settings l c1 ans1 = (rs', c', ans', n2) /\ rs = r :: rs' /\ n = n1 ++ n2.
Proof.
  cbn [apply_settings]. unfold tbind, tret. destruct (apply_setting s c ans) as [[[r c1] ans1] n1]. destruct (apply_settings l c1 ans1) as [[[rs' c2] ans2] n2] eqn:E.
  rewrite app_nil_r. intros [= <- <- <- <-]. repeat eexists; eauto.
Qed.

(** ** Theorems *)
(** A socket that was created and configured in any way - any calls with any arguments,
    whatever OpenSSL answers - accepts no version but TLS 1.2 and TLS 1.3. *)
Theorem C77_never_older :
  forall (ans0 ans ans' : list bool) (settings : list setting) (c0 c : ctx) (rs : list Z) (n : list note) (v : Z),
    amqp_ssl_socket_new ans0 = (Some c0, ans) -> apply_settings settings c0 ans = (rs, c, ans', n) ->
    accepts c v -> v = tls_1_2 \/ v = tls_1_3.
Proof.
  intros ans0 ans ans' ss c0 c rs n v H0 H.
  assert ((exists v, stands_for v (min_proto c0)) /\ (exists v, stands_for v (max_proto c0))) as HI.
  { revert H0. unfold amqp_ssl_socket_new. cbn. destruct (answer ans0); cbn; [|discriminate]. destruct (answer (tl ans0)); cbn; [|discriminate]. intros [= <- _]. cbn.
    split; [exists 3; constructor|exists 4; constructor]. }
  clear H0. revert c0 ans rs n HI H. induction ss as [|s ss IH]; intros c0 ans rs n [HI1 HI2] H.
  - cbn in H. injection H as _ <- _ _. destruct HI1 as [a Ha], HI2 as [b Hb]. apply stands_range in Ha, Hb. intros [[K|K] [L|L]]; unfold tls_1_2, tls_1_3 in *; lia.
  - apply settings_cons in H. destruct H as (r & c1 & ans1 & n1 & rs' & n2 & H1 & H2 & _ & _). destruct (setting_versions _ _ _ _ _ _ _ H1) as [K1 K2].
    eapply IH; [|exact H2]. split; [destruct K1 as [->|K1]; assumption|destruct K2 as [->|K2]; assumption].
Qed.
(** a new socket accepts both *)
Theorem C77_default :
  forall (ans0 ans : list bool) (c : ctx) (v : Z), amqp_ssl_socket_new ans0 = (Some c, ans) -> (accepts c v <-> tls_1_2 <= v <= tls_1_3).
Proof.
  intros ans0 ans c v. unfold amqp_ssl_socket_new. cbn. destruct (answer ans0); cbn; [|discriminate]. destruct (answer (tl ans0)); cbn; [|discriminate].
  intros [= <- _]. unfold accepts. cbn. unfold tls_1_2, tls_1_3, TLS1_2_VERSION, TLS1_3_VERSION. lia.
Qed.
(** amqp_ssl_socket_set_ssl_versions: exactly which arguments it takes, and what they
    mean.  Arguments that it does not take change nothing. *)
Theorem C77_versions :
  forall (min max : Z) (c c' : ctx) (ans ans' : list bool) (r : Z) (n : list note),
    apply_setting (SetVersions min max) c ans = (r, c', ans', n) ->
    (r = AMQP_STATUS_OK -> exists a b, stands_for min a /\ stands_for max b /\ min <= max /\ a <= b /\ (forall v, accepts c' v <-> a <= v <= b)) /\
    (max < min -> r = AMQP_STATUS_INVALID_PARAMETER /\ c' = c) /\
    (min <= max -> (forall a, ~ stands_for min a) \/ (forall b, ~ stands_for max b) -> r = AMQP_STATUS_UNSUPPORTED /\ c' = c) /\
    (min <= max -> (exists a, stands_for min a) -> (exists b, stands_for max b) ->
      (r = AMQP_STATUS_OK <-> hd false ans = true /\ hd false (tl ans) = true) /\ (r <> AMQP_STATUS_OK -> r = AMQP_STATUS_INVALID_PARAMETER)).
Proof.
  intros mn mx c c' ans ans' r n. cbn [apply_setting]. unfold amqp_ssl_socket_set_ssl_versions.
  destruct (Z.ltb_spec mx mn) as [Hlt|Hle].
  { intros [= <- <- _ _]. split; [discriminate|]. split; [auto|]. split; lia. }
  destruct (get_tls_version mn) as [a|] eqn:Ea.
  2:{ pose proof (proj1 (version_none _) Ea) as Ea'. clear Ea. rename Ea' into Ea. intros [= <- <- _ _]. split; [discriminate|]. split; [lia|]. split; [auto|]. intros _ [a K]. destruct (Ea a K). }
  destruct (get_tls_version mx) as [b|] eqn:Eb.
  2:{ pose proof (proj1 (version_none _) Eb) as Eb'. clear Eb. rename Eb' into Eb. intros [= <- <- _ _]. split; [discriminate|]. split; [lia|]. split; [auto|]. intros _ _ [b K]. destruct (Eb b K). }
  apply version_spec in Ea, Eb. unfold tbind, call, tret, answer.
  assert (forall r c' , (min_proto c' = a -> max_proto c' = b -> r = AMQP_STATUS_OK -> exists a b, stands_for mn a /\ stands_for mx b /\ mn <= mx /\ a <= b /\ (forall v, accepts c' v <-> a <= v <= b))) as HOK.
  { intros r0 c0 K1 K2 _. exists a, b. split; [exact Ea|]. split; [exact Eb|]. split; [exact Hle|]. split; [eapply stands_order; eauto|]. intros v. unfold accepts. rewrite K1, K2.
    apply stands_range in Ea, Eb. unfold tls_1_2, tls_1_3 in *. lia. }
  assert (forall P : Prop, ((forall a0, ~ stands_for mn a0) \/ (forall b0, ~ stands_for mx b0)) -> P) as HN by (intros P [K|K]; [destruct (K a Ea)|destruct (K b Eb)]).
  destruct (hd false ans) eqn:E1; cbn [negb]; [destruct (hd false (tl ans)) eqn:E2; cbn [negb]|]; intros [= <- <- _ _].
  - split; [intros _; apply (HOK AMQP_STATUS_OK); reflexivity|]. split; [lia|]. split; [intros _ K; apply HN, K|]. intros _ _ _. split; [tauto|]. intros K. contradiction K; reflexivity.
  - split; [discriminate|]. split; [lia|]. split; [intros _ K; apply HN, K|]. intros _ _ _. split; [split; [discriminate|intros [_ K]; discriminate]|reflexivity].
  - split; [discriminate|]. split; [lia|]. split; [intros _ K; apply HN, K|]. intros _ _ _. split; [split; [discriminate|intros [K _]; discriminate]|reflexivity].
Qed.
(** The last word counts: other settings in between, and versions that are refused for
    their arguments, do not change what was set. *)
Theorem C77_versions_last :
  forall (min max a b : Z) (c c1 c' : ctx) (ans ans1 ans' : list bool) (n1 n : list note) (settings : list setting) (rs : list Z) (v : Z),
    apply_setting (SetVersions min max) c ans = (AMQP_STATUS_OK, c1, ans1, n1) -> stands_for min a -> stands_for max b ->
    apply_settings settings c1 ans1 = (rs, c', ans', n) ->
    (forall lo hi, In (SetVersions lo hi) settings -> hi < lo \/ (forall x, ~ stands_for lo x) \/ (forall x, ~ stands_for hi x)) ->
    (accepts c' v <-> a <= v <= b).
Proof.
  intros mn mx a b c c1 c' ans ans1 ans' n1 n ss rs v H Ha Hb Hs Hr.
  destruct (C77_versions _ _ _ _ _ _ _ _ H) as [K _]. destruct (K eq_refl) as (a' & b' & Ha' & Hb' & _ & _ & Hv).
  assert (a' = a) as -> by (destruct Ha; inversion Ha'; reflexivity). assert (b' = b) as -> by (destruct Hb; inversion Hb'; reflexivity).
  rewrite <- (Hv v). clear Hv K Ha Hb Ha' Hb' H. revert c1 ans1 rs n Hs. induction ss as [|s ss IH]; intros c1 ans1 rs n Hs.
  - cbn in Hs. injection Hs as _ <- _ _. reflexivity.
  - apply settings_cons in Hs. destruct Hs as (r & c2 & ans2 & m1 & rs' & m2 & H1 & H2 & _ & _).
    rewrite (IH (fun lo hi Hin => Hr lo hi (or_intror Hin)) _ _ _ _ H2). clear IH H2.
    assert (min_proto c2 = min_proto c1 /\ max_proto c2 = max_proto c1) as [E1 E2].
    2:{ unfold accepts. rewrite E1, E2. reflexivity. }
    destruct s as [lo hi| | | | | |]; try (apply (setting_other _ _ _ _ _ _ _ H1); exact (fun K => K)).
    destruct (C77_versions _ _ _ _ _ _ _ _ H1) as (_ & K1 & K2 & _). destruct (Hr lo hi (or_introl eq_refl)) as [L|L].
    + destruct (K1 L) as [_ ->]. auto.
    + destruct (Z.lt_ge_cases hi lo) as [L2|L2]; [destruct (K1 L2) as [_ ->]; auto|]. destruct (K2 L2 L) as [_ ->]. auto.
Qed.
(** Refuted: a call that OpenSSL refuses has changed nothing.  The lower bound may have
    been set; here the socket then accepts no version at all. *)
Theorem C77_refused_unchanged_refuted :
  exists c c' ans ans' n, apply_setting (SetVersions 4 4) c ans = (AMQP_STATUS_INVALID_PARAMETER, c', ans', n) /\
    (forall v, accepts c v <-> v = tls_1_2) /\ (forall v, ~ accepts c' v).
Proof.
  exists (set_max 771 (set_min 771 fresh_ctx)). eexists. exists [true; false]. eexists. eexists. split; [reflexivity|].
  split; intros v; unfold accepts, tls_1_2; cbn; unfold TLS1_3_VERSION; lia.
Qed.

(** A certificate and key that were taken are the ones in use, whatever other settings follow. *)
Theorem C77_key_pair :
  forall (s : setting) (c c1 c' : ctx) (ans ans1 ans' : list bool) (n1 n : list note) (settings : list setting) (rs : list Z),
    apply_setting s c ans = (AMQP_STATUS_OK, c1, ans1, n1) ->
    Forall (fun s => ~ about_key s) settings -> apply_settings settings c1 ans1 = (rs, c', ans', n) ->
    match s with
    | SetKey cert key => certificate c' = Some cert /\ private_key c' = Some (KeyFile key)
    | SetKeyBuffer cert pem => certificate c' = Some cert /\ private_key c' = Some (KeyBuffer pem) /\ zlen pem <= INT_MAX
    | SetCert cert => certificate c' = Some cert /\ private_key c' = private_key c
    | _ => True
    end.
Proof.
  intros s c c1 c' ans ans1 ans' n1 n ss rs H Hf Hs.
  assert (certificate c' = certificate c1 /\ private_key c' = private_key c1) as [-> ->].
  { clear H. revert c1 ans1 rs n Hs. induction Hf as [|s0 ss Hs0 Hf IH]; intros c1 ans1 rs n Hs.
    - cbn in Hs. injection Hs as _ <- _ _. auto.
    - apply settings_cons in Hs. destruct Hs as (r & c2 & ans2 & m1 & rs' & m2 & H1 & H2 & _ & _). destruct (setting_other _ _ _ _ _ _ _ H1) as [_ K].
      destruct (K Hs0) as [<- <-]. apply (IH _ _ _ _ H2). }
  clear Hs Hf. destruct s as [mn mx| |m|cf k|cf k|cf|p]; try exact I; cbn [apply_setting] in H; revert H.
  - unfold amqp_ssl_socket_set_key, tbind, call, tret. destruct (answer ans); cbn [negb]; [|discriminate].
    destruct (answer (tl ans)); cbn [negb]; [|discriminate]. intros [= <- _ _]. auto.
  - unfold amqp_ssl_socket_set_key_buffer. destruct (Z.ltb_spec INT_MAX (zlen k)); [discriminate|]. unfold tbind, call, tret, make, free. cbv zeta.
    destruct (answer ans); cbn [negb]; [|discriminate]. destruct (answer (tl ans)); cbn [negb]; [|discriminate].
    destruct (answer (tl (tl ans))); cbn [negb]; [|discriminate]. destruct (answer (tl (tl (tl ans)))); cbn [negb]; [|discriminate]. intros [= <- _ _]. auto.
  - unfold amqp_ssl_socket_set_cert, tbind, call, tret. destruct (answer ans); [|discriminate]. intros [= <- _ _]. auto.
Qed.
(** Refuted: a failed amqp_ssl_socket_set_key leaves the certificate and key as they
    were.  The new certificate is in use, with the old key. *)
Theorem C77_failed_key_refuted :
  exists c c' ans ans' n cert key, apply_setting (SetKey cert key) c ans = (AMQP_STATUS_SSL_ERROR, c', ans', n) /\
    certificate c <> Some cert /\ certificate c' = Some cert /\ private_key c' = private_key c /\ private_key c <> None.
Proof.
  exists (set_private_key (KeyFile [x6b]) (set_certificate [x63] fresh_ctx)). eexists. exists [true; false]. eexists. eexists. exists [x64], [x6c].
  split; [reflexivity|]. cbn. repeat split; discriminate.
Qed.
(** No setting, successful or not, leaves an object of OpenSSL behind or frees one twice. *)
Theorem C77_no_leak :
  forall (settings : list setting) (c c' : ctx) (ans ans' : list bool) (rs : list Z) (n : list note) (o : object),
    apply_settings settings c ans = (rs, c', ans', n) -> live o n = 0.
Proof.
  induction settings as [|s ss IH]; intros c c' ans ans' rs n o H; [cbn in H; injection H as _ _ _ <-; reflexivity|].
  apply settings_cons in H. destruct H as (r & c1 & ans1 & n1 & rs' & n2 & H1 & H2 & _ & ->). rewrite live_app, (setting_notes _ _ _ _ _ _ _ o H1), (IH _ _ _ _ _ _ o H2). reflexivity.
Qed.

(** What a setting other than the versions returns: a refusal by OpenSSL is
    AMQP_STATUS_SSL_ERROR, and a key of more than INT_MAX bytes is never shown to it. *)
Theorem C77_statuses :
  forall (s : setting) (c c' : ctx) (ans ans' : list bool) (r : Z) (n : list note),
    apply_setting s c ans = (r, c', ans', n) ->
    match s with
    | SetVersions _ _ => True
    | DefaultPaths | SetCacert _ | SetCert _ => r = if hd false ans then AMQP_STATUS_OK else AMQP_STATUS_SSL_ERROR
    | SetKey _ _ => r = if hd false ans && hd false (tl ans) then AMQP_STATUS_OK else AMQP_STATUS_SSL_ERROR
    | SetKeyBuffer _ pem =>
        if INT_MAX <? zlen pem then r = AMQP_STATUS_INVALID_PARAMETER /\ c' = c /\ n = []
        else r = if forallb (fun i => nth i ans false) [0; 1; 2; 3]%nat then AMQP_STATUS_OK else AMQP_STATUS_SSL_ERROR
    | SetPasswd p => r = AMQP_STATUS_OK /\ passwd c' = p
    end.
Proof.
  intros s c c' ans ans' r n H. destruct s as [a b| |nm|cf k|cf k|cf|p]; cbn [apply_setting] in H; [exact I| | | | | |].
  - unfold amqp_ssl_socket_enable_default_verify_paths, tbind, call, tret, answer in H. destruct (hd false ans); injection H as <- _ _ _; reflexivity.
  - unfold amqp_ssl_socket_set_cacert, tbind, call, tret, answer in H. destruct (hd false ans); injection H as <- _ _ _; reflexivity.
  - unfold amqp_ssl_socket_set_key, tbind, call, tret, answer in H. destruct (hd false ans); cbn in H; [destruct (hd false (tl ans))|]; cbn in H; injection H as <- _ _ _; reflexivity.
  - unfold amqp_ssl_socket_set_key_buffer in H. destruct (INT_MAX <? zlen k); [injection H as <- <- _ <-; auto|].
    unfold tbind, call, make, free, tret, answer in H. destruct ans as [|[] [|[] [|[] [|[] ans]]]]; cbn in H; injection H as <- _ _ _; reflexivity.
  - unfold amqp_ssl_socket_set_cert, tbind, call, tret, answer in H. destruct (hd false ans); injection H as <- _ _ _; reflexivity.
  - injection H as <- <- _ _. split; reflexivity.
Qed.
(** the numbers of amqp_tls_version_t *)
Example C77_numbers : (AMQP_TLSv1, AMQP_TLSv1_1, AMQP_TLSv1_2, AMQP_TLSv1_3, AMQP_TLSvLATEST) = (1, 2, 3, 4, 65535) /\ (TLS1_2_VERSION, TLS1_3_VERSION) = (tls_1_2, tls_1_3).
Proof. split; reflexivity. Qed.
(** Whom it trusts: a setting that was taken is in force, and only what was asked for is. *)
Lemma trust_step s c c' ans ans' r n : apply_setting s c ans = (r, c', ans', n) ->
  match s with
  | SetCacert name => (r = AMQP_STATUS_OK /\ cacert c' = Some name \/ r = AMQP_STATUS_SSL_ERROR /\ cacert c' = cacert c) /\ default_paths c' = default_paths c /\ passwd c' = passwd c
  | DefaultPaths => (r = AMQP_STATUS_OK /\ default_paths c' = true \/ r = AMQP_STATUS_SSL_ERROR /\ default_paths c' = default_paths c) /\ cacert c' = cacert c /\ passwd c' = passwd c
  | SetPasswd p => r = AMQP_STATUS_OK /\ passwd c' = p /\ cacert c' = cacert c /\ default_paths c' = default_paths c
  | _ => cacert c' = cacert c /\ default_paths c' = default_paths c /\ passwd c' = passwd c
  end.
Proof.
  destruct s as [mn mx| |name|ct k|ct pem|ct|p]; cbn [apply_setting]; unfold amqp_ssl_socket_set_ssl_versions, amqp_ssl_socket_enable_default_verify_paths, amqp_ssl_socket_set_cacert, amqp_ssl_socket_set_key,
    amqp_ssl_socket_set_key_buffer, amqp_ssl_socket_set_cert, amqp_ssl_socket_set_key_passwd, tbind, call, make, free, tret.
  all: repeat match goal with |- context [if ?b then _ else _] => destruct b; cbn end; repeat match goal with |- context [match get_tls_version ?v with Some _ => _ | None => _ end] => destruct (get_tls_version v); cbn end.
  all: repeat match goal with |- context [if ?b then _ else _] => destruct b; cbn end.
  all: intros K; injection K; intros; subst; cbn; auto 10.
Qed.
Theorem C77_trust :
  forall (ans0 ans ans' : list bool) (settings : list setting) (c0 c : ctx) (rs : list Z) (n : list note),
    amqp_ssl_socket_new ans0 = (Some c0, ans) -> apply_settings settings c0 ans = (rs, c, ans', n) ->
    (forall name, cacert c = Some name <-> exists before after, settings = before ++ SetCacert name :: after /\
        nth_error rs (length before) = Some AMQP_STATUS_OK /\
        forall name' i, nth_error after i = Some (SetCacert name') -> nth_error rs (length before + 1 + i) <> Some AMQP_STATUS_OK) /\
    (default_paths c = true <-> exists i, nth_error settings i = Some DefaultPaths /\ nth_error rs i = Some AMQP_STATUS_OK) /\
    (forall p, passwd c = Some p -> In (SetPasswd (Some p)) settings).
Proof.
  intros ans0 ans ans' ss c0 c rs n H0 H.
  assert (cacert c0 = None /\ default_paths c0 = false /\ passwd c0 = None) as (Z1 & Z2 & Z3).
  { revert H0. unfold amqp_ssl_socket_new. cbn. destruct (answer ans0); cbn; [|discriminate]. destruct (answer (tl ans0)); cbn; [|discriminate]. intros [= <- _]. auto. }
  clear H0. 
  assert (forall ss c0 ans rs n, apply_settings ss c0 ans = (rs, c, ans', n) ->
    (forall name, cacert c = Some name <-> (exists before after, ss = before ++ SetCacert name :: after /\ nth_error rs (length before) = Some AMQP_STATUS_OK /\
        forall name' i, nth_error after i = Some (SetCacert name') -> nth_error rs (length before + 1 + i) <> Some AMQP_STATUS_OK) \/
        (cacert c0 = Some name /\ forall name' i, nth_error ss i = Some (SetCacert name') -> nth_error rs i <> Some AMQP_STATUS_OK)) /\
    (default_paths c = true <-> default_paths c0 = true \/ exists i, nth_error ss i = Some DefaultPaths /\ nth_error rs i = Some AMQP_STATUS_OK) /\
    (forall p, passwd c = Some p -> passwd c0 = Some p \/ In (SetPasswd (Some p)) ss)) as G.
  { clear. induction ss as [|s ss IH]; intros c0 ans rs n H.
    - cbn in H. injection H as <- <- _ _. split; [|split].
      + intros name. split; [intros K; right; split; [exact K|intros ? [|i]; discriminate]|]. intros [(b & a & K & _)|[K _]]; [destruct b; discriminate K|exact K].
      + split; [auto|]. intros [K|([|i] & K & _)]; [exact K|discriminate K|discriminate K].
      + auto.
    - apply settings_cons in H. destruct H as (r & c1 & ans1 & n1 & rs' & n2 & H1 & H2 & -> & ->). destruct (IH _ _ _ _ H2) as (I1 & I2 & I3). clear IH H2. apply trust_step in H1.
      split; [|split].
      + intros name. rewrite I1. clear I1 I2 I3. split.
        * intros [(b & a & -> & K2 & K3)|[K1 K2]].
          { left. exists (s :: b), a. split; [reflexivity|]. split; [exact K2|]. intros nm i Hi. cbn [length Nat.add nth_error]. apply (K3 nm i Hi). }
          assert (((exists nm, s = SetCacert nm) /\ r = AMQP_STATUS_OK) \/ (cacert c1 = cacert c0 /\ forall nm, s = SetCacert nm -> r <> AMQP_STATUS_OK)) as [[(nm & ->) ->]|[E1 E2]].
          { destruct s; cbn in H1; try (right; split; [apply H1|discriminate]). destruct H1 as [[[-> _]|[-> K]] _]; [left; eauto|right; split; [exact K|intros ? _; discriminate]]. }
          { destruct H1 as [[[_ K]|[K _]] _]; [|discriminate K]. assert (nm = name) as -> by congruence. left. exists [], ss. split; [reflexivity|]. split; [reflexivity|]. intros nm' i Hi. cbn. apply (K2 nm' i Hi). }
          right. split; [congruence|]. intros nm [|i] Hi; cbn [nth_error] in *; [injection Hi as ->; intros X; injection X; apply (E2 nm eq_refl)|]. apply (K2 nm i Hi).
        * intros [(b & a & K1 & K2 & K3)|[K1 K2]].
          { destruct b as [|s' b]; cbn [app length] in *; injection K1 as -> ->.
            - cbn [nth_error] in K2. injection K2 as ->. destruct H1 as [[[_ K]|[K _]] _]; [|discriminate K]. right. split; [exact K|]. intros nm i Hi. apply (K3 nm i Hi).
            - left. exists b, a. split; [reflexivity|]. split; [exact K2|]. intros nm i Hi. apply (K3 nm i Hi). }
          right. split; [|intros nm i Hi; apply (K2 nm (S i) Hi)]. destruct s; cbn in H1; try (rewrite <- K1; apply H1). destruct H1 as [[[-> _]|[_ K]] _]; [|congruence]. exfalso. apply (K2 name0 0%nat eq_refl). reflexivity.
      + rewrite I2. clear I1 I2 I3. assert (default_paths c1 = true <-> default_paths c0 = true \/ (s = DefaultPaths /\ r = AMQP_STATUS_OK)) as ->.
        { assert (s <> DefaultPaths -> default_paths c1 = default_paths c0) as Q by (intros Hs; destruct s; cbn in H1; try apply H1; congruence).
          destruct s; try (rewrite (Q ltac:(discriminate)); split; [auto|intros [X|[X _]]; [exact X|discriminate X]]).
          destruct H1 as [[[-> K]|[-> K]] _]; rewrite K; split; [intros _; right; split; reflexivity|reflexivity|intros X; left; exact X|intros [X|[_ X]]; [exact X|discriminate X]]. }
        split.
        * intros [[K|[-> ->]]|(i & K1 & K2)]; [auto|right; exists 0%nat; auto|right; exists (S i); auto].
        * intros [K|([|i] & K1 & K2)]; [auto| |right; exists i; auto]. cbn in K1, K2. injection K1 as ->. injection K2 as ->. auto.
      + intros p K. destruct (I3 p K) as [K1|K1]; [|right; right; exact K1]. destruct s; cbn in H1; try (left; rewrite <- K1; symmetry; apply H1).
        destruct H1 as (_ & K2 & _). right. left. congruence. }
  destruct (G ss c0 ans rs n H) as (G1 & G2 & G3). split; [|split].
  - intros name. rewrite G1. split; [|auto]. intros [K|[K _]]; [exact K|congruence].
  - rewrite G2. split; [|auto]. intros [K|K]; [congruence|exact K].
  - intros p K. destruct (G3 p K) as [X|X]; [congruence|exact X].
Qed.

(** ** Cases *)
Example C77_case :
  exists c0 c n, amqp_ssl_socket_new (repeat true 9) = (Some c0, repeat true 7) /\
    apply_settings [SetVersions 4 65535; SetVersions 3 2; SetVersions 1 3; SetKeyBuffer [x63] [x6b]; SetCacert [x61]; SetVersions 65535 4] c0 (repeat true 7)
      = ([0; AMQP_STATUS_INVALID_PARAMETER; AMQP_STATUS_UNSUPPORTED; 0; 0; AMQP_STATUS_INVALID_PARAMETER], c, [], n) /\
    accepts c tls_1_3 /\ ~ accepts c tls_1_2 /\ length n = 4%nat /\ certificate c = Some [x63].
Proof.
  eexists _, _, _. split; [vm_compute; reflexivity|]. split; [vm_compute; reflexivity|]. unfold accepts, tls_1_2, tls_1_3. cbn. repeat split; try lia.
Qed.

Print Assumptions C77_never_older.
Print Assumptions C77_default.
Print Assumptions C77_versions.
Print Assumptions C77_versions_last.
Print Assumptions C77_refused_unchanged_refuted.
Print Assumptions C77_key_pair.
Print Assumptions C77_failed_key_refuted.
Print Assumptions C77_no_leak.
Print Assumptions C77_trust.
Print Assumptions C77_statuses.
