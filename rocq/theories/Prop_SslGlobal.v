(** C50: TLS global state lives exactly as long as some TLS socket *)
From Coq Require Import ZArith List Bool Lia.
From Verif Require Import Base SslGlobal.
Import ListNotations.
Local Open Scope Z_scope.

(** ** Specification *)
(** a socket that the application has, or that amqp_ssl_socket_new is about to return *)
Definition exists_ (p : phase) : Prop := match p with Counted | Live _ => True | _ => False end.
(** a socket that is being created or deleted *)
Definition in_progress (p : phase) : Prop := match p with Born | Counted | Doomed _ => True | _ => False end.
(** the BIO method exists: amqp_bio_method points to a method that has not been freed *)
Definition method_exists (g : globals) : Prop := exists m, method g = Some m /\ ~ In m (freed g).
(** every method ever made has been freed *)
Definition all_freed (g : globals) : Prop := forall m, 0 <= m < made g -> In m (freed g).
(** the property, for one moment *)
Definition lifetime_ok (w : world) : Prop :=
  let '(g, sockets) := w in
  ((exists p, In p sockets /\ exists_ p) -> method_exists g) /\
  (forall m, In (Live (Some m)) sockets -> ~ In m (freed g)) /\
  ((forall p, In p sockets -> p = Gone) -> all_freed g /\ method g = None) /\
  NoDup (freed g).

(** a schedule in which BIO_meth_new fails: the moment a socket's creation asks for it *)
Fixpoint never_fails (asserts : bool) (l : list action) (w : world) : Prop :=
  match l with
  | [] => True
  | a :: l =>
    (forall i, a = Step i false -> nth_error (snd w) i = Some Born -> bio_initialized (fst w) = true) /\
    match act asserts a w with Some w => never_fails asserts l w | None => True end
  end.
(** no thread enters the creation of a socket while another one is cleaning up after
    BIO_meth_new has failed *)
Fixpoint orderly (asserts : bool) (l : list action) (w : world) : Prop :=
  match l with
  | [] => True
  | a :: l =>
    (forall i ok, a = Step i ok -> nth_error (snd w) i = Some Born -> ~ In (Doomed false) (snd w)) /\
    match act asserts a w with Some w => orderly asserts l w | None => True end
  end.

(** ** Proof *)
Definition counts (p : phase) : Z := match p with Counted | Live _ | Doomed true => 1 | _ => 0 end.
Definition total (l : list phase) : Z := fold_right (fun p n => counts p + n) 0 l.
Lemma total_app l l' : total (l ++ l') = total l + total l'.
Proof. induction l as [|p l IH]; cbn [app total fold_right]; [reflexivity|]. unfold total in IH. rewrite IH. unfold total. lia. Qed.
Lemma total_pos l : 0 <= total l.
Proof. induction l as [|p l IH]; cbn [total fold_right]; [lia|]. unfold total in IH. destruct p as [| | |[]|]; cbn [counts]; lia. Qed.
Lemma counts_total p l : In p l -> counts p <= total l.
Proof.
  induction l as [|q l IH]; intros H; [destruct H|]. cbn [total fold_right]. fold (total l). pose proof (total_pos l). destruct H as [->|H]; [lia|].
  specialize (IH H). destruct q as [| | |[]|]; cbn [counts]; lia.
Qed.
Lemma total_set i p q : forall l, nth_error l i = Some p -> total (set_nth i q l) = total l - counts p + counts q.
Proof.
  induction i as [|i IH]; intros [|x l] H; cbn [nth_error] in H; try discriminate; cbn [set_nth total fold_right]; fold (total l).
  - injection H as ->. lia.
  - fold (total (set_nth i q l)). rewrite (IH l H). lia.
Qed.
Lemma in_set {A} i (x y : A) : forall l, In y (set_nth i x l) -> y = x \/ In y l.
Proof.
  induction i as [|i IH]; intros [|z l] H; cbn [set_nth] in H; try (destruct H; fail); cbn [In] in *.
  - destruct H as [->|H]; auto.
  - destruct H as [->|H]; auto. destruct (IH l H); auto.
Qed.
Lemma in_set_self {A} i (x z : A) : forall l, nth_error l i = Some z -> In x (set_nth i x l).
Proof.
  induction i as [|i IH]; intros [|y l] H; cbn [nth_error] in H; try discriminate; cbn [set_nth In]; [left; reflexivity|right; apply IH; exact H].
Qed.

Definition inv (w : world) : Prop :=
  let '(g, l) := w in
  connections g = total l /\ 0 <= made g /\ NoDup (freed g) /\ (forall m, In m (freed g) -> 0 <= m < made g) /\
  (forall m, In (Live (Some m)) l -> method g = Some m) /\
  (In (Doomed false) l -> total l = 0) /\
  (if 0 <? total l then bio_initialized g = true /\ ssl_bio_initialized g = true /\
      method g = Some (made g - 1) /\ ~ In (made g - 1) (freed g) /\ (forall m, 0 <= m < made g - 1 -> In m (freed g)) /\ 0 < made g
   else bio_initialized g = false /\ ssl_bio_initialized g = false /\ method g = None /\ (forall m, 0 <= m < made g -> In m (freed g))).

Lemma inv_ok w : inv w -> lifetime_ok w.
Proof.
  destruct w as [g l]. intros (C & M & ND & FR & LV & DF & I). cbn [lifetime_ok].
  assert (X : forall p, In p l -> exists_ p -> 0 < total l).
  { intros p H E. pose proof (counts_total p l H). destruct p as [| | |[]|]; cbn [exists_ counts] in *; try contradiction; lia. }
  split; [|split; [|split; [|exact ND]]].
  - intros (p & H & E). specialize (X p H E). replace (0 <? total l) with true in I by (symmetry; apply Z.ltb_lt; exact X).
    destruct I as (_ & _ & I3 & I4 & _). exists (made g - 1). split; assumption.
  - intros m H. specialize (X _ H Logic.I). replace (0 <? total l) with true in I by (symmetry; apply Z.ltb_lt; exact X).
    destruct I as (_ & _ & I3 & I4 & _). rewrite (LV m H) in I3. injection I3 as ->. exact I4.
  - intros G. assert (T : total l = 0).
    { clear - G. induction l as [|p l IH]; [reflexivity|]. cbn [total fold_right]. fold (total l). rewrite IH; [|intros q Q; apply G; right; exact Q].
      rewrite (G p (or_introl eq_refl)). reflexivity. }
    rewrite T in I. cbn in I. destruct I as (_ & _ & I3 & I4). split; [exact I4|exact I3].
Qed.

Lemma inv_step asserts a w :
  inv w ->
  (forall i ok, a = Step i ok -> nth_error (snd w) i = Some Born -> ~ In (Doomed false) (snd w)) ->
  (asserts = true -> ~ In (Doomed false) (snd w) /\ forall i, a = Step i false -> nth_error (snd w) i = Some Born -> bio_initialized (fst w) = true) ->
  exists w', act asserts a w = Some w' /\ inv w' /\
    (asserts = true -> ~ In (Doomed false) (snd w')).
Proof.
  destruct w as [g l]. intros (C & M & ND & FR & LV & DF & I) O A. cbn [fst snd] in *.
  destruct a as [|i ok]; cbn [act].
  - eexists. split; [reflexivity|]. cbn [snd]. split.
    + unfold inv. rewrite total_app. replace (total [Born]) with 0 by reflexivity. rewrite Z.add_0_r. repeat (split; [assumption|]).
      split; [|split; [|exact I]].
      * intros m H. apply in_app_or in H. destruct H as [H|[H|[]]]; [apply LV; exact H|discriminate].
      * intros H. apply in_app_or in H. destruct H as [H|[H|[]]]; [apply DF; exact H|discriminate].
    + intros E H. apply in_app_or in H. destruct H as [H|[H|[]]]; [|discriminate]. destruct (A E) as [A1 _]. exact (A1 H).
  - destruct (nth_error l i) as [p|] eqn:N; [|eexists; split; [reflexivity|]; split; [unfold inv; auto 10|intros E; apply A; exact E]].
    assert (IP : In p l) by (eapply nth_error_In; exact N).
    pose proof (counts_total p l IP) as CT. pose proof (total_pos l) as TP.
    assert (LVS : forall q g', (forall m, q = Live (Some m) -> method g' = Some m) -> method g' = method g ->
      forall m, In (Live (Some m)) (set_nth i q l) -> method g' = Some m).
    { intros q g' Hq E m H. apply in_set in H. destruct H as [H|H]; [apply Hq; auto|]. rewrite E. apply LV. exact H. }
    destruct p as [| |bio|b|]; cbn [socket_step].
    + (* Born *)
      specialize (O i ok eq_refl N).
      unfold initialize_ssl_and_increment_connections.
      destruct (Z.ltb_spec 0 (total l)) as [T|T].
      * destruct I as (I1 & I2 & I3 & I4 & I5 & I6). rewrite I1. cbn [negb].
        change (AMQP_STATUS_OK =? 0) with true. cbn iota.
        eexists. split; [reflexivity|]. cbn [snd]. split.
        -- unfold inv. rewrite (total_set _ _ _ _ N). cbn [counts connections made freed method bio_initialized ssl_bio_initialized].
           replace (0 <? total l - 0 + 1) with true by (symmetry; apply Z.ltb_lt; lia).
           split; [lia|]. repeat (split; [assumption|]). split.
           { apply (LVS Counted g); [discriminate|reflexivity]. }
           split; [|auto 10]. intros H. apply in_set in H. destruct H as [H|H]; [discriminate|contradiction].
        -- intros E H. apply in_set in H. destruct H as [H|H]; [discriminate|contradiction].
      * assert (T0 : total l = 0) by lia. destruct I as (I1 & I2 & I3 & I4). rewrite I1. cbn [negb].
        unfold amqp_openssl_bio_init, assert_ok. rewrite I2. cbn [negb orb]. destruct ok.
        -- change (AMQP_STATUS_OK =? 0) with true. cbn [negb]. cbn iota. change (AMQP_STATUS_OK =? 0) with true. cbn [negb connections ssl_bio_initialized method made freed]. cbn iota.
           eexists. split; [reflexivity|]. cbn [snd]. split.
           ++ unfold inv. rewrite (total_set _ _ _ _ N). cbn [counts connections made freed method bio_initialized ssl_bio_initialized].
              replace (0 <? total l - 0 + 1) with true by (symmetry; apply Z.ltb_lt; lia).
              split; [lia|]. split; [lia|]. split; [exact ND|]. split; [intros m H; specialize (FR m H); lia|].
              split.
              { intros m H. apply in_set in H. destruct H as [H|H]; [discriminate|]. rewrite (LV m H) in I3. discriminate. }
              split; [intros H; apply in_set in H; destruct H as [H|H]; [discriminate|contradiction]|].
              replace (made g + 1 - 1) with (made g) by lia. repeat split; try lia; auto.
              intros H. specialize (FR _ H). lia.
           ++ intros E H. apply in_set in H. destruct H as [H|H]; [discriminate|contradiction].
        -- change (AMQP_STATUS_NO_MEMORY =? 0) with false. cbn [negb]. cbn iota. change (AMQP_STATUS_NO_MEMORY =? 0) with false. cbn iota.
           eexists. split; [reflexivity|]. cbn [snd]. split.
           ++ unfold inv. rewrite (total_set _ _ _ _ N). cbn [counts connections made freed method bio_initialized ssl_bio_initialized].
              replace (0 <? total l - 0 + 0) with false by (symmetry; apply Z.ltb_ge; lia).
              split; [lia|]. repeat (split; [assumption|]). split.
              { intros m H. apply in_set in H. destruct H as [H|H]; [discriminate|]. rewrite (LV m H) in I3. discriminate. }
              split; [intros _; lia|]. auto.
           ++ intros E _. destruct (A E) as [_ A2]. rewrite (A2 i eq_refl N) in I1. discriminate.
    + (* Counted *)
      cbn [counts] in CT. eexists. split; [reflexivity|]. cbn [snd]. split.
      * unfold inv. rewrite (total_set _ _ _ _ N). replace (counts (if ok then Live None else Doomed true)) with 1 by (destruct ok; reflexivity).
        cbn [counts]. replace (total l - 1 + 1) with (total l) by lia.
        split; [assumption|]. repeat (split; [assumption|]). split.
        { apply (LVS _ g); [destruct ok; discriminate|reflexivity]. }
        split; [|exact I]. intros H. apply in_set in H. destruct H as [H|H]; [destruct ok; discriminate|auto].
      * intros E H. apply in_set in H. destruct H as [H|H]; [destruct ok; discriminate|]. destruct (A E) as [A1 _]. exact (A1 H).
    + (* Live *)
      cbn [counts] in CT. replace (0 <? total l) with true in I by (symmetry; apply Z.ltb_lt; lia).
      destruct I as (I1 & I2 & I3 & I4 & I5 & I6). destruct ok.
      * unfold amqp_openssl_bio, assert_ok. rewrite I2. cbn [negb orb].
        eexists. split; [reflexivity|]. cbn [snd]. split.
        -- unfold inv. rewrite (total_set _ _ _ _ N). cbn [counts]. replace (total l - 1 + 1) with (total l) by lia.
           replace (0 <? total l) with true by (symmetry; apply Z.ltb_lt; lia).
           split; [assumption|]. repeat (split; [assumption|]). split.
           { apply (LVS (Live (method g)) g); [intros m E; injection E; auto|reflexivity]. }
           split; [|auto 10]. intros H. apply in_set in H. destruct H as [H|H]; [discriminate|auto].
        -- intros E H. apply in_set in H. destruct H as [H|H]; [discriminate|]. destruct (A E) as [A1 _]. exact (A1 H).
      * eexists. split; [reflexivity|]. cbn [snd]. split.
        -- unfold inv. rewrite (total_set _ _ _ _ N). cbn [counts]. replace (total l - 1 + 1) with (total l) by lia.
           replace (0 <? total l) with true by (symmetry; apply Z.ltb_lt; lia).
           split; [assumption|]. repeat (split; [assumption|]). split.
           { apply (LVS _ g); [discriminate|reflexivity]. }
           split; [|auto 10]. intros H. apply in_set in H. destruct H as [H|H]; [discriminate|auto].
        -- intros E H. apply in_set in H. destruct H as [H|H]; [discriminate|]. destruct (A E) as [A1 _]. exact (A1 H).
    + (* Doomed *)
      unfold decrement_ssl_connections. cbn [connections]. rewrite C.
      destruct b.
      * cbn [counts] in CT. replace (0 <? total l) with true in I |- * by (symmetry; apply Z.ltb_lt; lia).
        destruct I as (I1 & I2 & I3 & I4 & I5 & I6).
        destruct (Z.eqb_spec (total l - 1) 0) as [Z1|Z1].
        -- unfold amqp_openssl_bio_destroy, assert_ok. cbn [ssl_bio_initialized]. rewrite I2, I3. cbn [negb orb connections ssl_bio_initialized method made freed].
           eexists. split; [reflexivity|]. cbn [snd]. split.
           ++ unfold inv. rewrite (total_set _ _ _ _ N). cbn [counts connections made freed method bio_initialized ssl_bio_initialized].
              replace (0 <? total l - 1 + 0) with false by (symmetry; apply Z.ltb_ge; lia).
              split; [lia|]. split; [assumption|]. split; [constructor; assumption|].
              split; [intros m [<-|H]; [lia|auto]|].
              split.
              { intros m H. apply in_set in H. destruct H as [H|H]; [discriminate|]. exfalso.
                (* another live socket: the total is at least 2 *)
                assert (T2 : 2 <= total l).
                { clear - N H. revert i N H. induction l as [|x l IH]; intros i N H; [destruct H|]. destruct i as [|i]; cbn [nth_error] in N.
                  - injection N as ->. destruct H as [H|H]; [discriminate|]. pose proof (counts_total _ _ H) as X. cbn [counts] in X. cbn [total fold_right counts]. fold (total l). lia.
                  - cbn [total fold_right]. fold (total l). destruct H as [->|H].
                    + pose proof (counts_total _ _ (nth_error_In _ _ N)) as X. cbn [counts] in *. lia.
                    + specialize (IH i N H). destruct x as [| | |[]|]; cbn [counts]; lia. }
                lia. }
              split; [lia|]. repeat split; auto. intros m Hm. destruct (Z.eq_dec m (made g - 1)) as [->|D]; [left; reflexivity|right; apply I5; lia].
           ++ intros E H. apply in_set in H. destruct H as [H|H]; [discriminate|]. destruct (A E) as [A1 _]. exact (A1 H).
        -- eexists. split; [reflexivity|]. cbn [snd]. split.
           ++ unfold inv. rewrite (total_set _ _ _ _ N). cbn [counts connections made freed method bio_initialized ssl_bio_initialized].
              replace (0 <? total l - 1 + 0) with true by (symmetry; apply Z.ltb_lt; lia).
              split; [lia|]. repeat (split; [assumption|]). split.
              { apply (LVS Gone g); [discriminate|reflexivity]. }
              split; [|auto 10]. intros H. apply in_set in H. destruct H as [H|H]; [discriminate|]. specialize (DF H). lia.
           ++ intros E H. apply in_set in H. destruct H as [H|H]; [discriminate|]. destruct (A E) as [A1 _]. exact (A1 H).
      * assert (NA : asserts = false).
        { destruct asserts; [|reflexivity]. destruct (A eq_refl) as [A1 _]. destruct (A1 IP). }
        subst asserts.
        assert (T0 : total l = 0) by (apply DF; exact IP). rewrite T0 in *. cbn in I. destruct I as (I1 & I2 & I3 & I4).
        change (0 <? 0) with false. change (0 =? 0) with true.
        unfold amqp_openssl_bio_destroy, assert_ok. cbn [ssl_bio_initialized]. rewrite I2, I3. cbn [negb orb connections ssl_bio_initialized method made freed].
        eexists. split; [reflexivity|]. cbn [snd]. split; [|discriminate].
        unfold inv. rewrite (total_set _ _ _ _ N), T0. cbn [counts connections made freed method bio_initialized ssl_bio_initialized].
        change (0 <? 0 - 0 + 0) with false. split; [lia|]. repeat (split; [assumption|]).
        split; [intros m H; apply in_set in H; destruct H as [H|H]; [discriminate|rewrite (LV m H) in I3; discriminate]|].
        split; [lia|]. auto.
    + (* Gone *)
      eexists. split; [reflexivity|]. cbn [snd]. split.
      * unfold inv. rewrite (total_set _ _ _ _ N). cbn [counts]. replace (total l - 0 + 0) with (total l) by lia.
        repeat (split; [assumption|]). split.
        { apply (LVS _ g); [discriminate|reflexivity]. }
        split; [|exact I]. intros H. apply in_set in H. destruct H as [H|H]; [discriminate|auto].
      * intros E H. apply in_set in H. destruct H as [H|H]; [discriminate|]. destruct (A E) as [A1 _]. exact (A1 H).
Qed.

Lemma acts_inv asserts : forall l w, inv w -> (asserts = true -> ~ In (Doomed false) (snd w)) ->
  orderly asserts l w -> (asserts = true -> never_fails asserts l w) ->
  exists w', acts asserts l w = Some w' /\ inv w'.
Proof.
  induction l as [|a l IH]; intros w I D O F; cbn [acts]; [eauto|].
  cbn [orderly] in O. destruct O as [O1 O2].
  destruct (inv_step asserts a w I O1) as (w' & E & I' & D').
  { intros As. split; [auto|]. destruct (F As) as [F1 _]. exact F1. }
  rewrite E in *. apply IH; try assumption. intros As. destruct (F As) as [_ F2]. rewrite E in F2. exact F2.
Qed.
Lemma inv_initial : inv (initial, []).
Proof. unfold inv. cbn. repeat split; try lia; try constructor; intros; try contradiction; lia. Qed.

(** ** C50 *)
(** Every interleaving of any number of sockets being created, opened and deleted in
    which BIO_meth_new does not run out of memory: the library does not abort, and at
    the end (hence at every moment, as every prefix of a schedule is a schedule) the
    property holds.  With or without assert(). *)
Theorem C50_lifetime_partial asserts l : never_fails asserts l (initial, []) ->
  exists w, acts asserts l (initial, []) = Some w /\ lifetime_ok w.
Proof.
  assert (K : forall l w, inv w -> ~ In (Doomed false) (snd w) -> never_fails asserts l w -> exists w', acts asserts l w = Some w' /\ inv w').
  { clear l. induction l as [|a l IH]; intros w I D F; cbn [acts]; [eauto|]. cbn [never_fails] in F. destruct F as [F1 F2].
    destruct (inv_step asserts a w I) as (w' & E & I' & _); [auto|auto|].
    rewrite E in *. apply IH; try assumption.
    clear - E F1 D. destruct w as [g s]. destruct a as [|i ok]; cbn [act] in E.
    - injection E as <-. cbn [snd] in *. intros H. apply in_app_or in H. destruct H as [H|[H|[]]]; [contradiction|discriminate].
    - cbn [fst snd] in *. destruct (nth_error s i) as [p|] eqn:N; [|injection E as <-; exact D].
      destruct (socket_step asserts ok p g) as [[p' g']|] eqn:S; [|discriminate]. injection E as <-. cbn [snd].
      intros H. apply in_set in H. destruct H as [H|H]; [|contradiction]. subst p'.
      destruct p as [| |bio|b|]; cbn [socket_step] in S.
      + unfold initialize_ssl_and_increment_connections in S. destruct (bio_initialized g) eqn:B; cbn [negb] in S.
        * change (AMQP_STATUS_OK =? 0) with true in S. discriminate S.
        * destruct ok; [|specialize (F1 i eq_refl N); congruence].
          unfold amqp_openssl_bio_init in S. destruct (negb (assert_ok asserts (negb (ssl_bio_initialized g)))); [discriminate|].
          change (AMQP_STATUS_OK =? 0) with true in S. cbn [negb] in S. change (AMQP_STATUS_OK =? 0) with true in S. discriminate S.
      + destruct ok; discriminate.
      + destruct ok; [|discriminate]. destruct (amqp_openssl_bio asserts g); discriminate.
      + destruct (decrement_ssl_connections asserts g); discriminate.
      + discriminate. }
  intros F. destruct (K l (initial, []) inv_initial (fun H => H) F) as (w & E & I). exists w. split; [exact E|apply inv_ok; exact I].
Qed.
(** With NDEBUG (the default build type, Release), also in schedules in which
    BIO_meth_new fails, as long as no other thread enters the creation of a socket
    before the failed one has been cleaned up - in particular in a single thread. *)
Theorem C50_out_of_memory_partial l : orderly false l (initial, []) ->
  exists w, acts false l (initial, []) = Some w /\ lifetime_ok w.
Proof.
  intros O. destruct (acts_inv false l (initial, []) inv_initial ltac:(discriminate) O ltac:(discriminate)) as (w & E & I).
  exists w. split; [exact E|apply inv_ok; exact I].
Qed.
(** Missing: a thread that runs out of memory in BIO_meth_new and is overtaken by
    another one.  Its decrement takes back the other one's count: the method is freed
    under a socket that is open. *)
Theorem C50_lifetime_refuted : exists l,
  match acts false l (initial, []) with
  | Some (g, sockets) => In (Live (Some 0)) sockets /\ In 0 (freed g) /\ method g = None
  | None => False
  end.
Proof.
  exists [Create; Step 0 false; Create; Step 1 true; Step 1 true; Step 1 true; Step 0 true].
  vm_compute. repeat split; auto.
Qed.
(** and with assert() compiled in one thread alone aborts *)
Theorem C50_abort_refuted : exists l, orderly true l (initial, []) /\ acts true l (initial, []) = None.
Proof.
  exists [Create; Step 0 false; Step 0 true]. split; [|reflexivity].
  cbn. repeat split; intros i ok E H; try discriminate; injection E as <- <-; cbn in *; auto; try discriminate; intros []; try discriminate; auto.
Qed.

(** ** A concrete case: two sockets, created and opened in turns, one deleted *)
Example C50_case : let l := [Create; Create; Step 1 true; Step 0 true; Step 0 true; Step 1 true; Step 1 true; Step 0 true; Step 0 false; Step 0 true] in
  never_fails true l (initial, []) /\
  match acts true l (initial, []) with
  | Some (g, sockets) => sockets = [Gone; Live (Some 0)] /\ method g = Some 0 /\ freed g = [] /\ connections g = 1
  | None => False
  end.
Proof.
  split; [|vm_compute; repeat split].
  cbn. repeat split; intros i E H; try discriminate E; injection E as <-; discriminate H.
Qed.
(** all deleted, then a new one: the first method has been freed, the second exists *)
Example C50_case_again : let l := [Create; Step 0 true; Step 0 true; Step 0 false; Step 0 true; Create; Step 1 false; Step 1 true; Create; Step 2 true] in
  orderly false l (initial, []) /\
  match acts false l (initial, []) with
  | Some (g, sockets) => sockets = [Gone; Gone; Counted] /\ method g = Some 1 /\ freed g = [0] /\ connections g = 1
  | None => False
  end.
Proof.
  split; [|vm_compute; repeat split].
  repeat (cbn [orderly]; split; [intros i ok E H X; first [discriminate E | injection E as <- <-; first [discriminate H | vm_compute in X; intuition discriminate]]|];
    match goal with |- match ?m with _ => _ end => let v := eval vm_compute in m in change m with v; cbv beta iota end).
  exact I.
Qed.

Print Assumptions C50_lifetime_partial.
Print Assumptions C50_out_of_memory_partial.
Print Assumptions C50_lifetime_refuted.
Print Assumptions C50_abort_refuted.
