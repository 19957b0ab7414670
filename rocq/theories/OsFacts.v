(** Proofs about Os.v *)
From Coq Require Import ZArith List Bool Lia.
From Verif Require Import Base Time Os ConnectSpec.
Import ListNotations.
Local Open Scope Z_scope.
Local Open Scope os_scope.

(** [owp m Q]: whatever the answers, [m] ends in [Q] (result, log) or stops for lack of
    answers or rounds, but never for undefined behaviour *)
Definition owp {A} (m : Io A) (Q : A -> list entry -> Prop) : Prop :=
  forall ans, match m ans with ODone a _ l => Q a l | OHalt s l => s <> OUB end.

Lemma owp_conseq {A} (m : Io A) (P Q : A -> list entry -> Prop) : owp m P -> (forall a l, P a l -> Q a l) -> owp m Q.
Proof. intros H I ans. specialize (H ans). destruct (m ans); auto. Qed.
Lemma owp_ret {A} (a : A) (Q : A -> list entry -> Prop) : Q a [] -> owp (oret a) Q.
Proof. intros H ans. exact H. Qed.
Lemma owp_bind {A B} (m : Io A) (k : A -> Io B) (Q : B -> list entry -> Prop) :
  owp m (fun a l => owp (k a) (fun b l' => Q b (l ++ l'))) -> owp (obind m k) Q.
Proof.
  intros H ans. specialize (H ans). unfold obind. destruct (m ans) as [a r l|s l]; [|exact H].
  specialize (H r). destruct (k a r); exact H.
Qed.
Lemma owp_ask (c : call) (Q : answer -> list entry -> Prop) : (forall a, Q a [(c, a)]) -> owp (ask c) Q.
Proof. intros H ans. unfold ask. destruct ans; [discriminate|apply H]. Qed.
Lemma owp_ask_bind {B} (c : call) (k : answer -> Io B) (Q : B -> list entry -> Prop) :
  (forall a, owp (k a) (fun b l => Q b ((c, a) :: l))) -> owp (obind (ask c) k) Q.
Proof. intros H. apply owp_bind, owp_ask. intros a. exact (H a). Qed.
Lemma owp_halt {A} s (Q : A -> list entry -> Prop) : s <> OUB -> owp (ohalt s) Q.
Proof. intros H ans. exact H. Qed.

Lemma owp_and {A} (m : Io A) (P Q : A -> list entry -> Prop) : owp m P -> owp m Q -> owp m (fun a l => P a l /\ Q a l).
Proof. intros H I ans. specialize (H ans). specialize (I ans). destruct (m ans); auto. Qed.

Section Facts.
Context (N : nat).

Lemma time_from_now_ok timeout :
  owp (o_time_from_now timeout) (fun p l =>
    (fst p <> AMQP_STATUS_OK -> fst p < 0) /\ (fst p = AMQP_STATUS_OK -> snd p <> None) /\
    (snd p = None -> fst p <> AMQP_STATUS_OK) /\ (l = [] \/ exists a, l = [(Clock, a)])).
Proof.
  assert (K : forall now, let p := amqp_time_from_now now timeout in
    (fst p <> AMQP_STATUS_OK -> fst p < 0) /\ (fst p = AMQP_STATUS_OK -> snd p <> None) /\ (snd p = None -> fst p <> AMQP_STATUS_OK)).
  { intros now p. subst p. unfold amqp_time_from_now. destruct timeout as [tv|]; cbn [fst snd].
    - unfold AMQP_STATUS_OK, AMQP_STATUS_INVALID_PARAMETER, AMQP_STATUS_TIMER_FAILURE.
      repeat match goal with |- context [if ?b then _ else _] => destruct b end; cbn [fst snd]; repeat split; intros; try discriminate; try lia.
    - unfold AMQP_STATUS_OK. repeat split; intros; try discriminate; try lia. }
  unfold o_time_from_now. destruct timeout as [tv|].
  - destruct (_ || _) eqn:T.
    + apply owp_ret. destruct (K 0) as (A & B & C). auto 6.
    + apply owp_ask_bind. intros a. apply owp_ret. destruct (K (u64 (result a))) as (A & B & C). eauto 6.
  - apply owp_ret. destruct (K 0) as (A & B & C). auto 6.
Qed.

Lemma from_now_exact tv now : sane_timeout (Some tv) -> 0 < now < 2^62 ->
  amqp_time_from_now (u64 now) (Some tv) = (AMQP_STATUS_OK, Some (now + tv_sec tv * 1000000000 + tv_usec tv * 1000)).
Proof.
  destruct tv as [sec usec]; unfold sane_timeout; cbn [tv_sec tv_usec]; intros S C.
  unfold amqp_time_from_now. cbn [tv_sec tv_usec].
  replace ((sec <? 0) || (usec <? 0)) with false by (symmetry; apply orb_false_iff; split; apply Z.ltb_ge; lia).
  unfold AMQP_NS_PER_S, AMQP_NS_PER_US, u64.
  change (2 ^ 62) with 4611686018427387904 in C.
  assert (U : forall x, 0 <= x < 18446744073709551616 -> x mod M64 = x) by (intros x X; apply Z.mod_small; exact X).
  rewrite (U sec), (U usec) by lia. rewrite (U (sec * _)), (U (usec * _)) by lia. rewrite (U (sec * _ + _)) by lia.
  rewrite (U now) by lia. rewrite U by lia.
  replace (now =? 0) with false by (symmetry; apply Z.eqb_neq; lia).
  match goal with |- context [(?x <? ?y) || (?z <? ?w)] => replace ((x <? y) || (z <? w)) with false by (symmetry; apply orb_false_iff; split; apply Z.ltb_ge; lia) end.
  do 2 f_equal. lia.
Qed.
Lemma time_from_now_due timeout :
  owp (o_time_from_now timeout) (fun p l =>
    (fst p = AMQP_STATUS_OK -> exists d, snd p = Some d /\ due timeout l d) /\ (fst p <> AMQP_STATUS_OK -> untimely timeout l)).
Proof.
  unfold o_time_from_now. destruct timeout as [tv|].
  - destruct (_ || _) eqn:T.
    + apply owp_ret. unfold amqp_time_from_now. rewrite T. cbn [fst snd]. split; [discriminate|]. intros _. split; [auto|].
      intros [S _]. unfold sane_timeout in S. apply orb_true_iff in T. rewrite !Z.ltb_lt in T. lia.
    + apply owp_ask_bind. intros a. apply owp_ret. split.
      * intros O. destruct (amqp_time_from_now (u64 (result a)) (Some tv)) as [st [d|]] eqn:E; cbn [fst snd] in *.
        -- exists d. split; [reflexivity|]. exists a. split; [reflexivity|]. intros S C.
           rewrite (from_now_exact tv (result a) S (C a (or_introl eq_refl))) in E. congruence.
        -- exfalso. revert E. unfold amqp_time_from_now. rewrite T. cbv zeta. destruct (u64 (result a) =? 0).
           { intros E. assert (X : AMQP_STATUS_TIMER_FAILURE = AMQP_STATUS_OK) by congruence. discriminate X. }
           match goal with |- context [if ?b then _ else _] => destruct b end; intros E; discriminate E.
      * intros O. split; [eauto|]. intros [S C]. rewrite (from_now_exact tv (result a) S (C a (or_introl eq_refl))) in O. apply O. reflexivity.
  - apply owp_ret. cbn [fst snd]. split; [|intros O; destruct O; reflexivity]. intros _. exists amqp_time_infinite. repeat split.
Qed.

Lemma ms_until_ok deadline : owp (o_time_ms_until deadline) (fun ms l => patience deadline l ms).
Proof.
  unfold o_time_ms_until, patience. destruct (Z.eqb_spec UINT64_MAX deadline) as [E|E]; cbn [orb].
  - apply owp_ret. left. subst deadline. split; [reflexivity|]. split; reflexivity.
  - destruct (Z.eqb_spec 0 deadline) as [F|F].
    + apply owp_ret. right; left. subst deadline. repeat split; reflexivity.
    + apply owp_ask_bind. intros a. apply owp_ret. right; right. exists a. split; reflexivity.
Qed.

Lemma poll_ok fd w deadline : forall fuel, owp (o_poll fuel fd w deadline) (fun r l => waits fd w deadline l r).
Proof.
  induction fuel as [|fuel IH]; cbn [o_poll]; [apply owp_halt; discriminate|].
  apply owp_bind. eapply owp_conseq; [apply ms_until_ok|]. intros ms l P.
  destruct (Z.ltb_spec ms (-1)) as [L|L].
  - apply owp_ret. rewrite app_nil_r. apply W_clock; assumption.
  - apply owp_ask_bind. intros a.
    destruct (Z.ltb_spec 0 (result a)) as [A|A]; [apply owp_ret; eapply W_ready; [exact P|lia|exact A]|].
    destruct (Z.eqb_spec 0 (result a)) as [B|B].
    { destruct (Z.ltb_spec ms 0); [apply owp_halt; discriminate|]. apply owp_ret. apply W_timeout; [exact P|lia|lia]. }
    destruct (Z.eqb_spec (err a) EINTR) as [C|C].
    + eapply owp_conseq; [apply IH|]. intros r l' H. apply W_again; try assumption; lia.
    + apply owp_ret. apply W_error; try assumption; lia.
Qed.

Lemma waits_neg fd w deadline l r : waits fd w deadline l r -> r <> AMQP_STATUS_OK -> r < 0.
Proof.
  induction 1; intros D; unfold AMQP_STATUS_OK, AMQP_STATUS_TIMEOUT, AMQP_STATUS_SOCKET_ERROR in *; try lia; auto.
Qed.

Lemma configure_ok fd : forall todo,
  owp (configure fd todo) (fun ok l =>
    if ok then configured fd todo l
    else exists done s rest l0 a, todo = done ++ s :: rest /\ configured fd done l0 /\ refused s a /\ l = l0 ++ [(Set_ fd s, a)]).
Proof.
  induction todo as [|s todo IH]; cbn [configure]; [apply owp_ret; constructor|].
  apply owp_ask_bind. intros a. destruct (setting_ok s (result a)) eqn:K.
  - eapply owp_conseq; [apply IH|]. intros ok l H. destruct ok.
    + constructor; [|exact H]. exists a. split; [reflexivity|].
      intros R. destruct s; cbn [setting_ok refused] in *; try (rewrite R in K; discriminate K); apply Z.eqb_eq in K; contradiction.
    + destruct H as (d & s' & rest & l0 & a' & -> & C & R & ->).
      exists (s :: d), s', rest, ((Set_ fd s, a) :: l0), a'. repeat split; try assumption.
      constructor; [|exact C]. exists a. split; [reflexivity|].
      intros R'. destruct s; cbn [setting_ok refused] in *; try (rewrite R' in K; discriminate K); apply Z.eqb_eq in K; contradiction.
  - apply owp_ret. exists [], s, todo, [], a. repeat split; [constructor|].
    destruct s; cbn [setting_ok refused] in *; try (apply negb_false_iff in K; apply Z.eqb_eq in K; exact K); apply Z.eqb_neq in K; exact K.
Qed.

Lemma connect_socket_ok address deadline :
  owp (connect_socket N address deadline) (fun r l =>
    if 0 <=? r then accepts address deadline l r else rejects address deadline l r).
Proof.
  unfold connect_socket. apply owp_ask_bind. intros s.
  destruct (Z.ltb_spec (result s) 0) as [L|L].
  { cbn [Z.eqb]. apply owp_ret. cbn. constructor. exact L. }
  replace (result s =? -1) with false by (symmetry; apply Z.eqb_neq; lia).
  assert (F : forall l r, stuck (result s) address deadline l r -> r <> AMQP_STATUS_OK ->
    forall (Q : Z -> list entry -> Prop),
    (forall c, rejects address deadline ((Socket address, s) :: l ++ [(Close (result s), c)]) r -> r < 0 -> Q r [(Close (result s), c)]) ->
    owp (ask (Close (result s));; oret r) Q).
  { intros l r S D Q H. apply owp_ask_bind. intros c. apply owp_ret. apply H; [eapply R_closed; [reflexivity|exact L|exact S]|].
    inversion S; subst; try (unfold AMQP_STATUS_SOCKET_ERROR; lia). eapply waits_neg; eassumption. }
  apply owp_bind. eapply owp_conseq; [apply configure_ok|]. intros ok l H. destruct ok; cbn [negb].
  all: cbn beta iota in H; change all_settings with settings in H.
  - apply owp_ask_bind. intros k. destruct (Z.eqb_spec (result k) 0) as [K|K].
    { apply owp_ret. replace (0 <=? result s) with true by (symmetry; apply Z.leb_le; exact L).
      apply A_at_once; [reflexivity|exact L|exact H|exact K]. }
    destruct (Z.eqb_spec (err k) EINPROGRESS) as [E|E]; cbn [negb].
    + apply owp_bind. eapply owp_conseq; [apply poll_ok|]. intros r w W.
      destruct (Z.eqb_spec r AMQP_STATUS_OK) as [R|R]; cbn [negb].
      * subst r. apply owp_ask_bind. intros e. destruct (Z.eqb_spec (result e) 0) as [O|O]; cbn [negb].
        { apply owp_ret. replace (0 <=? result s) with true by (symmetry; apply Z.leb_le; exact L).
          apply (A_later address deadline s (result s) l k w e); auto. }
        eapply F; [eapply S_late; [exact H|exact K|exact E|exact W|exact O]|discriminate|]. intros c X _.
        cbn [app]. replace (0 <=? AMQP_STATUS_SOCKET_ERROR) with false by reflexivity.
        match type of X with rejects _ _ ?a _ => match goal with |- rejects _ _ ?b _ => replace b with a; [exact X|] end end.
        f_equal. rewrite <- !app_assoc. cbn [app]. rewrite <- !app_assoc. reflexivity.
      * eapply F; [apply (S_wait _ _ _ l k w r); assumption|exact R|]. intros c X Y.
        replace (0 <=? r) with false by (symmetry; apply Z.leb_gt; exact Y).
        match type of X with rejects _ _ ?a _ => match goal with |- rejects _ _ ?b _ => replace b with a; [exact X|] end end.
        f_equal. rewrite <- !app_assoc. reflexivity.
    + eapply F; [apply (S_connect _ _ _ l k); assumption|discriminate|]. intros c X _.
      replace (0 <=? AMQP_STATUS_SOCKET_ERROR) with false by reflexivity.
      match type of X with rejects _ _ ?a _ => match goal with |- rejects _ _ ?b _ => replace b with a; [exact X|] end end.
      f_equal. rewrite <- !app_assoc. reflexivity.
  - destruct H as (d & s' & rest & l0 & a' & E & C & R & ->).
    eapply F; [eapply S_setting; eassumption|discriminate|]. intros c X _.
    replace (0 <=? AMQP_STATUS_SOCKET_ERROR) with false by reflexivity. exact X.
Qed.

Lemma accepts_fd address deadline l fd : accepts address deadline l fd -> 0 <= fd.
Proof. destruct 1; assumption. Qed.
Lemma rejects_neg address deadline l r : rejects address deadline l r -> r <> AMQP_STATUS_OK -> r < 0.
Proof.
  destruct 1 as [|s fd l r c E L S]; intros D; [unfold AMQP_STATUS_SOCKET_ERROR; lia|].
  destruct S; try (unfold AMQP_STATUS_SOCKET_ERROR; lia). eapply waits_neg; eassumption.
Qed.

Lemma waits_not_m1 fd w deadline l r : waits fd w deadline l r -> r <> -1.
Proof. induction 1; try discriminate; [lia|assumption]. Qed.
Lemma rejects_not_m1 address deadline l r : rejects address deadline l r -> r <> -1.
Proof. destruct 1 as [|s fd l r c E L S]; [discriminate|]. destruct S; try discriminate. eapply waits_not_m1; eassumption. Qed.
Lemma tries_not_m1 deadline addrs l r : tries deadline addrs l r -> r <> -1.
Proof.
  induction 1 as [a addrs l fd H| | |]; try discriminate; try assumption; [|eapply rejects_not_m1; eassumption].
  apply accepts_fd in H. lia.
Qed.

Lemma try_addresses_ok deadline : forall addrs sockfd last_error, addrs <> [] -> last_error = AMQP_STATUS_OK ->
  owp (try_addresses N addrs deadline sockfd last_error) (fun p l =>
    exists r, tries deadline addrs l r /\ (0 <= r -> p = (r, AMQP_STATUS_OK)) /\
      (r < 0 -> (r = AMQP_STATUS_TIMEOUT /\ p = (r, r)) \/ p = (r, AMQP_STATUS_OK))).
Proof.
  induction addrs as [|a addrs IH]; intros sockfd le NE EL; [contradiction|].
  cbn [try_addresses]. apply owp_bind. eapply owp_conseq; [apply connect_socket_ok|]. intros r l H. cbn beta in H.
  destruct (Z.leb_spec 0 r) as [L|L].
  { apply owp_ret. rewrite app_nil_r. exists r. split; [apply T_accepts; exact H|]. split; [reflexivity|lia]. }
  destruct (Z.eqb_spec r AMQP_STATUS_TIMEOUT) as [T|T].
  { apply owp_ret. rewrite app_nil_r. exists r. subst r. split; [apply T_timeout; exact H|]. split; [lia|auto]. }
  destruct addrs as [|a' addrs].
  { cbn [try_addresses]. apply owp_ret. rewrite app_nil_r. exists r. split; [apply T_last; assumption|]. split; [lia|]. subst le. auto. }
  eapply owp_conseq; [apply IH; [discriminate|exact EL]|]. intros p l' (r' & X & Y).
  exists r'. split; [|exact Y]. eapply T_next; try eassumption. discriminate.
Qed.

Lemma open_inner_ok host port deadline :
  owp (amqp_open_socket_inner N host port deadline) (fun r l => opens host port deadline l r).
Proof.
  unfold amqp_open_socket_inner. apply owp_ask_bind. intros a. destruct (addresses a) as [addrs|] eqn:A.
  - destruct addrs as [|x addrs].
    + cbn [try_addresses]. unfold obind, oret. intros ans. cbn. apply O_no_address. exact A.
    + apply owp_bind. eapply owp_conseq; [apply try_addresses_ok; [discriminate|reflexivity]|].
      intros [fd le] l (r & T & P & Q).
      assert (X : (if negb (le =? AMQP_STATUS_OK) || (fd =? -1) then le else fd) = r).
      { destruct (Z.leb_spec 0 r) as [L|L].
        - specialize (P L). inversion P; subst. replace (r =? -1) with false by (symmetry; apply Z.eqb_neq; lia). reflexivity.
        - destruct (Q L) as [[-> E]|E]; inversion E; subst; [reflexivity|].
          change (negb (AMQP_STATUS_OK =? AMQP_STATUS_OK)) with false. cbn [orb].
          destruct (Z.eqb_spec r (-1)) as [M|M]; [|reflexivity]. destruct (tries_not_m1 _ _ _ _ T M). }
      destruct (negb (le =? AMQP_STATUS_OK) || (fd =? -1)); apply owp_ret; rewrite app_nil_r; subst; eapply O_tries; try eassumption; discriminate.
  - apply owp_ret. apply O_unknown. exact A.
Qed.
End Facts.
