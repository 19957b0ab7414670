(** C91: The TLS engine is set once, given back once, and used only while it is set.

    Any number of threads call amqp_set_ssl_engine and amqp_ssl_socket_set_key_engine. *)
From Coq Require Import ZArith List Bool Arith Lia.
From Verif Require Import Base Engine.
Import ListNotations.
Local Open Scope Z_scope.

(** ** Specification *)
(** the thread is in amqp_set_ssl_engine, or in amqp_ssl_socket_set_key_engine *)
Definition setting (p : pc) : Prop :=
  match p with L601 _ | L603 _ | L604 _ | L605 _ | L613 _ | L619 _ | L620 _ | L621 _ | L627 _ _ => True | _ => False end.
Definition keying (p : pc) : Prop := match p with L426 | L431 | L431use _ | L436 => True | _ => False end.
(** no engine is set while one is being used *)
Definition apart (w : world) : Prop := forall p q, In p (snd w) -> In q (snd w) -> setting p -> ~ keying q.
Fixpoint always_apart (supported : bool) (l : list action) (w : world) : Prop :=
  apart w /\ match l with [] => True | a :: l => match act supported a w with None => True | Some w => always_apart supported l w end end.
(** the engines that have been got and not given back *)
Definition held (s : shared) (e : nat) : Prop := (e < length (ids s))%nat /\ ~ In e (freed s).

(** ** Proof *)
Definition clean (s : shared) : Prop := forall e, held s e <-> openssl_engine s = Some e.
Definition none_held (s : shared) : Prop := forall e, ~ held s e.
Definition is_set (s : shared) (a : Z) : Prop := exists e, openssl_engine s = Some e /\ nth_error (ids s) e = Some a.
Definition result (s : shared) (a : option Z) (st : Z) : Prop :=
  match a with
  | None => st = AMQP_STATUS_OK /\ openssl_engine s = None
  | Some a => (st = AMQP_STATUS_OK /\ is_set s a) \/ (st = AMQP_STATUS_SSL_SET_ENGINE_FAILED /\ openssl_engine s = None)
  end.
Definition inside (p : pc) : Prop :=
  match p with L603 _ | L604 _ | L605 _ | L613 _ | L619 _ | L620 _ | L621 _ | L627 _ _ => True | _ => False end.
Definition at_ (s : shared) (p : pc) : Prop :=
  match p with
  | L603 _ => clean s
  | L604 _ => clean s /\ exists e, openssl_engine s = Some e
  | L605 _ => none_held s
  | L613 _ => clean s /\ openssl_engine s = None
  | L619 a | L620 a => clean s /\ is_set s a
  | L621 _ => none_held s
  | L627 a st => clean s /\ result s a st
  | _ => False
  end.
Definition wf (s : shared) : Prop := NoDup (freed s) /\ (forall e, In e (freed s) -> (e < length (ids s))%nat).
Definition inv (w : world) : Prop :=
  let '(s, ts) := w in
  wf s /\
  (forall i p, nth_error ts i = Some p -> inside p -> mutex s = Some i) /\
  match mutex s with None => clean s | Some i => exists p, nth_error ts i = Some p /\ at_ s p end.

Lemma is_freed_in s e : is_freed s e = true <-> In e (freed s).
Proof.
  unfold is_freed. rewrite existsb_exists. split; [intros (x & H & E); apply Nat.eqb_eq in E; subst x; exact H|]. intros H. exists e. split; [exact H|apply Nat.eqb_refl].
Qed.
Lemma not_freed s e : held s e -> is_freed s e = false.
Proof. intros [_ H]. apply not_true_iff_false. rewrite is_freed_in. exact H. Qed.
Lemma nth_set {A} i (x : A) : forall l j y, nth_error (set_nth i x l) j = Some y ->
  (j = i /\ y = x) \/ (j <> i /\ nth_error l j = Some y).
Proof.
  induction i as [|i IH]; intros [|z l] j y H; destruct j as [|j]; cbn [set_nth nth_error] in H; try discriminate; auto.
  - left. split; congruence.
  - destruct (IH l j y H) as [(-> & ->)|(N & E)]; [left; auto|right; split; [congruence|exact E]].
Qed.
Lemma nth_set_same {A} i (x z : A) : forall l, nth_error l i = Some z -> nth_error (set_nth i x l) i = Some x.
Proof. induction i as [|i IH]; intros [|y l] H; cbn in *; try discriminate; [reflexivity|apply IH; exact H]. Qed.
Lemma nth_set_other {A} i j (x : A) : i <> j -> forall l, nth_error (set_nth i x l) j = nth_error l j.
Proof. revert j. induction i as [|i IH]; intros [|j] N [|y l]; cbn; try reflexivity; try (contradiction N; reflexivity). apply IH. congruence. Qed.
Lemma nth_snoc {A} (l : list A) (x : A) i y : nth_error (l ++ [x]) i = Some y -> nth_error l i = Some y \/ y = x.
Proof.
  intros H. destruct (Nat.lt_ge_cases i (length l)) as [G|G]; [rewrite nth_error_app1 in H by exact G; auto|].
  rewrite nth_error_app2 in H by exact G. destruct (i - length l)%nat as [|k]; cbn in H; [right; congruence|destruct k; discriminate].
Qed.

(** freeing the engine that is set leaves nothing held *)
Lemma free_set s e : wf s -> clean s -> openssl_engine s = Some e ->
  exists s', ENGINE_free s (openssl_engine s) = Some s' /\ wf s' /\ none_held s' /\ mutex s' = mutex s /\ openssl_engine s' = openssl_engine s.
Proof.
  intros (N & B) C E. assert (held s e) as H by (apply C; exact E). unfold ENGINE_free. rewrite E, (not_freed s e H).
  eexists. split; [reflexivity|]. split; [split; cbn; [constructor; [apply H|exact N]|intros x [<-|K]; [apply H|apply B; exact K]]|].
  split; [|cbn; auto]. intros x (L & K). cbn in *. assert (held s x) as Hx by (split; [exact L|tauto]). apply C in Hx. rewrite E in Hx. injection Hx as ->. tauto.
Qed.
Lemma clear_clean s : none_held s -> clean (set_engine s None).
Proof. intros H e. split; [intros K; destruct (H e K)|discriminate]. Qed.
Lemma ids_eq_held s s' e : ids s' = ids s -> freed s' = freed s -> (held s' e <-> held s e).
Proof. intros I F. unfold held. rewrite I, F. reflexivity. Qed.

(** what a thread inside does: never undefined, and it stays inside or leaves *)
Lemma inside_step i ok p s : wf s -> at_ s p -> mutex s = Some i ->
  exists p' s', step i ok p s = Some (p', s') /\ wf s' /\
    ((inside p' /\ at_ s' p' /\ mutex s' = Some i) \/
     (exists a st, p = L627 a st /\ p' = Returned (SetEngine a) st /\ clean s' /\ mutex s' = None)).
Proof.
  intros W A M. assert (forall a s, clean s -> openssl_engine s = None -> inside (after_clear a) /\ at_ s (after_clear a)) as AC.
  { intros [a|] s0 C N; cbn; auto. }
  destruct p; cbn [at_] in A; try contradiction; cbn [step].
  - destruct (openssl_engine s) as [e|] eqn:E; do 2 eexists; (split; [reflexivity|]); (split; [exact W|]); left.
    + cbn. rewrite E. eauto.
    + destruct (AC engine s A E). auto.
  - destruct A as (C & e & E). destruct (free_set s e W C E) as (s' & -> & W' & N' & M' & _). do 2 eexists. split; [reflexivity|]. split; [exact W'|]. left. rewrite M'. cbn. auto.
  - do 2 eexists. split; [reflexivity|]. split; [exact W|]. left. destruct (AC engine (set_engine s None) (clear_clean s A) eq_refl). auto.
  - destruct A as (C & E). destruct ok.
    + do 2 eexists. split; [reflexivity|]. destruct W as (N & B). split; [split; [exact N|]; cbn; intros x H; rewrite app_length; apply B in H; cbn; lia|].
      left. split; [exact I|]. split; [|exact M]. cbn [at_]. split.
      * intros x. unfold held; cbn. rewrite app_length; cbn [length]. split.
        -- intros (L & F). destruct (Nat.eq_dec x (length (ids s))) as [->|Ne]; [reflexivity|]. assert (held s x) as Hx by (split; [lia|exact F]). apply C in Hx. congruence.
        -- intros [= <-]. split; [lia|]. intros F. apply B in F. lia.
      * exists (length (ids s)). cbn. split; [reflexivity|]. rewrite nth_error_app2 by lia. rewrite Nat.sub_diag. reflexivity.
    + do 2 eexists. split; [reflexivity|]. split; [exact W|]. left. cbn. split; [exact I|]. split; [|exact M]. split; [|right; auto].
      apply clear_clean. intros x Hx. apply C in Hx. congruence.
  - destruct A as (C & e & E & J). rewrite E. assert (held s e) as H by (apply C; exact E). rewrite (not_freed s e H).
    destruct ok; do 2 eexists; (split; [reflexivity|]); (split; [exact W|]); left; cbn; (split; [exact I|]); split; auto; split; auto; try left; unfold is_set; eauto.
  - destruct A as (C & e & E & J). destruct (free_set s e W C E) as (s' & -> & W' & N' & M' & _). do 2 eexists. split; [reflexivity|]. split; [exact W'|]. left. rewrite M'. cbn. auto.
  - do 2 eexists. split; [reflexivity|]. split; [exact W|]. left. cbn. split; [exact I|]. split; [|exact M]. split; [apply clear_clean; exact A|right; auto].
  - do 2 eexists. split; [reflexivity|]. split; [exact W|]. right. exists engine, status. destruct A as (C & _). split; [reflexivity|]. split; [reflexivity|]. split; [exact C|reflexivity].
Qed.
(** what a thread that is not inside does: it changes nothing but the mutex, which it takes *)
Lemma outside_step i ok p s : ~ inside p ->
  match step i ok p s with
  | None => exists e, p = L431use (Some e) /\ In e (freed s)
  | Some (p', s') =>
      (s' = s /\ ~ inside p') \/
      (exists a, p = L601 a /\ p' = L603 a /\ mutex s = None /\ s' = mkShared (Some i) (openssl_engine s) (ids s) (freed s))
  end.
Proof.
  intros N. destruct p; cbn [inside] in N; try tauto; cbn [step].
  - left. auto.
  - destruct (mutex s); [left; auto|right; eauto].
  - left. destruct ok; auto.
  - left. auto.
  - destruct e as [e|]; [|left; auto]. destruct (is_freed s e) eqn:F; [exists e; split; [reflexivity|apply is_freed_in; exact F]|left; destruct ok; auto].
  - left. destruct ok; auto.
  - left. auto.
Qed.
Lemma inside_dec p : {inside p} + {~ inside p}.
Proof. destruct p; cbn; auto. Qed.
Lemma at_inside s p : at_ s p -> inside p.
Proof. destruct p; cbn; auto. Qed.
Lemma begin_outside sup c : ~ inside (begin sup c).
Proof. unfold begin. destruct sup, c; cbn; auto. Qed.

Lemma act_inv sup a w : inv w ->
  match act sup a w with
  | None => exists i ok e, a = Step i ok /\ nth_error (snd w) i = Some (L431use (Some e)) /\ In e (freed (fst w))
  | Some w' => inv w'
  end.
Proof.
  destruct w as [s ts]. intros (W & In_ & H). destruct a as [|i c|i ok]; cbn [act].
  - split; [exact W|]. split.
    + intros i p Np Ip. apply nth_snoc in Np. destruct Np as [Np| ->]; [eauto|destruct Ip].
    + destruct (mutex s) as [j|]; [|exact H]. destruct H as (p & Np & A). exists p. split; [|exact A]. rewrite nth_error_app1; [exact Np|]. apply nth_error_Some. congruence.
  - assert (forall p0, nth_error ts i = Some p0 -> ~ inside p0 -> inv (s, set_nth i (begin sup c) ts)) as K.
    { intros p0 N0 I0. split; [exact W|]. split.
      - intros j p Np Ip. apply nth_set in Np. destruct Np as [(-> & ->)|(_ & Np)]; [destruct (begin_outside sup c Ip)|eauto].
      - destruct (mutex s) as [j|]; [|exact H]. destruct H as (p & Np & A). exists p. split; [|exact A]. rewrite nth_set_other; [exact Np|].
        intros ->. rewrite N0 in Np. injection Np as ->. apply I0. eapply at_inside, A. }
    destruct (nth_error ts i) as [p0|] eqn:N0; [|split; auto].
    destruct p0; try (split; auto; fail); apply (K _ eq_refl); cbn; auto.
  - destruct (nth_error ts i) as [p0|] eqn:N0; [|split; auto]. destruct (inside_dec p0) as [I0|I0].
    + pose proof (In_ i p0 N0 I0) as M. rewrite M in H. destruct H as (p & Np & A). rewrite N0 in Np. injection Np as <-.
      destruct (inside_step i ok p0 s W A M) as (p' & s' & -> & W' & [(I' & A' & M')|(a & st & -> & -> & C' & M')]); (split; [exact W'|]); split.
      * intros j q Nq Iq. rewrite M'. apply nth_set in Nq. destruct Nq as [(-> & _)|(Ne & Nq)]; [reflexivity|]. rewrite <- M. eauto.
      * rewrite M'. exists p'. split; [eapply nth_set_same; eassumption|exact A'].
      * intros j q Nq Iq. apply nth_set in Nq. destruct Nq as [(-> & ->)|(Ne & Nq)]; [destruct Iq|]. specialize (In_ j q Nq Iq). congruence.
      * rewrite M'. exact C'.
    + pose proof (outside_step i ok p0 s I0) as O. destruct (step i ok p0 s) as [[p' s']|].
      * destruct O as [(-> & I')|(a & -> & -> & M & ->)]; (split; [exact W|]); split.
        -- intros j q Nq Iq. apply nth_set in Nq. destruct Nq as [(-> & ->)|(Ne & Nq)]; [contradiction|eauto].
        -- destruct (mutex s) as [j|] eqn:M; [|exact H]. destruct H as (p & Np & A). exists p. split; [|exact A]. rewrite nth_set_other; [exact Np|].
           intros ->. rewrite N0 in Np. injection Np as ->. apply I0. eapply at_inside, A.
        -- intros j q Nq Iq. apply nth_set in Nq. destruct Nq as [(-> & ->)|(Ne & Nq)]; [reflexivity|]. specialize (In_ j q Nq Iq). congruence.
        -- cbn. exists (L603 a). split; [eapply nth_set_same; eassumption|]. rewrite M in H. exact H.
      * destruct O as (e & -> & F). exists i, ok, e. auto.
Qed.
Lemma inv_start : inv start.
Proof. split; [split; [constructor|intros e []]|]. split; [intros [|i] p Np; discriminate|]. cbn. intros e. split; [intros (L & _); cbn in L; lia|discriminate]. Qed.
Lemma acts_inv sup : forall l w w', inv w -> acts sup l w = Some w' -> inv w'.
Proof.
  induction l as [|a l IH]; intros w w' I E; cbn [acts] in E; [injection E as <-; exact I|]. pose proof (act_inv sup a w I) as K.
  destruct (act sup a w) as [w1|]; [|discriminate]. eapply IH; eassumption.
Qed.

(** ** C91 *)
(** Whatever the schedule: no engine is given back twice, at most one is held, and whenever
    no thread is inside amqp_set_ssl_engine the one that is held is the one that is set. *)
Theorem C91_engines : forall supported l s ts, acts supported l start = Some (s, ts) ->
  NoDup (freed s) /\ (forall e, In e (freed s) -> (e < length (ids s))%nat) /\
  (forall e e', held s e -> held s e' -> e = e') /\
  ((forall p, In p ts -> ~ setting p) -> forall e, held s e <-> openssl_engine s = Some e).
Proof.
  intros sup l s ts E. pose proof (acts_inv sup l start (s, ts) inv_start E) as ((N & B) & In_ & H).
  split; [exact N|]. split; [exact B|].
  assert (clean s -> forall e e', held s e -> held s e' -> e = e') as CC.
  { intros C e e' A1 A2. apply C in A1. apply C in A2. congruence. }
  split.
  - destruct (mutex s) as [i|]; [|auto]. destruct H as (p & _ & A). destruct p; cbn [at_] in A; try contradiction; try (apply CC; apply A); intros e e' A1; destruct (A e A1).
  - intros Q. destruct (mutex s) as [i|]; [|exact H]. destruct H as (p & Np & A). destruct (Q p (nth_error_In _ _ Np)). apply at_inside in A. destruct p; cbn in *; auto.
Qed.
(** A call of amqp_set_ssl_engine that is about to return has done what its result says,
    whatever the other threads do: OK means that the engine asked for is set (none, if
    NULL was given), a failure that none is. *)
Theorem C91_result : forall supported l s ts i engine status, acts supported l start = Some (s, ts) ->
  nth_error ts i = Some (L627 engine status) ->
  match engine with
  | None => status = AMQP_STATUS_OK /\ openssl_engine s = None
  | Some id => (status = AMQP_STATUS_OK /\ exists e, openssl_engine s = Some e /\ nth_error (ids s) e = Some id /\ held s e) \/
               (status = AMQP_STATUS_SSL_SET_ENGINE_FAILED /\ openssl_engine s = None)
  end.
Proof.
  intros sup l s ts i a st E Ni. pose proof (acts_inv sup l start (s, ts) inv_start E) as (_ & In_ & H).
  rewrite (In_ i _ Ni I) in H. destruct H as (p & Np & A). rewrite Ni in Np. injection Np as <-. destruct A as (C & R).
  destruct a as [a|]; [|exact R]. destruct R as [(R & e & Ee & J)|R]; [left|right; exact R]. split; [exact R|]. exists e. repeat split; auto; apply (C e); exact Ee.
Qed.
(** Nothing is ever used after it was given back, if amqp_set_ssl_engine is never called
    while a thread is in amqp_ssl_socket_set_key_engine, or the other way round; and the
    engine that is used is the one that is set. *)
Lemma apart_live : forall l w, (forall e, In (L431use (Some e)) (snd w) -> openssl_engine (fst w) = Some e /\ mutex (fst w) = None) -> inv w -> always_apart true l w ->
  match acts true l w with
  | None => False
  | Some w' => forall e, In (L431use (Some e)) (snd w') -> openssl_engine (fst w') = Some e /\ held (fst w') e
  end.
Proof.
  induction l as [|a l IH]; intros w U I (Ap & Aw); cbn [acts].
  - intros e He. destruct (U e He) as (E & M). split; [exact E|]. destruct w as [s ts]. destruct I as (_ & _ & H). cbn in *. rewrite M in H. apply H. exact E.
  - pose proof (act_inv true a w I) as K. destruct (act true a w) as [w'|] eqn:E.
    + apply IH; auto. clear IH Aw. destruct w as [s ts]. destruct I as (W & In_ & H). cbn [fst snd] in *. destruct a as [|i c|i ok]; cbn [act] in E.
      * injection E as <-. cbn. intros e He. apply in_app_or in He. destruct He as [He|[He|[]]]; [auto|discriminate].
      * assert (forall ts', (forall e, In (L431use (Some e)) ts' -> In (L431use (Some e)) ts) -> forall e, In (L431use (Some e)) ts' -> openssl_engine s = Some e /\ mutex s = None) as G by auto.
        assert (forall e, In (L431use (Some e)) (set_nth i (begin true c) ts) -> In (L431use (Some e)) ts) as G'.
        { intros e He. apply In_nth_error in He. destruct He as (j & Nj). apply nth_set in Nj. destruct Nj as [(-> & D)|(_ & Nj)]; [destruct c; discriminate|eapply nth_error_In, Nj]. }
        destruct (nth_error ts i) as [[]|]; injection E as <-; cbn; auto.
      * destruct (nth_error ts i) as [p0|] eqn:N0; [|injection E as <-; auto]. destruct (step i ok p0 s) as [[p' s']|] eqn:Es; [|discriminate]. injection E as <-. cbn [fst snd].
        intros e He. apply In_nth_error in He. destruct He as (j & Nj). apply nth_set in Nj.
        assert (setting p0 -> forall q, In q ts -> ~ keying q) as Ap0 by (intros S q Q; apply (Ap p0 q (nth_error_In _ _ N0) Q S)).
        destruct Nj as [(-> & Ep)|(Ne & Nj)].
        -- subst p'. destruct p0; cbn [step] in Es; repeat match type of Es with context [match ?x with _ => _ end] => destruct x eqn:?; try discriminate end; try discriminate.
           all: try (unfold after_clear in Es; destruct engine; discriminate).
           injection Es as Eo <-. split; [exact Eo|]. destruct (mutex s) as [k|] eqn:M; [|reflexivity]. exfalso. destruct H as (q & Nq & Aq). apply at_inside in Aq.
           assert (setting q) as Sq by (destruct q; cbn in *; auto). exact (Ap q L431 (nth_error_In _ _ Nq) (nth_error_In _ _ N0) Sq Logic.I).
        -- pose proof (nth_error_In _ _ Nj) as Hj. destruct (U e Hj) as (Ee & M).
           assert (~ setting p0) as S0 by (intros S; exact (Ap0 S _ Hj Logic.I)). assert (~ inside p0) as I0 by (intros J; apply S0; destruct p0; cbn in *; auto).
           pose proof (outside_step i ok p0 s I0) as O. rewrite Es in O. destruct O as [(-> & _)|(a & -> & _)]; [auto|destruct (S0 Logic.I)].
    + destruct K as (i & ok & e & _ & Ni & F). destruct (U e (nth_error_In _ _ Ni)) as (Ee & M). destruct w as [s ts]. destruct I as (_ & _ & H). cbn in *. rewrite M in H.
      apply H in Ee. destruct Ee as (_ & Ee). contradiction.
Qed.
Theorem C91_no_use_after_free_partial : forall l, always_apart true l start ->
  exists s ts, acts true l start = Some (s, ts) /\
    forall e, In (L431use (Some e)) ts -> openssl_engine s = Some e /\ held s e.
Proof.
  intros l A. pose proof (apart_live l start ltac:(intros e []) inv_start A) as K. destruct (acts true l start) as [[s ts]|]; [|destruct K]. eauto.
Qed.
(** Programs that only set engines, in any number of threads, need no condition. *)
Theorem C91_setting_is_safe : forall supported l, (forall i, ~ In (Call i SetKey) l) -> exists w, acts supported l start = Some w.
Proof.
  intros sup l. assert (forall l w, inv w -> (forall p, In p (snd w) -> ~ keying p) -> (forall i, ~ In (Call i SetKey) l) -> exists w', acts sup l w = Some w') as G.
  { clear l. induction l as [|a l IH]; intros w I U N; cbn [acts]; [eauto|]. pose proof (act_inv sup a w I) as K. destruct (act sup a w) as [w'|] eqn:E.
    - apply IH; [exact K| |intros i Hi; apply (N i); right; exact Hi]. clear K IH I. destruct w as [s ts]. cbn [snd] in *. destruct a as [|i c|i ok]; cbn [act] in E.
      + injection E as <-. cbn. intros p Hp. apply in_app_or in Hp. destruct Hp as [Hp|[<-|[]]]; auto.
      + assert (forall p, In p (set_nth i (begin sup c) ts) -> ~ keying p) as G.
        { intros p Hp. apply In_nth_error in Hp. destruct Hp as (j & Nj). apply nth_set in Nj. destruct Nj as [(-> & ->)|(_ & Nj)]; [|apply U; eapply nth_error_In, Nj].
          destruct c as [|]; [unfold begin; destruct sup; cbn; auto|destruct (N i); left; reflexivity]. }
        destruct (nth_error ts i) as [[]|]; injection E as <-; cbn; auto.
      + destruct (nth_error ts i) as [p0|] eqn:N0; [|injection E as <-; auto]. pose proof (U p0 (nth_error_In _ _ N0)) as U0.
        destruct (step i ok p0 s) as [[p' s']|] eqn:Es; [|discriminate]. injection E as <-. cbn. intros p Hp. apply In_nth_error in Hp. destruct Hp as (j & Nj). apply nth_set in Nj.
        destruct Nj as [(-> & ->)|(_ & Nj)]; [|apply U; eapply nth_error_In, Nj].
        destruct p0; cbn [step keying] in *; try tauto; repeat match type of Es with context [match ?x with _ => _ end] => destruct x eqn:?; try discriminate end; injection Es as <- <-; cbn; auto; unfold after_clear; destruct engine; cbn; auto.
    - destruct K as (i & ok & e & _ & Ni & _). destruct (U _ (nth_error_In _ _ Ni) Logic.I). }
  intros N. apply G; [exact inv_start|intros p []|exact N].
Qed.
(** The documented "thread-safe" is not: one thread sets another engine while another
    thread loads a key, and the key is asked from an engine that is gone. *)
Theorem C91_race_refuted : acts true
  ([Start; Call 0 (SetEngine (Some 7)); Step 0 true; Step 0 true; Step 0 true; Step 0 true; Step 0 true] ++  (* engine 7 is set *)
   [Start; Call 1 SetKey; Step 1 true; Step 1 true] ++                        (* thread 1 has read openssl_engine *)
   [Call 0 (SetEngine (Some 8)); Step 0 true; Step 0 true; Step 0 true] ++      (* thread 0 gives engine 7 back *)
   [Step 1 true]) start = None.                                                 (* thread 1 uses it *)
Proof. reflexivity. Qed.

(** One call of amqp_set_ssl_engine, alone ([found]: ENGINE_by_id, [default]:
    ENGINE_set_default succeeds): the previous engine is given back in any case. *)
Definition finished (p : pc) : option (call * Z) := match p with Returned c st => Some (c, st) | _ => None end.
Definition previous (s : shared) : list nat := match openssl_engine s with Some e => [e] | None => [] end.
Fixpoint steps_of (i : nat) (oks : list bool) : list action := match oks with [] => [] | ok :: oks => Step i ok :: steps_of i oks end.
Theorem C91_alone : forall s (engine : option Z) (found default : bool), wf s -> clean s -> mutex s = None ->
  exists n s', acts true (Call 0 (SetEngine engine) :: steps_of 0 (repeat true n ++
      match engine with None => [] | Some _ => found :: (if found then default :: (if default then [] else [true; true]) else []) end ++ [true])) (s, [Idle]) =
    Some (s', [Returned (SetEngine engine) (match engine with None => AMQP_STATUS_OK | Some _ => if found && default then AMQP_STATUS_OK else AMQP_STATUS_SSL_SET_ENGINE_FAILED end)]) /\
  mutex s' = None /\
  match engine with
  | None => openssl_engine s' = None /\ ids s' = ids s /\ freed s' = previous s ++ freed s
  | Some id =>
      if found then ids s' = ids s ++ [id] /\
        (if default then openssl_engine s' = Some (length (ids s)) /\ freed s' = previous s ++ freed s
         else openssl_engine s' = None /\ freed s' = length (ids s) :: previous s ++ freed s)
      else openssl_engine s' = None /\ ids s' = ids s /\ freed s' = previous s ++ freed s
  end.
Proof.
  intros [m en is fr] engine found default W C M. cbn in M. subst m. unfold previous. cbn [openssl_engine ids freed].
  assert (is_freed (mkShared (Some 0%nat) None (is ++ [0]) fr) (length is) = false) as F0.
  { apply not_true_iff_false. rewrite is_freed_in. cbn. intros H. destruct W as (_ & B). specialize (B _ H). cbn in B. lia. }
  unfold is_freed in F0. cbn [freed] in F0.
  destruct en as [e|].
  - assert (held (mkShared None (Some e) is fr) e) as H by (apply C; reflexivity). pose proof (not_freed _ _ H) as F. unfold is_freed in F. cbn [freed] in F.
    assert (existsb (Nat.eqb (length is)) (e :: fr) = false) as F1.
    { cbn [existsb]. rewrite F0. destruct H as (L & _). cbn in L. destruct (Nat.eqb_spec (length is) e); [lia|reflexivity]. }
    exists 4%nat. destruct engine as [id|]; [destruct found; [destruct default|]|];
      eexists; (split; [repeat (progress (cbn [acts act nth_error begin set_nth step steps_of repeat app mutex openssl_engine ids freed ENGINE_free after_clear set_engine]; unfold is_freed; cbn [freed]; rewrite ?F, ?F1)); reflexivity|]); cbn; rewrite ?app_nil_r; auto.
  - exists 2%nat. destruct engine as [id|]; [destruct found; [destruct default|]|];
      eexists; (split; [repeat (progress (cbn [acts act nth_error begin set_nth step steps_of repeat app mutex openssl_engine ids freed ENGINE_free after_clear set_engine]; unfold is_freed; cbn [freed]; rewrite ?F0)); reflexivity|]); cbn; auto.
Qed.
(** One call of amqp_ssl_socket_set_key_engine during which no engine is set ([cert],
    [load], [use]: the three calls of OpenSSL succeed): the key is used only from the engine
    that is set, after its certificate, and every failure is reported. *)
Theorem C91_key_alone : forall s (cert load use : bool), wf s -> clean s ->
  acts true (Call 0 SetKey :: steps_of 0 [cert; true; load; use]) (s, [Idle]) =
  Some (s, [Returned SetKey (if cert && (match openssl_engine s with Some _ => true | None => false end) && load && use then AMQP_STATUS_OK else AMQP_STATUS_SSL_ERROR)]).
Proof.
  intros s cert load use W C. destruct cert; [|reflexivity]. destruct (openssl_engine s) as [e|] eqn:Ee; cbn; rewrite Ee; cbn; [|reflexivity].
  assert (held s e) as H by (apply C; exact Ee). rewrite (not_freed s e H). destruct load; [|reflexivity]. destruct use; reflexivity.
Qed.
(** Without engine support every call says so. *)
Theorem C91_unsupported : forall l s ts c st i, acts false l start = Some (s, ts) -> nth_error ts i = Some (Returned c st) -> st = AMQP_STATUS_SSL_UNIMPLEMENTED.
Proof.
  intros l s ts c st i. assert (forall l w w', (forall p, In p (snd w) -> p = Idle \/ exists c, p = Returned c AMQP_STATUS_SSL_UNIMPLEMENTED) -> acts false l w = Some w' ->
    forall p, In p (snd w') -> p = Idle \/ exists c, p = Returned c AMQP_STATUS_SSL_UNIMPLEMENTED) as G.
  { clear. induction l as [|a l IH]; intros w w' P E; cbn [acts] in E; [injection E as <-; exact P|]. destruct (act false a w) as [w1|] eqn:Ea; [|discriminate].
    apply (IH w1 w'); [|exact E]. clear IH E. destruct w as [s ts]. cbn [snd] in *. destruct a as [|i c|i ok]; cbn [act] in Ea.
    - injection Ea as <-. cbn. intros p Hp. apply in_app_or in Hp. destruct Hp as [Hp|[<-|[]]]; auto.
    - assert (forall p, In p (set_nth i (begin false c) ts) -> p = Idle \/ exists c, p = Returned c AMQP_STATUS_SSL_UNIMPLEMENTED) as G.
      { intros p Hp. apply In_nth_error in Hp. destruct Hp as (j & Nj). apply nth_set in Nj. destruct Nj as [(_ & ->)|(_ & Nj)]; [right; exists c; reflexivity|apply P; eapply nth_error_In, Nj]. }
      destruct (nth_error ts i) as [[]|]; injection Ea as <-; cbn; auto.
    - destruct (nth_error ts i) as [p0|] eqn:N0; [|injection Ea as <-; auto].
      assert (step i ok p0 s = Some (p0, s)) as Es by (destruct (P p0 (nth_error_In _ _ N0)) as [-> |(c & ->)]; reflexivity).
      rewrite Es in Ea. injection Ea as <-. cbn. intros p Hp. apply In_nth_error in Hp. destruct Hp as (j & Nj). apply nth_set in Nj.
      destruct Nj as [(_ & ->)|(_ & Nj)]; apply P; eapply nth_error_In; eassumption. }
  intros E Ni. destruct (G l start (s, ts) ltac:(intros p []) E (Returned c st) (nth_error_In _ _ Ni)) as [H|(c' & H)]; [discriminate|congruence].
Qed.

(** ** Non-vacuity *)
(** two threads set engines at the same time, then a key is loaded *)
Definition a_schedule : list action :=
  [Start; Start; Call 0 (SetEngine (Some 7)); Call 1 (SetEngine (Some 8)); Step 0 true; Step 1 true; Step 0 true; Step 0 true; Step 0 true; Step 1 true; Step 0 true;
   Step 1 true; Step 1 true; Step 1 true; Step 1 true; Step 1 true; Step 1 false; Step 1 true; Step 1 true; Step 1 true;
   Call 0 (SetEngine (Some 7)); Step 0 true; Step 0 true; Step 0 true; Step 0 true; Step 0 true; Call 1 SetKey; Step 1 true; Step 1 true].
Example C91_example : always_apart true a_schedule start /\
  acts true a_schedule start = Some (mkShared None (Some 2%nat) [7; 8; 7] [1; 0]%nat, [Returned (SetEngine (Some 7)) 0; L431use (Some 2%nat)]) /\
  acts true (a_schedule ++ [Step 1 true; Step 1 true]) start = Some (mkShared None (Some 2%nat) [7; 8; 7] [1; 0]%nat, [Returned (SetEngine (Some 7)) 0; Returned SetKey 0]).
Proof.
  split; [|split; reflexivity].
  assert (forall sup l w, (fix chk (l : list action) (w : world) : bool :=
    forallb (fun p => forallb (fun q => negb (match p with L601 _ | L603 _ | L604 _ | L605 _ | L613 _ | L619 _ | L620 _ | L621 _ | L627 _ _ => true | _ => false end && match q with L426 | L431 | L431use _ | L436 => true | _ => false end)) (snd w)) (snd w) &&
    match l with [] => true | a :: l => match act sup a w with None => true | Some w => chk l w end end) l w = true -> always_apart sup l w) as G.
  { intros sup. induction l as [|a l IH]; intros w H; apply andb_prop in H; destruct H as (H1 & H2); (split; [intros p q Ip Iq Sp Uq; rewrite forallb_forall in H1; specialize (H1 p Ip); rewrite forallb_forall in H1; specialize (H1 q Iq); destruct p; cbn in *; try contradiction; destruct q; cbn in *; try contradiction; discriminate|]).
    - exact I.
    - destruct (act sup a w); [apply IH; exact H2|exact I]. }
  apply G. vm_compute. reflexivity.
Qed.

Print Assumptions C91_engines.
Print Assumptions C91_result.
Print Assumptions C91_no_use_after_free_partial.
Print Assumptions C91_setting_is_safe.
Print Assumptions C91_race_refuted.
Print Assumptions C91_alone.
Print Assumptions C91_unsupported.
Print Assumptions C91_key_alone.
