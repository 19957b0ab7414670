(** C63, C64, C65: amqp-consume and amqp-get. *)
From Coq Require Import String ZArith List Bool Lia.
From Verif Require Import Base BaseFacts Codec TableModel TableSpec FramingStmt FramingGen FramingModel MethodSpec
  Frame FrameSpec Time Net NetApi NetSpec Tools ToolPublish ToolConsume ToolSpec Prop_Tools.
Import ListNotations.
Local Open Scope list_scope.
Local Open Scope Z_scope.

(** ** Vocabulary *)
(** what amqp_simple_wait_frame delivers: the payload has the form the type says, and
    basic.deliver has a delivery tag (see C17) *)
Definition sound (rf : Z * frame) : Prop := delivered rf /\ (0 <= fst rf -> f_type (snd rf) = 1 ->
  exists id m, f_pay (snd rf) = PMethod id m /\ (id = method_id 60 60 -> exists tag, lookup "delivery_tag"%string m = Some (VInt tag))).

(** ** Proofs: the loop *)
Lemma bodies_fragments frames : bodies frames = fragments frames.
Proof. reflexivity. Qed.
Lemma bodies_app a b : bodies (a ++ b) = bodies a ++ bodies b.
Proof. induction a as [|[r f] a IH]; [reflexivity|]. cbn [app bodies]. destruct (f_pay f); rewrite IH; try reflexivity. apply app_assoc. Qed.
Lemma good_parts used : Forall delivered used -> Forall good_body used -> exists parts, Forall2 body_frame used parts /\ bodies used = concat parts.
Proof.
  intros D. induction D as [|[res f] used D1 D2 IH]; intros G; [exists []; split; [constructor|reflexivity]|]. inversion G as [|? ? [G1 G2] G3]; subst. cbn [fst snd] in *.
  destruct (IH G3) as (parts & H1 & H2). unfold delivered in D1. specialize (D1 G1). cbn [snd] in D1.
  destruct (f_pay f) as [|id m|cl sz pr raw|b|h l mj mn] eqn:P; try (destruct D1 as [D1 _]; contradiction).
  exists (b :: parts). split; [constructor; [|exact H1]; repeat split; assumption|]. cbn [bodies concat]. rewrite P, H2. reflexivity.
Qed.
Lemma copied frames sched : Forall sound frames -> zlen (bodies frames) < M64 ->
  match copy_body frames sched with
  | (Returns rest, out) => exists cont, frames = cont ++ rest /\ content cont out
  | (Undefined, _) => False
  | (_, out) => exists more, out ++ more = bodies (tl frames)
  end.
Proof.
  intros S B. assert (Forall delivered frames) as D by (eapply Forall_impl; [|exact S]; intros a [H _]; exact H).
  pose proof (C52_copy_body_partial frames sched D) as H.
  assert (forall out, (exists used tail more, tl frames = used ++ tail /\ out ++ more = fragments used) -> exists more', out ++ more' = bodies (tl frames)) as K.
  { intros out (used & tail & more & E1 & F1). exists (more ++ bodies tail). rewrite E1, bodies_app, app_assoc, F1. reflexivity. }
  destruct (copy_body frames sched) as [[rest| | |] out]; try (apply K, H); [|exact H].
  destruct H as (res & h & used & class & size & props & raw & -> & H1 & H2 & H3 & H4 & H5 & H6).
  exists ((res, h) :: used). split; [reflexivity|].
  change ((res, h) :: used ++ rest) with (((res, h) :: used) ++ rest) in *. apply Forall_app in D. destruct D as [D _]. inversion D as [|? ? D1 D2]; subst.
  destruct (good_parts used D2 H4) as (parts & P1 & P2). rewrite <- bodies_fragments in *.
  exists (res, h), used, parts. split; [reflexivity|]. split; [|split; [exact P1|exact P2]].
  split; [exact H1|]. split; [exact H2|]. exists class, props, raw. cbn [snd]. rewrite H3. f_equal.
  apply Z.mod_small. split; [apply zlen_nonneg|]. rewrite bodies_app, zlen_app in B. cbn [bodies] in B. rewrite H3 in B. pose proof (zlen_nonneg (bodies rest)). lia.
Qed.
Lemma not_delivery f : f_type f <> 1 -> forall tag, ~ is_delivery f tag.
Proof. intros H tag [K _]. contradiction. Qed.
Lemma consumed_tail rf cont rest : Forall sound (rf :: cont ++ rest) -> zlen (bodies (rf :: cont ++ rest)) < M64 -> Forall sound rest /\ zlen (bodies rest) < M64.
Proof.
  intros S B. inversion S as [|? ? _ S2]; subst. apply Forall_app in S2. split; [apply S2|].
  change (rf :: cont ++ rest) with ((rf :: cont) ++ rest) in B. rewrite bodies_app, zlen_app in B. pose proof (zlen_nonneg (bodies (rf :: cont))). lia.
Qed.
Definition post (no_ack : bool) (count i : Z) (frames : list (Z * frame)) (cmds : list command) (r : outcome unit * list act) : Prop :=
  match r with
  | (Returns _, t) => exists n used rest cu cr, frames = used ++ rest /\ cmds = cu ++ cr /\ handled no_ack n used cu t /\ 0 <= count /\ (i + Z.of_nat n = count \/ (n = 0%nat /\ count <= i))
  | (Undefined, _) => False
  | (_, t) => exists n used rest cu cr t1 t2, frames = used ++ rest /\ cmds = cu ++ cr /\ t = t1 ++ t2 /\ handled no_ack n used cu t1 /\ interrupted rest t2 /\ (0 <= count -> i + Z.of_nat n <= Z.max i count)
  end.
Lemma loop_ok no_ack count : forall fuel i frames cmds acks, (length frames < fuel)%nat -> 0 <= i -> i + zlen frames <= INT_MAX ->
  Forall sound frames -> zlen (bodies frames) < M64 -> post no_ack count i frames cmds (consume_loop fuel no_ack count i frames cmds acks).
Proof.
  induction fuel as [|fuel IH]; intros i frames cmds acks L I0 IM S B; [lia|]. cbn [consume_loop].
  assert (forall (r : outcome unit) t2, r = Dies \/ r = Waits -> interrupted frames t2 -> post no_ack count i frames cmds (r, t2)) as Hstop.
  { intros r t2 Hr Ht. assert (exists n used rest cu cr t1 t2', frames = used ++ rest /\ cmds = cu ++ cr /\ t2 = t1 ++ t2' /\ handled no_ack n used cu t1 /\ interrupted rest t2' /\ (0 <= count -> i + Z.of_nat n <= Z.max i count)) as K.
    { exists 0%nat, [], frames, [], cmds, [], t2. split; [reflexivity|]. split; [reflexivity|]. split; [reflexivity|]. split; [constructor|]. split; [exact Ht|lia]. }
    destruct Hr as [->| ->]; exact K. }
  destruct ((count <? 0) || (i <? count)) eqn:Hgo; cbn [negb].
  2:{ apply orb_false_iff in Hgo. destruct Hgo as [G1 G2]. apply Z.ltb_ge in G1. apply Z.ltb_ge in G2.
      exists 0%nat, [], frames, [], cmds. split; [reflexivity|]. split; [reflexivity|]. split; [constructor|]. split; [lia|right; split; [reflexivity|lia]]. }
  assert (0 <= count -> i < count) as Hic.
  { intros H. apply orb_true_iff in Hgo. destruct Hgo as [G|G]; apply Z.ltb_lt in G; lia. }
  destruct frames as [|[res f] frames]; [apply Hstop; [auto|left; reflexivity]|].
  destruct (Z.ltb_spec res 0) as [Hr|Hr]; [apply Hstop; [auto|left; reflexivity]|].
  assert (i <> INT_MAX) as Hi' by (change (zlen ((res, f) :: frames)) with (Z.of_nat (Datatypes.S (length frames))) in IM; lia).
  replace (i =? INT_MAX) with false by (symmetry; apply Z.eqb_neq; exact Hi').
  assert (forall frames' cmds' acks' cont, frames = cont ++ frames' -> post no_ack count (i + 1) frames' cmds' (consume_loop fuel no_ack count (i + 1) frames' cmds' acks')) as Hnext.
  { intros frames' cmds' acks' cont Hf. subst frames. destruct (consumed_tail (res, f) cont frames' S B) as [S' B'].
    apply IH; [cbn [length] in L; rewrite app_length in L; lia|lia|unfold zlen in *; cbn [length] in IM; rewrite app_length in IM; lia|exact S'|exact B']. }
  inversion S as [|? ? [S1 S2] S3]; subst. cbn [fst snd] in S1, S2.
  assert (zlen (bodies frames) < M64) as B3 by (change ((res, f) :: frames) with ([(res, f)] ++ frames) in B; rewrite bodies_app, zlen_app in B; pose proof (zlen_nonneg (bodies [(res, f)])); lia).
  destruct (delivery f) as [[tag|]|] eqn:Hd.
  - (* a delivery *)
    assert (is_delivery f tag) as Hdel.
    { unfold delivery in Hd. destruct (Z.eqb_spec (f_type f) AMQP_FRAME_METHOD) as [T|T]; cbn [negb] in Hd; [|discriminate]. split; [exact T|].
      destruct (f_pay f) as [|id m|cl sz pr raw|b|h l mj mn]; try discriminate. destruct (Z.eqb_spec id AMQP_BASIC_DELIVER_METHOD) as [->|]; cbn [negb] in Hd; [|discriminate].
      exists m. split; [reflexivity|]. destruct (lookup _ m) as [[]|]; try discriminate. congruence. }
    destruct cmds as [|p cmds]; [apply Hstop; [auto|left; reflexivity]|].
    destruct (c_spawned p); cbn [negb]; [|apply Hstop; [auto|left; reflexivity]].
    pose proof (copied frames (c_writes p) S3 B3) as HC. destruct (copy_body frames (c_writes p)) as [[rest| | |] out].
    + destruct HC as (cont & Ef & Hcont).
      assert (Hbroken : exists part more, part ++ more = bodies (tl frames) /\ [Broken out] = [Broken part]).
      { subst frames. destruct Hcont as (h & b & parts & -> & _ & F2 & ->). assert (bodies b = concat parts) as Eb.
        { clear - F2. induction F2 as [|[r0 f0] x b l (_ & _ & P) _ IH]; [reflexivity|]. cbn [snd] in P. cbn [bodies concat]. rewrite P, IH. reflexivity. }
        exists (concat parts), (bodies rest). split; [|reflexivity]. cbn [app tl]. rewrite bodies_app, Eb. reflexivity. }
      unfold finish_pipeline. destruct (c_exit p) as [status|] eqn:Hex; [|apply Hstop; [auto|right; exists (res, f), tag, frames; split; [reflexivity|]; split; [exact Hdel|left; exact Hbroken]]].
      assert (interrupted ((res, f) :: frames) [Ran out true]) as Hran.
      { right. exists (res, f), tag, frames. split; [reflexivity|]. split; [exact Hdel|]. right. exists cont, out, rest. auto. }
      assert (Hdone : forall acks', post no_ack count i ((res, f) :: frames) (p :: cmds)
        (let (r, t) := consume_loop fuel no_ack count (i + 1) rest cmds acks' in (r, Ran out (status =? 0) :: (if (status =? 0) && negb no_ack then [Acked tag] else []) ++ t))).
      { intros acks'. specialize (Hnext rest cmds acks' cont Ef). destruct (consume_loop fuel no_ack count (i + 1) rest cmds acks') as [[[]| | |] t]; cbn [post] in Hnext |- *.
        - destruct Hnext as (n & used & rest' & cu & cr & E1 & E2 & H1 & H2 & H3). subst frames rest cmds.
          exists (Datatypes.S n), ((res, f) :: cont ++ used), rest', (p :: cu), cr. split; [cbn [app]; rewrite <- app_assoc; reflexivity|]. split; [reflexivity|].
          split; [eapply handled_message; eassumption|]. split; [exact H2|]. destruct H3 as [H3|[-> H3]]; lia.
        - destruct Hnext as (n & used & rest' & cu & cr & t1 & t2 & E1 & E2 & E3 & H1 & H2 & H3). subst frames rest cmds t.
          exists (Datatypes.S n), ((res, f) :: cont ++ used), rest', (p :: cu), cr, (Ran out (status =? 0) :: (if (status =? 0) && negb no_ack then [Acked tag] else []) ++ t1), t2.
          split; [cbn [app]; rewrite <- app_assoc; reflexivity|]. split; [reflexivity|]. split; [cbn [app]; rewrite <- app_assoc; reflexivity|].
          split; [eapply handled_message; eassumption|]. split; [exact H2|]. lia.
        - destruct Hnext as (n & used & rest' & cu & cr & t1 & t2 & E1 & E2 & E3 & H1 & H2 & H3). subst frames rest cmds t.
          exists (Datatypes.S n), ((res, f) :: cont ++ used), rest', (p :: cu), cr, (Ran out (status =? 0) :: (if (status =? 0) && negb no_ack then [Acked tag] else []) ++ t1), t2.
          split; [cbn [app]; rewrite <- app_assoc; reflexivity|]. split; [reflexivity|]. split; [cbn [app]; rewrite <- app_assoc; reflexivity|].
          split; [eapply handled_message; eassumption|]. split; [exact H2|]. lia.
        - exact Hnext. }
      destruct ((status =? 0) && negb no_ack) eqn:Hack.
      * apply andb_true_iff in Hack. destruct Hack as [Hs _]. rewrite Hs in *. destruct acks as [|a acks]; [apply Hstop; auto|]. destruct (a <? 0); [apply Hstop; auto|]. exact (Hdone acks).
      * exact (Hdone acks).
    + apply Hstop; [auto|]. right. exists (res, f), tag, frames. split; [reflexivity|]. split; [exact Hdel|]. left. destruct HC as (more & HC). eauto.
    + apply Hstop; [auto|]. right. exists (res, f), tag, frames. split; [reflexivity|]. split; [exact Hdel|]. left. destruct HC as (more & HC). eauto.
    + contradiction.
  - (* a basic.deliver without delivery tag *)
    exfalso. unfold delivery in Hd. destruct (Z.eqb_spec (f_type f) AMQP_FRAME_METHOD) as [T|T]; cbn [negb] in Hd; [|discriminate].
    destruct (S2 Hr T) as (id & m & P & K). rewrite P in Hd. destruct (Z.eqb_spec id AMQP_BASIC_DELIVER_METHOD) as [->|]; cbn [negb] in Hd; [|discriminate].
    destruct (K eq_refl) as (tag & Ht). rewrite Ht in Hd. discriminate.
  - (* another frame *)
    assert (forall tag, ~ is_delivery f tag) as Hn.
    { intros tag (T & m & P & Ht). unfold delivery in Hd. rewrite T, P in Hd. discriminate. }
    specialize (Hnext frames cmds acks [] eq_refl). destruct (consume_loop fuel no_ack count (i + 1) frames cmds acks) as [[[]| | |] t]; cbn [post] in Hnext |- *.
    + destruct Hnext as (n & used & rest' & cu & cr & E1 & E2 & H1 & H2 & H3). subst frames cmds.
      exists (Datatypes.S n), ((res, f) :: used), rest', cu, cr. split; [reflexivity|]. split; [reflexivity|].
      split; [apply handled_other; assumption|]. split; [exact H2|]. destruct H3 as [H3|[-> H3]]; lia.
    + destruct Hnext as (n & used & rest' & cu & cr & t1 & t2 & E1 & E2 & E3 & H1 & H2 & H3). subst frames cmds t.
      exists (Datatypes.S n), ((res, f) :: used), rest', cu, cr, t1, t2. split; [reflexivity|]. split; [reflexivity|]. split; [reflexivity|].
      split; [apply handled_other; assumption|]. split; [exact H2|]. lia.
    + destruct Hnext as (n & used & rest' & cu & cr & t1 & t2 & E1 & E2 & E3 & H1 & H2 & H3). subst frames cmds t.
      exists (Datatypes.S n), ((res, f) :: used), rest', cu, cr, t1, t2. split; [reflexivity|]. split; [reflexivity|]. split; [reflexivity|].
      split; [apply handled_other; assumption|]. split; [exact H2|]. lia.
    + exact Hnext.
Qed.

(** ** C63 *)
(** For every sequence of frames (fewer than 2^31, bodies below 2^64 bytes in all), of runs
    of the command and of statuses of the acknowledgements: what amqp-consume does is to
    handle a beginning of the frames; if it ends by itself, as many as --count says;
    otherwise one more message may have been begun, which is not acknowledged.  Partial:
    frames that are no deliveries are counted, too. *)
Theorem C63_consume_partial :
  forall (no_ack : bool) (count : Z) (frames : list (Z * frame)) (cmds : list command) (acks : list Z),
    Forall sound frames -> zlen frames <= INT_MAX -> zlen (bodies frames) < M64 ->
    match do_consume no_ack count frames cmds acks with
    | (Returns _, t) => exists n used rest cu cr, frames = used ++ rest /\ cmds = cu ++ cr /\ handled no_ack n used cu t /\ Z.of_nat n = count
    | (Undefined, _) => False
    | (_, t) => exists n used rest cu cr t1 t2, frames = used ++ rest /\ cmds = cu ++ cr /\ t = t1 ++ t2 /\
        handled no_ack n used cu t1 /\ interrupted rest t2 /\ (0 <= count -> Z.of_nat n <= count)
    end.
Proof.
  intros no_ack count frames cmds acks S I B. pose proof (loop_ok no_ack count (Datatypes.S (length frames)) 0 frames cmds acks (le_n _) (Z.le_refl 0) I S B) as H.
  unfold do_consume. destruct (consume_loop _ no_ack count 0 frames cmds acks) as [[[]| | |] t]; cbn [post] in H; [| | |exact H].
  - destruct H as (n & used & rest & cu & cr & H1 & H2 & H3 & H4 & H5). exists n, used, rest, cu, cr. split; [exact H1|]. split; [exact H2|]. split; [exact H3|]. destruct H5 as [H5|[-> H5]]; lia.
  - destruct H as (n & used & rest & cu & cr & t1 & t2 & H1 & H2 & H3 & H4 & H5 & H6). exists n, used, rest, cu, cr, t1, t2. repeat (split; [assumption|]). lia.
  - destruct H as (n & used & rest & cu & cr & t1 & t2 & H1 & H2 & H3 & H4 & H5 & H6). exists n, used, rest, cu, cr, t1, t2. repeat (split; [assumption|]). lia.
Qed.
(** A message is acknowledged only if its whole body was written to the command and the
    command exited with status 0, and never with --no-ack. *)
Lemma handled_ack no_ack n frames cmds t : handled no_ack n frames cmds t -> forall a tag b, t = a ++ Acked tag :: b ->
  no_ack = false /\ exists a' body before rf cont after p, a = a' ++ [Ran body true] /\ frames = before ++ rf :: cont ++ after /\ is_delivery (snd rf) tag /\ content cont body /\
    In p cmds /\ c_exit p = Some 0.
Proof.
  induction 1 as [|n rf frames cmds acts H1 H2 H3 IH|n rf tg cont body p status frames cmds acts H1 H2 H3 H4 H5 IH]; intros a tag b E.
  - destruct a; discriminate.
  - destruct (IH a tag b E) as (K0 & a' & bd & before & rf' & ct & after & p & K1 & K2 & K3 & K4 & K5 & K6). split; [exact K0|]. exists a', bd, (rf :: before), rf', ct, after, p. subst frames. repeat (split; [assumption||reflexivity|]). exact K6.
  - destruct a as [|x a]; [discriminate|]. injection E as <- E.
    assert (forall a2, acts = a2 ++ Acked tag :: b -> forall a1, a = a1 ++ a2 -> no_ack = false /\ exists a' body0 before rf0 cont0 after p0, Ran body (status =? 0) :: a = a' ++ [Ran body0 true] /\ rf :: cont ++ frames = before ++ rf0 :: cont0 ++ after /\ is_delivery (snd rf0) tag /\ content cont0 body0 /\ In p0 (p :: cmds) /\ c_exit p0 = Some 0) as Hrec.
    { intros a2 E2 a1 ->. destruct (IH a2 tag b E2) as (K0 & a' & bd & before & rf' & ct & after & p0 & K1 & K2 & K3 & K4 & K5 & K6). split; [exact K0|]. exists (Ran body (status =? 0) :: a1 ++ a'), bd, (rf :: cont ++ before), rf', ct, after, p0.
      split; [rewrite K1; cbn [app]; rewrite <- app_assoc; reflexivity|]. split; [rewrite K2; cbn [app]; rewrite <- app_assoc; reflexivity|]. split; [exact K3|]. split; [exact K4|]. split; [right; exact K5|exact K6]. }
    destruct ((status =? 0) && negb no_ack) eqn:Hk; cbn [app] in E.
    + destruct a as [|x a]; cbn [app] in E.
      * injection E as E1 _. subst tg. apply andb_true_iff in Hk. destruct Hk as [Hk1 Hk2]. rewrite Hk1. split; [destruct no_ack; [discriminate|reflexivity]|].
        apply Z.eqb_eq in Hk1. subst status. exists [], body, [], rf, cont, frames, p. repeat (split; [assumption||reflexivity|]). split; [left; reflexivity|exact H4].
      * injection E as <- E. exact (Hrec a E [Acked tg] eq_refl).
    + exact (Hrec a E [] eq_refl).
Qed.
Theorem C63_acknowledged_only_after_success :
  forall (no_ack : bool) (count : Z) (frames : list (Z * frame)) (cmds : list command) (acks : list Z) (a b : list act) (tag : Z),
    Forall sound frames -> zlen frames <= INT_MAX -> zlen (bodies frames) < M64 ->
    snd (do_consume no_ack count frames cmds acks) = a ++ Acked tag :: b ->
    no_ack = false /\ exists a' body before rf cont after p, a = a' ++ [Ran body true] /\ frames = before ++ rf :: cont ++ after /\ is_delivery (snd rf) tag /\ content cont body /\
      In p cmds /\ c_exit p = Some 0.
Proof.
  intros no_ack count frames cmds acks a b tag S I B E. pose proof (C63_consume_partial no_ack count frames cmds acks S I B) as H.
  assert (forall n used rest cu cr t1 t2, frames = used ++ rest -> cmds = cu ++ cr -> a ++ Acked tag :: b = t1 ++ t2 -> handled no_ack n used cu t1 -> interrupted rest t2 ->
    no_ack = false /\ exists a' body before rf cont after p, a = a' ++ [Ran body true] /\ frames = before ++ rf :: cont ++ after /\ is_delivery (snd rf) tag /\ content cont body /\ In p cmds /\ c_exit p = Some 0) as K.
  { intros n used rest cu cr t1 t2 H1 H2 H3 H4 H5.
    assert (exists b', t1 = a ++ Acked tag :: b') as (b' & E1).
    { assert (~ In (Acked tag) t2) as Hno. { destruct H5 as [->|(rf & tg & r & _ & _ & [(part & more & _ & ->)|(ct & bd & r' & _ & _ & ->)])]; cbn [In]; intros Hin; repeat destruct Hin as [Hin|Hin]; try discriminate; contradiction. }
      destruct t2 as [|x t2]; [exists b; rewrite app_nil_r in H3; auto|].
      clear - H3 Hno. revert t1 H3. induction a as [|y a IH]; intros t1 H3.
      - destruct t1 as [|z t1]; cbn [app] in H3; injection H3 as E1 E2; [subst x; destruct Hno; left; reflexivity|]. subst z. exists t1. reflexivity.
      - destruct t1 as [|z t1]; cbn [app] in H3; injection H3 as E1 E2; [subst; destruct Hno; right; apply in_or_app; right; left; reflexivity|]. subst z. destruct (IH t1 E2) as (b' & ->). exists b'. reflexivity. }
    destruct (handled_ack _ _ _ _ _ H4 a tag b' E1) as (K0 & a' & bd & before & rf & ct & after & p & K1 & K2 & K3 & K4 & K5 & K6). split; [exact K0|].
    exists a', bd, before, rf, ct, (after ++ rest), p. subst frames cmds. rewrite K2. split; [exact K1|]. split; [rewrite <- app_assoc; cbn [app]; rewrite <- app_assoc; reflexivity|].
    split; [exact K3|]. split; [exact K4|]. split; [apply in_or_app; left; exact K5|exact K6]. }
  destruct (do_consume no_ack count frames cmds acks) as [[[]| | |] t]; cbn [snd] in E; subst t.
  - destruct H as (n & used & rest & cu & cr & H1 & H2 & H3 & _). apply (K n used rest cu cr (a ++ Acked tag :: b) [] H1 H2); [symmetry; apply app_nil_r|exact H3|left; reflexivity].
  - destruct H as (n & used & rest & cu & cr & t1 & t2 & H1 & H2 & H3 & H4 & H5 & _). exact (K n used rest cu cr t1 t2 H1 H2 H3 H4 H5).
  - destruct H as (n & used & rest & cu & cr & t1 & t2 & H1 & H2 & H3 & H4 & H5 & _). exact (K n used rest cu cr t1 t2 H1 H2 H3 H4 H5).
  - contradiction.
Qed.
(** --count counts other frames as messages: with --count 1, a channel.flow from the
    server, and a message waiting, the program ends without having consumed anything. *)
Definition some_delivery : frame := mkFrame 1 1 (PMethod (method_id 60 60) [("delivery_tag", VInt 7)]%string) 0.
Definition some_flow : frame := mkFrame 1 1 (PMethod (method_id 20 20) [("active", VBool 1)]%string) 0.
Definition some_header (n : Z) : frame := mkFrame 2 1 (PHeader 60 n (mkProps 0 []) []) 0.
Definition some_body : frame := mkFrame 3 1 (PBody [x61; x62]) 0.
Theorem C63_count_refuted : exists frames cmds acks, Forall sound frames /\ In (0, some_delivery) frames /\
  do_consume false 1 frames cmds acks = (Returns tt, []) /\
  do_consume false 1 (tl frames) cmds acks = (Returns tt, [Ran [x61; x62] true; Acked 7]).
Proof.
  exists [(0, some_flow); (0, some_delivery); (0, some_header 2); (0, some_body)], [mkCommand true [WChunk 9] (Some 0)], [0].
  split; [|split; [right; left; reflexivity|split; vm_compute; reflexivity]].
  repeat constructor; cbn; intros; try discriminate; eexists _, _; (split; [reflexivity|]); intros K; try discriminate K; eexists; reflexivity.
Qed.
(** Without --count the counter overflows after 2^31 frames (signed overflow). *)
Lemma flows fuel no_ack count cmds acks : count < 0 -> forall n i, 0 <= i <= INT_MAX -> i + Z.of_nat n > INT_MAX -> (n < fuel)%nat ->
  fst (consume_loop fuel no_ack count i (repeat (0, some_flow) n) cmds acks) = Undefined.
Proof.
  intros Hc. induction fuel as [|fuel IH]; intros n i Hi Hn Hf; [lia|]. cbn [consume_loop]. apply Z.ltb_lt in Hc. rewrite Hc. cbn [orb negb].
  destruct n as [|n]; [lia|]. cbn [repeat]. change (0 <? 0) with false. change (delivery some_flow) with (@None (option Z)). cbv iota.
  destruct (Z.eqb_spec i INT_MAX); [reflexivity|]. apply IH; lia.
Qed.
Theorem C63_overflow_refuted : forall no_ack cmds acks, exists frames, Forall sound frames /\ fst (do_consume no_ack (-1) frames cmds acks) = Undefined.
Proof.
  intros no_ack cmds acks. exists (repeat (0, some_flow) (Z.to_nat M31)). split.
  - apply Forall_forall. intros x Hx. apply repeat_spec in Hx. subst x. split; [intros _; cbn; split; discriminate|]. intros _ _. eexists _, _. split; [reflexivity|]. intros K; discriminate K.
  - unfold do_consume. apply flows; try lia. rewrite repeat_length. lia.
Qed.
(** The prefetch count in force after the calls of basic.qos (each replaces the one
    before; 0: no limit): the smaller of --count and --prefetch-count, counting only
    those between 1 and 65535. *)
Definition in_range (z : Z) : Prop := 1 <= z <= 65535.
Theorem C63_prefetch : forall count prefetch_count : Z,
  let limit := last (qos_calls count prefetch_count) 0 in
  (in_range count -> in_range prefetch_count -> limit = Z.min count prefetch_count) /\
  (in_range count -> ~ in_range prefetch_count -> limit = count) /\
  (~ in_range count -> in_range prefetch_count -> limit = prefetch_count) /\
  (~ in_range count -> ~ in_range prefetch_count -> limit = 0).
Proof.
  intros c p. cbv zeta. unfold qos_calls, in_range, AMQP_CONSUME_MAX_PREFETCH_COUNT.
  destruct (Z.ltb_spec 0 c), (Z.leb_spec c 65535), (Z.ltb_spec 0 p), (Z.leb_spec p 65535), (Z.leb_spec c p); cbn [andb negb app last]; repeat split; intros; lia.
Qed.

(** ** C64 *)
Lemma tokens_some t : forall s, ~ In comma s -> forall rest, tokens (s ++ rest) (Some t) = tokens rest (Some (t ++ s)).
Proof.
  intros s. revert t. induction s as [|c s IH]; intros t H rest; cbn [app]; [rewrite app_nil_r; reflexivity|]. cbn [tokens].
  destruct (Byte.eqb c comma) eqn:E; [destruct H; left; apply byte_eqb_eq, E|]. rewrite IH by (intros K; apply H; right; exact K). rewrite <- app_assoc. reflexivity.
Qed.
Lemma tokens_none k rest : ~ In comma k -> tokens (k ++ rest) None = match k with [] => tokens rest None | _ => tokens rest (Some k) end.
Proof.
  intros H. destruct k as [|c k]; [reflexivity|]. cbn [app tokens]. destruct (Byte.eqb c comma) eqn:E; [destruct H; left; apply byte_eqb_eq, E|].
  rewrite tokens_some by (intros K; apply H; right; exact K). reflexivity.
Qed.
Definition nonempty (k : bytes) : bool := match k with [] => false | _ => true end.
Lemma tokens_are s ks : comma_separated s ks -> tokens s None = filter nonempty ks.
Proof.
  induction 1 as [k H|k s ks H _ IH].
  - rewrite <- (app_nil_r k) at 1. rewrite (tokens_none k [] H). destruct k; reflexivity.
  - rewrite (tokens_none k (comma :: s) H). destruct k as [|c k]; cbn [tokens filter nonempty]; change (Byte.eqb comma comma) with true; cbv iota; rewrite IH; reflexivity.
Qed.
Lemma bind_all_ok q e keys replies : match bind_all q e keys replies with
  | (Returns _, t) => t = map (Bind q e) keys
  | (Undefined, _) => False
  | (Dies, t) => In None replies /\ exists more, t ++ more = map (Bind q e) keys
  | (Waits, t) => zlen replies < zlen keys /\ exists more, t ++ more = map (Bind q e) keys
  end.
Proof.
  revert replies. induction keys as [|k keys IH]; intros replies; cbn [bind_all]; [reflexivity|]. destruct replies as [|[r|] replies].
  - split; [unfold zlen; cbn [length]; lia|]. exists (map (Bind q e) keys). reflexivity.
  - specialize (IH replies). destruct (bind_all q e keys replies) as [[[]| | |] t]; [rewrite IH; reflexivity| | |exact IH].
    + destruct IH as [H (more & Hm)]. split; [right; exact H|]. exists more. cbn [app map]. rewrite Hm. reflexivity.
    + destruct IH as [H (more & Hm)]. split; [unfold zlen in *; cbn [length]; lia|]. exists more. cbn [app map]. rewrite Hm. reflexivity.
  - split; [left; reflexivity|]. exists (map (Bind q e) keys). reflexivity.
Qed.
(** With --exchange e and --routing-key k1,...,kn (no empty key): the queue is declared
    (exclusive if asked for) and bound with every key, in order; the program goes on to
    consume from that queue (the one the server named if --queue was not given) only if
    all these calls succeeded. *)
Theorem C64_setup_partial :
  forall (queue : option bytes) (e keys : bytes) (ks : list bytes) (declare exclusive : bool) (name : bytes) (replies : list qreply),
    comma_separated keys ks -> (forall k, In k ks -> k <> []) ->
    let q := match queue with Some q => q | None => name end in
    let all := Declare (match queue with Some q => q | None => [] end) exclusive :: map (Bind q e) ks in
    match setup_queue (mkConsume queue (Some e) (Some keys) declare exclusive) (Some name :: replies) with
    | (Returns q', calls) => q' = q /\ calls = all
    | (Undefined, _) => False
    | (Dies, calls) => In None replies /\ exists more, calls ++ more = all
    | (Waits, calls) => zlen replies < zlen ks /\ exists more, calls ++ more = all
    end.
Proof.
  intros queue e keys ks declare exclusive name replies Hc Hne. cbv zeta. unfold setup_queue. cbn [co_queue co_exchange co_routing_key co_declare co_exclusive is_some negb andb].
  rewrite orb_true_r. cbn [orb].
  assert (tokens keys None = ks) as Ht.
  { rewrite (tokens_are _ _ Hc). clear - Hne. induction ks as [|k ks IH]; [reflexivity|]. cbn [filter]. destruct k as [|c k]; [destruct (Hne [] (or_introl eq_refl)); reflexivity|].
    cbn [nonempty]. rewrite IH; [reflexivity|]. intros k' Hk. apply Hne. right. exact Hk. }
  rewrite Ht. set (q := match queue with Some q => q | None => name end). replace (match queue with Some q0 => q0 | None => name end) with q by reflexivity.
  replace (match queue with None => name | Some q0 => q0 end) with q by (destruct queue; reflexivity).
  pose proof (bind_all_ok q e ks replies) as H. destruct (bind_all q e ks replies) as [[[]| | |] t].
  - rewrite H. destruct queue; split; reflexivity.
  - destruct H as [H (more & <-)]. split; [exact H|]. exists more. destruct queue; reflexivity.
  - destruct H as [H (more & <-)]. split; [exact H|]. exists more. destruct queue; reflexivity.
  - exact H.
Qed.
(** without --exchange *)
Theorem C64_setup_queue_only :
  forall (o : consume_options) (replies : list qreply), co_exchange o = None ->
    (co_routing_key o <> None -> setup_queue o replies = (Dies, [])) /\
    (co_routing_key o = None -> forall q, co_queue o = Some q -> co_declare o = false -> co_exclusive o = false -> setup_queue o replies = (Returns q, [])) /\
    (co_routing_key o = None -> co_queue o = None \/ co_declare o = true \/ co_exclusive o = true ->
       forall name replies', replies = Some name :: replies' ->
       setup_queue o replies = (Returns (match co_queue o with Some q => q | None => name end), [Declare (cstring (co_queue o)) (co_exclusive o)])).
Proof.
  intros [queue ex rk d x] replies. cbn [co_queue co_exchange co_routing_key co_declare co_exclusive]. intros ->. unfold setup_queue. cbn [co_queue co_exchange co_routing_key co_declare co_exclusive is_some negb andb].
  split; [|split].
  - intros H. destruct rk; [reflexivity|contradiction].
  - intros -> q -> -> ->. reflexivity.
  - intros -> H name replies' ->. destruct queue, d, x; try reflexivity. destruct H as [H|[H|H]]; discriminate.
Qed.
(** The empty routing key (what a fanout exchange is usually bound with) and empty keys
    between commas are not bound; the program consumes from an unbound queue. *)
Theorem C64_empty_key_refuted : forall (queue : option bytes) (e name : bytes) (declare exclusive : bool) (replies : list qreply),
  comma_separated [] [[]] /\
  setup_queue (mkConsume queue (Some e) (Some []) declare exclusive) (Some name :: replies) =
    (Returns (match queue with Some q => q | None => name end), [Declare (cstring queue) exclusive]).
Proof. intros queue e name d x replies. split; [constructor; intros []|]. destruct queue, d, x; reflexivity. Qed.
(** --exchange without --routing-key: strdup(NULL), undefined. *)
Theorem C64_no_key_refuted : forall (queue : option bytes) (e name : bytes) (declare exclusive : bool) (replies : list qreply),
  fst (setup_queue (mkConsume queue (Some e) None declare exclusive) (Some name :: replies)) = Undefined.
Proof. intros queue e name d x replies. destruct queue, d, x; reflexivity. Qed.
(** The printed form of the queue name fits into its block, and has no control
    characters. *)
Lemma escape_ok b : zlen (escape b) <= 4 /\ Forall (fun c => 32 <= Z_of_byte c /\ Z_of_byte c <> 127) (escape b).
Proof. destruct b; vm_compute; split; try discriminate; repeat constructor; try discriminate. Qed.
Theorem C64_printed_name : forall s : bytes, exists out, stringify_bytes s = Some out /\ Forall (fun c => 32 <= Z_of_byte c /\ Z_of_byte c <> 127) out.
Proof.
  intros s. exists (concat (map escape s)). unfold stringify_bytes. split.
  - assert (zlen (concat (map escape s)) <= zlen s * 4) as H.
    { induction s as [|b s IH]; [discriminate|]. cbn [map concat]. rewrite zlen_app. destruct (escape_ok b) as [H _]. unfold zlen in *. cbn [length]. lia. }
    destruct (Z.leb_spec (zlen (concat (map escape s)) + 1) (zlen s * 4 + 1)); [reflexivity|lia].
  - induction s as [|b s IH]; [constructor|]. cbn [map concat]. apply Forall_app. split; [apply escape_ok|exact IH].
Qed.
(** exactly: printable bytes as they are, the others as a backslash and three octal digits *)
Inductive printed : bytes -> bytes -> Prop :=
| printed_nil : printed [] []
| printed_plain c s out : 32 <= Z_of_byte c -> Z_of_byte c <> 127 -> printed s out -> printed (c :: s) (c :: out)
| printed_octal c s out (d2 d1 d0 : nat) :
    Z_of_byte c < 32 \/ Z_of_byte c = 127 -> (d2 < 8)%nat -> (d1 < 8)%nat -> (d0 < 8)%nat ->
    Z_of_byte c = 64 * Z.of_nat d2 + 8 * Z.of_nat d1 + Z.of_nat d0 -> printed s out ->
    printed (c :: s) (x5c :: map (fun d => nth d (list_byte_of_string "01234567"%string) x00) [d2; d1; d0] ++ out).
Theorem C64_printed_exact : forall s out : bytes, stringify_bytes s = Some out <-> printed s out.
Proof.
  assert (forall s, printed s (concat (map escape s))) as P.
  { induction s as [|c s IH]; [constructor|]. cbn [map concat].
    assert ((32 <= Z_of_byte c /\ Z_of_byte c <> 127 /\ escape c = [c]) \/
            ((Z_of_byte c < 32 \/ Z_of_byte c = 127) /\ exists d2 d1 d0, (d2 < 8)%nat /\ (d1 < 8)%nat /\ (d0 < 8)%nat /\
              Z_of_byte c = 64 * Z.of_nat d2 + 8 * Z.of_nat d1 + Z.of_nat d0 /\ escape c = x5c :: map (fun d => nth d (list_byte_of_string "01234567"%string) x00) [d2; d1; d0])) as [(H1 & H2 & ->)|(H & d2 & d1 & d0 & H2 & H1 & H0 & E & ->)].
    { clear. set (n := Z_of_byte c). assert (0 <= n < 256) as Hn by (subst n; destruct c; vm_compute; split; congruence).
      destruct (Z_lt_ge_dec n 32) as [L|G]; [|destruct (Z.eq_dec n 127) as [L|N]].
      - right. split; [auto|]. exists 0%nat, (Z.to_nat (n / 8)), (Z.to_nat (n mod 8)).
        assert (0 <= n mod 8 < 8) by (apply Z.mod_pos_bound; lia). assert (n = 8 * (n / 8) + n mod 8) by (apply Z.div_mod; lia).
        assert (0 <= n / 8 < 4) by lia. repeat split; try lia. subst n. clear -L. destruct c; vm_compute in L; try discriminate; reflexivity.
      - right. split; [auto|]. exists 1%nat, 7%nat, 7%nat. rewrite L. repeat split; try lia. subst n. clear -L. destruct c; vm_compute in L; try discriminate; reflexivity.
      - left. split; [lia|]. split; [exact N|]. unfold escape. fold n. destruct (Z.leb_spec 32 n); [|lia]. destruct (Z.eqb_spec n 127); [congruence|reflexivity]. }
    - apply printed_plain; auto.
    - apply (printed_octal c s _ d2 d1 d0); auto. }
  assert (forall s o1 o2, printed s o1 -> printed s o2 -> o1 = o2) as U.
  { intros s o1 o2 H. revert o2. induction H as [|c s o G1 G2 H IH|c s o a b d G La Lb Ld E H IH]; intros o2 H2; inversion H2; subst; try lia; try reflexivity.
    - f_equal. auto.
    - match goal with Hs : printed s ?o' |- _ = _ => assert (o = o') as -> by (apply IH; exact Hs) end.
      assert (a = d2 /\ b = d1 /\ d = d0) as (-> & -> & ->) by lia. reflexivity. }
  intros s out. destruct (C64_printed_name s) as (o & E & _). split.
  - intros H. unfold stringify_bytes in H. destruct (_ <=? _); [|discriminate]. injection H as <-. apply P.
  - intros H. rewrite E. f_equal. apply (U s); [|exact H]. unfold stringify_bytes in E. destruct (_ <=? _); [|discriminate]. injection E as <-. apply P.
Qed.
Example C64_printed_case : stringify_bytes [x61; x0a; x7f; xe9] = Some (list_byte_of_string "a\012\177"%string ++ [xe9]).
Proof. reflexivity. Qed.

(** ** C65 *)
(** amqp-get: exit status 2, nothing printed, exactly if the queue was empty; exit status 0
    only if the whole body of the message was printed. *)
Theorem C65_get :
  forall (q : bytes) (reply : option Z) (frames : list (Z * frame)) (sched : list wr),
    Forall sound frames -> zlen (bodies frames) < M64 ->
    match get_main (Some q) reply frames sched with
    | (Returns status, out) =>
        (status = 2 /\ out = [] /\ reply = Some (method_id 60 72)) \/
        (status = 0 /\ (exists id, reply = Some id /\ id <> method_id 60 72) /\ exists cont rest, frames = cont ++ rest /\ content cont out)
    | (Dies, out) | (Waits, out) => exists more, out ++ more = bodies (tl frames)
    | (Undefined, _) => False
    end.
Proof.
  intros q reply frames sched S B. unfold get_main. destruct reply as [id|]; [|exists (bodies (tl frames)); reflexivity].
  destruct (Z.eqb_spec id AMQP_BASIC_GET_EMPTY_METHOD) as [->|Hid]; [left; auto|].
  pose proof (copied frames sched S B) as H. destruct (copy_body frames sched) as [[rest| | |] out]; auto.
  right. split; [reflexivity|]. split; [exists id; auto|]. destruct H as (cont & H1 & H2). exists cont, rest. auto.
Qed.

(** ** Non-vacuity *)
Example C63_case : Forall sound [(0, some_delivery); (0, some_header 2); (0, some_body); (0, some_delivery); (0, some_header 0)] /\
  do_consume false (-1) [(0, some_delivery); (0, some_header 2); (0, some_body); (0, some_delivery); (0, some_header 0)]
    [mkCommand true [WChunk 1; WChunk 0; WChunk 5] (Some 1); mkCommand true [] (Some 0); mkCommand true [] (Some 0)] [0] =
  (Waits, [Ran [x61; x62] false; Ran [] true; Acked 7]) /\
  content [(0, some_header 2); (0, some_body)] [x61; x62] /\ is_delivery some_delivery 7.
Proof.
  split; [repeat constructor; cbn; intros; try discriminate; eexists _, _; (split; [reflexivity|]); intros K; try discriminate K; eexists; reflexivity|].
  split; [vm_compute; reflexivity|]. split.
  - exists (0, some_header 2), [(0, some_body)], [[x61; x62]]. split; [reflexivity|]. split; [split; [discriminate|split; [reflexivity|eexists _, _, _; reflexivity]]|].
    split; [constructor; [split; [discriminate|split; reflexivity]|constructor]|reflexivity].
  - split; [reflexivity|]. eexists. split; reflexivity.
Qed.
Example C64_case : comma_separated [x61; x2c; x62; x63] [[x61]; [x62; x63]] /\
  setup_queue (mkConsume None (Some [x65]) (Some [x61; x2c; x62; x63]) false true) [Some [x71]; Some []; Some []] =
    (Returns [x71], [Declare [] true; Bind [x71] [x65] [x61]; Bind [x71] [x65] [x62; x63]]).
Proof.
  split; [|vm_compute; reflexivity]. apply (comma_more [x61] [x62; x63]); [intros [H|[]]; discriminate H|]. constructor. intros [H|[H|[]]]; discriminate H.
Qed.
Example C65_case : get_main (Some [x71]) (Some (method_id 60 71)) [(0, some_header 2); (0, some_body)] [WChunk 9] = (Returns 0, [x61; x62]) /\
  get_main (Some [x71]) (Some (method_id 60 72)) [] [] = (Returns 2, []).
Proof. split; vm_compute; reflexivity. Qed.

Print Assumptions C63_consume_partial.
Print Assumptions C63_acknowledged_only_after_success.
Print Assumptions C63_count_refuted.
Print Assumptions C63_overflow_refuted.
Print Assumptions C63_prefetch.
Print Assumptions C64_setup_partial.
Print Assumptions C64_setup_queue_only.
Print Assumptions C64_empty_key_refuted.
Print Assumptions C64_no_key_refuted.
Print Assumptions C64_printed_name.
Print Assumptions C65_get.
Print Assumptions C64_printed_exact.
