(** C30, C31 *)
From Coq Require Import String ZArith List Bool Lia.
From Verif Require Import Base BaseFacts Sasl.
Import ListNotations.
Local Open Scope Z_scope.

(** [w] is one of the space separated words of [l]. *)
Definition is_word (w l : bytes) : Prop :=
  exists pre post, l = pre ++ w ++ post /\
    (pre = [] \/ exists p, pre = p ++ [x20]) /\ (post = [] \/ exists p, post = x20 :: p) /\ ~ In x20 w.

Lemma bytes_eqb_eq a b : bytes_eqb a b = true <-> a = b.
Proof.
  revert b. induction a as [|x a IH]; intros [|y b]; cbn; split; intros H; try discriminate; auto.
  - apply andb_true_iff in H. destruct H as [H1 H2]. apply Byte.byte_dec_bl in H1. apply IH in H2. congruence.
  - injection H as <- <-. rewrite Byte.byte_dec_lb by reflexivity. apply IH. reflexivity.
Qed.
Lemma bytes_equal_eq a b : bytes_equal a b = true <-> a = b.
Proof.
  unfold bytes_equal. rewrite andb_true_iff, bytes_eqb_eq. split; [tauto|]. intros ->. rewrite Z.eqb_refl. auto.
Qed.
Lemma memchr_spec l c : match memchr l c with
  | Some i => exists a b, l = a ++ c :: b /\ ~ In c a /\ i = zlen a
  | None => ~ In c l end.
Proof.
  induction l as [|x l IH]; cbn [memchr]; [intros []|].
  destruct (Byte.eqb x c) eqn:E.
  - apply Byte.byte_dec_bl in E. subst x. exists [], l. repeat split. intros [].
  - assert (N : x <> c) by (intros ->; rewrite Byte.byte_dec_lb in E; [discriminate|reflexivity]).
    destruct (memchr l c) as [i|].
    + destruct IH as (a & b & -> & H & ->). exists (x :: a), b. repeat split; [|rewrite zlen_cons; lia].
      intros [K|K]; auto.
    + intros [K|K]; auto.
Qed.

(** words, by recursion, for the proof *)
Lemma word_cons_space a b w : ~ In x20 a -> is_word w (a ++ x20 :: b) <-> w = a \/ is_word w b.
Proof.
  intros Ha. split.
  - intros (pre & post & E & Hpre & Hpost & Hw). destruct Hpre as [->|[p ->]].
    + left. cbn [app] in E. destruct Hpost as [->|[q ->]].
      * rewrite app_nil_r in E. exfalso. apply Hw. rewrite <- E. apply in_or_app. right. left. reflexivity.
      * revert Ha Hw E. clear. revert w. induction a as [|x a IH]; intros [|y w] Ha Hw E; cbn in *; auto.
        -- injection E as <- E. exfalso. apply Hw. left. reflexivity.
        -- injection E as -> E. exfalso. apply Ha. left. reflexivity.
        -- injection E as <- E. f_equal. apply IH; auto.
    + right. assert (C : exists p', p ++ [x20] = a ++ x20 :: p' /\ b = p' ++ w ++ post).
      { revert p E Ha. clear. induction a as [|x a IH]; intros p E Ha.
        - destruct p as [|y p]; cbn in E; injection E; intros; subst; [exists []; auto|].
          exists (p ++ [x20]). split; [reflexivity|]. rewrite <- app_assoc. reflexivity.
        - destruct p as [|y p]; cbn in E.
          + injection E as -> E. exfalso. apply Ha. left. reflexivity.
          + injection E as <- E. destruct (IH p E) as (p' & P1 & P2). { intros K. apply Ha. right. auto. }
            exists p'. split; [cbn; rewrite P1; reflexivity|auto]. }
      destruct C as (p' & C1 & C2). exists p', post. split; [auto|]. split; [|auto].
      destruct p' as [|y p']; [left; reflexivity|right].
      assert (L : exists q z, y :: p' = q ++ [z]) by (destruct (exists_last (l := y :: p')) as (q & z & Q); [discriminate|eauto]).
      destruct L as (q & z & Q). rewrite Q in *. exists q. f_equal.
      assert (C1' : p ++ [x20] = (a ++ x20 :: q) ++ [z]) by (rewrite <- app_assoc; exact C1).
      apply app_inj_tail in C1'. destruct C1' as [_ <-]. reflexivity.
  - intros [->|(pre & post & -> & Hpre & Hpost & Hw)].
    + exists [], (x20 :: b). repeat split; [left; reflexivity|right; eauto|auto].
    + exists (a ++ x20 :: pre), post. repeat split; auto.
      * rewrite <- app_assoc. reflexivity.
      * right. destruct Hpre as [->|[p ->]]; [exists a; reflexivity|exists (a ++ x20 :: p); rewrite <- app_assoc; reflexivity].
Qed.
Lemma word_single a w : ~ In x20 a -> is_word w a <-> w = a.
Proof.
  intros Ha. split.
  - intros (pre & post & E & Hpre & Hpost & Hw).
    destruct Hpre as [->|[p ->]]; destruct Hpost as [->|[q ->]].
    + cbn in E. rewrite app_nil_r in E. auto.
    + exfalso. apply Ha. rewrite E. apply in_or_app. right. apply in_or_app. right. left. reflexivity.
    + exfalso. apply Ha. rewrite E. apply in_or_app. left. apply in_or_app. right. left. reflexivity.
    + exfalso. apply Ha. rewrite E. apply in_or_app. left. apply in_or_app. right. left. reflexivity.
  - intros ->. exists [], []. rewrite app_nil_r. repeat split; auto.
Qed.

Lemma loop_spec name (Hn : name <> []) : forall fuel rest before mech start current,
  mech = before ++ rest -> start = zlen before -> current <> zlen mech -> (length rest < fuel - 1)%nat -> (0 < fuel)%nat ->
  exists found, sasl_loop fuel mech name start current = SRes found /\ (found = true <-> is_word name rest).
Proof.
  induction fuel as [|fuel IH]; intros rest before mech start current Em Es Hc Hf Hf0; [lia|].
  cbn [sasl_loop]. assert (LM : zlen mech = zlen before + zlen rest) by (rewrite Em; apply zlen_app).
  destruct (Z.eqb_spec current (zlen mech)); [congruence|].
  assert (SL : forall n, 0 <= n <= zlen rest -> slice mech start n = Some (firstn (Z.to_nat n) rest)).
  { intros k Hk. pose proof (zlen_nonneg before). rewrite slice_Some by lia. subst start mech. f_equal.
    unfold zlen. rewrite Nat2Z.id. rewrite skipn_app, skipn_all, Nat.sub_diag. reflexivity. }
  pose proof (zlen_nonneg rest) as HR.
  rewrite SL by lia. replace (zlen mech - start) with (zlen rest) by lia.
  rewrite (@firstn_all2 _ (Z.to_nat (zlen rest)) rest) by (unfold zlen; lia).
  pose proof (memchr_spec rest x20) as M. destruct (memchr rest x20) as [i|].
  - destruct M as (a & b & Er & Ha & ->). cbv zeta. replace (start + zlen a - start) with (zlen a) by lia.
    pose proof (zlen_nonneg a). pose proof (zlen_nonneg b).
    assert (LR : zlen rest = zlen a + 1 + zlen b) by (rewrite Er, zlen_app, zlen_cons; lia).
    rewrite SL by lia.
    assert (FA : firstn (Z.to_nat (zlen a)) rest = a) by (rewrite Er; unfold zlen; rewrite Nat2Z.id, firstn_app, Nat.sub_diag, firstn_all, firstn_O, app_nil_r; reflexivity).
    rewrite FA.
    destruct (bytes_equal name a) eqn:BE.
    + apply bytes_equal_eq in BE. subst a. exists true. split; [reflexivity|]. split; [|auto]. intros _.
      rewrite Er. apply word_cons_space; auto.
    + destruct (IH b (before ++ a ++ [x20]) mech (start + zlen a + 1) (start + zlen a)) as (found & F1 & F2); auto.
      * rewrite Em, Er, <- !app_assoc. reflexivity.
      * rewrite !zlen_app. change (zlen [x20]) with 1. lia.
      * lia.
      * unfold zlen in *. lia.
      * unfold zlen in *. lia.
      * exists found. split; [auto|]. rewrite F2, Er, word_cons_space by auto. split; [auto|].
        intros [->|K]; [|auto]. assert (bytes_equal a a = true) by (apply bytes_equal_eq; reflexivity). congruence.
  - cbv zeta. replace (zlen mech - start) with (zlen rest) by lia. rewrite SL by lia.
    rewrite (@firstn_all2 _ (Z.to_nat (zlen rest)) rest) by (unfold zlen; lia).
    destruct (bytes_equal name rest) eqn:BE.
    + apply bytes_equal_eq in BE. subst rest. exists true. split; [reflexivity|]. rewrite word_single by auto. tauto.
    + destruct fuel as [|fuel']; [cbn in Hf; lia|]. cbn [sasl_loop]. rewrite Z.eqb_refl. exists false. split; [reflexivity|].
      rewrite word_single by auto. split; [discriminate|]. intros ->.
      assert (bytes_equal rest rest = true) by (apply bytes_equal_eq; reflexivity). congruence.
Qed.

(** What RFC 4616 and RFC 4422 call the mechanisms. *)
Definition registered_name (m : sasl_method) : bytes :=
  list_byte_of_string (match m with AMQP_SASL_METHOD_PLAIN => "PLAIN" | AMQP_SASL_METHOD_EXTERNAL => "EXTERNAL" end)%string.
Lemma names_registered m : sasl_method_name m = registered_name m.
Proof. destruct m; reflexivity. Qed.
(** C30: for every list the server can send, the search terminates without reading
    outside the list and says yes exactly for whole words. *)
Theorem C30_whole_words :
  forall (mechanisms : bytes) (m : sasl_method),
    exists found, sasl_mechanism_in_list mechanisms m = SRes found /\
      (found = true <-> is_word (registered_name m) mechanisms).
Proof.
  intros mech m. rewrite <- names_registered. unfold sasl_mechanism_in_list.
  assert (Hn : sasl_method_name m <> []) by (destruct m; discriminate).
  destruct mech as [|x mech].
  - exists false. split; [reflexivity|]. split; [discriminate|]. rewrite word_single by (intros []). intros K. congruence.
  - apply (loop_spec _ Hn _ (x :: mech) []); try reflexivity; cbn [length]; try lia.
    rewrite zlen_cons. pose proof (zlen_nonneg mech). lia.
Qed.

(** ** C31 *)
(** The PLAIN response is NUL user NUL password, for all strings, unless memory
    runs out. *)
Theorem C31_plain_response :
  forall (nomem : bool) (junk : nat -> byte) (username password : bytes),
    sasl_response_plain nomem junk username password =
      if nomem then RNull else RBytes ([x00] ++ username ++ [x00] ++ password).
Proof.
  intros nomem junk u p. unfold sasl_response_plain, pool_alloc_bytes.
  pose proof (zlen_nonneg u). pose proof (zlen_nonneg p).
  destruct (Z.eqb_spec (zlen u + zlen p + 2) 0); [lia|]. destruct nomem; [reflexivity|]. cbn [orb].
  set (b := map junk (seq 0 (Z.to_nat (zlen u + zlen p + 2)))).
  assert (LB : zlen b = zlen u + zlen p + 2) by (unfold b, zlen; rewrite map_length, seq_length; unfold zlen in *; lia).
  assert (WS : forall m o bs, 0 <= o -> o + zlen bs <= zlen m -> write m o bs = Some (patch m o bs)) by (intros; apply write_Some; lia).
  rewrite (WS b 0 [x00]) by (change (zlen [x00]) with 1; lia).
  assert (L1 : zlen (patch b 0 [x00]) = zlen b) by (apply zlen_patch; change (zlen [x00]) with 1; lia).
  rewrite (WS _ 1 u) by lia.
  change (patch (patch b 0 [x00]) 1 u) with (patch (patch b 0 [x00]) (0 + zlen [x00]) u).
  rewrite (patch_patch_after b 0 [x00] u) by (change (zlen [x00]) with 1; lia).
  assert (L2 : zlen ([x00] ++ u) = 1 + zlen u) by (rewrite zlen_app; reflexivity).
  assert (L3 : zlen (patch b 0 ([x00] ++ u)) = zlen b) by (apply zlen_patch; lia).
  rewrite (WS _ (zlen u + 1) [x00]) by (change (zlen [x00]) with 1; lia).
  replace (zlen u + 1) with (0 + zlen ([x00] ++ u)) by lia.
  rewrite (patch_patch_after b 0 ([x00] ++ u) [x00]) by (change (zlen [x00]) with 1; lia).
  assert (L4 : zlen (([x00] ++ u) ++ [x00]) = 2 + zlen u) by (rewrite zlen_app; change (zlen [x00]) with 1; lia).
  assert (L5 : zlen (patch b 0 (([x00] ++ u) ++ [x00])) = zlen b) by (apply zlen_patch; lia).
  rewrite (WS _ (zlen u + 2) p) by lia.
  replace (zlen u + 2) with (0 + zlen (([x00] ++ u) ++ [x00])) by lia.
  rewrite patch_patch_after by lia.
  f_equal. unfold patch. change (Z.to_nat 0) with 0%nat. rewrite firstn_O. cbn [app Nat.add].
  rewrite skipn_all2. { rewrite app_nil_r, <- !app_assoc. reflexivity. }
  unfold zlen in *. rewrite !app_length in *. cbn [length] in *. rewrite ?app_length in *. cbn [length] in *. lia.
Qed.

(** It determines user and password (C strings contain no NUL). *)
Theorem C31_plain_unambiguous :
  forall junk u1 p1 u2 p2,
    ~ In x00 u1 -> ~ In x00 u2 ->
    sasl_response_plain false junk u1 p1 = sasl_response_plain false junk u2 p2 -> u1 = u2 /\ p1 = p2.
Proof.
  intros junk u1 p1 u2 p2 H1 H2. rewrite !C31_plain_response. cbn [app]. intros E. injection E as E.
  revert u2 H2 E. induction u1 as [|x u1 IH]; intros [|y u2] H2 E; cbn in E; injection E; intros; subst; auto.
  - exfalso. apply H2. left. reflexivity.
  - exfalso. apply H1. left. reflexivity.
  - destruct (IH (fun K => H1 (or_intror K)) u2 (fun K => H2 (or_intror K)) H) as [-> ->]. auto.
Qed.

(** The EXTERNAL response is the identity - for every identity but the empty one,
    for which the library reports out of memory (so C31 is false for it). *)
Theorem C31_external_response_partial :
  forall (nomem : bool) (junk : nat -> byte) (identity : bytes),
    identity <> [] ->
    sasl_response_external nomem junk identity = if nomem then RNull else RBytes identity.
Proof.
  intros nomem junk id Hne. unfold sasl_response_external, pool_alloc_bytes.
  assert (0 < zlen id) by (destruct id; [congruence|]; rewrite zlen_cons; pose proof (zlen_nonneg id); lia).
  destruct (Z.eqb_spec (zlen id) 0); [lia|]. destruct nomem; [reflexivity|]. cbn [orb].
  set (b := map junk (seq 0 (Z.to_nat (zlen id)))).
  assert (LB : length b = length id) by (unfold b, zlen; rewrite map_length, seq_length; lia).
  rewrite write_Some by (unfold zlen in *; lia). unfold patch. change (Z.to_nat 0) with 0%nat. rewrite firstn_O. cbn [app Nat.add].
  rewrite skipn_all2 by lia. rewrite app_nil_r. reflexivity.
Qed.
Theorem C31_empty_identity_refuted :
  forall junk, sasl_response_external false junk [] = RNull.
Proof. reflexivity. Qed.

(** ** Concrete cases *)
Definition plain_amqplain : bytes := [x41; x4d; x51; x50; x4c; x41; x49; x4e; x20; x50; x4c; x41; x49; x4e; x20].
Example C30_case :
  sasl_mechanism_in_list plain_amqplain AMQP_SASL_METHOD_PLAIN = SRes true /\
  sasl_mechanism_in_list (firstn 8 plain_amqplain) AMQP_SASL_METHOD_PLAIN = SRes false /\
  sasl_mechanism_in_list plain_amqplain AMQP_SASL_METHOD_EXTERNAL = SRes false.
Proof. repeat split. Qed.
Example C31_case : sasl_response_plain false (fun _ => x5a) [x61; x62] [x63] = RBytes [x00; x61; x62; x00; x63].
Proof. reflexivity. Qed.

Print Assumptions C30_whole_words.
Print Assumptions C31_plain_response.
Print Assumptions C31_plain_unambiguous.
Print Assumptions C31_external_response_partial.
Print Assumptions C31_empty_identity_refuted.
