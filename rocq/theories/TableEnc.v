(** Proofs about table encoding. *)
From Coq Require Import ZArith List Bool Lia.
From Verif Require Import Base BaseFacts Codec CodecProofs TableModel TableSpec.
Import ListNotations.
Local Open Scope Z_scope.

(** ** Induction principle for nested values *)
Section FvInd.
Variable P : fv -> Prop.
Variable HArray : forall l, Forall P l -> P (FArray l).
Variable HTable : forall t, Forall (fun e => P (snd e)) t -> P (FTable t).
Variable HLeaf : forall v, (forall l, v <> FArray l) -> (forall t, v <> FTable t) -> P v.

Fixpoint fv_ind' (v : fv) : P v.
Proof.
  destruct v; try (apply HLeaf; intros; discriminate).
  - apply HArray. revert entries.
    fix IH 1. intros [|x r]; constructor; [apply fv_ind' | apply IH].
  - apply HTable. revert entries.
    fix IH 1. intros [|x r]; constructor; [apply fv_ind' | apply IH].
Qed.
End FvInd.

Lemma all_Forall {A} (P : A -> Prop) l : all P l <-> Forall P l.
Proof.
  induction l; cbn; split; intros H; auto.
  - constructor; tauto.
  - inversion H; tauto.
Qed.

Lemma zlen_longstr s : zlen (longstr s) = 4 + zlen s.
Proof. unfold longstr. rewrite zlen_app, zlen_be. reflexivity. Qed.
Lemma zlen_shortstr s : zlen (shortstr s) = 1 + zlen s.
Proof. unfold shortstr. rewrite zlen_app, zlen_be. reflexivity. Qed.

Definition entry_bytes (e : bytes * fv) : bytes := shortstr (fst e) ++ ser_value (snd e).

(** What an encoder call that should write [bs] at [o] does.  [good]: the value
    contains no unknown kind. *)
Definition enc_spec (good : bool) (bs : bytes) (m : bytes) (o : Z) (r : option (Z * est)) : Prop :=
  exists st m' o', r = Some (st, mkE m' o') /\ zlen m' = zlen m /\
    firstn (Z.to_nat o) m' = firstn (Z.to_nat o) m /\
    ((good = true /\ o + zlen bs <= zlen m /\ st = AMQP_STATUS_OK /\
      o' = o + zlen bs /\ m' = patch m o bs)
     \/ ((good = false \/ o + zlen bs > zlen m) /\ st < 0)).

Lemma enc_field w v m o :
  0 <= o <= zlen m -> zlen m < M63 ->
  enc_spec true (be (wnat w) v) m o (FIELD_ENCODER w v (mkE m o)).
Proof.
  intros. unfold FIELD_ENCODER, amqp_encode, enc_spec.
  destruct (Z_le_gt_dec (o + wbytes w) (zlen m)).
  - rewrite encode_ok by lia. do 3 eexists; split; [reflexivity|].
    rewrite zlen_patch by (rewrite ?zlen_be_w; lia).
    rewrite firstn_patch by (rewrite ?zlen_be_w; lia).
    repeat split. left. rewrite zlen_be_w. auto.
  - rewrite encode_fail by lia. do 3 eexists; split; [reflexivity|].
    repeat split. right. rewrite zlen_be_w. split; [right; lia|reflexivity].
Qed.

(** sequencing: first write [a], then something that should write [b] *)
Lemma enc_spec_seq good a b m o r :
  0 <= o -> o + zlen a <= zlen m ->
  enc_spec good b (patch m o a) (o + zlen a) r ->
  enc_spec good (a ++ b) m o r.
Proof.
  intros Ho Ha (st & m' & o' & -> & L & F & H).
  pose proof (zlen_nonneg a). pose proof (zlen_nonneg b).
  rewrite zlen_patch in * by lia.
  exists st, m', o'. split; [reflexivity|]. split; [exact L|]. split.
  - apply (f_equal (firstn (Z.to_nat o))) in F.
    rewrite !firstn_firstn in F.
    replace (Nat.min (Z.to_nat o) (Z.to_nat (o + zlen a))) with (Z.to_nat o) in F by lia.
    rewrite F. apply firstn_patch; lia.
  - rewrite zlen_app. destruct H as [(G & B & S & O & M)|[G S]]; [left|right].
    + repeat split; auto; try lia. rewrite M. apply patch_patch_after; lia.
    + split; auto. destruct G; [left; auto|right; lia].
Qed.

Lemma enc_spec_fail good bs m o st m1 o1 :
  (good = false \/ o + zlen bs > zlen m) -> st < 0 -> m1 = m ->
  enc_spec good bs m o (Some (st, mkE m1 o1)).
Proof.
  intros G S ->. exists st, m, o1. repeat split; auto.
Qed.

(** a failure after a prefix was written *)
Lemma enc_spec_ok_nil m o : 0 <= o <= zlen m ->
  enc_spec true [] m o (Some (AMQP_STATUS_OK, mkE m o)).
Proof.
  intros. exists AMQP_STATUS_OK, m, o. repeat split; auto. left.
  rewrite zlen_nil, patch_nil. repeat split; auto; lia.
Qed.

Definition ef_ok (ef : enc_fun fv) (v : fv) : Prop :=
  forall m o, 0 <= o <= zlen m + 4 -> zlen m < M32 ->
    enc_spec (known_kinds v) (ser_value v) m o (ef v (mkE m o)).

Lemma one_le_ser v : 1 <= zlen (ser_value v).
Proof.
  destruct v; cbn [ser_value]; rewrite zlen_cons; match goal with |- _ <= zlen ?x + 1 => pose proof (zlen_nonneg x) end; lia.
Qed.

(** failing spec transport: what happens after a successful prefix, when r is
    bad, is bad for the longer string *)
Lemma enc_spec_bad_app good good' a b m o r :
  enc_spec good a m o r ->
  (good = true -> o + zlen a <= zlen m -> False) ->
  (good = false -> good' = false) ->
  enc_spec good' (a ++ b) m o r.
Proof.
  intros (st & m' & o' & -> & L & F & H) N G'.
  exists st, m', o'. repeat split; auto. right.
  destruct H as [(G & B & _)|[G S]]; [destruct (N G B)|].
  split; auto. rewrite zlen_app. pose proof (zlen_nonneg b).
  destruct G; [left; auto | right; lia].
Qed.

Lemma array_entries_ok ef l :
  Forall (ef_ok ef) l ->
  forall m o, 0 <= o <= zlen m + 4 -> zlen m < M32 ->
    (o <= zlen m \/ l <> [] ->
    enc_spec (forallb known_kinds l) (concat (map ser_value l)) m o
      (encode_array_entries ef l (mkE m o))).
Proof.
  intros H. induction H as [|v l Hv Hl IH]; intros m o Ho Hm Hne.
  - cbn. apply enc_spec_ok_nil. destruct Hne; [lia|congruence].
  - cbn [encode_array_entries map concat forallb].
    destruct (Hv m o Ho Hm) as (st & m' & o' & E & L & F & C).
    rewrite E. destruct C as [(G & B & -> & -> & ->)|[G S]].
    + rewrite G. cbn [Z.ltb Z.compare AMQP_STATUS_OK andb].
      apply enc_spec_seq; [lia|lia|]. apply IH; rewrite ?L; try lia.
      pose proof (zlen_nonneg (ser_value v)); lia.
    + destruct (Z.ltb_spec st 0); [|lia].
      exists st, m', o'. repeat split; auto. right. split; auto.
      rewrite zlen_app. pose proof (zlen_nonneg (concat (map ser_value l))).
      destruct G as [-> | ?]; [left; reflexivity | right; lia].
Qed.

Lemma table_entries_ok ef t :
  Forall (fun e => zlen (fst e) < M63 /\ ef_ok ef (snd e)) t ->
  forall m o, 0 <= o <= zlen m + 4 -> zlen m < M32 ->
    (o <= zlen m \/ t <> [] ->
    enc_spec (forallb (fun e => known_kinds (snd e)) t)
      (concat (map entry_bytes t)) m o
      (encode_table_entries ef t (mkE m o))).
Proof.
  intros H. induction H as [|[k v] l Hv Hl IH]; intros m o Ho Hm Hne.
  - cbn. apply enc_spec_ok_nil. destruct Hne; [lia|congruence].
  - destruct Hv as [Hk Hv]. cbn [fst snd] in Hk, Hv.
    pose proof (zlen_nonneg k) as Hk0. pose proof (one_le_ser v) as Hs1.
    pose proof (zlen_nonneg (concat (map entry_bytes l))) as Hc0.
    cbn [encode_table_entries map concat forallb].
    unfold entry_bytes at 1. cbn [fst snd].
    unfold amqp_encode.
    destruct (Z_le_gt_dec (o + wbytes W8) (zlen m)) as [G1|G1]; cbn [wbytes] in G1.
    2:{ rewrite encode_fail by (cbn [wbytes]; lia). apply enc_spec_fail; auto.
        - right. rewrite !zlen_app, zlen_shortstr. lia.
        - reflexivity. }
    rewrite encode_ok by (cbn [wbytes]; lia).
    unfold shortstr. rewrite <- !app_assoc. cbn [wnat wbytes].
    assert (B1 : zlen (be 1 (u8 (zlen k))) = 1) by (rewrite zlen_be; reflexivity).
    assert (EQ : be 1 (zlen k) = be 1 (u8 (zlen k))).
    { unfold u8. symmetry. apply (be_mod 1). }
    rewrite EQ. clear EQ.
    replace (o + 1) with (o + zlen (be 1 (u8 (zlen k)))) by lia.
    apply enc_spec_seq; [lia|lia|].
    set (m1 := patch m o (be 1 (u8 (zlen k)))).
    set (o1 := o + zlen (be 1 (u8 (zlen k)))).
    assert (L1 : zlen m1 = zlen m) by (apply zlen_patch; lia).
    destruct (Z_le_gt_dec (o1 + zlen k) (zlen m1)) as [G2|G2].
    2:{ rewrite encode_bytes_fail by lia. apply enc_spec_fail; auto.
        - right. rewrite !zlen_app. lia.
        - reflexivity. }
    rewrite encode_bytes_ok by lia.
    apply enc_spec_seq; [lia|lia|].
    set (m2 := patch m1 o1 k). set (o2 := o1 + zlen k).
    assert (L2 : zlen m2 = zlen m1) by (apply zlen_patch; lia).
    destruct (Hv m2 o2) as (st & m' & o' & E & L & F & C); try lia.
    rewrite E. destruct C as [(G & B & -> & -> & ->)|[G S]].
    + rewrite G. cbn [Z.ltb Z.compare AMQP_STATUS_OK andb].
      apply enc_spec_seq; [lia|lia|]. apply IH; rewrite ?L; try lia.
    + destruct (Z.ltb_spec st 0); [|lia].
      exists st, m', o'. repeat split; auto. right. split; auto.
      rewrite zlen_app.
      destruct G as [-> | ?]; [left; reflexivity | right; lia].
Qed.

Lemma container_ok {A} (entries : enc_fun (list A)) (l : list A) good body m o :
  0 <= o <= zlen m -> zlen m < M32 ->
  (forall m o, 0 <= o <= zlen m + 4 -> zlen m < M32 ->
     (o <= zlen m \/ l <> [] -> enc_spec good body m o (entries l (mkE m o)))) ->
  (l = [] -> body = [] /\ good = true /\ forall s, entries l s = Some (AMQP_STATUS_OK, s)) ->
  enc_spec good (longstr body) m o (encode_container entries l (mkE m o)).
Proof.
  intros Ho Hm He Hnil. unfold encode_container. cbn [eoff emem].
  rewrite add_size_small by lia.
  unfold longstr. set (sz := be 4 (zlen body)).
  assert (Hsz : zlen sz = 4) by apply zlen_be.
  pose proof (zlen_nonneg body) as Hb0.
  destruct (Z_le_gt_dec (o + 4) (zlen m)) as [G|G].
  - destruct (He m (o + 4)) as (st & m' & o' & -> & L & F & C); try lia; auto.
    destruct C as [(Gd & B & -> & -> & ->)|[Gd S]].
    + cbn [Z.ltb Z.compare AMQP_STATUS_OK]. cbn [eoff emem]. unfold amqp_encode.
      rewrite (sub_size_small (o + 4 + zlen body) o) by lia.
      rewrite sub_size_small by lia.
      rewrite encode_ok by (rewrite ?L; cbn [wbytes]; lia).
      exists AMQP_STATUS_OK. do 2 eexists. split; [reflexivity|].
      cbn [emem]. replace (o + 4 + zlen body - o - 4) with (zlen body) by lia.
      unfold u32. cbn [wnat].
      replace (be 4 (zlen body mod M32)) with sz by (symmetry; apply (be_mod 4)).
      replace (o + 4) with (o + zlen sz) by lia.
      rewrite patch_patch_before by (rewrite ?Hsz; lia).
      rewrite zlen_patch by (rewrite ?zlen_app; lia).
      rewrite firstn_patch by (rewrite ?zlen_app; lia).
      repeat split; auto. left. rewrite zlen_app. repeat split; auto; lia.
    + destruct (Z.ltb_spec st 0); [|lia].
      exists st, m', o'. repeat split; auto.
      * apply (f_equal (firstn (Z.to_nat o))) in F.
        rewrite !firstn_firstn in F.
        replace (Nat.min (Z.to_nat o) (Z.to_nat (o + 4))) with (Z.to_nat o) in F by lia.
        exact F.
      * right. rewrite zlen_app. split; auto. destruct Gd; [left; auto | right; lia].
  - destruct l as [|x l'].
    + destruct (Hnil eq_refl) as (-> & -> & E). rewrite E.
      cbn [Z.ltb Z.compare AMQP_STATUS_OK]. cbn [eoff emem]. unfold amqp_encode.
      rewrite encode_fail by (cbn [wbytes]; lia).
      apply enc_spec_fail; [|reflexivity|reflexivity].
      right. rewrite zlen_app. lia.
    + destruct (He m (o + 4)) as (st & m' & o' & -> & L & F & C); try lia.
      { right; congruence. }
      destruct C as [(Gd & B & _)|[Gd S]]; [lia|].
      destruct (Z.ltb_spec st 0); [|lia].
      exists st, m', o'. repeat split; auto.
      * apply (f_equal (firstn (Z.to_nat o))) in F.
        rewrite !firstn_firstn in F.
        replace (Nat.min (Z.to_nat o) (Z.to_nat (o + 4))) with (Z.to_nat o) in F by lia.
        exact F.
      * right. rewrite zlen_app. split; auto. right; lia.
Qed.

Lemma kind_byte v : exists r, ser_value v = byte_of_Z (kind_of v) :: r.
Proof. destruct v; cbn [ser_value]; eexists; reflexivity. Qed.

Definition payload (v : fv) : bytes := tl (ser_value v).

Lemma ser_kind_payload v : ser_value v = be 1 (kind_of v) ++ payload v.
Proof.
  destruct (kind_byte v) as [r E]. unfold payload. rewrite E, be_1. reflexivity.
Qed.

Ltac leaf_field :=
  match goal with |- enc_spec _ _ _ _ (FIELD_ENCODER ?w ?x _) =>
    apply (enc_field w x); lia end.

Lemma encode_longstr s m o :
  0 <= o <= zlen m -> zlen m < M32 -> zlen s < M63 ->
  enc_spec true (longstr s) m o
      (match amqp_encode W32 (u32 (zlen s)) (mkE m o) with
      | None => None
      | Some (false, s2) => Some (AMQP_STATUS_TABLE_TOO_BIG, s2)
      | Some (true, s2) =>
        match amqp_encode_bytes s s2 with
        | None => None
        | Some (false, s3) => Some (AMQP_STATUS_TABLE_TOO_BIG, s3)
        | Some (true, s3) => Some (AMQP_STATUS_OK, s3)
        end
      end).
Proof.
  intros Ho Hm Hs. unfold amqp_encode, longstr.
  pose proof (zlen_nonneg s).
  assert (B1 : zlen (be 4 (zlen s)) = 4) by (rewrite zlen_be; reflexivity).
  destruct (Z_le_gt_dec (o + wbytes W32) (zlen m)) as [G1|G1]; cbn [wbytes] in G1.
  2:{ rewrite encode_fail by (cbn [wbytes]; lia).
      apply enc_spec_fail; [|reflexivity|reflexivity]. right. rewrite zlen_app. lia. }
  rewrite encode_ok by (cbn [wbytes]; lia). cbn [wnat wbytes].
  replace (be 4 (u32 (zlen s))) with (be 4 (zlen s)) by (symmetry; apply (be_mod 4)).
  replace (o + 4) with (o + zlen (be 4 (zlen s))) by lia.
  apply enc_spec_seq; [lia|lia|].
  set (m1 := patch m o _). set (o1 := o + _).
  assert (L1 : zlen m1 = zlen m) by (apply zlen_patch; lia).
  destruct (Z_le_gt_dec (o1 + zlen s) (zlen m1)) as [G2|G2].
  - rewrite encode_bytes_ok by lia.
    rewrite <- (app_nil_r s) at 1. apply enc_spec_seq; [lia|lia|].
    apply enc_spec_ok_nil. rewrite zlen_patch by lia. lia.
  - rewrite encode_bytes_fail by lia. apply enc_spec_fail; [|reflexivity|reflexivity].
    right; lia.
Qed.

Lemma encode_field_value_ok v : c_value v -> ef_ok amqp_encode_field_value v.
Proof.
  induction v as [l IH|t IH|v Ha Ht] using fv_ind'; intros Hc m o Ho Hm.
  - (* array *)
    rewrite ser_kind_payload. cbn [amqp_encode_field_value]. unfold amqp_encode at 1.
    assert (B1 : zlen (be 1 (kind_of (FArray l))) = 1) by (rewrite zlen_be; reflexivity).
    destruct (Z_le_gt_dec (o + wbytes W8) (zlen m)) as [G1|G1]; cbn [wbytes] in G1.
    2:{ rewrite encode_fail by (cbn [wbytes]; lia).
        apply enc_spec_fail; [|reflexivity|reflexivity]. right. rewrite zlen_app.
        pose proof (zlen_nonneg (payload (FArray l))). lia. }
    rewrite encode_ok by (cbn [wbytes]; lia). cbn [wnat wbytes].
    replace (o + 1) with (o + zlen (be 1 (kind_of (FArray l)))) by lia.
    apply enc_spec_seq; [lia|lia|].
    set (m1 := patch m o _). set (o1 := o + _).
    assert (L1 : zlen m1 = zlen m) by (apply zlen_patch; lia).
    change (payload (FArray l)) with (longstr (concat (map ser_value l))).
    apply container_ok; try lia.
    + intros m2 o2 H1 H2 H3. apply array_entries_ok; auto.
      cbn in Hc. apply all_Forall in Hc. rewrite Forall_forall in *. intros x Hx.
      apply IH; auto.
    + intros ->. repeat split; auto.
  - (* table *)
    rewrite ser_kind_payload. cbn [amqp_encode_field_value]. unfold amqp_encode at 1.
    assert (B1 : zlen (be 1 (kind_of (FTable t))) = 1) by (rewrite zlen_be; reflexivity).
    destruct (Z_le_gt_dec (o + wbytes W8) (zlen m)) as [G1|G1]; cbn [wbytes] in G1.
    2:{ rewrite encode_fail by (cbn [wbytes]; lia).
        apply enc_spec_fail; [|reflexivity|reflexivity]. right. rewrite zlen_app.
        pose proof (zlen_nonneg (payload (FTable t))). lia. }
    rewrite encode_ok by (cbn [wbytes]; lia). cbn [wnat wbytes].
    replace (o + 1) with (o + zlen (be 1 (kind_of (FTable t)))) by lia.
    apply enc_spec_seq; [lia|lia|].
    set (m1 := patch m o _). set (o1 := o + _).
    assert (L1 : zlen m1 = zlen m) by (apply zlen_patch; lia).
    change (payload (FTable t)) with (longstr (concat (map entry_bytes t))).
    apply container_ok; try lia.
    + intros m2 o2 H1 H2 H3. apply table_entries_ok; auto.
      cbn in Hc. apply all_Forall in Hc. rewrite Forall_forall in *. intros x Hx.
      destruct (Hc x Hx). split; [assumption|apply IH; auto].
    + intros ->. repeat split; auto.
  - (* leaves *)
    rewrite ser_kind_payload.
    assert (B1 : zlen (be 1 (kind_of v)) = 1) by (rewrite zlen_be; reflexivity).
    assert (E0 : forall s, amqp_encode_field_value v s =
       match amqp_encode W8 (kind_of v) s with
       | None => None
       | Some (false, s1) => Some (AMQP_STATUS_BAD_AMQP_DATA, s1)
       | Some (true, s1) =>
         match amqp_encode_field_value v s with
         | r => r
         end
       end).
    { intros s. destruct v; cbn [amqp_encode_field_value];
      destruct (amqp_encode W8 _ s) as [[[] ?]|]; reflexivity. }
    destruct (Z_le_gt_dec (o + wbytes W8) (zlen m)) as [G1|G1]; cbn [wbytes] in G1.
    2:{ rewrite E0. unfold amqp_encode. rewrite encode_fail by (cbn [wbytes]; lia).
        apply enc_spec_fail; [|reflexivity|reflexivity]. right. rewrite zlen_app.
        pose proof (zlen_nonneg (payload v)). lia. }
    clear E0.
    assert (E1 : amqp_encode W8 (kind_of v) (mkE m o) =
        Some (true, mkE (patch m o (be 1 (kind_of v))) (o + zlen (be 1 (kind_of v))))).
    { unfold amqp_encode. rewrite encode_ok by (cbn [wbytes]; lia). rewrite B1. reflexivity. }
    assert (L1 : zlen (patch m o (be 1 (kind_of v))) = zlen m) by (apply zlen_patch; lia).
    assert (O1 : 0 <= o + zlen (be 1 (kind_of v)) <= zlen m) by lia.
    assert (Hg : known_kinds v = match v with FOther _ => false | _ => true end).
    { destruct v; try reflexivity. destruct (Ha entries); auto. destruct (Ht entries); auto. }
    rewrite Hg.
    destruct v; try (destruct (Ha entries); reflexivity); try (destruct (Ht entries); reflexivity);
      cbn [amqp_encode_field_value]; rewrite E1; unfold payload; cbn [ser_value tl];
      (apply enc_spec_seq; [lia|lia|]);
      try leaf_field.
    + (* bool *) 
      replace (if b =? 0 then [x00] else [x01]) with (be 1 (if b =? 0 then 0 else 1))
        by (destruct (b =? 0); reflexivity).
      leaf_field.
    + (* decimal *)
      unfold amqp_encode.
      assert (B2 : zlen (be 1 decimals) = 1) by (rewrite zlen_be; reflexivity).
      set (m1 := patch m o _) in *. set (o1 := o + _) in *.
      destruct (Z_le_gt_dec (o1 + wbytes W8) (zlen m1)) as [G2|G2]; cbn [wbytes] in G2.
      * rewrite encode_ok by (cbn [wbytes]; lia). cbn [wbytes wnat].
        replace (o1 + 1) with (o1 + zlen (be 1 decimals)) by lia.
        apply enc_spec_seq; [lia|lia|].
        apply (enc_field W32); rewrite zlen_patch by lia; lia.
      * rewrite encode_fail by (cbn [wbytes]; lia).
        apply enc_spec_fail; [|reflexivity|reflexivity]. right. rewrite zlen_app.
        pose proof (zlen_nonneg (be 4 value)). lia.
    + cbn in Hc. apply encode_longstr; lia.
    + cbn in Hc. apply encode_longstr; lia.
    + apply enc_spec_ok_nil. lia.
    + (* other *) apply enc_spec_fail; [left; reflexivity|reflexivity|reflexivity].
Qed.

Lemma encode_table_ok t m o :
  c_table t -> 0 <= o <= zlen m -> zlen m < M32 ->
  enc_spec (known_table t) (ser_table t) m o (amqp_encode_table t (mkE m o)).
Proof.
  intros Hc Ho Hm. unfold amqp_encode_table, ser_table.
  change (map (fun e => shortstr (fst e) ++ ser_value (snd e)) t) with (map entry_bytes t).
  apply container_ok; try lia.
  - intros m2 o2 H1 H2 H3. apply table_entries_ok; auto.
    apply all_Forall in Hc. rewrite Forall_forall in *. intros x Hx.
    destruct (Hc x Hx). split; [assumption|apply encode_field_value_ok; auto].
  - intros ->. repeat split; auto.
Qed.
