(** Round trip of field tables and rejection of deep nesting. *)
From Coq Require Import ZArith List Bool Lia.
From Verif Require Import Base BaseFacts Codec CodecProofs TableModel TableSpec TableEnc TableDec.
Import ListNotations.
Local Open Scope Z_scope.

(** outcome of decoding something at [depth] that needs [lv] further levels *)
Definition rt_spec {A} (ok : bool) (a : A) (off' : Z) (r : dres A) : Prop :=
  if ok then r = DOk a off' else exists o, r = DErr AMQP_STATUS_BAD_AMQP_DATA o.

Definition rt_value (v : fv) : Prop :=
  forall fuel depth enc pre post,
    enc = pre ++ ser_value v ++ post -> zlen enc < M30 ->
    0 <= depth <= 101 -> Z.of_nat fuel + depth >= 102 ->
    rt_spec (depth + levels v <=? TABLE_DEPTH_LIMIT) (norm v) (zlen pre + zlen (ser_value v))
      (amqp_decode_field_value enc no_oom fuel depth (zlen pre)).

Lemma grow_ok num alloc off : 0 <= num < M30 -> 1 <= alloc -> num <= alloc ->
  exists a, grow no_oom 1 num alloc off = DOk a off /\ num < a.
Proof.
  intros. unfold grow, no_oom. destruct (Z.leb_spec alloc num).
  - destruct (Z.ltb_spec INT_MAX (alloc * 2)); [lia|]. eexists; split; [reflexivity|lia].
  - eexists; split; [reflexivity|lia].
Qed.

Lemma zlen_concat_ge {A} (f : A -> bytes) l : (forall x, 1 <= zlen (f x)) -> zlen l <= zlen (concat (map f l)).
Proof.
  intros H. induction l as [|x l IH]; [unfold zlen; cbn; lia|].
  cbn [map concat]. rewrite zlen_app, zlen_cons. specialize (H x). lia.
Qed.

Lemma array_loop_rt depth fuel0 l : Forall rt_value l ->
  0 <= depth <= 101 -> Z.of_nat fuel0 + depth >= 102 ->
  forall enc pre post fuel num alloc acc,
    enc = pre ++ concat (map ser_value l) ++ post -> zlen enc < M30 ->
    Z.of_nat fuel > zlen l -> 0 <= num <= zlen pre -> 1 <= alloc -> num <= alloc ->
    rt_spec (forallb (fun v => depth + levels v <=? TABLE_DEPTH_LIMIT) l)
      (acc ++ map norm l) (zlen pre + zlen (concat (map ser_value l)))
      (decode_array_loop no_oom (amqp_decode_field_value enc no_oom fuel0 depth) fuel
         (zlen pre + zlen (concat (map ser_value l))) num alloc (zlen pre) acc).
Proof.
  intros Hall Hd Hf0. induction Hall as [|v l Hv Hl IH];
    intros enc pre post fuel num alloc acc Ee He Hf Hn Ha Hna.
  - destruct fuel as [|f]; [unfold zlen in Hf; cbn in Hf; lia|].
    cbn [map concat decode_array_loop forallb rt_spec].
    rewrite zlen_nil, app_nil_r. destruct (Z.ltb_spec (zlen pre) (zlen pre + 0)); [lia|].
    f_equal; lia.
  - destruct fuel as [|f]; [pose proof (zlen_nonneg (v::l)); lia|].
    cbn [map concat forallb].
    cbn [decode_array_loop].
    pose proof (one_le_ser v) as H1.
    pose proof (zlen_nonneg (concat (map ser_value l))) as H2.
    cbn [map concat] in Ee.
    assert (Hlen : zlen pre + zlen (ser_value v) + zlen (concat (map ser_value l)) <= zlen enc).
    { rewrite Ee, !zlen_app. pose proof (zlen_nonneg post). lia. }
    rewrite zlen_app.
    destruct (Z.ltb_spec (zlen pre) (zlen pre + (zlen (ser_value v) + zlen (concat (map ser_value l))))); [|lia].
    destruct (grow_ok num alloc (zlen pre)) as (a & -> & Ha'); [lia|lia|lia|]. cbn [dbind]. destruct (Z.leb_spec a num); [lia|].
    specialize (Hv fuel0 depth enc pre (concat (map ser_value l) ++ post)).
    rewrite <- app_assoc in Ee. specialize (Hv Ee He Hd Hf0).
    destruct (depth + levels v <=? TABLE_DEPTH_LIMIT); cbn [rt_spec andb] in *.
    + rewrite Hv. cbn [dbind].
      specialize (IH enc (pre ++ ser_value v) post f (num + 1) a (acc ++ [norm v])).
      rewrite zlen_app in IH. rewrite <- !app_assoc in IH. cbn [app] in IH.
      replace (zlen pre + (zlen (ser_value v) + zlen (concat (map ser_value l))))
        with (zlen pre + zlen (ser_value v) + zlen (concat (map ser_value l))) by lia.
      rewrite zlen_cons in Hf.
      apply IH; auto; try lia.
    + destruct Hv as [o ->]. cbn. eauto.
Qed.

Lemma table_loop_rt depth fuel0 t :
  Forall (fun e => zlen (fst e) <= 255 /\ rt_value (snd e)) t ->
  0 <= depth <= 101 -> Z.of_nat fuel0 + depth >= 102 ->
  forall enc pre post fuel num alloc acc,
    enc = pre ++ concat (map entry_bytes t) ++ post -> zlen enc < M30 ->
    Z.of_nat fuel > zlen t -> 0 <= num <= zlen pre -> 1 <= alloc -> num <= alloc ->
    rt_spec (forallb (fun e => depth + levels (snd e) <=? TABLE_DEPTH_LIMIT) t)
      (acc ++ norm_table t) (zlen pre + zlen (concat (map entry_bytes t)))
      (decode_table_loop enc no_oom (amqp_decode_field_value enc no_oom fuel0 depth) fuel
         (zlen pre + zlen (concat (map entry_bytes t))) num alloc (zlen pre) acc).
Proof.
  intros Hall Hd Hf0. induction Hall as [|[k v] l [Hk Hv] Hl IH];
    intros enc pre post fuel num alloc acc Ee He Hf Hn Ha Hna.
  - destruct fuel as [|f]; [unfold zlen in Hf; cbn in Hf; lia|].
    cbn [map concat decode_table_loop forallb rt_spec norm_table].
    rewrite zlen_nil, app_nil_r. destruct (Z.ltb_spec (zlen pre) (zlen pre + 0)); [lia|].
    f_equal; lia.
  - destruct fuel as [|f]; [pose proof (zlen_nonneg ((k,v)::l)); lia|].
    cbn [fst snd] in *. cbn [map concat forallb norm_table fst snd].
    cbn [decode_table_loop].
    pose proof (one_le_ser v) as H1. pose proof (zlen_nonneg k) as H0.
    pose proof (zlen_nonneg (concat (map entry_bytes l))) as H2.
    cbn [map concat] in Ee.
    assert (Heb : entry_bytes (k, v) = be 1 (zlen k) ++ k ++ ser_value v).
    { unfold entry_bytes, shortstr. cbn [fst snd]. rewrite app_assoc. reflexivity. }
    assert (Hebl : zlen (entry_bytes (k, v)) = 1 + zlen k + zlen (ser_value v)).
    { rewrite Heb, !zlen_app, zlen_be. lia. }
    assert (Hlen : zlen pre + zlen (entry_bytes (k,v)) + zlen (concat (map entry_bytes l)) <= zlen enc).
    { rewrite Ee, !zlen_app. pose proof (zlen_nonneg post). lia. }
    rewrite zlen_app.
    destruct (Z.ltb_spec (zlen pre) (zlen pre + (zlen (entry_bytes (k,v)) + zlen (concat (map entry_bytes l))))); [|lia].
    rewrite Heb in Ee. rewrite <- !app_assoc in Ee.
    set (rest := concat (map entry_bytes l) ++ post) in *.
    assert (E8 : amqp_decode W8 enc (zlen pre) = DOk (zlen k) (zlen pre + 1)).
    { unfold amqp_decode. rewrite Ee.
      etransitivity; [apply (decode_at LittleEndian W8 pre (zlen k) (k ++ ser_value v ++ rest)); cbn [wnat]; rewrite <- Ee; lia|].
      cbn [wmod]. rewrite Z.mod_small by lia. reflexivity. }
    rewrite E8. cbn [dbind].
    destruct (grow_ok num alloc (zlen pre + 1)) as (a & -> & Ha'); [lia|lia|lia|]. cbn [dbind]. destruct (Z.leb_spec a num); [lia|].
    assert (EB : amqp_decode_bytes enc (zlen pre + 1) (zlen k) = DOk k (zlen pre + 1 + zlen k)).
    { replace (zlen pre + 1) with (zlen (pre ++ be 1 (zlen k))) by (rewrite zlen_app, zlen_be; lia).
      replace enc with ((pre ++ be 1 (zlen k)) ++ k ++ (ser_value v ++ rest))
        by (rewrite Ee, <- !app_assoc; reflexivity).
      apply decode_bytes_at; auto. rewrite <- !app_assoc, <- Ee. lia. }
    rewrite EB. cbn [dbind].
    specialize (Hv fuel0 depth enc (pre ++ be 1 (zlen k) ++ k) rest).
    assert (Ee' : enc = (pre ++ be 1 (zlen k) ++ k) ++ ser_value v ++ rest)
      by (rewrite Ee, <- !app_assoc; reflexivity).
    specialize (Hv Ee' He Hd Hf0).
    rewrite !zlen_app, zlen_be in Hv.
    replace (zlen pre + (Z.of_nat 1 + zlen k)) with (zlen pre + 1 + zlen k) in Hv by lia.
    destruct (depth + levels v <=? TABLE_DEPTH_LIMIT); cbn [rt_spec andb] in *.
    + rewrite Hv. cbn [dbind].
      specialize (IH enc (pre ++ be 1 (zlen k) ++ k ++ ser_value v) post f (num + 1) a (acc ++ [(k, norm v)])).
      rewrite !zlen_app, zlen_be in IH. rewrite <- !app_assoc in IH. cbn [app] in IH.
      replace (zlen pre + (Z.of_nat 1 + (zlen k + zlen (ser_value v)))) with
              (zlen pre + 1 + zlen k + zlen (ser_value v)) in IH by lia.
      replace (zlen pre + (zlen (entry_bytes (k, v)) + zlen (concat (map entry_bytes l))))
        with (zlen pre + 1 + zlen k + zlen (ser_value v) + zlen (concat (map entry_bytes l))) by lia.
      rewrite zlen_cons in Hf.
      apply IH; auto; try lia.
    + destruct Hv as [o ->]. cbn. eauto.
Qed.

Lemma container_rt {A} init (loop : nat -> Z -> Z -> Z -> Z -> list A -> dres (list A))
   ok l body enc pre post :
  enc = pre ++ longstr body ++ post -> zlen enc < M30 ->
  (forall pre', pre' = pre ++ be 4 (zlen body) ->
     rt_spec ok l (zlen pre' + zlen body)
      (loop (S (length enc)) (zlen pre' + zlen body) 0 init (zlen pre') [])) ->
  rt_spec ok l (zlen pre + zlen (longstr body)) (decode_container enc no_oom init loop (zlen pre)).
Proof.
  intros Ee He Hl. unfold decode_container.
  unfold longstr in Ee. rewrite <- app_assoc in Ee.
  pose proof (zlen_nonneg body). pose proof (zlen_nonneg pre). pose proof (zlen_nonneg post).
  assert (Hlen : zlen pre + 4 + zlen body + zlen post = zlen enc).
  { rewrite Ee, !zlen_app, zlen_be. lia. }
  assert (E8 : amqp_decode W32 enc (zlen pre) = DOk (zlen body) (zlen pre + 4)).
  { unfold amqp_decode. rewrite Ee.
    etransitivity; [apply (decode_at LittleEndian W32 pre (zlen body) (body ++ post)); cbn [wnat]; rewrite <- Ee; lia|].
    cbn [wmod]. rewrite Z.mod_small by lia. reflexivity. }
  rewrite E8. cbn [dbind]. rewrite !add_size_small by lia.
  destruct (Z.ltb_spec (zlen enc) (zlen body + (zlen pre + 4))); [lia|].
  unfold no_oom at 1.
  specialize (Hl _ eq_refl). rewrite zlen_app, zlen_be in Hl.
  replace (zlen pre + Z.of_nat 4) with (zlen pre + 4) in Hl by lia.
  rewrite zlen_longstr. replace (zlen pre + (4 + zlen body)) with (zlen pre + 4 + zlen body) by lia.
  destruct ok; cbn [rt_spec] in *.
  - rewrite Hl. cbn [dbind]. unfold no_oom. rewrite andb_false_r. reflexivity.
  - destruct Hl as [o ->]. cbn. eauto.
Qed.

Lemma forallb_deepest {A} (f : A -> Z) (l : list A) depth :
  (forall x, 0 <= f x) -> depth <= TABLE_DEPTH_LIMIT ->
  forallb (fun x => depth + 1 + f x <=? TABLE_DEPTH_LIMIT) l =
  (depth + deepest (map f l) <=? TABLE_DEPTH_LIMIT).
Proof.
  intros Hf Hd. unfold deepest. destruct l as [|x r].
  - cbn [forallb map]. symmetry. apply Z.leb_le. lia.
  - remember (x :: r) as l. replace (match map f l with [] => 0 | _ :: _ => 1 + fold_right Z.max 0 (map f l) end)
      with (1 + fold_right Z.max 0 (map f l)) by (subst l; reflexivity).
    assert (G : forall l, l <> [] -> forallb (fun x => depth + 1 + f x <=? TABLE_DEPTH_LIMIT) l =
       (depth + (1 + fold_right Z.max 0 (map f l)) <=? TABLE_DEPTH_LIMIT)).
    { clear - Hf. induction l as [|x [|y l] IH]; intros Hne; [congruence| |].
      - cbn [forallb map fold_right]. specialize (Hf x). rewrite andb_true_r. destruct (Z.leb_spec (depth + 1 + f x) TABLE_DEPTH_LIMIT);
        symmetry; [apply Z.leb_le|apply Z.leb_gt]; lia.
      - change (forallb (fun x => depth + 1 + f x <=? TABLE_DEPTH_LIMIT) (x :: y :: l)) with
          ((depth + 1 + f x <=? TABLE_DEPTH_LIMIT) && forallb (fun x => depth + 1 + f x <=? TABLE_DEPTH_LIMIT) (y :: l)).
        rewrite IH by congruence.
        change (fold_right Z.max 0 (map f (x :: y :: l))) with (Z.max (f x) (fold_right Z.max 0 (map f (y :: l)))).
        set (M := fold_right Z.max 0 (map f (y :: l))).
        destruct (Z.leb_spec (depth + 1 + f x) TABLE_DEPTH_LIMIT); cbn [andb];
        destruct (Z.leb_spec (depth + (1 + M)) TABLE_DEPTH_LIMIT) as [G|G];
        symmetry; try (apply Z.leb_le; lia); try (apply Z.leb_gt; lia).
      }
    apply G. subst l; congruence.
Qed.

Lemma depth_over depth v : depth > TABLE_DEPTH_LIMIT -> (depth + levels v <=? TABLE_DEPTH_LIMIT) = false.
Proof. intros. pose proof (levels_nonneg v). apply Z.leb_gt. lia. Qed.

Ltac Zeqb_all :=
  repeat match goal with
  | |- context [Z.eqb ?a ?b] => let c := eval vm_compute in (Z.eqb a b) in
     match c with true => idtac | false => idtac end; change (Z.eqb a b) with c
  end; cbv iota.

(** decoding of the fixed size part of a leaf *)
Lemma field_at enc w how pre v post :
  enc = pre ++ be (wnat w) v ++ post -> zlen enc < M30 ->
  FIELD_DECODER enc w how (zlen pre) = DOk (how (v mod wmod w)) (zlen pre + wbytes w).
Proof.
  intros Ee He. unfold FIELD_DECODER, amqp_decode. rewrite Ee at 1.
  rewrite decode_at by (rewrite <- Ee; lia). reflexivity.
Qed.

Lemma signed_id8 z : -0x80 <= z < 0x80 -> signed M8 (z mod M8) = z.
Proof. intros. apply signed_id; [lia|reflexivity|]. match goal with |- context [?m / 2] => let h := eval vm_compute in (m / 2) in change (m / 2) with h end. lia. Qed.
Lemma signed_id16 z : -0x8000 <= z < 0x8000 -> signed M16 (z mod M16) = z.
Proof. intros. apply signed_id; [lia|reflexivity|]. match goal with |- context [?m / 2] => let h := eval vm_compute in (m / 2) in change (m / 2) with h end. lia. Qed.
Lemma signed_id32 z : -M31 <= z < M31 -> signed M32 (z mod M32) = z.
Proof. intros. apply signed_id; [lia|reflexivity|]. match goal with |- context [?m / 2] => let h := eval vm_compute in (m / 2) in change (m / 2) with h end. lia. Qed.
Lemma signed_id64 z : -M63 <= z < M63 -> signed M64 (z mod M64) = z.
Proof. intros. apply signed_id; [lia|reflexivity|]. match goal with |- context [?m / 2] => let h := eval vm_compute in (m / 2) in change (m / 2) with h end. lia. Qed.

Lemma rt_value_all v : c_value v -> known_kinds v = true -> short_keys v -> rt_value v.
Proof.
  induction v as [l IH|t IH|v Hna Hnt] using fv_ind'; intros Hc Hk Hs fuel depth enc pre post Ee He Hd Hf.
  - destruct fuel as [|f]; [lia|]. cbn [amqp_decode_field_value].
    destruct (Z.ltb_spec TABLE_DEPTH_LIMIT depth) as [G|G].
    { rewrite depth_over by lia. cbn. eauto. }
    assert (G100 : depth <= 100) by exact G.
    change (ser_value (FArray l)) with (be 1 AMQP_FIELD_KIND_ARRAY ++ longstr (concat (map ser_value l))) in *.
    rewrite <- app_assoc in Ee.
    assert (E8 : amqp_decode W8 enc (zlen pre) = DOk AMQP_FIELD_KIND_ARRAY (zlen pre + 1)).
    { unfold amqp_decode. rewrite Ee. apply (decode_at LittleEndian W8 pre AMQP_FIELD_KIND_ARRAY). cbn [wnat]. rewrite <- Ee. lia. }
    rewrite E8. cbn [dbind]. Zeqb_all.
    cbn [orb]. Zeqb_all. cbn [orb].
    cbn in Hc, Hk, Hs. apply all_Forall in Hc. apply all_Forall in Hs.
    rewrite forallb_forall in Hk.
    assert (HR : Forall rt_value l).
    { rewrite Forall_forall in *. intros x Hx. apply IH; auto. }
    rewrite zlen_app.
    assert (Epre : zlen (be 1 AMQP_FIELD_KIND_ARRAY) = 1) by (rewrite zlen_be; reflexivity).
    pose proof (container_rt INITIAL_ARRAY_SIZE
       (decode_array_loop no_oom (amqp_decode_field_value enc no_oom f (depth + 1)))
       (depth + levels (FArray l) <=? TABLE_DEPTH_LIMIT) (map norm l) (concat (map ser_value l)) enc
       (pre ++ be 1 AMQP_FIELD_KIND_ARRAY) post) as C.
    rewrite zlen_app, Epre in C.
    assert (C' : rt_spec (depth + levels (FArray l) <=? TABLE_DEPTH_LIMIT) (map norm l)
      (zlen pre + 1 + zlen (longstr (concat (map ser_value l))))
      (decode_container enc no_oom INITIAL_ARRAY_SIZE
         (decode_array_loop no_oom (amqp_decode_field_value enc no_oom f (depth + 1))) (zlen pre + 1))).
    { apply C; auto.
      - rewrite Ee, <- !app_assoc. reflexivity.
      - intros pre' Ep. cbn [levels]. rewrite <- forallb_deepest by (auto using levels_nonneg).
        assert (Ee' : enc = pre' ++ concat (map ser_value l) ++ post).
        { subst pre'. rewrite Ee. unfold longstr. rewrite <- !app_assoc. reflexivity. }
        apply (array_loop_rt (depth + 1) f l HR ltac:(lia) ltac:(lia) enc pre' post
               (S (length enc)) 0 INITIAL_ARRAY_SIZE []); auto; try lia.
        + pose proof (zlen_concat_ge ser_value l one_le_ser).
          assert (zlen (concat (map ser_value l)) <= zlen enc).
          { rewrite Ee', !zlen_app. pose proof (zlen_nonneg pre'). pose proof (zlen_nonneg post). lia. }
          unfold zlen in *. lia.
        + pose proof (zlen_nonneg pre'); lia.
        + unfold INITIAL_ARRAY_SIZE; lia.
        + unfold INITIAL_ARRAY_SIZE; lia. }
    destruct (depth + levels (FArray l) <=? TABLE_DEPTH_LIMIT); cbn [rt_spec] in *.
    + rewrite C'. cbn [dbind norm]. f_equal. lia.
    + destruct C' as [o ->]. cbn. eauto.
  - destruct fuel as [|f]; [lia|]. cbn [amqp_decode_field_value].
    destruct (Z.ltb_spec TABLE_DEPTH_LIMIT depth) as [G|G].
    { rewrite depth_over by lia. cbn. eauto. }
    assert (G100 : depth <= 100) by exact G.
    change (ser_value (FTable t)) with (be 1 AMQP_FIELD_KIND_TABLE ++ longstr (concat (map entry_bytes t))) in *.
    rewrite <- app_assoc in Ee.
    assert (E8 : amqp_decode W8 enc (zlen pre) = DOk AMQP_FIELD_KIND_TABLE (zlen pre + 1)).
    { unfold amqp_decode. rewrite Ee. apply (decode_at LittleEndian W8 pre AMQP_FIELD_KIND_TABLE). cbn [wnat]. rewrite <- Ee. lia. }
    rewrite E8. cbn [dbind]. Zeqb_all.
    cbn [orb]. Zeqb_all. cbn [orb].
    cbn in Hc, Hk, Hs. apply all_Forall in Hc. apply all_Forall in Hs.
    rewrite forallb_forall in Hk.
    assert (HR : Forall (fun e => zlen (fst e) <= 255 /\ rt_value (snd e)) t).
    { rewrite Forall_forall in *. intros x Hx. destruct (Hs x Hx), (Hc x Hx). split; [assumption|]. apply IH; auto. }
    rewrite zlen_app.
    assert (Epre : zlen (be 1 AMQP_FIELD_KIND_TABLE) = 1) by (rewrite zlen_be; reflexivity).
    pose proof (container_rt INITIAL_TABLE_SIZE
       (decode_table_loop enc no_oom (amqp_decode_field_value enc no_oom f (depth + 1)))
       (depth + levels (FTable t) <=? TABLE_DEPTH_LIMIT) (norm_table t) (concat (map entry_bytes t)) enc
       (pre ++ be 1 AMQP_FIELD_KIND_TABLE) post) as C.
    rewrite zlen_app, Epre in C.
    assert (C' : rt_spec (depth + levels (FTable t) <=? TABLE_DEPTH_LIMIT) (norm_table t)
      (zlen pre + 1 + zlen (longstr (concat (map entry_bytes t))))
      (decode_container enc no_oom INITIAL_TABLE_SIZE
         (decode_table_loop enc no_oom (amqp_decode_field_value enc no_oom f (depth + 1))) (zlen pre + 1))).
    { apply C; auto.
      - rewrite Ee, <- !app_assoc. reflexivity.
      - intros pre' Ep. cbn [levels].
        rewrite <- (forallb_deepest (fun e => levels (snd e)) t depth) by (intros; auto using levels_nonneg).
        assert (Ee' : enc = pre' ++ concat (map entry_bytes t) ++ post).
        { subst pre'. rewrite Ee. unfold longstr. rewrite <- !app_assoc. reflexivity. }
        apply (table_loop_rt (depth + 1) f t HR ltac:(lia) ltac:(lia) enc pre' post
               (S (length enc)) 0 INITIAL_TABLE_SIZE []); auto; try lia.
        + assert (H1 : forall x, 1 <= zlen (entry_bytes x)).
          { intros x. unfold entry_bytes. rewrite zlen_app. pose proof (one_le_ser (snd x)).
            pose proof (zlen_nonneg (shortstr (fst x))). lia. }
          pose proof (zlen_concat_ge entry_bytes t H1).
          assert (zlen (concat (map entry_bytes t)) <= zlen enc).
          { rewrite Ee', !zlen_app. pose proof (zlen_nonneg pre'). pose proof (zlen_nonneg post). lia. }
          unfold zlen in *. lia.
        + pose proof (zlen_nonneg pre'); lia.
        + unfold INITIAL_TABLE_SIZE; lia.
        + unfold INITIAL_TABLE_SIZE; lia. }
    destruct (depth + levels (FTable t) <=? TABLE_DEPTH_LIMIT); cbn [rt_spec] in *.
    + rewrite C'. cbn [dbind norm]. fold (norm_table t). f_equal. lia.
    + destruct C' as [o ->]. cbn. eauto.
  - destruct fuel as [|f]; [lia|]. 
    assert (Hl : levels v = 0).
    { destruct v; try reflexivity; [destruct (Hna entries)|destruct (Hnt entries)]; reflexivity. }
    rewrite Hl, Z.add_0_r.
    assert (E8 : amqp_decode W8 enc (zlen pre) = DOk (kind_of v mod M8) (zlen pre + 1)).
    { unfold amqp_decode. rewrite ser_kind_payload in Ee. rewrite <- app_assoc in Ee. rewrite Ee.
      apply (decode_at LittleEndian W8 pre (kind_of v)). cbn [wnat]. rewrite <- Ee. lia. }
    cbn [amqp_decode_field_value].
    destruct (Z.ltb_spec TABLE_DEPTH_LIMIT depth) as [G|G].
    { replace (depth <=? TABLE_DEPTH_LIMIT) with false by (symmetry; apply Z.leb_gt; lia). cbn. eauto. }
    replace (depth <=? TABLE_DEPTH_LIMIT) with true by (symmetry; apply Z.leb_le; lia). cbn [rt_spec].
    rewrite E8. cbn [dbind]. clear E8.
    assert (Ep : zlen pre + 1 = zlen (pre ++ be 1 (kind_of v))) by (rewrite zlen_app, zlen_be; lia).
    rewrite Ep.
    assert (Ee' : enc = (pre ++ be 1 (kind_of v)) ++ payload v ++ post).
    { rewrite Ee, ser_kind_payload, <- !app_assoc. reflexivity. }
    replace (zlen pre + zlen (ser_value v)) with (zlen (pre ++ be 1 (kind_of v)) + zlen (payload v))
      by (rewrite ser_kind_payload, !zlen_app; lia).
    clear Ee Ep. set (pre1 := pre ++ be 1 (kind_of v)) in *. clearbody pre1.
    destruct v; try (destruct (Hna entries); reflexivity); try (destruct (Hnt entries); reflexivity);
      try discriminate; cbn [kind_of]; cbn in Hc;
      match goal with |- context [?k mod M8] => let c := eval vm_compute in (k mod M8) in change (k mod M8) with c end;
      Zeqb_all; cbn [orb]; unfold payload in *; cbn [ser_value tl norm] in *;
      try (match goal with
       | |- FIELD_DECODER _ ?w _ _ = DOk _ (_ + zlen (be _ ?z)) =>
         rewrite (field_at enc w _ pre1 z post Ee' He); cbn [wmod wbytes];
         rewrite zlen_be; f_equal; f_equal;
         first [ apply signed_id8; lia | apply signed_id16; lia | apply signed_id32; lia
               | apply signed_id64; lia | apply Z.mod_small; lia ]
       end).
    + (* bool *)
      replace (if b =? 0 then [x00] else [x01]) with (be 1 (if b =? 0 then 0 else 1)) in *
        by (destruct (b =? 0); reflexivity).
      rewrite (field_at enc W8 _ pre1 _ post Ee' He). rewrite zlen_be. destruct (b =? 0); reflexivity.
    + (* decimal *)
      rewrite <- app_assoc in Ee'. unfold amqp_decode.
      assert (D1 : amqp_decode_h LittleEndian W8 enc (zlen pre1) = DOk (decimals mod M8) (zlen pre1 + wbytes W8)).
      { rewrite Ee'. apply (decode_at LittleEndian W8 pre1 decimals (be 4 value ++ post)).
        cbn [wnat]; rewrite <- Ee'; lia. }
      rewrite D1.
      cbn [dbind]. 
      replace (zlen pre1 + wbytes W8) with (zlen (pre1 ++ be 1 decimals)) by (rewrite zlen_app, zlen_be; reflexivity).
      assert (D2 : amqp_decode_h LittleEndian W32 enc (zlen (pre1 ++ be 1 decimals)) =
                DOk (value mod M32) (zlen (pre1 ++ be 1 decimals) + wbytes W32)).
      { replace enc with ((pre1 ++ be 1 decimals) ++ be 4 value ++ post) by (rewrite Ee', <- !app_assoc; reflexivity).
        apply (decode_at LittleEndian W32). cbn [wnat]. rewrite <- !app_assoc, <- Ee'; lia. }
      rewrite D2. cbn [dbind wmod wbytes]. rewrite !zlen_app, !zlen_be. f_equal; [|lia].
      rewrite !Z.mod_small by lia. reflexivity.
    + (* utf8 *)
      cbn [orb]. unfold longstr in *. rewrite <- app_assoc in Ee'. unfold amqp_decode.
      pose proof (zlen_nonneg s) as Hs0. pose proof (zlen_nonneg post) as Hp0. pose proof (zlen_nonneg pre1) as Hq0.
      assert (Hsl : zlen s < M30).
      { assert (HE := f_equal (@zlen byte) Ee'). rewrite !zlen_app, zlen_be in HE. lia. }
      assert (D1 : amqp_decode_h LittleEndian W32 enc (zlen pre1) = DOk (zlen s mod M32) (zlen pre1 + wbytes W32)).
      { rewrite Ee'. apply (decode_at LittleEndian W32 pre1 (zlen s) (s ++ post)).
        cbn [wnat]; rewrite <- Ee'; lia. }
      rewrite D1.
      cbn [dbind]. rewrite (Z.mod_small (zlen s)) by lia.
      replace (zlen pre1 + wbytes W32) with (zlen (pre1 ++ be 4 (zlen s))) by (rewrite zlen_app, zlen_be; reflexivity).
      replace enc with ((pre1 ++ be 4 (zlen s)) ++ s ++ post) by (rewrite Ee', <- !app_assoc; reflexivity).
      rewrite decode_bytes_at by (auto; rewrite <- !app_assoc, <- Ee'; lia).
      cbn [dbind]. rewrite !zlen_app. f_equal; lia.
    + (* bytes *)
      cbn [orb]. unfold longstr in *. rewrite <- app_assoc in Ee'. unfold amqp_decode.
      pose proof (zlen_nonneg s) as Hs0. pose proof (zlen_nonneg post) as Hp0. pose proof (zlen_nonneg pre1) as Hq0.
      assert (Hsl : zlen s < M30).
      { assert (HE := f_equal (@zlen byte) Ee'). rewrite !zlen_app, zlen_be in HE. lia. }
      assert (D1 : amqp_decode_h LittleEndian W32 enc (zlen pre1) = DOk (zlen s mod M32) (zlen pre1 + wbytes W32)).
      { rewrite Ee'. apply (decode_at LittleEndian W32 pre1 (zlen s) (s ++ post)).
        cbn [wnat]; rewrite <- Ee'; lia. }
      rewrite D1.
      cbn [dbind]. rewrite (Z.mod_small (zlen s)) by lia.
      replace (zlen pre1 + wbytes W32) with (zlen (pre1 ++ be 4 (zlen s))) by (rewrite zlen_app, zlen_be; reflexivity).
      replace enc with ((pre1 ++ be 4 (zlen s)) ++ s ++ post) by (rewrite Ee', <- !app_assoc; reflexivity).
      rewrite decode_bytes_at by (auto; rewrite <- !app_assoc, <- Ee'; lia).
      cbn [dbind]. rewrite !zlen_app. f_equal; lia.
    + (* void *) change (zlen (@nil byte)) with 0. f_equal; lia.
Qed.

Lemma forallb_levels (t : table) :
  forallb (fun e => 0 + levels (snd e) <=? TABLE_DEPTH_LIMIT) t = (table_levels t <=? TABLE_DEPTH_LIMIT).
Proof.
  unfold table_levels. induction t as [|[k v] t IH]; [reflexivity|].
  cbn [forallb map fold_right snd]. rewrite IH, Z.add_0_l.
  destruct (Z.leb_spec (levels v) TABLE_DEPTH_LIMIT); cbn [andb].
  - destruct (Z.leb_spec (fold_right Z.max 0 (map (fun e => levels (snd e)) t)) TABLE_DEPTH_LIMIT);
    symmetry; [apply Z.leb_le|apply Z.leb_gt]; lia.
  - symmetry; apply Z.leb_gt; lia.
Qed.

Lemma decode_table_rt t enc pre post :
  c_table t -> known_table t = true -> short_keys_table t ->
  enc = pre ++ ser_table t ++ post -> zlen enc < M30 ->
  rt_spec (table_levels t <=? TABLE_DEPTH_LIMIT) (norm_table t) (zlen pre + zlen (ser_table t))
    (amqp_decode_table enc no_oom (zlen pre)).
Proof.
  intros Hc Hk Hs Ee He. unfold amqp_decode_table, ser_table in *.
  change (map (fun e => shortstr (fst e) ++ ser_value (snd e)) t) with (map entry_bytes t) in *.
  apply all_Forall in Hc. apply all_Forall in Hs. unfold known_table in Hk. rewrite forallb_forall in Hk.
  apply container_rt with (post := post); auto.
  intros pre' Ep.
  assert (Ee' : enc = pre' ++ concat (map entry_bytes t) ++ post).
  { subst pre'. rewrite Ee. unfold longstr. rewrite <- !app_assoc. reflexivity. }
  rewrite <- forallb_levels.
  apply (table_loop_rt 0 table_fuel t) with (post := post) (acc := []); auto; try (unfold table_fuel; lia).
  - rewrite Forall_forall in *. intros x Hx. destruct (Hs x Hx), (Hc x Hx). split; [assumption|].
    apply rt_value_all; auto.
  - assert (H1 : forall x, 1 <= zlen (entry_bytes x)).
    { intros x. unfold entry_bytes. rewrite zlen_app. pose proof (one_le_ser (snd x)).
      pose proof (zlen_nonneg (shortstr (fst x))). lia. }
    pose proof (zlen_concat_ge entry_bytes t H1).
    assert (zlen (concat (map entry_bytes t)) <= zlen enc).
    { rewrite Ee', !zlen_app. pose proof (zlen_nonneg pre'). pose proof (zlen_nonneg post). lia. }
    unfold zlen in *. lia.
  - pose proof (zlen_nonneg pre'); lia.
  - unfold INITIAL_TABLE_SIZE; lia.
  - unfold INITIAL_TABLE_SIZE; lia.
Qed.
