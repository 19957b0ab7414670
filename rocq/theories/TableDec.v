(** Proofs about table decoding: safety, round trip, depth limit. *)
From Coq Require Import ZArith List Bool Lia.
From Verif Require Import Base BaseFacts Codec CodecProofs TableModel TableSpec TableEnc.
Import ListNotations.
Local Open Scope Z_scope.

Notation M30 := 0x40000000 (only parsing).

(** status codes that decoding may return *)
Definition dec_status (st : Z) : Prop :=
  st = AMQP_STATUS_BAD_AMQP_DATA \/ st = AMQP_STATUS_NO_MEMORY.

Definition dec_good {A} (enc : bytes) (off : Z) (P : A -> Z -> Prop) (r : dres A) : Prop :=
  match r with
  | DOk a off' => off <= off' <= zlen enc /\ P a (off' - off)
  | DErr st _ => dec_status st
  | DUB | DFuel => False
  end.

(** ** Facts about kinds *)
Lemma byte_kind_eq z k : 0 <= z < 256 -> z = k -> byte_of_Z z = byte_of_Z k.
Proof. congruence. Qed.

(** decoded values are in range *)
Definition fresh_value (depth : Z) (v : fv) (n : Z) : Prop :=
  c_value v /\ known_kinds v = true /\ short_keys v /\ norm v = v /\
  depth + levels v <= TABLE_DEPTH_LIMIT /\ n = zlen (ser_value v).

Lemma signed_range m z : 0 < m -> m mod 2 = 0 -> - (m / 2) <= signed m z < m / 2.
Proof.
  intros. unfold signed. pose proof (Z.mod_pos_bound z m H).
  pose proof (Z.div_mod m 2 ltac:(lia)).
  destruct (Z.ltb_spec (z mod m) (m / 2)); lia.
Qed.

Lemma signed_mod m z : 0 < m -> signed m z mod m = z mod m.
Proof.
  intros. unfold signed. destruct (z mod m <? m / 2).
  - apply Z.mod_mod; lia.
  - replace (z mod m - m) with (z mod m + (-1) * m) by lia.
    rewrite Z.mod_add by lia. apply Z.mod_mod; lia.
Qed.

Lemma signed_id m z : 0 < m -> m mod 2 = 0 -> - (m / 2) <= z < m / 2 -> signed m (z mod m) = z.
Proof.
  intros. unfold signed. rewrite Z.mod_mod by lia.
  pose proof (Z.div_mod m 2 ltac:(lia)).
  destruct (Z.neg_nonneg_cases z).
  - assert (z mod m = z + m).
    { symmetry. apply Z.mod_unique with (-1); lia. }
    destruct (Z.ltb_spec (z mod m) (m / 2)); lia.
  - rewrite Z.mod_small by lia. destruct (Z.ltb_spec z (m / 2)); lia.
Qed.

Section Safe.
Context (enc : bytes) (oom : Z -> Z -> bool).
Hypothesis Henc : zlen enc < M30.

Lemma decode_safe w off : 0 <= off <= zlen enc ->
  dec_good enc off (fun z n => n = wbytes w /\ 0 <= z < wmod w) (amqp_decode w enc off).
Proof.
  intros. destruct (decode_cases LittleEndian w enc off) as [(A & bs & B & C & D & E)|(A & B)]; try lia.
  - unfold amqp_decode; rewrite D. cbn. pose proof (wbytes_range w). repeat split; lia.
  - unfold amqp_decode; rewrite B. left; reflexivity.
Qed.

Lemma decode_bytes_safe off n : 0 <= off <= zlen enc -> 0 <= n < M63 ->
  dec_good enc off (fun b k => k = n /\ zlen b = n) (amqp_decode_bytes enc off n).
Proof.
  intros. destruct (decode_bytes_cases enc off n) as [(A & bs & B & C & D)|(A & B)]; try lia.
  - rewrite D. cbn. repeat split; lia.
  - rewrite B. left; reflexivity.
Qed.

(** sequencing of decoders *)
Lemma dbind_good {A B} off (P : A -> Z -> Prop) (Q : B -> Z -> Prop) r k :
  0 <= off ->
  dec_good enc off P r ->
  (forall a off', off <= off' <= zlen enc -> P a (off' - off) ->
     dec_good enc off' (fun b n => Q b (n + (off' - off))) (k a off')) ->
  dec_good enc off Q (dbind r k).
Proof.
  intros H0 H K. destruct r; cbn in *; auto.
  destruct H as [H1 H2]. specialize (K a off0 H1 H2).
  destruct (k a off0); cbn in *; auto. destruct K. split; [lia|].
  replace (off1 - off) with (off1 - off0 + (off0 - off)) by lia. auto.
Qed.

Lemma grow_safe site num alloc off : 0 <= off <= zlen enc -> 0 <= num < M30 -> 1 <= alloc -> num <= alloc ->
  dec_good enc off (fun a n => n = 0 /\ num < a) (grow oom site num alloc off).
Proof.
  intros. unfold grow. destruct (Z.leb_spec alloc num).
  - destruct (Z.ltb_spec INT_MAX (alloc * 2)); [lia|].
    destruct (oom site off); cbn; [right; reflexivity|]. repeat split; lia.
  - cbn. repeat split; lia.
Qed.

Definition df_safe (depth : Z) (df : Z -> dres fv) : Prop :=
  forall off, 0 <= off <= zlen enc -> dec_good enc off (fresh_value depth) (df off).

Lemma array_loop_safe depth df fuel : df_safe depth df ->
  forall limit num alloc off acc,
  0 <= off <= zlen enc -> limit <= zlen enc -> 0 <= num <= off -> 1 <= alloc -> num <= alloc ->
  (Z.of_nat fuel > zlen enc - off) ->
  Forall (fun v => fresh_value depth v (zlen (ser_value v))) acc ->
  dec_good enc off (fun l n => exists l', l = acc ++ l' /\
     n = zlen (concat (map ser_value l')) /\
     Forall (fun v => fresh_value depth v (zlen (ser_value v))) l)
   (decode_array_loop oom df fuel limit num alloc off acc).
Proof.
  intros Hdf. induction fuel as [|f IH]; intros limit num alloc off acc Ho Hl Hn Ha Hna Hf Hacc; [lia|].
  cbn [decode_array_loop].
  destruct (Z.ltb_spec off limit).
  - eapply dbind_good; [lia|apply grow_safe; lia|].
    intros a off1 H1 [H2 H3]. assert (off1 = off) by lia. subst off1. destruct (Z.leb_spec a num); [lia|].
    eapply dbind_good; [lia|apply Hdf; lia|].
    intros v off2 H4 H5. pose proof H5 as (_ & _ & _ & _ & _ & H6).
    pose proof (one_le_ser v).
    assert (Hacc' : Forall (fun v => fresh_value depth v (zlen (ser_value v))) (acc ++ [v])).
    { apply Forall_app; split; auto. constructor; auto. rewrite <- H6. auto. }
    specialize (IH limit (num + 1) a off2 (acc ++ [v])).
    destruct (decode_array_loop oom df f limit (num + 1) a off2 (acc ++ [v])); cbn in *;
      try (apply IH; auto; lia).
    destruct IH as (B1 & l' & -> & B2 & B3); auto; try lia.
    split; [lia|]. exists (v :: l'). rewrite <- app_assoc. split; [reflexivity|].
    split; [|rewrite <- app_assoc in B3; exact B3].
    cbn [map concat]. rewrite zlen_app. lia.
  - cbn. split; [lia|]. exists []. rewrite app_nil_r. cbn. rewrite zlen_nil. repeat split; auto; lia.
Qed.

Definition fresh_entry (depth : Z) (e : bytes * fv) : Prop :=
  zlen (fst e) <= 255 /\ fresh_value depth (snd e) (zlen (ser_value (snd e))).

Lemma table_loop_safe depth df fuel : df_safe depth df ->
  forall limit num alloc off acc,
  0 <= off <= zlen enc -> limit <= zlen enc -> 0 <= num <= off -> 1 <= alloc -> num <= alloc ->
  (Z.of_nat fuel > zlen enc - off) ->
  Forall (fresh_entry depth) acc ->
  dec_good enc off (fun l n => exists l', l = acc ++ l' /\
     n = zlen (concat (map entry_bytes l')) /\ Forall (fresh_entry depth) l)
   (decode_table_loop enc oom df fuel limit num alloc off acc).
Proof.
  intros Hdf. induction fuel as [|f IH]; intros limit num alloc off acc Ho Hl Hn Ha Hna Hf Hacc; [lia|].
  cbn [decode_table_loop].
  destruct (Z.ltb_spec off limit).
  - eapply dbind_good; [lia|apply (decode_safe W8); lia|].
    intros klen off1 H1 [H2 H3]. cbn in H2, H3.
    eapply dbind_good; [lia|apply grow_safe; lia|].
    intros a off1' H1' [H2' H3']. assert (off1' = off1) by lia. subst off1'. destruct (Z.leb_spec a num); [lia|].
    eapply dbind_good; [lia|apply decode_bytes_safe; lia|].
    intros key off2 H4 [H5 H6].
    eapply dbind_good; [lia|apply Hdf; lia|].
    intros v off3 H7 H8. pose proof H8 as (_ & _ & _ & _ & _ & H9).
    pose proof (one_le_ser v).
    assert (Hacc' : Forall (fresh_entry depth) (acc ++ [(key, v)])).
    { apply Forall_app; split; auto. constructor; auto. unfold fresh_entry; cbn [fst snd].
      rewrite <- H9. split; auto. lia. }
    specialize (IH limit (num + 1) a off3 (acc ++ [(key,v)])).
    destruct (decode_table_loop enc oom df f limit (num + 1) a off3 (acc ++ [(key,v)])); cbn in *;
      try (apply IH; auto; lia).
    destruct IH as (B1 & l' & -> & B2 & B3); auto; try lia.
    split; [lia|]. exists ((key,v) :: l'). rewrite <- app_assoc. split; [reflexivity|].
    split; [|rewrite <- app_assoc in B3; exact B3].
    cbn [map concat]. rewrite zlen_app. unfold entry_bytes at 1. cbn [fst snd].
    rewrite zlen_app, zlen_shortstr. lia.
  - cbn. split; [lia|]. exists []. rewrite app_nil_r. cbn. rewrite zlen_nil. repeat split; auto; lia.
Qed.

Lemma container_safe {A} init loop off (Q : list A -> Z -> Prop) :
  1 <= init ->
  0 <= off <= zlen enc ->
  (forall limit off, 0 <= off <= zlen enc -> limit <= zlen enc ->
     dec_good enc off (fun l n => Q l (n + 4)) (loop (S (length enc)) limit 0 init off [])) ->
  dec_good enc off Q (decode_container enc oom init loop off).
Proof.
  intros Hi Ho Hl. unfold decode_container.
  eapply dbind_good; [lia|apply (decode_safe W32); lia|].
  intros size off1 H1 [H2 H3]. cbn in H2, H3.
  rewrite !add_size_small by lia.
  destruct (Z.ltb_spec (zlen enc) (size + off1)); [left; reflexivity|].
  destruct (oom 0 off1); [right; reflexivity|].
  eapply dbind_good; [lia|apply Hl; lia|].
  intros l off2 H4 H5.
  destruct (negb (zlen l =? 0) && oom 2 off2); [right; reflexivity|].
  cbn. split; [lia|]. replace (off2 - off2 + (off2 - off1) + (off1 - off)) with (off2 - off1 + 4) by lia.
  exact H5.
Qed.

Lemma fold_max_le l b : 0 <= b -> Forall (fun z => z <= b) l -> fold_right Z.max 0 l <= b.
Proof. intros Hb; induction 1; cbn; lia. Qed.

Lemma fold_max_le_inv l b : fold_right Z.max 0 l <= b -> Forall (fun z => z <= b) l.
Proof. induction l; cbn; intros; constructor; try lia. apply IHl. lia. Qed.

Lemma fold_max_nonneg l : 0 <= fold_right Z.max 0 l.
Proof. induction l; cbn; lia. Qed.

Lemma levels_nonneg v : 0 <= levels v.
Proof.
  destruct v; cbn [levels]; try lia; unfold deepest;
  match goal with |- context [map ?f ?e] => destruct (map f e) end; try lia;
  match goal with |- context [fold_right Z.max 0 ?e] => pose proof (fold_max_nonneg e) end; lia.
Qed.

Lemma fresh_array depth l : 0 <= depth <= TABLE_DEPTH_LIMIT ->
  Forall (fun v => fresh_value (depth + 1) v (zlen (ser_value v))) l ->
  fresh_value depth (FArray l) (zlen (ser_value (FArray l))).
Proof.
  intros Hd H. unfold fresh_value.
  split; [|split; [|split; [|split; [|split]]]]; try reflexivity.
  - cbn. apply all_Forall. eapply Forall_impl; [|exact H]. intros a Ha; apply Ha.
  - cbn. apply forallb_forall. rewrite Forall_forall in H. intros x Hx. apply (H x Hx).
  - cbn. apply all_Forall. eapply Forall_impl; [|exact H]. intros a Ha; apply Ha.
  - cbn. f_equal. rewrite <- (map_id l) at 2. apply map_ext_in.
    rewrite Forall_forall in H. intros x Hx. apply (H x Hx).
  - cbn [levels]. unfold deepest. destruct l as [|x r]; [cbn; lia|].
    cbn [map]. rewrite <- map_cons.
    assert (fold_right Z.max 0 (map levels (x :: r)) <= TABLE_DEPTH_LIMIT - (depth + 1)); [|cbn [map] in *; lia].
    apply fold_max_le.
    + inversion H; subst. destruct H2 as (_ & _ & _ & _ & K & _).
      pose proof (levels_nonneg x). lia.
    + rewrite Forall_map. eapply Forall_impl; [|exact H]. intros a (_ & _ & _ & _ & K & _). cbv beta. lia.
Qed.

Lemma fresh_table depth t : 0 <= depth <= TABLE_DEPTH_LIMIT ->
  Forall (fresh_entry (depth + 1)) t ->
  fresh_value depth (FTable t) (zlen (ser_value (FTable t))).
Proof.
  intros Hd H. unfold fresh_value.
  split; [|split; [|split; [|split; [|split]]]]; try reflexivity.
  - cbn [c_value]. apply all_Forall. eapply Forall_impl; [|exact H]. intros a [Hk Ha]. split; [lia|apply Ha].
  - cbn. apply forallb_forall. rewrite Forall_forall in H. intros x Hx. apply (H x Hx).
  - cbn [short_keys]. apply all_Forall. eapply Forall_impl; [|exact H]. intros a [Hk Ha]. split; [lia|apply Ha].
  - cbn. f_equal. rewrite <- (map_id t) at 2. apply map_ext_in.
    rewrite Forall_forall in H. intros [k v] Hx. cbn. f_equal. apply (H _ Hx).
  - cbn [levels]. unfold deepest. destruct t as [|x r]; [cbn; lia|].
    assert (fold_right Z.max 0 (map (fun e => levels (snd e)) (x :: r)) <= TABLE_DEPTH_LIMIT - (depth + 1)); [|cbn [map] in *; lia].
    apply fold_max_le.
    + inversion H; subst. destruct H2 as (_ & _ & _ & _ & _ & K & _).
      pose proof (levels_nonneg (snd x)). lia.
    + rewrite Forall_map. eapply Forall_impl; [|exact H]. intros a (_ & _ & _ & _ & _ & K & _). cbv beta. lia.
Qed.

Lemma leaf_fresh depth v : 0 <= depth <= TABLE_DEPTH_LIMIT ->
  c_value v -> known_kinds v = true -> short_keys v -> norm v = v -> levels v = 0 ->
  forall n, n = zlen (ser_value v) -> fresh_value depth v n.
Proof. intros. unfold fresh_value. repeat split; auto; lia. Qed.

Lemma zlen_ser_cons b n z : zlen (b :: be n z) = 1 + Z.of_nat n.
Proof. rewrite zlen_cons, zlen_be. lia. Qed.

Lemma field_safe depth w how off : 0 <= depth <= TABLE_DEPTH_LIMIT ->
  0 <= off <= zlen enc -> 
  (forall z, 0 <= z < wmod w -> fresh_value depth (how z) (1 + wbytes w)) ->
  dec_good enc off (fun v n => fresh_value depth v (n + 1)) (FIELD_DECODER enc w how off).
Proof.
  intros Hd Ho Hh. unfold FIELD_DECODER.
  eapply dbind_good; [lia|apply decode_safe; lia|].
  intros z off1 H1 [H2 H3]. cbn. split; [lia|].
  replace (off1 - off1 + (off1 - off) + 1) with (1 + wbytes w) by lia. auto.
Qed.

Ltac sgn m z := pose proof (signed_range m z eq_refl eq_refl) as HS; 
   let h := eval vm_compute in (m / 2) in change (m / 2) with h in HS.

Lemma field_value_safe fuel : forall depth,
  0 <= depth <= 101 -> Z.of_nat fuel + depth >= 102 ->
  df_safe depth (amqp_decode_field_value enc oom fuel depth).
Proof.
  induction fuel as [|f IH]; intros depth Hd Hf off Ho; [lia|].
  cbn [amqp_decode_field_value].
  destruct (Z.ltb_spec TABLE_DEPTH_LIMIT depth) as [G|G]; [left; reflexivity|].
  assert (Hd' : 0 <= depth <= TABLE_DEPTH_LIMIT) by lia.
  assert (Hd100 : depth <= 100) by exact G.
  eapply dbind_good; [lia|apply (decode_safe W8); lia|].
  intros kind off1 H1 [H2 H3]. cbn in H2, H3.
  replace (off1 - off) with 1 in * by lia.
  assert (Ho1 : 0 <= off1 <= zlen enc) by lia.
  repeat match goal with
  | |- dec_good _ _ _ (if ?c then FIELD_DECODER _ ?w ?how _ else _) =>
    destruct c; [apply field_safe; [lia|lia|
      let z := fresh "z" in let Hz := fresh "Hz" in
      intros z Hz; cbn [wmod wbytes] in *;
      match goal with
      | |- context [signed ?m z] => sgn m z
      | _ => idtac
      end;
      (apply leaf_fresh;
       [auto|cbn [c_value]; try (destruct (z =? 0)); lia|reflexivity|exact I
       |cbn [norm]; try (destruct (z =? 0)); reflexivity|reflexivity|
       cbn [ser_value]; try (destruct (z =? 0)); rewrite zlen_cons, ?zlen_be; reflexivity])]|]
  end.
  destruct (kind =? AMQP_FIELD_KIND_DECIMAL).
  { eapply dbind_good; [lia|apply (decode_safe W8); lia|].
    intros d off2 H4 [H5 H6]. eapply dbind_good; [lia|apply (decode_safe W32); lia|].
    intros v off3 H7 [H8 H9]. cbn [wmod wbytes dec_good] in *. split; [lia|].
    apply leaf_fresh; [auto|cbn; lia|reflexivity|exact I|reflexivity|reflexivity|]. cbn [ser_value]. rewrite zlen_cons, zlen_app, !zlen_be. lia. }
  destruct ((kind =? AMQP_FIELD_KIND_UTF8) || (kind =? AMQP_FIELD_KIND_BYTES)).
  { eapply dbind_good; [lia|apply (decode_safe W32); lia|].
    intros len off2 H4 [H5 H6]. cbn in H5, H6. eapply dbind_good; [lia|apply decode_bytes_safe; lia|].
    intros b off3 H7 [H8 H9]. cbn. split; [lia|].
    destruct (kind =? AMQP_FIELD_KIND_UTF8); (apply leaf_fresh; [auto|cbn; lia|reflexivity|exact I|reflexivity|reflexivity|]);
    cbn [ser_value]; rewrite zlen_cons, zlen_longstr; lia. }
  destruct (kind =? AMQP_FIELD_KIND_ARRAY).
  { eapply dbind_good with (P := fun l n =>
       Forall (fun v => fresh_value (depth+1) v (zlen (ser_value v))) l /\
       n = 4 + zlen (concat (map ser_value l))); [lia| |].
    - apply container_safe; [unfold INITIAL_ARRAY_SIZE; lia|lia|].
      intros limit off2 H4 H5. 
      pose proof (array_loop_safe (depth+1) (amqp_decode_field_value enc oom f (depth+1)) (S (length enc))) as L.
      specialize (L ltac:(apply IH; lia) limit 0 INITIAL_ARRAY_SIZE off2 []).
      destruct (decode_array_loop _ _ _ _ _ _ _ _); cbn [dec_good] in *;
        try (apply L; auto; unfold zlen, INITIAL_ARRAY_SIZE; lia).
      destruct L as (L1 & l' & L2 & L3 & L4); auto; try (unfold zlen, INITIAL_ARRAY_SIZE in *; lia).
      cbn in L2. subst l'. split; [lia|]. split; [auto|lia].
    - intros l off2 H4 [H5 H6]. cbn [dec_good]. split; [lia|].
      replace (off2 - off2 + (off2 - off1) + 1) with (zlen (ser_value (FArray l))).
      + apply fresh_array; auto.
      + cbn [ser_value]. rewrite zlen_cons, zlen_longstr. lia. }
  match goal with
  | |- dec_good _ _ _ (if ?c then FIELD_DECODER _ ?w ?how _ else _) =>
    destruct c; [apply field_safe; [lia|lia|
      intros z Hz; cbn [wmod wbytes] in *;
      (apply leaf_fresh;
       [auto|cbn [c_value]; lia|reflexivity|exact I|reflexivity|reflexivity|
       cbn [ser_value]; rewrite zlen_cons, ?zlen_be; reflexivity])]|]
  end.
  destruct (kind =? AMQP_FIELD_KIND_TABLE).
  { eapply dbind_good with (P := fun l n =>
       Forall (fresh_entry (depth+1)) l /\
       n = 4 + zlen (concat (map entry_bytes l))); [lia| |].
    - apply container_safe; [unfold INITIAL_TABLE_SIZE; lia|lia|].
      intros limit off2 H4 H5. 
      pose proof (table_loop_safe (depth+1) (amqp_decode_field_value enc oom f (depth+1)) (S (length enc))) as L.
      specialize (L ltac:(apply IH; lia) limit 0 INITIAL_TABLE_SIZE off2 []).
      destruct (decode_table_loop _ _ _ _ _ _ _ _ _); cbn [dec_good] in *;
        try (apply L; auto; unfold zlen, INITIAL_TABLE_SIZE; lia).
      destruct L as (L1 & l' & L2 & L3 & L4); auto; try (unfold zlen, INITIAL_TABLE_SIZE in *; lia).
      cbn in L2. subst l'. split; [lia|]. split; [auto|lia].
    - intros l off2 H4 [H5 H6]. cbn [dec_good]. split; [lia|].
      replace (off2 - off2 + (off2 - off1) + 1) with (zlen (ser_value (FTable l))).
      + apply fresh_table; auto.
      + cbn [ser_value]. rewrite zlen_cons, zlen_longstr.
        change (map (fun e => shortstr (fst e) ++ ser_value (snd e)) l) with (map entry_bytes l). lia. }
  destruct (kind =? AMQP_FIELD_KIND_VOID).
  { cbn. split; [lia|]. apply leaf_fresh; [auto|exact I|reflexivity|exact I|reflexivity|reflexivity|cbn; rewrite zlen_cons, zlen_nil; lia]. }
  left; reflexivity.
Qed.

Lemma decode_table_safe off : 0 <= off <= zlen enc ->
  dec_good enc off (fun t n => Forall (fresh_entry 0) t /\ n = zlen (ser_table t))
    (amqp_decode_table enc oom off).
Proof.
  intros Ho. unfold amqp_decode_table.
  apply container_safe; [unfold INITIAL_TABLE_SIZE; lia|lia|].
  intros limit off2 H4 H5.
  pose proof (table_loop_safe 0 (amqp_decode_field_value enc oom table_fuel 0) (S (length enc))) as L.
  specialize (L ltac:(apply field_value_safe; unfold table_fuel; lia) limit 0 INITIAL_TABLE_SIZE off2 []).
  destruct (decode_table_loop _ _ _ _ _ _ _ _ _); cbn [dec_good] in *;
    try (apply L; auto; unfold zlen, INITIAL_TABLE_SIZE; lia).
  destruct L as (L1 & l' & L2 & L3 & L4); auto; try (unfold zlen, INITIAL_TABLE_SIZE in *; lia).
  cbn in L2. subst l'. split; [lia|]. split; [auto|].
  unfold ser_table. rewrite zlen_longstr.
  change (map (fun e => shortstr (fst e) ++ ser_value (snd e)) a) with (map entry_bytes a). lia.
Qed.

End Safe.

(** ** Allocation failures can only turn a result into NO_MEMORY *)
Section Oom.
Context (enc : bytes) (oom : Z -> Z -> bool).

Definition oom_rel {A} (r r0 : dres A) : Prop :=
  r = r0 \/ exists o, r = DErr AMQP_STATUS_NO_MEMORY o.

Lemma oom_refl {A} (r : dres A) : oom_rel r r. Proof. left; auto. Qed.

Lemma oom_bind {A B} (r r0 : dres A) (k k0 : A -> Z -> dres B) :
  oom_rel r r0 -> (forall a o, oom_rel (k a o) (k0 a o)) ->
  oom_rel (dbind r k) (dbind r0 k0).
Proof.
  intros [->|[o ->]] K.
  - destruct r0; cbn; auto using oom_refl.
  - right. exists o. reflexivity.
Qed.

Lemma grow_oom site num alloc off :
  oom_rel (grow oom site num alloc off) (grow no_oom site num alloc off).
Proof.
  unfold grow, no_oom. destruct (alloc <=? num); [|apply oom_refl].
  destruct (INT_MAX <? alloc * 2); [apply oom_refl|].
  destruct (oom site off); [right; eauto|apply oom_refl].
Qed.

Lemma array_loop_oom df df0 fuel : (forall o, oom_rel (df o) (df0 o)) ->
  forall limit num alloc off acc,
  oom_rel (decode_array_loop oom df fuel limit num alloc off acc)
          (decode_array_loop no_oom df0 fuel limit num alloc off acc).
Proof.
  intros H. induction fuel; intros; cbn [decode_array_loop]; [apply oom_refl|].
  destruct (off <? limit); [|apply oom_refl].
  apply oom_bind; [apply grow_oom|]. intros. destruct (_ <=? num); [apply oom_refl|]. apply oom_bind; auto.
Qed.

Lemma table_loop_oom df df0 fuel : (forall o, oom_rel (df o) (df0 o)) ->
  forall limit num alloc off acc,
  oom_rel (decode_table_loop enc oom df fuel limit num alloc off acc)
          (decode_table_loop enc no_oom df0 fuel limit num alloc off acc).
Proof.
  intros H. induction fuel; intros; cbn [decode_table_loop]; [apply oom_refl|].
  destruct (off <? limit); [|apply oom_refl].
  apply oom_bind; [apply oom_refl|]. intros.
  apply oom_bind; [apply grow_oom|]. intros. destruct (_ <=? num); [apply oom_refl|]. apply oom_bind; [apply oom_refl|]. intros.
  apply oom_bind; auto.
Qed.

Lemma container_oom {A} init loop loop0 off :
  (forall f a b c d e, oom_rel (loop f a b c d e) (loop0 f a b c d e)) ->
  oom_rel (@decode_container enc oom A init loop off)
          (@decode_container enc no_oom A init loop0 off).
Proof.
  intros H. unfold decode_container. apply oom_bind; [apply oom_refl|]. intros.
  destruct (zlen enc <? add_size a o); [apply oom_refl|].
  unfold no_oom at 1. destruct (oom 0 o); [right; eauto|].
  apply oom_bind; [apply H|]. intros. unfold no_oom. rewrite andb_false_r.
  destruct (negb (zlen a0 =? 0) && oom 2 o0); [right; eauto|apply oom_refl].
Qed.

Lemma field_value_oom fuel : forall depth off,
  oom_rel (amqp_decode_field_value enc oom fuel depth off)
          (amqp_decode_field_value enc no_oom fuel depth off).
Proof.
  induction fuel; intros; cbn [amqp_decode_field_value]; [apply oom_refl|].
  destruct (TABLE_DEPTH_LIMIT <? depth); [apply oom_refl|].
  apply oom_bind; [apply oom_refl|]. intros kind o.
  repeat match goal with |- oom_rel (if ?c then _ else _) _ => destruct c end;
    try apply oom_refl.
  - apply oom_bind; [|intros; apply oom_refl]. apply container_oom. intros. apply array_loop_oom. auto.
  - apply oom_bind; [|intros; apply oom_refl]. apply container_oom. intros. apply table_loop_oom. auto.
Qed.

Lemma decode_table_oom off :
  oom_rel (amqp_decode_table enc oom off) (amqp_decode_table enc no_oom off).
Proof. apply container_oom. intros. apply table_loop_oom. intros; apply field_value_oom. Qed.
End Oom.
