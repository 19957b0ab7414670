(** Final statements for C01-C06: integer codec and field tables. *)
From Coq Require Import ZArith List Bool Lia.
From Verif Require Import Base BaseFacts Codec CodecProofs TableModel TableSpec TableEnc TableDec TableRT.
Import ListNotations.
Local Open Scope Z_scope.

(** C01.  For every width, every value of that width, every pair of hosts (the
    writer [h], the reader [h']), every buffer and offset: if the integer fits,
    exactly its big-endian bytes are written at the offset, nothing else
    changes, and the reader gets the value back; if it does not fit both calls
    refuse and the buffer is unchanged. *)
Theorem C01_integers_are_big_endian :
  forall (h h' : host) (w : width) (v : Z) (m : bytes) (o : Z),
    0 <= v < wmod w -> 0 <= o < M63 -> zlen m < M63 ->
    (o + wbytes w <= zlen m ->
       exists m', amqp_encode_h h w v (mkE m o) = Some (true, mkE m' (o + wbytes w)) /\
         m' = firstn (Z.to_nat o) m ++ be (wnat w) v ++ skipn (Z.to_nat (o + wbytes w)) m /\
         amqp_decode_h h' w m' o = DOk v (o + wbytes w)) /\
    (o + wbytes w > zlen m ->
       amqp_encode_h h w v (mkE m o) = Some (false, mkE m (o + wbytes w)) /\
       amqp_decode_h h' w m o = DErr AMQP_STATUS_BAD_AMQP_DATA (o + wbytes w)).
Proof.
  intros h h' w v m o Hv Ho Hm. pose proof (wbytes_range w) as Hw. split; intros Hfit.
  - exists (patch m o (be (wnat w) v)). split; [apply encode_ok; lia|]. split.
    + unfold patch. rewrite length_be. do 3 f_equal. rewrite <- wnat_bytes. lia.
    + destruct (patch_decomp m o (be (wnat w) v)) as (pre & old & post & E & K).
      destruct K as (K1 & K2 & K3); [lia|rewrite zlen_be_w; lia|].
      pose proof (zlen_patch m o (be (wnat w) v) ltac:(lia) ltac:(rewrite zlen_be_w; lia)) as L.
      rewrite K3 in *. rewrite <- K1. rewrite decode_at by lia.
      rewrite Z.mod_small by lia. reflexivity.
  - split; [apply encode_fail; lia|].
    destruct (decode_cases h' w m o) as [(A & _)|(_ & B)]; try lia. exact B.
Qed.

Example C01_case : amqp_encode_h BigEndian W32 0x01020304 (mkE [xff; xff; xff; xff; xff; xff] 1)
   = Some (true, mkE [xff; x01; x02; x03; x04; xff] 5) /\
   amqp_decode_h LittleEndian W32 [xff; x01; x02; x03; x04; xff] 1 = DOk 0x01020304 5.
Proof. split; vm_compute; reflexivity. Qed.

(** C02.  Encoding then decoding gives the same table, at any offset. *)
Theorem C02_table_roundtrip :
  forall (t : table) (m : bytes) (o : Z),
    c_table t -> known_table t = true -> short_keys_table t -> table_levels t <= 100 ->
    0 <= o -> o + zlen (ser_table t) <= zlen m -> zlen m < M30 ->
    exists m', amqp_encode_table t (mkE m o) = Some (AMQP_STATUS_OK, mkE m' (o + zlen (ser_table t))) /\
      amqp_decode_table m' no_oom o = DOk (norm_table t) (o + zlen (ser_table t)).
Proof.
  intros t m o Hc Hk Hs Hl Ho Hf Hm. pose proof (zlen_nonneg (ser_table t)).
  destruct (encode_table_ok t m o Hc ltac:(lia) ltac:(lia)) as (st & m' & o' & E & L & F & C).
  destruct C as [(_ & _ & -> & -> & ->)|[[G|G] _]]; [|congruence|lia].
  exists (patch m o (ser_table t)). split; [exact E|].
  destruct (patch_decomp m o (ser_table t)) as (pre & old & post & Em & K).
  destruct K as (K1 & K2 & K3); [lia|lia|].
  pose proof (decode_table_rt t (patch m o (ser_table t)) pre post Hc Hk Hs K3 ltac:(lia)) as R.
  rewrite K1 in R. apply (proj2 (Z.leb_le _ _)) in Hl.
  change TABLE_DEPTH_LIMIT with 100 in R. rewrite Hl in R. exact R.
Qed.

(** ... and an allocation failure can only turn the result into NO_MEMORY. *)
Theorem C02_allocation_failure :
  forall enc oom o,
    amqp_decode_table enc oom o = amqp_decode_table enc no_oom o \/
    exists o', amqp_decode_table enc oom o = DErr AMQP_STATUS_NO_MEMORY o'.
Proof. intros. apply decode_table_oom. Qed.

Definition sample_table : table :=
  [ ([x61; x62], FI8 (-5));
    ([], FArray [FBool 7; FVoid; FUtf8 [x68; x69]]);
    ([x6b], FTable [([x74], FTimestamp 18446744073709551615); ([x64], FDecimal 2 314)]) ].

Example C02_case : c_table sample_table /\ known_table sample_table = true /\
  short_keys_table sample_table /\ table_levels sample_table <= 100 /\
  norm_table sample_table <> sample_table /\
  amqp_decode_table ([x01; x02] ++ ser_table sample_table) no_oom 2 =
    DOk (norm_table sample_table) (2 + zlen (ser_table sample_table)).
Proof.
  split; [|split; [|split; [|split; [|split]]]].
  - cbn; repeat split; try reflexivity; try discriminate.
  - reflexivity.
  - cbn; repeat split; try reflexivity; try discriminate.
  - vm_compute; discriminate.
  - discriminate.
  - vm_compute; reflexivity.
Qed.

(** C03.  The encoder writes exactly the AMQP serialisation or fails; it fails
    exactly when that does not fit or the table holds a value of an unknown
    kind; bytes before the offset and the length of the buffer never change
    (every store goes through [write], which is undefined outside). *)
Theorem C03_table_encoding_exact :
  forall (t : table) (m : bytes) (o : Z),
    c_table t -> 0 <= o <= zlen m -> zlen m < M32 ->
    exists st m' o',
      amqp_encode_table t (mkE m o) = Some (st, mkE m' o') /\
      length m' = length m /\
      firstn (Z.to_nat o) m' = firstn (Z.to_nat o) m /\
      ((st = AMQP_STATUS_OK /\ o' = o + zlen (ser_table t) /\
        known_table t = true /\ o + zlen (ser_table t) <= zlen m /\
        m' = firstn (Z.to_nat o) m ++ ser_table t ++ skipn (Z.to_nat o') m)
       \/
       (st < 0 /\ (known_table t = false \/ o + zlen (ser_table t) > zlen m))).
Proof.
  intros t m o Hc Ho Hm.
  destruct (encode_table_ok t m o Hc Ho Hm) as (st & m' & o' & E & L & F & C).
  exists st, m', o'. split; [exact E|]. split; [unfold zlen in L; lia|]. split; [exact F|].
  destruct C as [(G & B & -> & -> & ->)|[G S]]; [left|right; tauto].
  repeat split; auto. unfold patch. do 3 f_equal. unfold zlen in *. lia.
Qed.

Example C03_case :
  (exists m', amqp_encode_table sample_table (mkE (repeat x00 100) 10) = Some (AMQP_STATUS_OK, mkE m' 61)) /\
  (exists st s, amqp_encode_table sample_table (mkE (repeat x00 60) 10) = Some (st, s) /\ st < 0).
Proof.
  split; [eexists; vm_compute; reflexivity|].
  eexists _, _; split; [vm_compute; reflexivity|reflexivity].
Qed.

(** C04.  Decoding is total and memory safe for every input: no undefined
    behaviour, no non-termination; on success the table is well formed and its
    own serialisation has exactly the length by which the offset advanced.
    (2^30 bound: beyond it the entry counter, an int, could overflow; frames
    cannot be that large with any practical frame_max.) *)
Theorem C04_table_decoding_total_and_safe :
  forall (enc : bytes) (oom : Z -> Z -> bool) (off : Z),
    0 <= off <= zlen enc -> zlen enc < M30 ->
    (exists t off', amqp_decode_table enc oom off = DOk t off' /\
       c_table t /\ known_table t = true /\ short_keys_table t /\ norm_table t = t /\
       table_levels t <= 100 /\
       off' = off + zlen (ser_table t) /\ off' <= zlen enc)
    \/ (exists st off', amqp_decode_table enc oom off = DErr st off' /\
         (st = AMQP_STATUS_BAD_AMQP_DATA \/ st = AMQP_STATUS_NO_MEMORY)).
Proof.
  intros enc oom off Ho He.
  pose proof (decode_table_safe enc oom He off Ho) as S.
  destruct (amqp_decode_table enc oom off) as [t off'|st off'| |]; cbn [dec_good] in S; try contradiction.
  - left. exists t, off'. destruct S as (S1 & S2 & S3). split; [reflexivity|].
    rewrite Forall_forall in S2.
    split; [|split; [|split; [|split; [|split; [|split; lia]]]]].
    + apply all_Forall, Forall_forall. intros x Hx. destruct (S2 x Hx) as [A B].
      split; [lia|apply B].
    + apply forallb_forall. intros x Hx. apply (S2 x Hx).
    + apply all_Forall, Forall_forall. intros x Hx. destruct (S2 x Hx) as [A B].
      split; [lia|apply B].
    + unfold norm_table. rewrite <- (map_id t) at 2. apply map_ext_in.
      intros [k v] Hx. cbn. f_equal. apply (S2 _ Hx).
    + unfold table_levels. apply fold_max_le; [lia|]. rewrite Forall_map. apply Forall_forall.
      intros x Hx. destruct (S2 x Hx) as (_ & _ & _ & _ & _ & B & _).
      change TABLE_DEPTH_LIMIT with 100 in B. lia.
  - right. exists st, off'. split; [reflexivity|exact S].
Qed.

Example C04_case :
  amqp_decode_table [x00; x00; x00; x03; x01; x61; x56] no_oom 0 = DOk [([x61], FVoid)] 7 /\
  (exists o, amqp_decode_table [x00; x00; x00; x03; x02; x61; x56] no_oom 0 = DErr AMQP_STATUS_BAD_AMQP_DATA o).
Proof. split; [|eexists]; vm_compute; reflexivity. Qed.

(** C05.  A serialised table nesting more than 100 levels is rejected; one
    nesting at most 100 levels is accepted. *)
Theorem C05_depth_limit :
  forall (t : table) (pre post : bytes),
    c_table t -> known_table t = true -> short_keys_table t ->
    zlen (pre ++ ser_table t ++ post) < M30 ->
    (table_levels t <= 100 ->
       amqp_decode_table (pre ++ ser_table t ++ post) no_oom (zlen pre)
         = DOk (norm_table t) (zlen pre + zlen (ser_table t))) /\
    (table_levels t > 100 ->
       exists o, amqp_decode_table (pre ++ ser_table t ++ post) no_oom (zlen pre)
         = DErr AMQP_STATUS_BAD_AMQP_DATA o).
Proof.
  intros t pre post Hc Hk Hs He.
  pose proof (decode_table_rt t _ pre post Hc Hk Hs eq_refl He) as R.
  change TABLE_DEPTH_LIMIT with 100 in R.
  destruct (Z.leb_spec (table_levels t) 100); split; intros; try lia; exact R.
Qed.

(** a table nested [n] deep: {"a": {"a": ... {"a": void}}} *)
Fixpoint nested (n : nat) : fv :=
  match n with O => FVoid | S n' => FTable [([x61], nested n')] end.

Example C05_case :
  table_levels [([x61], nested 100)] = 100 /\ table_levels [([x61], nested 101)] = 101 /\
  c_table [([x61], nested 101)] /\ short_keys_table [([x61], nested 101)] /\
  (exists o, amqp_decode_table (ser_table [([x61], nested 101)]) no_oom 0
     = DErr AMQP_STATUS_BAD_AMQP_DATA o) /\
  amqp_decode_table (ser_table [([x61], nested 100)]) no_oom 0
     = DOk [([x61], nested 100)] 707.
Proof.
  split; [vm_compute; reflexivity|]. split; [vm_compute; reflexivity|].
  assert (G : forall n, c_value (nested n) /\ short_keys (nested n)).
  { induction n as [|n [IH1 IH2]]; cbn; [auto|]. repeat split; auto; try reflexivity; try discriminate. }
  split; [unfold c_table; cbn [all fst snd]; repeat split; try reflexivity; apply G|].
  split; [unfold short_keys_table; cbn [all fst snd]; repeat split; try discriminate; apply G|].
  split; [eexists; vm_compute; reflexivity|vm_compute; reflexivity].
Qed.

(** C06, the part that holds: if encoding succeeds and all keys have at most 255
    bytes and the nesting is at most 100, decoding gives the table back.
    Missing: longer keys and deeper nesting, for which the claim is false. *)
Theorem C06_sent_table_is_received_partial :
  forall (t : table) (m m' : bytes) (o o' : Z),
    c_table t -> 0 <= o <= zlen m -> zlen m < M30 ->
    amqp_encode_table t (mkE m o) = Some (AMQP_STATUS_OK, mkE m' o') ->
    short_keys_table t -> table_levels t <= 100 ->
    amqp_decode_table m' no_oom o = DOk (norm_table t) o'.
Proof.
  intros t m m' o o' Hc Ho Hm E Hs Hl.
  destruct (encode_table_ok t m o Hc Ho ltac:(lia)) as (st & m1 & o1 & E1 & L & F & C).
  rewrite E in E1. inversion E1; subst st m1 o1.
  destruct C as [(G & B & _ & -> & ->)|[_ S]]; [|unfold AMQP_STATUS_OK in S; lia].
  destruct (C02_table_roundtrip t m o) as (m2 & E2 & D); auto; try lia.
  rewrite E in E2. inversion E2; subst. exact D.
Qed.

(** C06 is false for keys of more than 255 bytes: the call succeeds but the
    bytes on the wire are not a serialisation of the table. *)
Definition long_key_table : table := [(repeat x61 256, FVoid)].
Theorem C06_long_key_refuted :
  exists m' o',
    amqp_encode_table long_key_table (mkE (repeat x00 300) 0) = Some (AMQP_STATUS_OK, mkE m' o') /\
    known_table long_key_table = true /\
    forall t o, amqp_decode_table m' no_oom 0 <> DOk t o.
Proof.
  eexists _, _. split; [vm_compute; reflexivity|]. split; [reflexivity|].
  intros t o. vm_compute. discriminate.
Qed.

(** C06 is also false for deep nesting: accepted for sending, not decodable. *)
Theorem C06_deep_nesting_refuted :
  exists m' o',
    amqp_encode_table [([x61], nested 101)] (mkE (repeat x00 900) 0) = Some (AMQP_STATUS_OK, mkE m' o') /\
    forall t o, amqp_decode_table m' no_oom 0 <> DOk t o.
Proof.
  eexists _, _. split; [vm_compute; reflexivity|].
  intros t o. vm_compute. discriminate.
Qed.

Print Assumptions C01_integers_are_big_endian.
Print Assumptions C02_table_roundtrip.
Print Assumptions C02_allocation_failure.
Print Assumptions C03_table_encoding_exact.
Print Assumptions C04_table_decoding_total_and_safe.
Print Assumptions C05_depth_limit.
Print Assumptions C06_sent_table_is_received_partial.
Print Assumptions C06_long_key_refuted.
Print Assumptions C06_deep_nesting_refuted.
