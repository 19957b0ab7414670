(** Proofs: encoding of methods and properties. *)
From Coq Require Import String ZArith List Bool Lia.
From Verif Require Import Base BaseFacts Codec CodecProofs TableModel TableSpec TableEnc
  FramingStmt FramingGen FramingModel MethodSpec.
Import ListNotations.
Local Open Scope Z_scope.

(** ** The statement lists prescribed by the catalogue *)
Definition stmt_of (n : string) (d : dom) : stmt :=
  match d with
  | Octet => SInt W8 n | Short => SInt W16 n | Long => SInt W32 n | Longlong => SInt W64 n
  | ShortStr => SShort n | LongStr => SLong n | Tbl => STable n | Bit => SBits [(n, 0)]
  end.
Fixpoint number (i : Z) (l : list string) : list (string * Z) :=
  match l with [] => [] | n :: r => (n, i) :: number (i + 1) r end.
Definition flushS (names : list string) : list stmt :=
  match names with [] => [] | _ => [SBits (number 0 names)] end.
Fixpoint compile (names : list string) (fs : list (string * dom)) : list stmt :=
  match fs with
  | [] => flushS names
  | (n, Bit) :: r => compile (names ++ [n])%list r
  | (n, d) :: r => (flushS names ++ stmt_of n d :: compile [] r)%list
  end.
Fixpoint run_ok (k : Z) (fs : list (string * dom)) : bool :=
  match fs with
  | [] => k <=? 8
  | (_, Bit) :: r => run_ok (k + 1) r
  | _ :: r => (k <=? 8) && run_ok 0 r
  end.
Definition distinct (l : list string) : bool :=
  (fix go l := match l with [] => true | x :: r => negb (existsb (String.eqb x) r) && go r end) l.

Definition entry_id (e : Z * Z * list (string * dom)) : Z := method_id (fst (fst e)) (snd (fst e)).
Definition entry_code (e : Z * Z * list (string * dom)) : Z * list stmt := (entry_id e, compile [] (snd e)).

Lemma dec_table_catalogue : dec_table = map entry_code catalogue.
Proof. vm_compute. reflexivity. Qed.
Lemma enc_table_catalogue : enc_table = map entry_code catalogue.
Proof. vm_compute. reflexivity. Qed.
Lemma catalogue_fine : forallb (fun e => run_ok 0 (snd e) && distinct (map fst (snd e))) catalogue = true.
Proof. vm_compute. reflexivity. Qed.
Lemma catalogue_ids : forallb (fun e => existsb (fun x => fst x =? entry_id e) (map entry_code catalogue)) catalogue = true.
Proof. vm_compute. reflexivity. Qed.

Lemma switch_in {A B} (f : A -> Z * B) (l : list A) (x : A) :
  NoDup (map (fun x => fst (f x)) l) -> In x l -> switch (fst (f x)) (map f l) = Some (snd (f x)).
Proof.
  induction l as [|y l IH]; cbn; intros N H; [contradiction|].
  inversion N as [|? ? N1 N2]; subst. destruct (f y) as [k v] eqn:Fy; cbn in *.
  destruct H as [->|H].
  - rewrite Fy; cbn. rewrite Z.eqb_refl. reflexivity.
  - destruct (Z.eqb_spec (fst (f x)) k) as [E|E].
    + exfalso. apply N1. rewrite <- E. apply in_map_iff. exists x. auto.
    + apply IH; auto.
Qed.

Fixpoint nodupZ (l : list Z) : bool :=
  match l with [] => true | x :: r => negb (existsb (Z.eqb x) r) && nodupZ r end.
Lemma nodupZ_ok l : nodupZ l = true -> NoDup l.
Proof.
  induction l; cbn; intros H; constructor; apply andb_true_iff in H; destruct H as [H1 H2]; auto.
  intros I. apply negb_true_iff in H1. assert (existsb (Z.eqb a) l = true); [|congruence].
  apply existsb_exists. exists a. split; auto. apply Z.eqb_refl.
Qed.
Lemma catalogue_nodup : NoDup (map (fun e => fst (entry_code e)) catalogue).
Proof. apply nodupZ_ok. vm_compute. reflexivity. Qed.

Lemma switch_dec e : In e catalogue -> switch (entry_id e) dec_table = Some (compile [] (snd e)).
Proof. intros. rewrite dec_table_catalogue. apply (switch_in entry_code); auto using catalogue_nodup. Qed.
Lemma switch_enc e : In e catalogue -> switch (entry_id e) enc_table = Some (compile [] (snd e)).
Proof. intros. rewrite enc_table_catalogue. apply (switch_in entry_code); auto using catalogue_nodup. Qed.

Lemma switch_none {A} n (l : list (Z * A)) : ~ In n (map fst l) -> switch n l = None.
Proof.
  induction l as [|[k v] l IH]; cbn; auto. intros H.
  destruct (Z.eqb_spec n k); [subst; tauto|]. apply IH. tauto.
Qed.

Lemma in_catalogue e : In e catalogue -> run_ok 0 (snd e) = true /\ distinct (map fst (snd e)) = true.
Proof.
  intros H. pose proof catalogue_fine as C. rewrite forallb_forall in C.
  specialize (C e H). apply andb_true_iff in C. exact C.
Qed.

(** ** Sequencing *)
Lemma enc_bind good1 good2 a b m o r k :
  0 <= o ->
  enc_spec good1 a m o r ->
  (o + zlen a <= zlen m -> enc_spec good2 b (patch m o a) (o + zlen a) (k (mkE (patch m o a) (o + zlen a)))) ->
  enc_spec (good1 && good2) (a ++ b) m o
    (match r with
     | None => None
     | Some (res, s') => if res <? 0 then Some (res, s') else k s'
     end).
Proof.
  intros Ho (st & m' & o' & -> & L & F & C) K.
  destruct C as [(G & B & -> & -> & ->)|[G S]].
  - rewrite G. cbn [Z.ltb Z.compare AMQP_STATUS_OK andb]. apply enc_spec_seq; auto.
  - destruct (Z.ltb_spec st 0); [|lia].
    exists st, m', o'. repeat split; auto. right. split; auto.
    rewrite zlen_app. pose proof (zlen_nonneg b).
    destruct G as [-> | ?]; [left; reflexivity|right; lia].
Qed.

Lemma enc_spec_eq g g' a a' m o r : g = g' -> a = a' -> enc_spec g a m o r -> enc_spec g' a' m o r.
Proof. intros -> ->; auto. Qed.

Lemma enc_int_ok w v m o :
  0 <= o <= zlen m -> zlen m < M63 ->
  enc_spec true (be (wnat w) v) m o (enc_int w v (mkE m o)).
Proof.
  intros. unfold enc_int, amqp_encode, enc_spec.
  destruct (Z_le_gt_dec (o + wbytes w) (zlen m)).
  - rewrite encode_ok by lia. do 3 eexists; split; [reflexivity|].
    rewrite zlen_patch by (rewrite ?zlen_be_w; lia).
    rewrite firstn_patch by (rewrite ?zlen_be_w; lia).
    repeat split. left. rewrite zlen_be_w. auto.
  - rewrite encode_fail by lia. do 3 eexists; split; [reflexivity|].
    repeat split. right. rewrite zlen_be_w. split; [right; lia|reflexivity].
Qed.

Lemma enc_str_ok w b m o :
  0 <= o <= zlen m -> zlen m < M63 -> zlen b < M63 ->
  enc_spec (zlen b <=? wmod w - 1) (be (wnat w) (zlen b) ++ b) m o (enc_str w b (mkE m o)).
Proof.
  intros Ho Hm Hb. unfold enc_str, amqp_encode. pose proof (zlen_nonneg b).
  destruct (Z.ltb_spec (wmod w - 1) (zlen b)) as [G|G].
  { apply enc_spec_fail; [left|reflexivity|reflexivity]. apply Z.leb_gt. lia. }
  replace (zlen b <=? wmod w - 1) with true by (symmetry; apply Z.leb_le; lia).
  pose proof (wbytes_range w). pose proof (zlen_be_w w (zlen b)) as LB.
  destruct (Z_le_gt_dec (o + wbytes w) (zlen m)) as [G1|G1].
  2:{ rewrite encode_fail by lia.
      apply enc_spec_fail; [|reflexivity|reflexivity]. right. rewrite zlen_app. lia. }
  rewrite encode_ok by lia. rewrite be_mod_w.
  replace (o + wbytes w) with (o + zlen (be (wnat w) (zlen b))) by lia.
  apply enc_spec_seq; [lia|lia|].
  set (m1 := patch m o _). set (o1 := o + zlen (be _ _)).
  assert (L1 : zlen m1 = zlen m) by (apply zlen_patch; lia).
  destruct (Z_le_gt_dec (o1 + zlen b) (zlen m1)) as [G2|G2].
  - rewrite encode_bytes_ok by lia.
    rewrite <- (app_nil_r b) at 1. apply enc_spec_seq; [lia|lia|].
    apply enc_spec_ok_nil. rewrite zlen_patch by lia. lia.
  - rewrite encode_bytes_fail by lia. apply enc_spec_fail; [|reflexivity|reflexivity].
    right; lia.
Qed.

Lemma stmt_enc_ok n d v ms m o :
  d <> Bit -> lookup n ms = Some v -> dom_val d v ->
  0 <= o <= zlen m -> zlen m < M32 ->
  enc_spec (representable d v) (ser_arg d v) m o (exec_enc (stmt_of n d) ms (mkE m o)).
Proof.
  intros Hd Hl Hv Ho Hm.
  destruct d, v; cbn [dom_val] in Hv; try contradiction; try congruence;
    cbn [stmt_of exec_enc]; rewrite Hl; cbn [representable ser_arg].
  - apply (enc_int_ok W8); lia.
  - apply (enc_int_ok W16); lia.
  - apply (enc_int_ok W32); lia.
  - apply (enc_int_ok W64); lia.
  - apply (enc_str_ok W8); lia.
  - apply (enc_str_ok W32); lia.
  - apply encode_table_ok; auto; lia.
Qed.

(** bits *)
Definition bit_of (ms : mstruct) (n : string) (b : bool) : Prop :=
  exists z, lookup n ms = Some (VBool z) /\ b = negb (z =? 0).

Lemma octet_of_bits_range l : 0 <= octet_of_bits l < 2 ^ zlen l.
Proof.
  induction l as [|b l IH]; [unfold zlen; cbn; lia|]. cbn [octet_of_bits]. rewrite zlen_cons.
  pose proof (zlen_nonneg l). rewrite Z.add_1_r, Z.pow_succ_r by lia. destruct b; lia.
Qed.

Lemma land_pow buf i : 0 <= i -> 0 <= buf < 2 ^ i -> Z.land buf (2 ^ i) = 0.
Proof.
  intros Hi Hb. apply Z.bits_inj'; intros k Hk. rewrite Z.land_spec, Z.bits_0.
  rewrite Z.pow2_bits_eqb by lia. destruct (Z.eqb_spec i k) as [<-|]; [|apply andb_false_r].
  rewrite andb_true_r. destruct (Z.eq_dec buf 0) as [->|N]; [apply Z.bits_0|].
  apply Z.bits_above_log2; [lia|]. apply Z.log2_lt_pow2; lia.
Qed.
Lemma lor_pow buf i : 0 <= i -> 0 <= buf < 2 ^ i -> Z.lor buf (2 ^ i) = buf + 2 ^ i.
Proof.
  intros. rewrite <- Z.lxor_lor by (apply land_pow; auto).
  symmetry. apply Z.add_nocarry_lxor. apply land_pow; auto.
Qed.

Lemma enc_bits_ok ms names bits : Forall2 (bit_of ms) names bits ->
  forall i buf, 0 <= i -> 0 <= buf < 2 ^ i -> i + zlen bits <= 8 ->
  enc_bits (number i names) ms buf = Some (buf + 2 ^ i * octet_of_bits bits).
Proof.
  induction 1 as [|n b names bits (z & Hz & ->) _ IH]; intros i buf Hi Hb Hl.
  - cbn. f_equal. lia.
  - rewrite zlen_cons in Hl. pose proof (zlen_nonneg bits).
    cbn [number enc_bits octet_of_bits]. rewrite Hz.
    assert (P : 2 ^ (i + 1) = 2 * 2 ^ i) by (rewrite Z.add_1_r, Z.pow_succ_r; lia).
    assert (P8 : 2 ^ (i + 1) <= 2 ^ 8) by (apply Z.pow_le_mono_r; lia).
    assert (0 < 2 ^ i) by (apply Z.pow_pos_nonneg; lia).
    destruct (z =? 0); cbn [negb].
    + rewrite IH by lia. f_equal. lia.
    + rewrite Z.shiftl_1_l, lor_pow by lia. unfold u8. rewrite Z.mod_small by lia.
      rewrite IH by lia. f_equal. lia.
Qed.

Lemma flush_enc_ok ms names bits m o :
  Forall2 (bit_of ms) names bits -> zlen bits <= 8 ->
  0 <= o <= zlen m -> zlen m < M63 ->
  enc_spec true (flush_bits bits) m o (exec_encs (flushS names) ms (mkE m o)).
Proof.
  intros H Hl Ho Hm. destruct H as [|n b names bits H1 H2].
  - apply enc_spec_ok_nil; lia.
  - cbn [flushS exec_encs flush_bits]. cbn [exec_enc].
    rewrite (enc_bits_ok ms (n :: names) (b :: bits)); [|constructor; auto|lia|cbn; lia|lia].
    change (2 ^ 0) with 1. rewrite Z.mul_1_l, Z.add_0_l.
    apply (enc_spec_eq (true && true) true (be 1 (octet_of_bits (b :: bits)) ++ []) _); [reflexivity|apply app_nil_r|].
    apply enc_bind; [lia|apply (enc_int_ok W8); lia|].
    intros. apply enc_spec_ok_nil. pose proof (zlen_nonneg (be 1 (octet_of_bits (b :: bits)))).
    rewrite zlen_patch by lia. lia.
Qed.

Lemma exec_encs_app l1 l2 ms s :
  exec_encs (l1 ++ l2) ms s =
  match exec_encs l1 ms s with
  | None => None
  | Some (res, s') => if res <? 0 then Some (res, s') else exec_encs l2 ms s'
  end.
Proof.
  revert s. induction l1 as [|st l1 IH]; intros s; cbn [app exec_encs]; [reflexivity|].
  destruct (exec_enc st ms s) as [[res s']|]; [|reflexivity].
  destruct (res <? 0) eqn:E; [rewrite E; reflexivity|apply IH].
Qed.

Lemma ser_args_cons bits d v r : d <> Bit ->
  ser_args bits ((d, v) :: r) = (flush_bits bits ++ ser_arg d v ++ ser_args [] r)%list.
Proof. intros. destruct d; try reflexivity; congruence. Qed.

Lemma compile_enc_ok ms fs vs :
  Forall2 (fun fd v => lookup (fst fd) ms = Some v /\ dom_val (snd fd) v) fs vs ->
  forall names bits m o,
  Forall2 (bit_of ms) names bits -> run_ok (zlen bits) fs = true ->
  0 <= o <= zlen m -> zlen m < M32 ->
  enc_spec (forallb (fun p => representable (fst p) (snd p)) (combine (map snd fs) vs))
    (ser_args bits (combine (map snd fs) vs)) m o
    (exec_encs (compile names fs) ms (mkE m o)).
Proof.
  induction 1 as [|[n d] v fs vs [Hl Hv] _ IH]; intros names bits m o Hb Hr Ho Hm; cbn [fst snd] in *.
  - cbn in Hr. apply Z.leb_le in Hr. apply flush_enc_ok; auto; lia.
  - cbn [map snd combine forallb fst].
    destruct (match d with Bit => true | _ => false end) eqn:Ed.
    + destruct d; try discriminate. destruct v as [| | |z]; try contradiction.
      cbn [compile ser_args representable andb]. apply IH; auto.
      * apply Forall2_app; auto. constructor; [|constructor]. exists z; auto.
      * cbn [run_ok] in Hr. rewrite zlen_app, zlen_cons. change (zlen (@nil bool)) with 0. exact Hr.
    + assert (D : d <> Bit) by (intros ->; discriminate).
      rewrite ser_args_cons by auto.
      replace (compile names ((n, d) :: fs)) with (flushS names ++ stmt_of n d :: compile [] fs)%list
        by (destruct d; try reflexivity; congruence).
      assert (R : zlen bits <= 8 /\ run_ok 0 fs = true).
      { destruct d; try congruence; cbn [run_ok] in Hr; apply andb_true_iff in Hr; rewrite Z.leb_le in Hr; exact Hr. }
      destruct R as [R1 R2].
      rewrite exec_encs_app.
      eapply enc_spec_eq; [|reflexivity|apply (enc_bind true)].
      * rewrite andb_true_l. reflexivity.
      * lia.
      * apply flush_enc_ok; auto; lia.
      * intros Hf. cbn [exec_encs]. pose proof (zlen_nonneg (flush_bits bits)).
        apply enc_bind; [lia| |].
        -- apply stmt_enc_ok; auto; rewrite zlen_patch by lia; lia.
        -- intros Hf2. rewrite zlen_patch in Hf2 by lia. pose proof (zlen_nonneg (ser_arg d v)).
           apply IH; auto; rewrite !zlen_patch by (rewrite ?zlen_patch; lia); lia.
Qed.

Lemma distinct_NoDup l : distinct l = true -> NoDup l.
Proof.
  induction l as [|x l IH]; intros H; constructor; unfold distinct in H; apply andb_true_iff in H; destruct H as [H1 H2].
  - intros I. apply negb_true_iff in H1. assert (existsb (String.eqb x) l = true); [|congruence].
    apply existsb_exists. exists x. split; auto. apply String.eqb_refl.
  - apply IH. exact H2.
Qed.

Lemma lookup_app {A} n (a b : list (string * A)) :
  lookup n (a ++ b) = match lookup n a with Some v => Some v | None => lookup n b end.
Proof. induction a as [|[g v] a IH]; cbn; auto. destruct (String.eqb n g); auto. Qed.

Lemma well_typed_lookup fs m : well_typed fs m -> NoDup (map fst fs) ->
  Forall2 (fun fd v => lookup (fst fd) m = Some v /\ dom_val (snd fd) v) fs (map snd m).
Proof.
  intros H N.
  assert (G : forall pre, Forall2 (fun fd v => lookup (fst fd) (pre ++ m) = Some v /\ dom_val (snd fd) v) fs (map snd m)
     \/ exists fd, In fd fs /\ In (fst fd) (map fst pre)).
  { revert N. induction H as [|[n d] [n' v] fs m [E D] _ IH]; intros N pre; [left; constructor|].
    cbn [fst snd map] in *. subst n'. inversion N as [|? ? N1 N2]; subst.
    destruct (lookup n pre) eqn:L.
    - right. exists (n, d). split; [left; auto|]. clear -L.
      induction pre as [|[g w] pre IH]; cbn in *; [discriminate|].
      destruct (String.eqb_spec n g); [left; auto|right; auto].
    - destruct (IH N2 (pre ++ [(n, v)])%list) as [G|(fd & G1 & G2)].
      + left. constructor; cbn [fst snd].
        * split; auto. rewrite lookup_app, L. cbn. rewrite String.eqb_refl. reflexivity.
        * rewrite <- app_assoc in G. exact G.
      + right. rewrite map_app, in_app_iff in G2. cbn in G2. destruct G2 as [G2|[G2|[]]].
        * exists fd; split; [right|]; auto.
        * exfalso. apply N1. rewrite G2. apply in_map; auto. }
  destruct (G []) as [G'|(fd & _ & [])]. exact G'.
Qed.

Lemma signed_small z : 0 <= z < M31 -> signed M32 z = z.
Proof.
  intros. unfold signed. rewrite Z.mod_small by lia.
  change (M32 / 2) with M31. destruct (Z.ltb_spec z M31); lia.
Qed.

Lemma encode_method_ok e ms m :
  In e catalogue -> well_typed (snd e) ms -> zlen m < M31 ->
  exists st m', amqp_encode_method (entry_id e) ms m = Some (st, m') /\
    zlen m' = zlen m /\
    ((st = zlen (ser_method (snd e) ms) /\ representable_args (snd e) ms = true /\
      zlen (ser_method (snd e) ms) <= zlen m /\
      m' = (ser_method (snd e) ms ++ skipn (List.length (ser_method (snd e) ms)) m)%list)
     \/ (st < 0 /\ (representable_args (snd e) ms = false \/ zlen (ser_method (snd e) ms) > zlen m))).
Proof.
  intros He Ht Hm. destruct (in_catalogue e He) as [R D].
  unfold amqp_encode_method. rewrite switch_enc by auto.
  pose proof (zlen_nonneg m).
  destruct (compile_enc_ok ms (snd e) (map snd ms)) with (names := @nil string) (bits := @nil bool) (m := m) (o := 0)
    as (st & m' & o' & -> & L & _ & C).
  - apply well_typed_lookup; auto using distinct_NoDup.
  - constructor.
  - exact R.
  - lia.
  - lia.
  - fold (ser_method (snd e) ms) in C. fold (representable_args (snd e) ms) in C.
    destruct C as [(G & B & -> & -> & ->)|[G S]].
    + cbn [Z.ltb Z.compare AMQP_STATUS_OK]. cbn [eoff emem]. do 2 eexists. split; [reflexivity|].
      split; [exact L|]. left. pose proof (zlen_nonneg (ser_method (snd e) ms)).
      rewrite signed_small by lia. repeat split; auto; lia.
    + destruct (Z.ltb_spec st 0); [|lia]. cbn [emem]. do 2 eexists. split; [reflexivity|].
      split; [exact L|]. right. split; auto.
Qed.
