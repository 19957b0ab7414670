(** Proofs: decoding of methods: round trip and safety. *)
From Coq Require Import String ZArith List Bool Lia.
From Verif Require Import Base BaseFacts Codec CodecProofs TableModel TableSpec TableEnc TableDec TableRT
  FramingStmt FramingGen FramingModel MethodSpec FramingEnc.
Import ListNotations.
Local Open Scope Z_scope.

(** ** Bits *)
Lemma testbit_octet l : forall k, Z.testbit (octet_of_bits l) (Z.of_nat k) = nth k l false.
Proof.
  induction l as [|b l IH]; intros k; cbn [octet_of_bits].
  - rewrite Z.bits_0. destruct k; reflexivity.
  - destruct k as [|k]; cbn [nth].
    + destruct b; [replace (1 + 2 * octet_of_bits l) with (2 * octet_of_bits l + 1) by lia; apply Z.testbit_odd_0
                  |rewrite Z.add_0_l; apply Z.testbit_even_0].
    + rewrite Nat2Z.inj_succ.
      destruct b; [replace (1 + 2 * octet_of_bits l) with (2 * octet_of_bits l + 1) by lia;
         rewrite Z.testbit_odd_succ by lia|rewrite Z.add_0_l, Z.testbit_even_succ by lia]; apply IH.
Qed.

Lemma land_shift_test a k : 0 <= k -> (Z.land a (Z.shiftl 1 k) =? 0) = negb (Z.testbit a k).
Proof.
  intros Hk. rewrite Z.shiftl_1_l. destruct (Z.testbit a k) eqn:E; cbn [negb].
  - apply Z.eqb_neq. intros H. apply (f_equal (fun z => Z.testbit z k)) in H.
    rewrite Z.land_spec, Z.bits_0, E, Z.pow2_bits_true in H by lia. discriminate.
  - apply Z.eqb_eq. apply Z.bits_inj'; intros j Hj. rewrite Z.land_spec, Z.bits_0.
    rewrite Z.pow2_bits_eqb by lia. destruct (Z.eqb_spec k j) as [<-|]; [rewrite E; reflexivity|apply andb_false_r].
Qed.

Definition vbit (b : bool) : mval := VBool (if b then 1 else 0).

Definition dec_bits (buf : Z) (l : list (string * Z)) : mstruct :=
  map (fun fk => (fst fk, VBool (if Z.land buf (Z.shiftl 1 (snd fk)) =? 0 then 0 else 1))) l.

Lemma dec_bits_octet pre names bits : List.length names = List.length bits ->
  dec_bits (octet_of_bits (pre ++ bits)) (number (zlen pre) names) = combine names (map vbit bits).
Proof.
  revert pre bits. induction names as [|n names IH]; intros pre [|b bits] H; try discriminate; [reflexivity|].
  cbn [number dec_bits map combine fst snd]. f_equal.
  - f_equal. rewrite land_shift_test by apply zlen_nonneg. unfold zlen. rewrite testbit_octet.
    rewrite app_nth2, Nat.sub_diag by lia. destruct b; reflexivity.
  - specialize (IH (pre ++ [b])%list bits ltac:(cbn in H; lia)).
    rewrite <- app_assoc, zlen_app in IH. exact IH.
Qed.

(** ** Round trip *)
Definition rt_ok (d : dom) (v : mval) : Prop := dom_val d v /\ representable d v = true /\ table_ok v.

Lemma decode_str_at w pre b post : zlen b <= wmod w - 1 -> zlen (pre ++ (be (wnat w) (zlen b) ++ b) ++ post) < M63 ->
  dec_str (pre ++ (be (wnat w) (zlen b) ++ b) ++ post) w (zlen pre) = DOk b (zlen pre + zlen (be (wnat w) (zlen b) ++ b)).
Proof.
  intros Hb He. unfold dec_str, amqp_decode. pose proof (zlen_nonneg b).
  rewrite <- app_assoc in *. rewrite decode_at by auto. cbn [dbind].
  rewrite Z.mod_small by lia.
  rewrite app_assoc in *. replace (zlen pre + wbytes w) with (zlen (pre ++ be (wnat w) (zlen b))%list)
    by (rewrite zlen_app, zlen_be_w; reflexivity).
  rewrite decode_bytes_at by auto. f_equal. rewrite !zlen_app, zlen_be_w. lia.
Qed.

Lemma stmt_dec_rt n d v enc pre post : d <> Bit -> rt_ok d v ->
  enc = (pre ++ ser_arg d v ++ post)%list -> zlen enc < M30 ->
  exec_dec enc no_oom (stmt_of n d) (zlen pre) = DOk [(n, norm_val v)] (zlen pre + zlen (ser_arg d v)).
Proof.
  intros Hd (Hv & Hr & Ht) He Hl.
  destruct d, v; cbn [dom_val] in Hv; try contradiction; try congruence;
    cbn [stmt_of exec_dec ser_arg norm_val representable] in *.
  - unfold amqp_decode. rewrite He in *. rewrite (decode_at LittleEndian W8) by (cbn [wnat]; lia).
    cbn [dbind wmod wbytes]. rewrite Z.mod_small by lia. rewrite zlen_be. reflexivity.
  - unfold amqp_decode. rewrite He in *. rewrite (decode_at LittleEndian W16) by (cbn [wnat]; lia).
    cbn [dbind wmod wbytes]. rewrite Z.mod_small by lia. rewrite zlen_be. reflexivity.
  - unfold amqp_decode. rewrite He in *. rewrite (decode_at LittleEndian W32) by (cbn [wnat]; lia).
    cbn [dbind wmod wbytes]. rewrite Z.mod_small by lia. rewrite zlen_be. reflexivity.
  - unfold amqp_decode. rewrite He in *. rewrite (decode_at LittleEndian W64) by (cbn [wnat]; lia).
    cbn [dbind wmod wbytes]. rewrite Z.mod_small by lia. rewrite zlen_be. reflexivity.
  - apply Z.leb_le in Hr. rewrite He in *. unfold shortstr in *.
    assert (G : dec_str (pre ++ (be 1 (zlen b) ++ b) ++ post) W8 (zlen pre) = DOk b (zlen pre + zlen (be 1 (zlen b) ++ b))).
    { apply (decode_str_at W8); cbn [wmod wnat]; lia. }
    rewrite G. reflexivity.
  - apply Z.leb_le in Hr. rewrite He in *. unfold longstr in *.
    assert (G : dec_str (pre ++ (be 4 (zlen b) ++ b) ++ post) W32 (zlen pre) = DOk b (zlen pre + zlen (be 4 (zlen b) ++ b))).
    { apply (decode_str_at W32); cbn [wmod wnat]; lia. }
    rewrite G. reflexivity.
  - destruct Ht as [Hs Hlv].
    pose proof (decode_table_rt t enc pre post Hv Hr Hs He Hl) as R.
    change TABLE_DEPTH_LIMIT with 100 in R. apply Z.leb_le in Hlv. rewrite Hlv in R.
    cbn [rt_spec] in R. rewrite R. reflexivity.
Qed.

Lemma flush_dec_rt names bits enc pre post :
  List.length names = List.length bits -> zlen bits <= 8 ->
  enc = (pre ++ flush_bits bits ++ post)%list -> zlen enc < M30 ->
  forall rest acc,
  exec_decs enc no_oom (flushS names ++ rest) (zlen pre) acc =
  exec_decs enc no_oom rest (zlen pre + zlen (flush_bits bits)) (acc ++ combine names (map vbit bits)).
Proof.
  intros Hn Hb He Hl rest acc. destruct names as [|n names], bits as [|b bits]; try discriminate.
  - cbn. rewrite Z.add_0_r, app_nil_r. reflexivity.
  - cbn [flushS app flush_bits exec_decs exec_dec] in *. rewrite He in *.
    unfold amqp_decode. rewrite (decode_at LittleEndian W8) by (cbn [wnat]; lia).
    cbn [dbind wmod wbytes]. pose proof (octet_of_bits_range (b :: bits)) as R.
    assert (2 ^ zlen (b :: bits) <= 2 ^ 8) by (apply Z.pow_le_mono_r; lia).
    rewrite Z.mod_small by lia. rewrite zlen_be.
    pose proof (dec_bits_octet [] (n :: names) (b :: bits) Hn) as G.
    change (dec_bits (octet_of_bits (b :: bits)) (number 0 (n :: names)) = combine (n :: names) (map vbit (b :: bits))) in G.
    unfold dec_bits in G. rewrite G. reflexivity.
Qed.

Lemma combine_snoc {A B} (a : list A) (b : list B) x y : List.length a = List.length b ->
  combine (a ++ [x]) (b ++ [y]) = (combine a b ++ [(x, y)])%list.
Proof.
  revert b. induction a as [|u a IH]; intros [|w b] H; try discriminate; [reflexivity|].
  cbn. rewrite IH by (cbn in H; lia). reflexivity.
Qed.

Lemma compile_dec_rt fs vs :
  Forall2 (fun fd v => rt_ok (snd fd) v) fs vs ->
  forall names bits enc pre post acc,
  List.length names = List.length bits -> run_ok (zlen bits) fs = true ->
  enc = (pre ++ ser_args bits (combine (map snd fs) vs) ++ post)%list -> zlen enc < M30 ->
  exec_decs enc no_oom (compile names fs) (zlen pre) acc =
    DOk (acc ++ combine names (map vbit bits) ++ combine (map fst fs) (map norm_val vs))%list
        (zlen pre + zlen (ser_args bits (combine (map snd fs) vs))).
Proof.
  induction 1 as [|[n d] v fs vs Hv _ IH]; intros names bits enc pre post acc Hn Hr He Hl; cbn [fst snd] in *.
  - cbn in Hr. apply Z.leb_le in Hr. cbn [map combine ser_args compile] in *.
    rewrite <- (app_nil_r (flushS names)).
    rewrite (flush_dec_rt names bits enc pre post) by auto. cbn [exec_decs].
    rewrite app_nil_r. reflexivity.
  - cbn [map snd combine fst] in *.
    destruct (match d with Bit => true | _ => false end) eqn:Ed.
    + destruct d; try discriminate. destruct v as [| | |z]; try (destruct Hv as [[] _]).
      cbn [compile ser_args run_ok] in *.
      rewrite (IH (names ++ [n])%list (bits ++ [negb (z =? 0)])%list enc pre post).
      * f_equal. rewrite map_app. cbn [map]. rewrite combine_snoc by (rewrite map_length; auto).
        rewrite <- !app_assoc. cbn [app norm_val]. unfold vbit at 2. destruct (z =? 0); reflexivity.
      * rewrite !app_length. cbn. lia.
      * rewrite zlen_app, zlen_cons. exact Hr.
      * exact He.
      * exact Hl.
    + assert (D : d <> Bit) by (intros ->; discriminate).
      rewrite ser_args_cons in * by auto.
      replace (compile names ((n, d) :: fs)) with (flushS names ++ stmt_of n d :: compile [] fs)%list
        by (destruct d; try reflexivity; congruence).
      assert (R : zlen bits <= 8 /\ run_ok 0 fs = true).
      { destruct d; try congruence; cbn [run_ok] in Hr; apply andb_true_iff in Hr; rewrite Z.leb_le in Hr; exact Hr. }
      destruct R as [R1 R2].
      rewrite <- !app_assoc in He.
      rewrite (flush_dec_rt names bits enc pre _ Hn R1 He Hl). cbn [exec_decs].
      rewrite app_assoc in He.
      replace (zlen pre + zlen (flush_bits bits)) with (zlen (pre ++ flush_bits bits)%list) by apply zlen_app.
      rewrite (stmt_dec_rt n d v enc _ _ D Hv He Hl). cbn [dbind].
      rewrite app_assoc in He.
      replace (zlen (pre ++ flush_bits bits)%list + zlen (ser_arg d v)) with
         (zlen ((pre ++ flush_bits bits) ++ ser_arg d v)%list) by apply zlen_app.
      rewrite (IH [] [] enc _ post _ eq_refl R2 He Hl). f_equal.
      * cbn [map combine app]. rewrite <- !app_assoc. reflexivity.
      * rewrite !zlen_app. lia.
Qed.

Lemma combine_norm fs ms : well_typed fs ms ->
  combine (map fst fs) (map norm_val (map snd ms)) = norm_struct ms.
Proof.
  induction 1 as [|[n d] [n' v] fs ms [E D] _ IH]; [reflexivity|].
  cbn in *. subst. rewrite IH. reflexivity.
Qed.

Lemma rt_args fs ms : well_typed fs ms -> representable_args fs ms = true -> tables_ok ms ->
  Forall2 (fun fd v => rt_ok (snd fd) v) fs (map snd ms).
Proof.
  unfold representable_args, tables_ok.
  induction 1 as [|[n d] [n' v] fs ms [E D] _ IH]; intros R T; [constructor|].
  cbn [map combine forallb fst snd] in *. apply andb_true_iff in R. destruct R as [R1 R2].
  inversion T; subst. constructor; [|auto]. cbn [fst snd] in *. unfold rt_ok. auto.
Qed.

Lemma decode_method_rt e ms post :
  In e catalogue -> well_typed (snd e) ms -> representable_args (snd e) ms = true -> tables_ok ms ->
  zlen (ser_method (snd e) ms ++ post) < M30 ->
  amqp_decode_method (entry_id e) (ser_method (snd e) ms ++ post) no_oom =
    DOk (norm_struct ms) (zlen (ser_method (snd e) ms)).
Proof.
  intros He Ht Hr Htb Hl. destruct (in_catalogue e He) as [R D].
  unfold amqp_decode_method. rewrite switch_dec by auto. unfold no_oom at 1.
  pose proof (compile_dec_rt (snd e) (map snd ms) (rt_args _ _ Ht Hr Htb) [] [] _ [] post [] eq_refl R eq_refl Hl) as G.
  cbn [map combine app] in G. rewrite combine_norm in G by auto. exact G.
Qed.

(** ** Safety on arbitrary data *)
Section Safe.
Variable enc : bytes.
Variable oom : Z -> Z -> bool.
Hypothesis Henc : zlen enc < M30.

(** what a decoded argument satisfies *)
Definition fresh_arg (d : dom) (v : mval) : Prop := rt_ok d v /\ norm_val v = v.

Lemma fresh_table_arg t n : Forall (fresh_entry 0) t /\ n = zlen (ser_table t) -> fresh_arg Tbl (VTable t).
Proof.
  intros [S _]. rewrite Forall_forall in S. unfold fresh_arg, rt_ok. cbn [dom_val representable table_ok norm_val].
  split; [split; [|split; [|split]]|].
  - apply all_Forall, Forall_forall. intros x Hx. destruct (S x Hx) as [A B]. split; [lia|apply B].
  - apply forallb_forall. intros x Hx. apply (S x Hx).
  - apply all_Forall, Forall_forall. intros x Hx. destruct (S x Hx) as [A B]. split; [lia|apply B].
  - unfold table_levels. apply fold_max_le; [lia|]. rewrite Forall_map. apply Forall_forall.
    intros x Hx. destruct (S x Hx) as (_ & _ & _ & _ & _ & B & _).
    change TABLE_DEPTH_LIMIT with 100 in B. lia.
  - f_equal. unfold norm_table. rewrite <- (map_id t) at 2. apply map_ext_in.
    intros [k v] Hx. cbn. f_equal. apply (S _ Hx).
Qed.

Lemma dec_good_weaken {A} off (P Q : A -> Z -> Prop) r :
  (forall a n, P a n -> Q a n) -> dec_good enc off P r -> dec_good enc off Q r.
Proof. intros H. destruct r; cbn; intuition auto. Qed.

Lemma dec_str_safe w off : 0 <= off <= zlen enc -> (w = W8 \/ w = W32) ->
  dec_good enc off (fun b n => zlen b <= wmod w - 1 /\ n = zlen (be (wnat w) (zlen b) ++ b)) (dec_str enc w off).
Proof.
  intros Ho Hw. unfold dec_str.
  eapply dbind_good; [lia|apply decode_safe; lia|].
  intros len off' Ho' [E R]. cbn beta.
  assert (0 <= len < M63) by (destruct Hw; subst; cbn [wmod] in R; lia).
  eapply dec_good_weaken; [|apply decode_bytes_safe; lia].
  cbn beta. intros b n [-> Lb]. split; [lia|]. rewrite zlen_app, zlen_be_w. lia.
Qed.

Lemma stmt_dec_safe n d off : d <> Bit -> 0 <= off <= zlen enc ->
  dec_good enc off (fun ms k => exists v, ms = [(n, v)] /\ fresh_arg d v /\ k = zlen (ser_arg d v))
    (exec_dec enc oom (stmt_of n d) off).
Proof.
  intros Hd Ho.
  assert (I : forall w dd, stmt_of n dd = SInt w n ->
     (forall z, 0 <= z < wmod w -> fresh_arg dd (VInt z) /\ wbytes w = zlen (ser_arg dd (VInt z))) ->
     dec_good enc off (fun ms k => exists v, ms = [(n, v)] /\ fresh_arg dd v /\ k = zlen (ser_arg dd v))
        (exec_dec enc oom (stmt_of n dd) off)).
  { intros w dd E H. rewrite E. cbn [exec_dec].
    eapply dbind_good; [lia|apply decode_safe; lia|].
    intros z off' Ho' [E2 R]. cbn. split; [lia|]. exists (VInt z). split; [reflexivity|].
    destruct (H z R) as [A B]. split; [exact A|]. lia. }
  destruct d; try congruence.
  - apply (I W8); [reflexivity|]. intros z Hz. cbn [ser_arg wmod wbytes] in *. rewrite zlen_be. repeat split; cbn; lia.
  - apply (I W16); [reflexivity|]. intros z Hz. cbn [ser_arg wmod wbytes] in *. rewrite zlen_be. repeat split; cbn; lia.
  - apply (I W32); [reflexivity|]. intros z Hz. cbn [ser_arg wmod wbytes] in *. rewrite zlen_be. repeat split; cbn; lia.
  - apply (I W64); [reflexivity|]. intros z Hz. cbn [ser_arg wmod wbytes] in *. rewrite zlen_be. repeat split; cbn; lia.
  - cbn [stmt_of exec_dec]. eapply dbind_good; [lia|apply (dec_str_safe W8); auto|].
    intros b off' Ho' [Hb E]. cbn [dec_good]. split; [lia|]. exists (VBytes b). split; [reflexivity|].
    cbn [wmod wnat ser_arg] in *. split; [|unfold shortstr; lia]. repeat split; cbn; try lia; try (apply Z.leb_le; lia).
  - cbn [stmt_of exec_dec]. eapply dbind_good; [lia|apply (dec_str_safe W32); auto|].
    intros b off' Ho' [Hb E]. cbn [dec_good]. split; [lia|]. exists (VBytes b). split; [reflexivity|].
    cbn [wmod wnat ser_arg] in *. split; [|unfold longstr; lia]. repeat split; cbn; try lia; try (apply Z.leb_le; lia).
  - cbn [stmt_of exec_dec]. eapply dbind_good; [lia|apply decode_table_safe; auto|].
    intros t off' Ho' Ht. cbn [dec_good]. split; [lia|]. exists (VTable t). split; [reflexivity|].
    split; [eapply fresh_table_arg; exact Ht|]. destruct Ht as [_ Ht]. cbn [ser_arg]. lia.
Qed.

Lemma dec_bits_norm buf names : forall i, exists bits, List.length bits = List.length names /\
  dec_bits buf (number i names) = combine names (map vbit bits).
Proof.
  induction names as [|n names IH]; intros i; [exists []; auto|].
  destruct (IH (i + 1)) as (bits & L & E). 
  exists ((if Z.land buf (Z.shiftl 1 i) =? 0 then false else true) :: bits). cbn. split; [lia|].
  unfold dec_bits in E. rewrite E. destruct (Z.land buf (Z.shiftl 1 i) =? 0); reflexivity.
Qed.

Lemma flush_dec_safe names off acc (Q : mstruct -> Z -> Prop) rest : 0 <= off <= zlen enc ->
  (forall bits off', List.length bits = List.length names -> off <= off' <= zlen enc ->
     off' - off = zlen (flush_bits bits) ->
     dec_good enc off' (fun ms k => Q ms (k + (off' - off)))
       (exec_decs enc oom rest off' (acc ++ combine names (map vbit bits)))) ->
  dec_good enc off Q (exec_decs enc oom (flushS names ++ rest) off acc).
Proof.
  intros Ho K. destruct names as [|n names].
  - cbn [flushS app]. specialize (K [] off eq_refl ltac:(lia)). cbn [combine] in K. rewrite app_nil_r in K.
    eapply dec_good_weaken; [|apply K; rewrite Z.sub_diag; reflexivity]. cbn beta. intros a k. rewrite Z.sub_diag, Z.add_0_r. auto.
  - cbn [flushS app exec_decs exec_dec].
    assert (G : dec_good enc off (fun ms k => exists bits, List.length bits = List.length (n :: names) /\
       ms = combine (n :: names) (map vbit bits) /\ k = 1)
       (dbind (amqp_decode W8 enc off) (fun buf off0 => DOk (dec_bits buf (number 0 (n :: names))) off0))).
    { eapply dbind_good; [lia|apply decode_safe; lia|]. intros z off' Ho' [E R]. cbn [dec_good].
      split; [lia|]. destruct (dec_bits_norm z (n :: names) 0) as (bits & L & B). exists bits.
      split; [exact L|]. split; [exact B|]. cbn [wbytes] in E. lia. }
    unfold dec_bits in G.
    eapply dbind_good; [lia|exact G|]. cbn beta. intros ms off' Ho' (bits & L & -> & E).
    apply K; auto. destruct bits; [discriminate|]. cbn [flush_bits]. rewrite zlen_be. lia.
Qed.

Lemma compile_dec_safe fs : forall names off acc, 0 <= off <= zlen enc ->
  dec_good enc off (fun ms k => exists bits vs, List.length bits = List.length names /\
     ms = (acc ++ combine names (map vbit bits) ++ combine (map fst fs) vs)%list /\
     Forall2 (fun fd v => fresh_arg (snd fd) v) fs vs /\
     k = zlen (ser_args bits (combine (map snd fs) vs)))
   (exec_decs enc oom (compile names fs) off acc).
Proof.
  induction fs as [|[n d] fs IH]; intros names off acc Ho.
  - cbn [compile]. rewrite <- (app_nil_r (flushS names)). apply flush_dec_safe; [lia|].
    intros bits off' L Ho' E. cbn. split; [lia|]. exists bits, []. cbn. rewrite app_nil_r.
    repeat split; auto. lia.
  - destruct (match d with Bit => true | _ => false end) eqn:Ed.
    + destruct d; try discriminate. cbn [compile].
      eapply dec_good_weaken; [|apply IH; auto]. cbn beta.
      intros ms k (bits & vs & L & -> & F & E).
      rewrite app_length in L. cbn in L.
      destruct (exists_last (l := bits)) as (bits' & b & ->); [intros ->; cbn in L; lia|].
      rewrite app_length in L. cbn in L.
      exists bits', (vbit b :: vs). split; [lia|]. split; [|split].
      * cbn [map fst combine]. rewrite map_app. cbn [map].
        rewrite combine_snoc by (rewrite map_length; lia). rewrite <- app_assoc. reflexivity.
      * constructor; auto. unfold fresh_arg, rt_ok, vbit. destruct b; cbn; repeat split; lia.
      * cbn [map snd combine ser_args]. rewrite E. unfold vbit.
        replace (negb ((if b then 1 else 0) =? 0)) with b by (destruct b; reflexivity). reflexivity.
    + assert (D : d <> Bit) by (intros ->; discriminate).
      replace (compile names ((n, d) :: fs)) with (flushS names ++ stmt_of n d :: compile [] fs)%list
        by (destruct d; try reflexivity; congruence).
      apply flush_dec_safe; [lia|]. intros bits off' L Ho' E. cbn [exec_decs].
      eapply dbind_good; [lia|apply stmt_dec_safe; [auto|lia]|]. cbn beta.
      intros ms1 off2 Ho2 (v & -> & Fv & E2).
      eapply dec_good_weaken; [|apply IH; lia]. cbn beta.
      intros ms k (bits2 & vs & L2 & -> & F & E3).
      destruct bits2; [|discriminate]. cbn [map combine app] in *.
      exists bits, (v :: vs). split; [auto|]. split; [|split].
      * cbn [map fst combine]. rewrite <- !app_assoc. reflexivity.
      * constructor; auto.
      * cbn [map snd combine]. rewrite ser_args_cons by auto. rewrite !zlen_app. lia.
Qed.

Lemma fresh_well_typed fs vs : Forall2 (fun fd v => fresh_arg (snd fd) v) fs vs ->
  well_typed fs (combine (map fst fs) vs) /\ representable_args fs (combine (map fst fs) vs) = true /\
  tables_ok (combine (map fst fs) vs) /\ norm_struct (combine (map fst fs) vs) = combine (map fst fs) vs /\
  map snd (combine (map fst fs) vs) = vs.
Proof.
  unfold well_typed, representable_args, tables_ok, norm_struct.
  induction 1 as [|[n d] v fs vs ((A & B & C) & D) _ (I1 & I2 & I3 & I4 & I5)]; [repeat split; constructor|].
  cbn [map combine fst snd forallb] in *.
  split; [constructor; auto|]. split; [rewrite B; exact I2|]. split; [constructor; auto|].
  split; [rewrite D, I4; reflexivity|]. rewrite I5. reflexivity.
Qed.

Lemma decode_method_safe e :
  In e catalogue ->
  dec_good enc 0 (fun ms k => well_typed (snd e) ms /\ representable_args (snd e) ms = true /\ tables_ok ms /\
     norm_struct ms = ms /\ k = zlen (ser_method (snd e) ms))
    (amqp_decode_method (entry_id e) enc oom).
Proof.
  intros He. unfold amqp_decode_method. rewrite switch_dec by auto.
  destruct (oom SITE_METHOD 0); [right; reflexivity|].
  pose proof (zlen_nonneg enc).
  eapply dec_good_weaken; [|apply compile_dec_safe; lia]. cbn beta.
  intros ms k (bits & vs & L & -> & F & E). destruct bits; [|discriminate]. cbn [map combine app] in *.
  destruct (fresh_well_typed _ _ F) as (A & B & C & D & G). repeat split; auto.
  unfold ser_method. rewrite G. exact E.
Qed.
End Safe.

Lemma decode_unknown n enc oom : ~ In n (map entry_id catalogue) ->
  amqp_decode_method n enc oom = DErr AMQP_STATUS_UNKNOWN_METHOD 0.
Proof.
  intros H. unfold amqp_decode_method. rewrite switch_none; [reflexivity|].
  rewrite dec_table_catalogue, map_map. exact H.
Qed.
Lemma encode_unknown n ms m : ~ In n (map entry_id catalogue) ->
  amqp_encode_method n ms m = Some (AMQP_STATUS_UNKNOWN_METHOD, m).
Proof.
  intros H. unfold amqp_encode_method. rewrite switch_none; [reflexivity|].
  rewrite enc_table_catalogue, map_map. exact H.
Qed.
