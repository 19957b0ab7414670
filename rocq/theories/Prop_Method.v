(** Final statements for C07, C08, C09, C15: methods and content properties. *)
From Coq Require Import String ZArith List Bool Lia.
From Verif Require Import Base BaseFacts Codec CodecProofs TableModel TableSpec TableEnc TableDec TableRT
  FramingStmt FramingGen FramingModel MethodSpec FramingEnc FramingDec FramingProps.
Import ListNotations.
Local Open Scope string_scope.
Local Open Scope Z_scope.

(** The structs of the C API have exactly the arguments of the catalogue, with
    the corresponding C types. *)
Definition ctype_of (d : dom) : ctype :=
  match d with
  | Octet => CInt W8 | Short => CInt W16 | Long => CInt W32 | Longlong => CInt W64
  | ShortStr | LongStr => CBytes | Bit => CBool | Tbl => CTable
  end.
Theorem C07_structs_match_catalogue :
  struct_table = map (fun e => (method_id (fst (fst e)) (snd (fst e)),
                                map (fun fd => (fst fd, ctype_of (snd fd))) (snd e))) catalogue.
Proof. vm_compute. reflexivity. Qed.

(** C07.  For every method of the catalogue and every well-typed struct:
    encoding writes exactly the catalogue's wire format at the start of the
    buffer (and reports its length), or fails when that does not fit or is not
    representable; decoding the wire format gives the arguments back. *)
Theorem C07_method_layout :
  forall c i fs (args : mstruct) (buf : bytes),
    In (c, i, fs) catalogue -> well_typed fs args -> zlen buf < M31 ->
    exists st buf',
      amqp_encode_method (method_id c i) args buf = Some (st, buf') /\ length buf' = length buf /\
      ((st = zlen (ser_method fs args) /\ representable_args fs args = true /\
        zlen (ser_method fs args) <= zlen buf /\
        buf' = ser_method fs args ++ skipn (length (ser_method fs args)) buf)%list
       \/ (st < 0 /\ (representable_args fs args = false \/ zlen (ser_method fs args) > zlen buf))).
Proof.
  intros c i fs args buf Hin Ht Hb.
  destruct (encode_method_ok (c, i, fs) args buf Hin Ht Hb) as (st & m' & E & L & C).
  exists st, m'. split; [exact E|]. split; [unfold zlen in L; lia|]. exact C.
Qed.

Theorem C07_method_roundtrip :
  forall c i fs (args : mstruct) (post : bytes),
    In (c, i, fs) catalogue -> well_typed fs args -> representable_args fs args = true -> tables_ok args ->
    zlen (ser_method fs args ++ post) < M30 ->
    amqp_decode_method (method_id c i) (ser_method fs args ++ post) no_oom =
      DOk (norm_struct args) (zlen (ser_method fs args)).
Proof. intros c i fs args post Hin. exact (decode_method_rt (c, i, fs) args post Hin). Qed.

Definition sample_declare : mstruct :=
  [("ticket", VInt 0); ("queue", VBytes [x71; x31]); ("passive", VBool 0); ("durable", VBool 5);
   ("exclusive", VBool 0); ("auto_delete", VBool 1); ("nowait", VBool 0);
   ("arguments", VTable [([x78], FI32 (-1))])].
Definition declare_fields : list (string * dom) :=
  [("ticket", Short); ("queue", ShortStr); ("passive", Bit); ("durable", Bit); ("exclusive", Bit);
   ("auto_delete", Bit); ("nowait", Bit); ("arguments", Tbl)].
Example C07_case :
  In (50, 10, declare_fields) catalogue /\
  well_typed declare_fields sample_declare /\ representable_args declare_fields sample_declare = true /\
  tables_ok sample_declare /\
  ser_method declare_fields sample_declare =
    [x00; x00; x02; x71; x31; x0a; x00; x00; x00; x07; x01; x78; x49; xff; xff; xff; xff].
Proof.
  split; [cbv; tauto|]. split; [|split; [reflexivity|split; [|reflexivity]]].
  - unfold well_typed, sample_declare, declare_fields. repeat constructor; cbn; try lia; try discriminate.
  - unfold tables_ok, sample_declare. repeat constructor; cbn; try lia; try discriminate.
Qed.

(** C08.  Every method number, every byte string: decoding returns success with
    in-range arguments, or an error; no access outside the bytes. *)
Theorem C08_method_decoding_total_and_safe :
  forall (n : Z) (enc : bytes) (oom : Z -> Z -> bool),
    zlen enc < M30 ->
    (exists c i fs args off,
       In (c, i, fs) catalogue /\ n = method_id c i /\
       amqp_decode_method n enc oom = DOk args off /\
       well_typed fs args /\ representable_args fs args = true /\ tables_ok args /\ norm_struct args = args /\
       off = zlen (ser_method fs args) /\ off <= zlen enc)
    \/ (exists st off, amqp_decode_method n enc oom = DErr st off /\
         (st = AMQP_STATUS_BAD_AMQP_DATA \/ st = AMQP_STATUS_NO_MEMORY \/
          (st = AMQP_STATUS_UNKNOWN_METHOD /\ forall c i fs, In (c, i, fs) catalogue -> n <> method_id c i))).
Proof.
  intros n enc oom He.
  destruct (in_dec Z.eq_dec n (map entry_id catalogue)) as [I|I].
  - apply in_map_iff in I. destruct I as ([[c i] fs] & <- & I).
    pose proof (decode_method_safe enc oom He (c, i, fs) I) as S.
    destruct (amqp_decode_method (entry_id (c, i, fs)) enc oom) as [args off|st off| |]; cbn [dec_good snd] in S; try contradiction.
    + left. exists c, i, fs, args, off. destruct S as (S1 & S2 & S3 & S4 & S5 & S6).
      split; [exact I|]. split; [reflexivity|]. split; [reflexivity|].
      repeat (split; [assumption|]). lia.
    + right. exists st, off. split; [reflexivity|]. destruct S as [S|S]; auto.
  - right. exists AMQP_STATUS_UNKNOWN_METHOD, 0. split; [apply decode_unknown; auto|].
    right. right. split; [reflexivity|]. intros c i fs H E. apply I. apply in_map_iff. exists (c, i, fs). auto.
Qed.

(** Encoding refuses method numbers outside the catalogue. *)
Theorem C08_unknown_method_refused :
  forall n args buf, (forall c i fs, In (c, i, fs) catalogue -> n <> method_id c i) ->
    amqp_encode_method n args buf = Some (AMQP_STATUS_UNKNOWN_METHOD, buf).
Proof.
  intros n args buf H. apply encode_unknown. intros I. apply in_map_iff in I.
  destruct I as ([[c i] fs] & E & I). apply (H c i fs I). symmetry. exact E.
Qed.

Example C08_case :
  (exists o, amqp_decode_method (method_id 60 80) [x00; x01] no_oom = DErr AMQP_STATUS_BAD_AMQP_DATA o) /\
  amqp_decode_method (method_id 60 80) [x00; x00; x00; x00; x00; x00; x00; x07; xff; x00] no_oom =
    DOk [("delivery_tag", VInt 7); ("multiple", VBool 1)] 9 /\
  amqp_decode_method 12345 [x00] no_oom = DErr AMQP_STATUS_UNKNOWN_METHOD 0.
Proof. split; [eexists|split]; vm_compute; reflexivity. Qed.

(** An over-long short string is refused on encoding. *)
Theorem C08_long_shortstr_refused :
  forall c i fs args buf n b,
    In (c, i, fs) catalogue -> well_typed fs args -> zlen buf < M31 ->
    In (n, ShortStr) fs -> In (n, VBytes b) args -> zlen b > 255 ->
    exists st buf', amqp_encode_method (method_id c i) args buf = Some (st, buf') /\ st < 0.
Proof.
  intros c i fs args buf n b Hin Ht Hb Hf Ha Hl.
  destruct (encode_method_ok (c, i, fs) args buf Hin Ht Hb) as (st & m' & E & L & C).
  exists st, m'. split; [exact E|]. destruct C as [(_ & R & _)|(S & _)]; [|exact S].
  exfalso. cbn [snd] in *. destruct (in_catalogue _ Hin) as [_ D]. cbn [snd] in D.
  apply distinct_NoDup in D. clear -R Ht Hf Ha Hl D.
  unfold representable_args in R. induction Ht as [|[n1 d] [n2 v] fs args [E1 E2] Ht IH]; [contradiction|].
  cbn [fst snd map combine forallb] in *. subst n2. apply andb_true_iff in R. destruct R as [R1 R2].
  inversion D as [|? ? D1 D2]; subst.
  assert (N : forall x, In x args -> In (fst x) (map fst fs)).
  { clear -Ht. induction Ht as [|a1 b1 l1 l2 [E3 E4] Ht' IH']; intros z Hz; [contradiction|].
    cbn [map In] in *. destruct Hz as [<-|Hz]; [left; auto|right; auto]. }
  destruct Hf as [Hf|Hf], Ha as [Ha|Ha].
  - injection Hf as -> ->. injection Ha as ->. cbn [representable] in R1. apply Z.leb_le in R1. lia.
  - injection Hf as -> ->. apply D1. apply (N _ Ha).
  - injection Ha as -> ->. apply D1. apply (in_map fst) in Hf. exact Hf.
  - apply IH; auto.
Qed.

(** C09.  Round trip of the basic properties. *)
Lemma present_lookup flags ms l : NoDup (map (fun p : Z * string * dom => snd (fst p)) l) -> forall pl,
  present flags l ms = Some pl ->
  (forall k n d, In (k, n, d) l ->
    lookup n (received_props pl) = if Z.testbit flags k then option_map norm_val (lookup n ms) else None) /\
  (forall n, ~ In n (map (fun p : Z * string * dom => snd (fst p)) l) -> lookup n (received_props pl) = None).
Proof.
  induction l as [|[[k0 n0] d0] l IH]; intros N pl Hp.
  - cbn in Hp. injection Hp as <-. split; [intros k n d []|reflexivity].
  - cbn [map fst snd] in N. inversion N as [|? ? N1 N2]; subst. cbn [present] in Hp.
    destruct (Z.testbit flags k0) eqn:T.
    + destruct (lookup n0 ms) as [v|] eqn:L; [|discriminate].
      destruct (present flags l ms) as [t|] eqn:P; [|discriminate]. injection Hp as <-.
      destruct (IH N2 t eq_refl) as [I1 I2]. split.
      * intros k n d [E|I].
        -- injection E as <- <- <-. cbn [received_props map fst snd lookup]. rewrite String.eqb_refl, T, L. reflexivity.
        -- cbn [received_props map fst snd lookup]. destruct (String.eqb_spec n n0) as [->|]; [|apply (I1 k n d I)].
           exfalso. apply N1. apply in_map_iff. exists (k, n0, d). auto.
      * intros n H. cbn [map fst snd] in H. cbn [received_props map fst snd lookup].
        destruct (String.eqb_spec n n0) as [->|]; [exfalso; apply H; left; auto|]. apply I2. intros I. apply H. right. exact I.
    + destruct (IH N2 pl Hp) as [I1 I2]. split.
      * intros k n d [E|I]; [|apply (I1 k n d I)]. injection E as <- <- <-. rewrite T. apply I2. exact N1.
      * intros n H. apply I2. intros I. apply H. right. exact I.
Qed.

Theorem C09_basic_properties_roundtrip :
  forall (flags : Z) (ms : mstruct) (pl : list (string * dom * mval)) (buf : bytes),
    0 <= flags < M32 ->
    present flags basic_catalogue ms = Some pl -> props_typed pl ->
    props_representable pl = true -> props_tables_ok pl ->
    zlen (ser_props flags pl) <= zlen buf -> zlen buf < M30 ->
    exists buf' ms' off,
      amqp_encode_properties 60 (mkProps flags ms) buf = Some (zlen (ser_props flags pl), buf') /\
      firstn (length (ser_props flags pl)) buf' = ser_props flags pl /\
      amqp_decode_properties 60 buf' no_oom = DOk (mkProps (wire_flags flags) ms') off /\
      (Z.land flags 0xFFFC = flags -> wire_flags flags = flags) /\
      (forall k n d, In (k, n, d) basic_catalogue ->
         lookup n ms' = if Z.testbit flags k then option_map norm_val (lookup n ms) else None).
Proof.
  intros flags ms pl buf Hf Hp Ht Hr Htb Hfit Hb.
  destruct (encode_properties_ok flags ms pl buf Hf Hp Ht ltac:(lia)) as (st & m' & E & L & C).
  destruct C as [(-> & _ & _ & ->)|(_ & [C|C])]; [|congruence|lia].
  eexists _, (received_props pl), _. split; [exact E|]. split.
  { rewrite firstn_app, Nat.sub_diag, firstn_all, firstn_O, app_nil_r. reflexivity. }
  split; [apply (decode_properties_rt flags ms); auto; lia|]. split.
  - intros G. assert (H : flags < 65536).
    { assert (X : Z.land flags 0xFFFC = Z.land (Z.land flags 0xFFFC) (Z.ones 16)) by (rewrite <- Z.land_assoc; reflexivity).
      rewrite Z.land_ones in X by lia. change (2 ^ 16) with 65536 in X.
      pose proof (Z.mod_pos_bound (Z.land flags 0xFFFC) 65536). lia. }
    unfold wire_flags. destruct (Z.ltb_spec flags 65536); [|lia].
    apply Z.bits_inj'. intros k Hk. rewrite Z.clearbit_eqb by lia.
    destruct (Z.eqb_spec 0 k) as [<-|]; [|apply andb_true_r].
    rewrite <- G, Z.land_spec. rewrite andb_false_r. symmetry. apply andb_false_r.
  - apply (present_lookup flags ms basic_catalogue).
    + apply distinct_NoDup. reflexivity.
    + exact Hp.
Qed.

Definition sample_props : mstruct :=
  [("content_type", VBytes [x74; x65; x78; x74]); ("delivery_mode", VInt 2);
   ("headers", VTable [([x6b], FBool 3)]); ("timestamp", VInt 1700000000)].
Definition sample_flags : Z :=
  AMQP_BASIC_CONTENT_TYPE_FLAG + AMQP_BASIC_DELIVERY_MODE_FLAG + AMQP_BASIC_HEADERS_FLAG + AMQP_BASIC_TIMESTAMP_FLAG.
Example C09_case : exists pl, present sample_flags basic_catalogue sample_props = Some pl /\
  props_typed pl /\ props_representable pl = true /\ props_tables_ok pl /\ length pl = 4%nat /\
  Z.land sample_flags 0xFFFC = sample_flags.
Proof.
  eexists. split; [reflexivity|].
  split; [unfold props_typed; repeat constructor; cbn; try lia; try discriminate|].
  split; [reflexivity|]. split; [|split; reflexivity].
  unfold props_tables_ok. repeat constructor; cbn; try lia; try discriminate.
Qed.

(** C08 for properties and C15, the part that holds: unless the data has three
    or more flag words, decoding is total and memory safe for every class. *)
Theorem C15_properties_decoding_safe_partial :
  forall (class_id : Z) (enc : bytes) (oom : Z -> Z -> bool),
    zlen enc < M30 ->
    ~ (zlen enc >= 6 /\ continues enc 0 = true /\ continues enc 2 = true) ->
    (exists flags pl off,
        amqp_decode_properties class_id enc oom = DOk (mkProps flags (received_props pl)) off /\
        0 <= flags < M32 /\ off <= zlen enc /\
        props_typed pl /\ props_representable pl = true /\ props_tables_ok pl /\
        (class_id = 60 ->
          map fst pl = map (fun p => (snd (fst p), snd p))
                           (filter (fun p => Z.testbit flags (fst (fst p))) basic_catalogue)))
    \/ (exists st off, amqp_decode_properties class_id enc oom = DErr st off /\
          (st = AMQP_STATUS_BAD_AMQP_DATA \/ st = AMQP_STATUS_NO_MEMORY \/
           st = AMQP_STATUS_UNKNOWN_CLASS /\ ~ In class_id [10; 20; 30; 40; 50; 60; 85; 90])).
Proof.
  intros class_id enc oom He Hn. unfold amqp_decode_properties.
  destruct (decode_flags_cases enc ltac:(lia)) as [(A & B & C & _)|(_ & F)]; [exfalso; apply Hn; auto|].
  destruct (decode_flags (S (length enc)) enc 0 0 0) as [flags off|st off| |]; cbn [dec_good] in F; try contradiction.
  2:{ right. exists st, off. split; [reflexivity|]. destruct F; auto. }
  destruct F as (F1 & F2 & F3). cbn [dbind].
  destruct (existsb (Z.eqb class_id) dec_props_classes) eqn:K.
  2:{ right. do 2 eexists. split; [reflexivity|]. right. right. split; [reflexivity|].
      intros I. cbn in I. unfold dec_props_classes in K.
      assert (X : existsb (Z.eqb class_id) [10; 20; 30; 40; 50; 60; 90; 85] = true); [|congruence].
      apply existsb_exists. exists class_id. rewrite Z.eqb_refl. split; [|reflexivity]. cbn. lia. }
  destruct (oom SITE_METHOD off); [right; do 2 eexists; split; [reflexivity|auto]|].
  destruct (Z.eqb_spec class_id 60) as [->|N].
  - pose proof (dec_props_safe enc oom flags basic_catalogue He basic_fine off [] ltac:(lia)) as S.
    rewrite dec_props_catalogue.
    destruct (exec_dec_props (map prop_code basic_catalogue) enc oom flags off []) as [ms off2|st off2| |]; cbn [dec_good] in S; try contradiction.
    + destruct S as (S1 & pl & -> & P1 & P2 & P3 & P4 & _). left. exists flags, pl, off2. cbn [dbind app].
      split; [reflexivity|]. repeat (split; [auto; lia|]). auto.
    + right. cbn [dbind]. do 2 eexists. split; [reflexivity|]. destruct S; auto.
  - left. exists flags, [], off. split; [reflexivity|].
    repeat (split; [auto; try lia; constructor|]). intros; congruence.
Qed.

(** C15 is false: exactly when three flag words are present (six bytes, the low
    bit of the first two words set) the library shifts by 32 or more. *)
Theorem C15_three_flag_words_refuted :
  forall class_id enc oom,
    zlen enc < M63 -> zlen enc >= 6 -> continues enc 0 = true -> continues enc 2 = true ->
    amqp_decode_properties class_id enc oom = DUB.
Proof.
  intros class_id enc oom He H6 C0 C2. unfold amqp_decode_properties.
  destruct (decode_flags_cases enc He) as [(_ & _ & _ & E)|(N & _)]; [rewrite E; reflexivity|].
  exfalso. apply N. auto.
Qed.
Example C15_case :
  amqp_decode_properties 60 [x00; x01; x00; x01; x00; x00] no_oom = DUB /\
  amqp_decode_properties 60 [x80; x00; x02; x68; x69] no_oom =
    DOk (mkProps 0x8000 [("content_type", VBytes [x68; x69])]) 5.
Proof. split; vm_compute; reflexivity. Qed.

Print Assumptions C07_structs_match_catalogue.
Print Assumptions C07_method_layout.
Print Assumptions C07_method_roundtrip.
Print Assumptions C08_method_decoding_total_and_safe.
Print Assumptions C08_unknown_method_refused.
Print Assumptions C08_long_shortstr_refused.
Print Assumptions C09_basic_properties_roundtrip.
Print Assumptions C15_properties_decoding_safe_partial.
Print Assumptions C15_three_flag_words_refuted.
