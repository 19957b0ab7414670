(** The statuses amqp_frame_to_bytes can report. *)
From Coq Require Import String ZArith List Bool Lia.
From Verif Require Import Base BaseFacts Codec TableModel TableSpec TableEnc FramingStmt FramingGen FramingModel MethodSpec Frame.
Import ListNotations.
Local Open Scope Z_scope.

Definition enc_err (r : Z) : Prop :=
  r = AMQP_STATUS_BAD_AMQP_DATA \/ r = AMQP_STATUS_TABLE_TOO_BIG \/ r = AMQP_STATUS_INVALID_PARAMETER \/
  r = AMQP_STATUS_UNKNOWN_METHOD \/ r = AMQP_STATUS_UNKNOWN_CLASS.
Lemma enc_err_neg r : enc_err r -> r < 0 /\ r <> AMQP_STATUS_TIMEOUT /\ r <> AMQP_STATUS_OK.
Proof. intros [->|[->|[->|[->| ->]]]]; repeat split; discriminate. Qed.

(** the size of the block is kept; the offset stays inside if the call succeeds *)
Definition efits (s s' : est) (res : Z) : Prop :=
  zlen (emem s') = zlen (emem s) /\ ((res = AMQP_STATUS_OK /\ 0 <= eoff s' <= zlen (emem s')) \/ enc_err res).
Definition eres (s : est) (r : option (Z * est)) : Prop := match r with None => True | Some (res, s') => efits s s' res end.

Lemma add_size_nonneg a b : 0 <= add_size a b.
Proof. unfold add_size, u64. apply Z.mod_pos_bound. lia. Qed.
Lemma zlen_write' mem o bs m : write mem o bs = Some m -> zlen m = zlen mem.
Proof. intros H. apply write_inv in H. destruct H as (H1 & H2 & ->). apply zlen_patch; lia. Qed.
Lemma encode_res w v s b s' : amqp_encode w v s = Some (b, s') ->
  zlen (emem s') = zlen (emem s) /\ eoff s' = add_size (eoff s) (wbytes w) /\ (b = true -> eoff s' <= zlen (emem s')).
Proof.
  unfold amqp_encode, amqp_encode_h. destruct (Z.leb_spec (add_size (eoff s) (wbytes w)) (zlen (emem s))).
  - destruct (write _ _ _) eqn:Hw; [|discriminate]. intros H1; injection H1 as <- <-. apply zlen_write' in Hw. cbn. split; [auto|]. split; [auto|]. intros _. lia.
  - intros H1; injection H1 as <- <-. cbn. repeat split; auto. discriminate.
Qed.
Lemma encode_bytes_res v s b s' : amqp_encode_bytes v s = Some (b, s') ->
  zlen (emem s') = zlen (emem s) /\ (b = true -> (eoff s' = eoff s \/ 0 <= eoff s' <= zlen (emem s'))).
Proof.
  unfold amqp_encode_bytes. destruct (_ =? 0); [intros H; injection H as <- <-; auto|].
  destruct (Z.leb_spec (add_size (eoff s) (zlen v)) (zlen (emem s))).
  - destruct (write _ _ _) eqn:Hw; [|discriminate]. intros H1; injection H1 as <- <-. apply zlen_write' in Hw. cbn. split; [auto|].
    intros _. right. pose proof (add_size_nonneg (eoff s) (zlen v)). lia.
  - intros H1; injection H1 as <- <-. cbn. split; auto. discriminate.
Qed.
Ltac err := right; unfold enc_err; tauto.
Lemma field_res w v s : eres s (FIELD_ENCODER w v s).
Proof.
  unfold FIELD_ENCODER. destruct (amqp_encode w v s) as [[[] s']|] eqn:H; [| |exact I].
  - apply encode_res in H. destruct H as (H1 & H2 & H3). specialize (H3 eq_refl). split; [exact H1|]. left. split; [reflexivity|].
    pose proof (add_size_nonneg (eoff s) (wbytes w)). lia.
  - apply encode_res in H. split; [apply H|err].
Qed.
Lemma eres_len s s1 r : zlen (emem s1) = zlen (emem s) -> eres s1 r -> eres s r.
Proof. intros H. destruct r as [[]|]; [|auto]. unfold eres, efits. rewrite H. auto. Qed.

Definition loopres (s : est) (r : option (Z * est)) : Prop :=
  match r with
  | None => True
  | Some (res, s') => zlen (emem s') = zlen (emem s) /\ ((res = AMQP_STATUS_OK /\ (eoff s' = eoff s \/ 0 <= eoff s' <= zlen (emem s'))) \/ enc_err res)
  end.
Lemma eres_loopres s r : eres s r -> loopres s r.
Proof. destruct r as [[]|]; [|auto]. intros [H [[-> ?]|?]]; split; auto. Qed.
Lemma loopres_step s s1 r : zlen (emem s1) = zlen (emem s) -> 0 <= eoff s1 <= zlen (emem s1) -> loopres s1 r -> loopres s r.
Proof.
  intros H H0. destruct r as [[res s2]|]; [|auto]. unfold loopres. intros [H1 H2]. split; [congruence|].
  destruct H2 as [[-> [H2|H2]]|H2]; [left|left|right; exact H2]; (split; [reflexivity|]); right.
  - rewrite H2, H1. exact H0.
  - exact H2.
Qed.
Lemma array_res (ef : enc_fun fv) l : Forall (fun v => forall s, eres s (ef v s)) l -> forall s, loopres s (encode_array_entries ef l s).
Proof.
  induction 1 as [|v l Hv Hl IH]; intros s; cbn [encode_array_entries].
  - split; [reflexivity|]. auto.
  - specialize (Hv s). destruct (ef v s) as [[res s1]|]; [|exact I]. destruct Hv as [H1 H2].
    destruct (Z.ltb_spec res 0).
    + split; [exact H1|]. destruct H2 as [[-> _]|H2]; [cbv in H; discriminate|auto].
    + destruct H2 as [[-> H2]|H2]; [|apply enc_err_neg in H2; lia]. eapply loopres_step; [exact H1|exact H2|apply IH].
Qed.
Lemma table_res (ef : enc_fun fv) (l : table) : Forall (fun kv => forall s, eres s (ef (snd kv) s)) l -> forall s, loopres s (encode_table_entries ef l s).
Proof.
  induction 1 as [|[k v] l Hv Hl IH]; intros s; cbn [encode_table_entries].
  - split; [reflexivity|]. auto.
  - destruct (amqp_encode _ _ s) as [[[] s1]|] eqn:E1; [| |exact I]; apply encode_res in E1; destruct E1 as (E1 & _ & _); [|split; [exact E1|err]].
    destruct (amqp_encode_bytes _ s1) as [[[] s2]|] eqn:E2; [| |exact I]; apply encode_bytes_res in E2; destruct E2 as (E2 & _); [|split; [congruence|err]].
    specialize (Hv s2). cbn [snd] in Hv. destruct (ef v s2) as [[res s3]|]; [|exact I]. destruct Hv as [H1 H2].
    destruct (Z.ltb_spec res 0).
    + split; [congruence|]. destruct H2 as [[-> _]|H2]; [cbv in H; discriminate|auto].
    + destruct H2 as [[-> H2]|H2]; [|apply enc_err_neg in H2; lia]. eapply loopres_step; [|exact H2|apply IH]. congruence.
Qed.
Lemma container_res {A} (f : enc_fun A) l s : loopres (mkE (emem s) (add_size (eoff s) 4)) (f l (mkE (emem s) (add_size (eoff s) 4))) -> eres s (encode_container f l s).
Proof.
  unfold encode_container. cbv zeta. destruct (f l _) as [[res s1]|]; [|auto]. intros [H1 H2]. cbn [emem eoff] in *.
  destruct (Z.ltb_spec res 0).
  - split; [exact H1|]. destruct H2 as [[-> _]|H2]; [cbv in H; discriminate|auto].
  - destruct H2 as [[-> H2]|H2]; [|apply enc_err_neg in H2; lia].
    destruct (amqp_encode W32 _ _) as [[[] s2]|] eqn:E2; [| |exact I]; apply encode_res in E2; cbn [emem eoff] in E2; destruct E2 as (E2 & E3 & E4).
    + split; [cbn; congruence|]. left. split; [reflexivity|]. cbn. specialize (E4 eq_refl). pose proof (add_size_nonneg (eoff s) 4).
      destruct H2 as [H2|H2]; [rewrite H2|]; [change (wbytes W32) with 4 in E3; lia|lia].
    + split; [cbn; congruence|err].
Qed.
Lemma value_res v : forall s, eres s (amqp_encode_field_value v s).
Proof.
  induction v as [l IH|t IH|v Ha Ht] using fv_ind'; intros s; cbn [amqp_encode_field_value].
  - destruct (amqp_encode W8 _ s) as [[[] s1]|] eqn:E1; [| |exact I]; apply encode_res in E1; destruct E1 as (E1 & _ & _); [|split; [exact E1|err]].
    apply (eres_len s s1); [exact E1|]. apply container_res, array_res, IH.
  - destruct (amqp_encode W8 _ s) as [[[] s1]|] eqn:E1; [| |exact I]; apply encode_res in E1; destruct E1 as (E1 & _ & _); [|split; [exact E1|err]].
    apply (eres_len s s1); [exact E1|]. apply container_res, table_res, IH.
  - assert (forall s1, zlen (emem s1) = zlen (emem s) -> 0 <= eoff s1 <= zlen (emem s1) ->
      eres s match v with
      | FBool b => FIELD_ENCODER W8 (if b =? 0 then 0 else 1) s1
      | FI8 z => FIELD_ENCODER W8 z s1
      | FU8 z => FIELD_ENCODER W8 z s1
      | FI16 z => FIELD_ENCODER W16 z s1
      | FU16 z => FIELD_ENCODER W16 z s1
      | FI32 z => FIELD_ENCODER W32 z s1
      | FU32 z => FIELD_ENCODER W32 z s1
      | FI64 z => FIELD_ENCODER W64 z s1
      | FU64 z => FIELD_ENCODER W64 z s1
      | FF32 z => FIELD_ENCODER W32 z s1
      | FF64 z => FIELD_ENCODER W64 z s1
      | FDecimal d v =>
        match amqp_encode W8 d s1 with
        | None => None
        | Some (false, s2) => Some (AMQP_STATUS_TABLE_TOO_BIG, s2)
        | Some (true, s2) => FIELD_ENCODER W32 v s2
        end
      | FUtf8 b | FBytes b =>
        match amqp_encode W32 (u32 (zlen b)) s1 with
        | None => None
        | Some (false, s2) => Some (AMQP_STATUS_TABLE_TOO_BIG, s2)
        | Some (true, s2) =>
          match amqp_encode_bytes b s2 with
          | None => None
          | Some (false, s3) => Some (AMQP_STATUS_TABLE_TOO_BIG, s3)
          | Some (true, s3) => Some (AMQP_STATUS_OK, s3)
          end
        end
      | FArray l => None
      | FTimestamp z => FIELD_ENCODER W64 z s1
      | FTable t => None
      | FVoid => Some (AMQP_STATUS_OK, s1)
      | FOther _ => Some (AMQP_STATUS_INVALID_PARAMETER, s1)
      end) as H.
    { intros s1 L O. assert (forall b, eres s match amqp_encode W32 (u32 (zlen b)) s1 with
        | None => None
        | Some (false, s2) => Some (AMQP_STATUS_TABLE_TOO_BIG, s2)
        | Some (true, s2) =>
          match amqp_encode_bytes b s2 with
          | None => None
          | Some (false, s3) => Some (AMQP_STATUS_TABLE_TOO_BIG, s3)
          | Some (true, s3) => Some (AMQP_STATUS_OK, s3)
          end
        end) as Hs.
      { intros b. destruct (amqp_encode W32 _ s1) as [[[] s2]|] eqn:E1; [| |exact I]; apply encode_res in E1; destruct E1 as (E1 & E2 & E3); [|split; [congruence|err]].
        specialize (E3 eq_refl). pose proof (add_size_nonneg (eoff s1) (wbytes W32)).
        destruct (amqp_encode_bytes _ s2) as [[[] s3]|] eqn:E4; [| |exact I]; apply encode_bytes_res in E4; destruct E4 as (E4 & E5); [|split; [congruence|err]].
        split; [congruence|]. left. split; [reflexivity|]. destruct (E5 eq_refl) as [E6|E6]; [rewrite E6, E4; lia|exact E6]. }
      destruct v; try (apply (eres_len s s1); [exact L|apply field_res]); try exact I; try apply Hs.
      - destruct (amqp_encode W8 _ s1) as [[[] s2]|] eqn:E1; [| |exact I]; apply encode_res in E1; destruct E1 as (E1 & _ & _); [|split; [congruence|err]].
        apply (eres_len s s2); [congruence|apply field_res].
      - split; [exact L|]. left. auto.
      - split; [exact L|err]. }
    destruct v; try (exfalso; eapply Ha; reflexivity); try (exfalso; eapply Ht; reflexivity); cbn [amqp_encode_field_value];
      (match goal with |- context [amqp_encode W8 ?k s] => destruct (amqp_encode W8 k s) as [[[] s1]|] eqn:E1; [| |exact I] end;
       pose proof (encode_res _ _ _ _ _ E1) as (E2 & E3 & E4); [specialize (E4 eq_refl); pose proof (add_size_nonneg (eoff s) (wbytes W8)); apply (H s1 E2); lia|split; [exact E2|err]]).
Qed.
Lemma table_enc_res t s : eres s (amqp_encode_table t s).
Proof.
  unfold amqp_encode_table. apply container_res, table_res. apply Forall_forall. intros. apply value_res.
Qed.
Lemma int_res w v s : eres s (enc_int w v s).
Proof.
  unfold enc_int. destruct (amqp_encode w v s) as [[[] s']|] eqn:H; [| |exact I].
  - apply encode_res in H. destruct H as (H1 & H2 & H3). specialize (H3 eq_refl). split; [exact H1|]. left. split; [reflexivity|].
    pose proof (add_size_nonneg (eoff s) (wbytes w)). lia.
  - apply encode_res in H. split; [apply H|err].
Qed.
Lemma str_res w b s : eres s (enc_str w b s).
Proof.
  unfold enc_str. destruct (_ <? _); [split; [reflexivity|err]|].
  destruct (amqp_encode w _ s) as [[[] s2]|] eqn:E1; [| |exact I]; apply encode_res in E1; destruct E1 as (E1 & E2 & E3); [|split; [congruence|err]].
  specialize (E3 eq_refl). pose proof (add_size_nonneg (eoff s) (wbytes w)).
  destruct (amqp_encode_bytes _ s2) as [[[] s3]|] eqn:E4; [| |exact I]; apply encode_bytes_res in E4; destruct E4 as (E4 & E5); [|split; [congruence|err]].
  split; [congruence|]. left. split; [reflexivity|]. destruct (E5 eq_refl) as [E6|E6]; [rewrite E6, E4; lia|exact E6].
Qed.
Lemma stmt_res st m s : eres s (exec_enc st m s).
Proof.
  destruct st; cbn [exec_enc]; try (destruct (lookup _ m) as [[]|]; try exact I); try apply int_res; try apply str_res; try apply table_enc_res.
  destruct (enc_bits _ _ _); [apply int_res|exact I].
Qed.
Lemma stmts_res l m : forall s, 0 <= eoff s <= zlen (emem s) -> eres s (exec_encs l m s).
Proof.
  induction l as [|st l IH]; intros s Hs; cbn [exec_encs]; [split; [reflexivity|left; auto]|].
  pose proof (stmt_res st m s) as H. destruct (exec_enc st m s) as [[res s']|]; [|exact I]. destruct H as [H1 H2].
  destruct (Z.ltb_spec res 0).
  - split; [exact H1|]. destruct H2 as [[-> _]|H2]; [cbv in H; discriminate|auto].
  - destruct H2 as [[-> H2]|H2]; [|apply enc_err_neg in H2; lia]. apply (eres_len s s'); [exact H1|]. apply IH, H2.
Qed.
Lemma props_res l fl m : forall s, 0 <= eoff s <= zlen (emem s) -> eres s (exec_enc_props l fl m s).
Proof.
  induction l as [|[k st] l IH]; intros s Hs; cbn [exec_enc_props]; [split; [reflexivity|left; auto]|].
  destruct (_ =? 0); [apply IH, Hs|].
  pose proof (stmt_res st m s) as H. destruct (exec_enc st m s) as [[res s']|]; [|exact I]. destruct H as [H1 H2].
  destruct (Z.ltb_spec res 0).
  - split; [exact H1|]. destruct H2 as [[-> _]|H2]; [cbv in H; discriminate|auto].
  - destruct H2 as [[-> H2]|H2]; [|apply enc_err_neg in H2; lia]. apply (eres_len s s'); [exact H1|]. apply IH, H2.
Qed.
Lemma flags_res fuel : forall fl s, eres s (encode_flags fuel fl s).
Proof.
  induction fuel as [|fuel IH]; intros fl s; cbn [encode_flags]; [exact I|]. cbv zeta.
  destruct (amqp_encode W16 _ s) as [[[] s1]|] eqn:E1; [| |exact I]; apply encode_res in E1; destruct E1 as (E1 & E2 & E3); [|split; [congruence|err]].
  destruct (_ =? 0); [|apply (eres_len s s1); [exact E1|apply IH]].
  specialize (E3 eq_refl). pose proof (add_size_nonneg (eoff s) (wbytes W16)). split; [exact E1|]. left. split; [reflexivity|lia].
Qed.
Lemma signed_fits z : 0 <= z < M31 -> signed M32 z = z.
Proof. intros H. unfold signed. rewrite Z.mod_small by lia. destruct (Z.ltb_spec z (M32 / 2)); [reflexivity|]. change (M32 / 2) with M31 in *. lia. Qed.

Lemma encode_method_status id m enc res enc' : zlen enc < M31 -> amqp_encode_method id m enc = Some (res, enc') -> 0 <= res \/ enc_err res.
Proof.
  intros Hl. unfold amqp_encode_method. destruct (switch _ _) as [body|]; [|intros H; injection H as <- <-; err].
  pose proof (zlen_nonneg enc). pose proof (stmts_res body m (mkE enc 0) ltac:(cbn; lia)) as H0.
  destruct (exec_encs _ _ _) as [[r s]|]; [|discriminate]. destruct H0 as [H1 H2]. cbn [emem] in H1.
  destruct (Z.ltb_spec r 0); intros He; injection He as <- <-.
  - right. destruct H2 as [[-> _]|H2]; [cbv in H0; discriminate|exact H2].
  - left. destruct H2 as [[-> H2]|H2]; [rewrite signed_fits by lia; lia|apply enc_err_neg in H2; lia].
Qed.
Lemma encode_properties_status cl p enc res enc' : zlen enc < M31 -> amqp_encode_properties cl p enc = Some (res, enc') -> 0 <= res \/ enc_err res.
Proof.
  intros Hl. unfold amqp_encode_properties. pose proof (flags_res 3 (pflags p) (mkE enc 0)) as H0.
  destruct (encode_flags _ _ _) as [[r s]|]; [|discriminate]. destruct H0 as [H1 H2]. cbn [emem] in H1.
  destruct (Z.ltb_spec r 0).
  - intros He; injection He as <- <-. right. destruct H2 as [[-> _]|H2]; [cbv in H; discriminate|exact H2].
  - destruct H2 as [[-> H2]|H2]; [|apply enc_err_neg in H2; lia].
    destruct (existsb _ _); [|intros He; injection He as <- <-; err].
    destruct (cl =? 60).
    + pose proof (props_res enc_props_basic (pflags p) (pfields p) s H2) as H3.
      destruct (exec_enc_props _ _ _ _) as [[r s']|]; [|discriminate]. destruct H3 as [H3 H4].
      destruct (Z.ltb_spec r 0); intros He; injection He as <- <-.
      * right. destruct H4 as [[-> _]|H4]; [cbv in H0; discriminate|exact H4].
      * left. destruct H4 as [[-> H4]|H4]; [rewrite signed_fits by lia; lia|apply enc_err_neg in H4; lia].
    + intros He; injection He as <- <-. left. rewrite signed_fits by lia. lia.
Qed.

Lemma encode_sub_status o f mem r mem' : 0 <= o -> zlen mem < M31 ->
  (forall enc res enc', zlen enc < M31 -> f enc = Some (res, enc') -> 0 <= res \/ enc_err res) ->
  encode_sub o f mem = Some (r, mem') -> 0 <= r \/ enc_err r.
Proof.
  intros Ho Hl Hf. unfold encode_sub. destruct (slice _ _ _) as [sub|] eqn:Hs; [|discriminate].
  destruct (f sub) as [[res sub']|] eqn:He; [|discriminate]. destruct (write _ _ _); [|discriminate]. intros H; injection H as <- <-.
  eapply Hf; [|exact He]. apply slice_inv in Hs. destruct Hs as (Hn1 & Hn2 & Hn3 & Hz & _). rewrite Hz. lia.
Qed.

Lemma frame_to_bytes_status f buf st buf' enc : zlen buf < M31 -> amqp_frame_to_bytes f buf = FRet st buf' enc -> st = AMQP_STATUS_OK \/ enc_err st.
Proof.
  intros Hl. assert (forall n mem st' buf'' enc', frame_finish n mem = FRet st' buf'' enc' -> st' = AMQP_STATUS_OK) as Hf.
  { intros n mem st' buf'' enc'. unfold frame_finish. destruct (e_at W32 _ mem 3) as [m1|]; [|discriminate].
    destruct (e_at W8 _ m1 _) as [m2|]; [|discriminate]. cbv zeta. destruct (slice _ _ _); [|discriminate]. intros H; inversion H; reflexivity. }
  assert (forall w v mem o mem', e_at w v mem o = Some mem' -> zlen mem' = zlen mem) as He
    by (intros w v mem o mem'; unfold e_at; apply zlen_write').
  unfold amqp_frame_to_bytes.
  destruct (e_at W8 _ buf 0) as [m1|] eqn:H1; [|discriminate]. destruct (e_at W16 _ m1 1) as [m2|] eqn:H2; [|discriminate].
  apply He in H1, H2.
  destruct (_ =? _).
  { destruct (f_pay f); try discriminate. destruct (write _ _ _) eqn:Hw; [|discriminate]. intros H. left. eapply Hf, H. }
  destruct (_ =? _).
  { destruct (f_pay f); try discriminate. destruct (e_at W32 _ m2 _) eqn:H3; [|discriminate]. destruct (encode_sub _ _ _) as [[r m]|] eqn:H4; [|discriminate].
    apply He in H3. apply encode_sub_status in H4; [|cbv; discriminate|lia|intros; eapply encode_method_status; eauto].
    destruct (Z.ltb_spec r 0); intros G; [inversion G; subst; right; destruct H4; [lia|assumption]|left; eapply Hf, G]. }
  destruct (_ =? _).
  { destruct (f_pay f); try discriminate. destruct (e_at W16 _ m2 _) as [m3|] eqn:H3; [|discriminate]. destruct (e_at W16 _ m3 _) as [m4|] eqn:H4; [|discriminate].
    destruct (e_at W64 _ m4 _) eqn:H5; [|discriminate]. destruct (encode_sub _ _ _) as [[r m]|] eqn:H6; [|discriminate].
    apply He in H3, H4, H5. apply encode_sub_status in H6; [|cbv; discriminate|lia|intros; eapply encode_properties_status; eauto].
    destruct (Z.ltb_spec r 0); intros G; [inversion G; subst; right; destruct H6; [lia|assumption]|left; eapply Hf, G]. }
  destruct (_ =? _); intros H; [left; eapply Hf, H|inversion H; subst; err].
Qed.
