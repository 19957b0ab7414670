(** The errors amqp_handle_input can report. *)
From Coq Require Import String ZArith List Bool Lia.
From Verif Require Import Base BaseFacts Codec TableModel TableSpec FramingStmt FramingGen FramingModel MethodSpec Frame.
Import ListNotations.
Local Open Scope Z_scope.

Definition dec_err (r : Z) : Prop :=
  r = AMQP_STATUS_BAD_AMQP_DATA \/ r = AMQP_STATUS_NO_MEMORY \/ r = AMQP_STATUS_UNKNOWN_METHOD \/ r = AMQP_STATUS_UNKNOWN_CLASS.
Definition errs {A} (r : dres A) : Prop := match r with DErr st _ => dec_err st | _ => True end.
Lemma errs_bind {A B} (r : dres A) (k : A -> Z -> dres B) : errs r -> (forall a o, errs (k a o)) -> errs (dbind r k).
Proof. destruct r; cbn; auto. Qed.
Lemma errs_decode w b o : errs (amqp_decode w b o).
Proof. unfold amqp_decode, amqp_decode_h. destruct (_ <=? _); [|left; reflexivity]. destruct (slice _ _ _); exact I. Qed.
Lemma errs_bytes b o n : errs (amqp_decode_bytes b o n).
Proof. unfold amqp_decode_bytes. destruct (_ <=? _); [|left; reflexivity]. destruct (slice _ _ _); exact I. Qed.
Ltac e1 :=
  match goal with
  | |- errs (dbind _ _) => apply errs_bind; [|intros]
  | |- errs (amqp_decode _ _ _) => apply errs_decode
  | |- errs (amqp_decode_bytes _ _ _) => apply errs_bytes
  | |- errs (DErr _ _) => unfold errs, dec_err; tauto
  | |- errs (DOk _ _) => exact I
  | |- errs DUB => exact I
  | |- errs DFuel => exact I
  | |- errs (if ?b then _ else _) => destruct b
  | |- errs (let _ := _ in _) => cbv zeta
  end.
Ltac es := repeat e1.
Section Dec.
Context (b : bytes) (oom : Z -> Z -> bool).
Lemma errs_grow s n a o : errs (grow oom s n a o).
Proof. unfold grow. es. Qed.
Lemma errs_array df fuel : (forall o, errs (df o)) -> forall lim n a o acc, errs (decode_array_loop oom df fuel lim n a o acc).
Proof. intros H. induction fuel as [|fuel IH]; intros; cbn [decode_array_loop]; es; [apply errs_grow|apply H|apply IH]. Qed.
Lemma errs_table df fuel : (forall o, errs (df o)) -> forall lim n a o acc, errs (decode_table_loop b oom df fuel lim n a o acc).
Proof. intros H. induction fuel as [|fuel IH]; intros; cbn [decode_table_loop]; es; [apply errs_grow|apply H|apply IH]. Qed.
Lemma errs_container {A} init (loop : nat -> Z -> Z -> Z -> Z -> list A -> dres (list A)) o :
  (forall f l n a o acc, errs (loop f l n a o acc)) -> errs (decode_container b oom init loop o).
Proof. intros H. unfold decode_container. es. apply H. Qed.
Lemma errs_field w f o : errs (FIELD_DECODER b w f o).
Proof. unfold FIELD_DECODER. es. Qed.
Lemma errs_value fuel : forall d o, errs (amqp_decode_field_value b oom fuel d o).
Proof.
  induction fuel as [|fuel IH]; intros d o; cbn [amqp_decode_field_value]; es; try apply errs_field; apply errs_container; intros.
  - apply errs_array, IH.
  - apply errs_table, IH.
Qed.
Lemma errs_amqp_table o : errs (amqp_decode_table b oom o).
Proof. unfold amqp_decode_table. apply errs_container. intros. apply errs_table, errs_value. Qed.
Lemma errs_stmt st o : errs (exec_dec b oom st o).
Proof. destruct st; cbn [exec_dec]; unfold dec_str; es. apply errs_amqp_table. Qed.
Lemma errs_stmts l : forall o acc, errs (exec_decs b oom l o acc).
Proof. induction l as [|st l IH]; intros; cbn [exec_decs]; es; [apply errs_stmt|apply IH]. Qed.
Lemma errs_props l : forall f o acc, errs (exec_dec_props l b oom f o acc).
Proof. induction l as [|[k st] l IH]; intros; cbn [exec_dec_props]; es; [apply IH|apply errs_stmt|apply IH]. Qed.
Lemma errs_flags fuel : forall o f i, errs (decode_flags fuel b o f i).
Proof. induction fuel as [|fuel IH]; intros; cbn [decode_flags]; es; apply IH. Qed.
Lemma errs_method id : errs (amqp_decode_method id b oom).
Proof. unfold amqp_decode_method. destruct (switch _ _); es. apply errs_stmts. Qed.
Lemma errs_properties id : errs (amqp_decode_properties id b oom).
Proof. unfold amqp_decode_properties. es; [apply errs_flags|apply errs_props]. Qed.
End Dec.

(** negative results are errors, if fewer than 2^31 bytes are passed *)
Definition hok (r : hres) : Prop := match r with HRet res _ _ => res < 0 -> dec_err res | _ => True end.
Lemma hok_decoded {A} (r : dres A) err ok : errs r -> (forall st, dec_err st -> hok (err st)) -> (forall a, hok (ok a)) -> hok (decoded r err ok).
Proof. destruct r; cbn; auto. Qed.
Lemma signed_small n : 0 <= n < M31 -> signed M32 n = n.
Proof. intros H. unfold signed. rewrite Z.mod_small by lia. destruct (Z.ltb_spec n (M32 / 2)); [reflexivity|]. change (M32 / 2) with 2147483648 in *. lia. Qed.
Lemma hok_small n f s : 0 <= n < M31 -> hok (HRet (signed M32 n) f s).
Proof. intros H. cbn. rewrite (signed_small _ H). lia. Qed.
Ltac h1 :=
  match goal with
  | |- hok HUB => exact I
  | |- hok HAbort => exact I
  | |- hok (HRet (signed M32 _) _ _) => apply hok_small; lia
  | |- hok (HRet _ _ _) => cbn; unfold dec_err; tauto
  | |- hok (match ?x with Some _ => _ | None => _ end) => destruct x eqn:?
  | |- hok (if ?b then _ else _) => destruct b
  | |- hok (let _ := _ in _) => cbv zeta
  end.
Lemma hok_body E n s : 0 <= n < M31 -> hok (handle_body E n s).
Proof.
  intros Hn. unfold handle_body. repeat h1.
  all: try match goal with |- hok (match ?l with [] => _ | _ :: _ => _ end) => destruct l; repeat h1 end.
  all: apply hok_decoded; [first [apply errs_method|apply errs_properties]|intros st H; cbn; auto|intros a; cbv beta; apply hok_small, Hn].
Qed.
Lemma consume_data_count s d n s' r : consume_data s d = Some (n, s', r) -> 0 <= n /\ n + zlen r <= zlen d.
Proof.
  unfold consume_data. cbv zeta. set (n0 := sub_size _ _). assert (0 <= n0) as Hn by (unfold n0, sub_size, u64; apply Z.mod_pos_bound; lia). clearbody n0.
  set (m := if zlen d <? n0 then zlen d else n0). assert (0 <= m <= zlen d) as Hm. { unfold m. pose proof (zlen_nonneg d). destruct (Z.ltb_spec (zlen d) n0); lia. } clearbody m.
  assert (zlen (skipn (Z.to_nat m) d) = zlen d - m) as Hs by (unfold zlen in *; rewrite skipn_length; lia).
  destruct (i_buf s); try discriminate; [|destruct (Nat.eqb _ _); [|discriminate]]; (destruct (write _ _ _); [|discriminate]); intros H; injection H as <- _ <-; lia.
Qed.
Lemma hok_header E n s d : 0 <= n -> n + zlen d < M31 -> hok (handle_header E n s d).
Proof.
  intros Hn Hd. unfold handle_header. repeat h1.
  destruct p as [[m s'] r]. match goal with C : consume_data _ d = _ |- _ => apply consume_data_count in C; destruct C as [C1 C2] end. pose proof (zlen_nonneg r).
  assert (add_size n m = n + m) as -> by (unfold add_size, u64; apply Z.mod_small; lia).
  destruct (_ <? _); [apply hok_small; lia|apply hok_body; lia].
Qed.
Lemma handle_input_status E s d res f s' : zlen d < M31 -> amqp_handle_input E s d = HRet res f s' -> res < 0 -> dec_err res.
Proof.
  intros Hd H. assert (hok (amqp_handle_input E s d)) as K; [|rewrite H in K; exact K]. clear H.
  unfold amqp_handle_input. destruct (_ =? 0); [cbn; unfold AMQP_STATUS_OK; lia|]. cbv zeta. set (s0 := match i_state s with IDLE => _ | _ => s end). clearbody s0.
  destruct (consume_data s0 d) as [[[n s1] r]|] eqn:C; [|exact I]. apply consume_data_count in C. destruct C as [C1 C2]. pose proof (zlen_nonneg r).
  destruct (_ <? _); [apply hok_small; lia|]. destruct (i_state s1); [exact I| | |].
  all: try (apply hok_header; lia); try (apply hok_body; lia).
  repeat h1; apply hok_header; lia.
Qed.
