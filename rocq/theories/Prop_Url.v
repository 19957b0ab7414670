(** URLs: C27, C28, C29. *)
From Coq Require Import String ZArith List Bool Lia.
From Verif Require Import Base BaseFacts Pool Url UrlProofs UrlParse UrlSpec.
Import ListNotations.
Local Open Scope list_scope.
Local Open Scope Z_scope.

(** the C string a member of the result points to *)
Definition string_of (m : bytes) (c : cptr) : option bytes := match c with Const s => Some s | At p => cstr m p end.
Definition inside (n : nat) (c : cptr) : Prop := match c with Const _ => True | At p => (p <= n)%nat end.

Lemma ptr_string P c s Q : ptr_is P c s -> string_of (P ++ Q) c = Some s.
Proof. destruct c; cbn; [congruence|]. intros (dec & H & ->). apply holds_cstr. exact H. Qed.
Lemma ptr_inside P0 c s : ptr_is (P0 ++ [x00]) c s -> inside (length P0) c.
Proof. destruct c; cbn; [auto|]. intros (dec & H & _). apply holds_lt in H. rewrite app_length in H. cbn in H. lia. Qed.

(** C27.  Whatever the string (and whatever lies behind it in memory), amqp_parse_url
    terminates, stays inside the string ([None] would be an access outside the block, and
    the bytes behind the terminator are unchanged), and returns one of two statuses; on
    success all members are C strings. *)
Theorem C27_parse_url_total : forall cm ox s tail, ~ In x00 s ->
  exists st ci s', amqp_parse_url cm ox (s ++ x00 :: tail) = Some (st, ci, s' ++ x00 :: tail) /\ length s' = length s /\
    (st = AMQP_STATUS_OK \/ st = AMQP_STATUS_BAD_URL) /\
    (st = AMQP_STATUS_OK -> Forall (fun c => inside (length s) c /\ exists x, string_of (s' ++ x00 :: tail) c = Some x)
                                   [ci_user ci; ci_password ci; ci_host ci; ci_vhost ci] /\ 0 <= ci_port ci <= 65535).
Proof.
  intros cm ox s tail NN. destruct (parse_url_ok cm ox s tail NN) as (st & ci & P0 & E & L & H).
  exists st, ci, P0. rewrite <- app_assoc in E. split; [exact E|]. split; [exact L|].
  destruct (parse cm ox s) as [i|] eqn:PE.
  - destruct H as (-> & H1 & H2 & H3 & H4 & H5 & H6). split; [auto|]. intros _.
    assert (F : forall c x, ptr_is (P0 ++ [x00]) c x -> inside (length s) c /\ exists x, string_of (P0 ++ x00 :: tail) c = Some x).
    { intros c x K. split; [rewrite <- L; eapply ptr_inside; eauto|]. apply (ptr_string _ _ _ tail) in K. rewrite <- app_assoc in K. eauto. }
    split; [repeat (apply Forall_cons; [eapply F; eassumption|]); apply Forall_nil|]. rewrite H5. clear -PE.
    assert (T : forall dport ssl u p h po d r i, 0 <= dport <= 65535 -> parse_tail cm ox dport ssl u p h po d r = Some i -> 0 <= in_port i <= 65535).
    { clear. intros dport ssl u p h po d r i D. unfold parse_tail.
      assert (PP : forall v, match po with Some s => parse_port s | None => Some dport end = Some v -> 0 <= v <= 65535).
      { intros v. destruct po as [s|]; [|intros K; injection K as <-; exact D]. unfold parse_port.
        destruct (strtol10 (cut s)) as [pn us]. destruct (us =? 0); [discriminate|]. destruct (us =? zlen (cut s)); [|discriminate].
        destruct (Z.ltb_spec pn 0); [discriminate|]. destruct (Z.ltb_spec 65535 pn); [discriminate|]. cbn. intros K. injection K as <-. lia. }
      destruct (match po with Some s => parse_port s | None => Some dport end) as [v|]; [|discriminate]. cbn [opt_bind].
      specialize (PP v eq_refl). destruct (Byte.eqb d x2f).
      - destruct (scan cm ox true r) as [[[v0 d0] r0]|]; [|discriminate]. cbn [opt_bind]. destruct (Byte.eqb d0 x00); [|discriminate].
        intros K. injection K as <-. exact PP.
      - destruct (Byte.eqb d x00); [|discriminate]. intros K. injection K as <-. exact PP. }
    assert (PD : forall dport ssl u p h po d r i, 0 <= dport <= 65535 -> parse_port_delim cm ox dport ssl u p h po d r = Some i -> 0 <= in_port i <= 65535).
    { intros dport ssl u p h po d r i0 D. unfold parse_port_delim. destruct (Byte.eqb d x3a); [|apply T; exact D].
      destruct (scan cm ox true r) as [[[v0 d0] r0]|]; [|discriminate]. cbn [opt_bind]. apply T. exact D. }
    assert (PH : forall dport ssl u p h po d r i, 0 <= dport <= 65535 -> parse_host cm ox dport ssl u p h po d r = Some i -> 0 <= in_port i <= 65535).
    { intros dport ssl u p h po d r i0 D. unfold parse_host. destruct (Byte.eqb d x5b); [|apply PD; exact D].
      destruct po; [discriminate|]. destruct (cut h); [|discriminate]. destruct (scan cm ox false r) as [[[v0 d0] r0]|]; [|discriminate]. cbn [opt_bind].
      destruct (Byte.eqb d0 x5d); [|discriminate]. destruct (scan cm ox true r0) as [[[v1 d1] r1]|]; [|discriminate]. cbn [opt_bind].
      destruct (cut v1); [|discriminate]. apply PD. exact D. }
    assert (PU : forall dport ssl h po d r i, 0 <= dport <= 65535 -> parse_user cm ox dport ssl h po d r = Some i -> 0 <= in_port i <= 65535).
    { intros dport ssl h po d r i0 D. unfold parse_user. destruct (Byte.eqb d x40); [|apply PH; exact D].
      destruct (scan cm ox true r) as [[[v0 d0] r0]|]; [|discriminate]. cbn [opt_bind]. apply PH. exact D. }
    assert (PB : forall dport ssl r i, 0 <= dport <= 65535 -> parse_body cm ox dport ssl r = Some i -> 0 <= in_port i <= 65535).
    { intros dport ssl r i0 D. unfold parse_body. destruct (scan cm ox true r) as [[[v0 d0] r0]|]; [|discriminate]. cbn [opt_bind].
      destruct (Byte.eqb d0 x3a); [|apply PU; exact D]. destruct (scan cm ox true r0) as [[[v1 d1] r1]|]; [|discriminate]. cbn [opt_bind]. apply PU. exact D. }
    unfold parse in PE. destruct (starts_with _ s); [apply PB in PE; [exact PE|lia]|]. destruct (starts_with _ s); [apply PB in PE; [exact PE|lia]|discriminate].
  - subst st. split; [auto|discriminate].
Qed.

(** ** C28 *)
Section C28.
Context (cm : Z) (ox : bool).

Lemma is_hex_val c n : is_hex c n -> hexval c = Some (Z.of_nat n) /\ is_space c = false /\ is_sign c = false /\ (n < 16)%nat.
Proof.
  intros H. unfold is_hex in H. do 16 (destruct n as [|n]; [destruct H as [H|H]; vm_compute in H; injection H as <-; repeat split; try reflexivity; cbn; lia|]).
  destruct n; destruct H as [H|H]; vm_compute in H; discriminate.
Qed.

Lemma escape_hex h l a b r c : is_hex h a -> is_hex l b -> Z_of_byte c = 16 * Z.of_nat a + Z.of_nat b -> Z_of_byte c <= cm ->
  escape cm ox (h :: l :: r) = Some c.
Proof.
  intros HH HL EC LE. destruct (is_hex_val _ _ HH) as (V1 & S1 & G1 & _). destruct (is_hex_val _ _ HL) as (V2 & S2 & G2 & _).
  unfold escape, sscanf_2x. cbn [skip_spaces]. rewrite S1. rewrite G1, V1, V2. change (0 + 2) with 2.
  rewrite <- EC. rewrite Z.eqb_refl. cbn [negb orb]. destruct (Z.ltb_spec cm (Z_of_byte c)) as [|_]; [lia|].
  f_equal. unfold byte_of_Z, Z_of_byte. pose proof (Byte.to_N_bounded c) as B. rewrite Z.mod_small by lia. rewrite N2Z.id, Byte.of_to_N. reflexivity.
Qed.

Lemma literal_scan br c : literal br c -> is_delim (negb br) c = false /\ Byte.eqb c x25 = false.
Proof.
  intros (N0 & H1 & H2). cbn in H1, H2. unfold is_delim.
  assert (E : forall x, x <> c -> Byte.eqb c x = false) by (intros x K; apply eqb_false; congruence).
  rewrite (E x00), (E x2f), (E x3f), (E x23), (E x5b), (E x5d), (E x25) by (intros K; first [congruence|subst c; tauto]). split; [|reflexivity].
  destruct br; cbn [negb]; [rewrite andb_false_r; reflexivity|]. specialize (H2 eq_refl).
  rewrite !E by (intros K; subst c; tauto). reflexivity.
Qed.

Lemma scan_encodes br d e : encodes cm br d e -> nonul d /\ nonul e /\ scan cm ox (negb br) e = Some (d, x00, []) /\
  forall c r, is_delim (negb br) c = true -> scan cm ox (negb br) (e ++ c :: r) = Some (d, c, r).
Proof.
  induction 1 as [|c d e L E (N1 & N2 & IH1 & IH2)|c h l a b d e Hh Hl EC NC LE E (N1 & N2 & IH1 & IH2)].
  - split; [intros []|]. split; [intros []|]. split; [reflexivity|]. intros c r D. cbn [app scan]. rewrite D. reflexivity.
  - destruct (literal_scan _ _ L) as [L1 L2]. split; [apply nonul_cons; split; [apply L|exact N1]|]. split; [apply nonul_cons; split; [apply L|exact N2]|].
    split; [|intros x r D; cbn [app]]; cbn [scan]; rewrite L1, L2; [rewrite IH1|rewrite IH2 by exact D]; reflexivity.
  - assert (NN : forall x n, is_hex x n -> x <> x00) by (intros x n K ->; apply is_hex_val in K; destruct K as [K _]; discriminate).
    split; [apply nonul_cons; auto|]. split; [apply nonul_cons; split; [discriminate|]; apply nonul_cons; split; [eauto|]; apply nonul_cons; split; [eauto|exact N2]|].
    assert (P1 : is_delim (negb br) x25 = false) by (destruct br; reflexivity).
    split; [|intros x r D; cbn [app]]; cbn [scan]; rewrite P1; change (Byte.eqb x25 x25) with true; cbv iota;
      rewrite (escape_hex h l a b _ c Hh Hl EC LE); [rewrite IH1|rewrite IH2 by exact D]; reflexivity.
Qed.

Lemma is_dec_val c n : is_dec c n -> digit c = Some (Z.of_nat n) /\ is_space c = false /\ is_sign c = false /\ literal false c.
Proof.
  intros H. unfold is_dec in H. do 10 (destruct n as [|n]; [vm_compute in H; injection H as <-; repeat split; try reflexivity; try discriminate; cbn; intuition discriminate|]).
  destruct n; vm_compute in H; discriminate.
Qed.
Lemma digits_snoc : forall s acc k v n c d, digits s acc k = (v, n) -> n = k + zlen s -> digit c = Some d -> digits (s ++ [c]) acc k = (10 * v + d, n + 1).
Proof.
  induction s as [|x s IH]; intros acc k v n c d E L D; cbn in *.
  - injection E as <- <-. rewrite D. reflexivity.
  - destruct (digit x) as [y|].
    + apply IH; auto. rewrite zlen_cons in L. lia.
    + injection E as <- <-. rewrite zlen_cons in L. pose proof (zlen_nonneg s). lia.
Qed.
Lemma decimal_digits v s : decimal v s -> digits s 0 0 = (v, zlen s) /\ 0 <= v /\ (exists c s' n, s = c :: s' /\ is_dec c n) /\ Forall (literal false) s.
Proof.
  induction 1 as [c n H|v s c n D (IH1 & IH2 & (c0 & s0 & n0 & -> & H0) & IH4) H].
  - destruct (is_dec_val _ _ H) as (V & _ & _ & L). cbn. rewrite V. split; [reflexivity|]. split; [lia|]. split; [eauto|constructor; auto].
  - destruct (is_dec_val _ _ H) as (V & _ & _ & L). rewrite (digits_snoc _ _ _ _ _ _ _ IH1 ltac:(lia) V). rewrite zlen_app.
    split; [reflexivity|]. split; [lia|]. split; [exists c0, (s0 ++ [c]), n0; auto|]. apply Forall_app. auto.
Qed.
Lemma literal_encodes s : Forall (literal false) s -> encodes cm false s s.
Proof. induction 1; constructor; auto. Qed.

Lemma parse_decimal p s : decimal p s -> p <= 65535 -> parse_port s = Some p.
Proof.
  intros D L. destruct (decimal_digits _ _ D) as (E & V & (c & s' & n & -> & H) & F).
  pose proof (scan_encodes _ _ _ (literal_encodes _ F)) as (NN & _ & _ & _).
  unfold parse_port. rewrite (cut_nonul _ NN). unfold strtol10. cbn [skip_spaces].
  destruct (is_dec_val _ _ H) as (_ & S1 & G1 & _). rewrite S1, G1. rewrite E. rewrite zlen_cons. pose proof (zlen_nonneg s').
  destruct (Z.eqb_spec (zlen s' + 1) 0); [lia|]. rewrite Z.add_0_l. rewrite Z.min_r by lia. rewrite Z.eqb_refl.
  destruct (Z.eqb_spec (zlen s' + 1) 0); [lia|]. destruct (Z.ltb_spec p 0); [lia|]. destruct (Z.ltb_spec 65535 p); [lia|]. reflexivity.
Qed.

(** the stages of the parser on well-formed text *)
Lemma tail_vhost dport ssl u pw h po p v vt : (match po with Some s => parse_port s | None => Some dport end) = Some p -> vhost_part cm v vt ->
  match vt with
  | [] => parse_tail cm ox dport ssl u pw h po x00 [] = Some (mkInfo u pw h v p ssl)
  | d :: r => d = x2f /\ parse_tail cm ox dport ssl u pw h po d r = Some (mkInfo u pw h v p ssl)
  end.
Proof.
  intros EP V. destruct V as [|v e E].
  - unfold parse_tail. rewrite EP. reflexivity.
  - cbn [app list_byte_of_string]. change (list_byte_of_string "/") with [x2f]. cbn [app]. split; [reflexivity|]. unfold parse_tail. rewrite EP. cbn [opt_bind].
    change (Byte.eqb x2f x2f) with true. cbv iota. destruct (scan_encodes _ _ _ E) as (N & _ & S & _). cbn [negb] in S. rewrite S. cbn [opt_bind].
    change (Byte.eqb x00 x00) with true. cbv iota. rewrite (cut_nonul _ N). reflexivity.
Qed.

(** [ends s d r]: what follows a component: nothing, or a delimiter and the rest *)
Lemma scan_then br d e rest : encodes cm br d e -> (forall c r, rest = c :: r -> is_delim (negb br) c = true) ->
  scan cm ox (negb br) (e ++ rest) = Some (d, match rest with [] => x00 | c :: _ => c end, match rest with [] => [] | _ :: r => r end).
Proof.
  intros E H. destruct (scan_encodes _ _ _ E) as (_ & _ & S1 & S2). destruct rest as [|c r]; [rewrite app_nil_r; exact S1|]. apply S2. eapply H. reflexivity.
Qed.

Lemma vhost_head v vt c r : vhost_part cm v vt -> vt = c :: r -> c = x2f.
Proof. intros V E. destruct V; [discriminate|]. cbn in E. congruence. Qed.

(** port and vhost *)
Lemma port_vhost ssl u pw h po p pt v vt : port_part ssl p pt -> vhost_part cm v vt -> 
  (pt = [] -> match po with Some s => parse_port s = Some p | None => True end) ->
  parse_port_delim cm ox (if ssl then 5671 else 5672) ssl u pw h po
    (match pt ++ vt with [] => x00 | c :: _ => c end) (match pt ++ vt with [] => [] | _ :: r => r end) = Some (mkInfo u pw h v p ssl).
Proof.
  intros PP V HP. unfold parse_port_delim. destruct PP as [|p s D LE].
  - cbn [app]. specialize (HP eq_refl).
    assert (EP : match po with Some s => parse_port s | None => Some (if ssl then 5671 else 5672) end = Some (if ssl then 5671 else 5672)) by (destruct po; auto).
    pose proof (tail_vhost (if ssl then 5671 else 5672) ssl u pw h po _ v vt EP V) as T.
    destruct vt as [|d r]; [exact T|]. destruct T as [-> T]. exact T.
  - change (list_byte_of_string ":") with [x3a]. cbn [app]. change (Byte.eqb x3a x3a) with true. cbv iota.
    destruct (decimal_digits _ _ D) as (_ & _ & _ & F). pose proof (scan_then false s s vt (literal_encodes _ F)) as S. cbn [negb] in S.
    rewrite S by (intros c r K; rewrite (vhost_head _ _ _ _ V K); reflexivity). cbn [opt_bind].
    pose proof (tail_vhost (if ssl then 5671 else 5672) ssl u pw h (Some s) p v vt (parse_decimal _ _ D LE) V) as T.
    destruct vt as [|d r]; [exact T|]. destruct T as [-> T]. exact T.
Qed.

Lemma pv_head ssl p pt v vt c r : port_part ssl p pt -> vhost_part cm v vt -> pt ++ vt = c :: r -> c = x3a \/ c = x2f.
Proof. intros PP V E. destruct PP; [right; eapply vhost_head; eauto|]. cbn in E. left. congruence. Qed.

(** host and what follows, after the user part (no port yet) *)
Lemma host_port_vhost ssl u pw hh ht p pt v vt : host_part cm hh ht -> port_part ssl p pt -> vhost_part cm v vt ->
  exists h d r, scan cm ox true (ht ++ pt ++ vt) = Some (h, d, r) /\ d <> x40 /\
    parse_host cm ox (if ssl then 5671 else 5672) ssl u pw h None d r = Some (mkInfo u pw hh v p ssl).
Proof.
  intros HP PP V.
  assert (HD : forall c r, pt ++ vt = c :: r -> is_delim true c = true) by (intros c r K; destruct (pv_head _ _ _ _ _ _ _ PP V K) as [->| ->]; reflexivity).
  assert (SIMPLE : forall h e, encodes cm false h e -> exists d r, scan cm ox true (e ++ pt ++ vt) = Some (h, d, r) /\ d <> x40 /\
            parse_host cm ox (if ssl then 5671 else 5672) ssl u pw h None d r = Some (mkInfo u pw (match h with [] => list_byte_of_string "localhost" | s => s end) v p ssl)).
  { intros h e E. do 2 eexists. split; [exact (scan_then false h e (pt ++ vt) E HD)|].
    assert (DC : match pt ++ vt with [] => x00 | c :: _ => c end = x00 \/ match pt ++ vt with [] => x00 | c :: _ => c end = x3a \/ match pt ++ vt with [] => x00 | c :: _ => c end = x2f).
    { destruct (pt ++ vt) as [|c r] eqn:PV; [auto|]. destruct (pv_head _ _ _ _ _ _ _ PP V PV); auto. }
    split; [destruct DC as [->|[->| ->]]; discriminate|].
    unfold parse_host. replace (Byte.eqb _ x5b) with false by (destruct DC as [->|[->| ->]]; reflexivity).
    destruct (scan_encodes _ _ _ E) as (N & _). rewrite (cut_nonul _ N). destruct h; apply port_vhost; auto. }
  destruct HP as [|hh e NE E|hh e E].
  - destruct (SIMPLE [] [] (enc_nil _ _)) as (d & r & S1 & S2 & S3). exists [], d, r. auto.
  - destruct (SIMPLE hh e E) as (d & r & S1 & S2 & S3). exists hh, d, r. split; [exact S1|]. split; [exact S2|]. destruct hh; [congruence|exact S3].
  - exists [], x5b, (e ++ str "]" ++ pt ++ vt). change (str "[") with [x5b]. change (str "]") with [x5d]. rewrite <- !app_assoc. cbn [app].
    split; [reflexivity|]. split; [discriminate|]. unfold parse_host. change (Byte.eqb x5b x5b) with true. cbv iota. cbn [cut].
    destruct (scan_encodes _ _ _ E) as (N & _ & _ & S). cbn [negb] in S. rewrite S by reflexivity. cbn [opt_bind]. change (Byte.eqb x5d x5d) with true. cbv iota.
    pose proof (scan_then false [] [] (pt ++ vt) (enc_nil _ _) HD) as S0. cbn [app negb] in S0. rewrite S0. cbn [opt_bind cut].
    rewrite (cut_nonul _ N). apply port_vhost; auto.
Qed.

Lemma body_parts ssl u pw ut hh ht p pt v vt : user_part cm u pw ut -> host_part cm hh ht -> port_part ssl p pt -> vhost_part cm v vt ->
  parse_body cm ox (if ssl then 5671 else 5672) ssl (ut ++ ht ++ pt ++ vt) = Some (mkInfo u pw hh v p ssl).
Proof.
  intros UP HP PP V. unfold parse_body. destruct UP as [|u e E|u e pw f E F].
  - (* no user: the first component is the host; a port may follow *)
    cbn [app].
    assert (HOST : forall h e, encodes cm false h e -> parse_body cm ox (if ssl then 5671 else 5672) ssl (e ++ pt ++ vt) =
              Some (mkInfo guest guest (match h with [] => list_byte_of_string "localhost" | s => s end) v p ssl)).
    { intros h e E. unfold parse_body. destruct (scan_encodes _ _ _ E) as (N & _ & _ & _).
      assert (HD : forall c r, pt ++ vt = c :: r -> is_delim true c = true) by (intros c r K; destruct (pv_head _ _ _ _ _ _ _ PP V K) as [->| ->]; reflexivity).
      pose proof (scan_then false h e (pt ++ vt) E HD) as S. cbn [negb] in S. rewrite S. cbn [opt_bind]. clear S.
      assert (PH : forall po, (pt = [] -> match po with Some s => parse_port s = Some p | None => True end) ->
        parse_port_delim cm ox (if ssl then 5671 else 5672) ssl guest guest (match cut h with [] => localhost | s => s end) po
          (match pt ++ vt with [] => x00 | c :: _ => c end) (match pt ++ vt with [] => [] | _ :: r => r end) =
        Some (mkInfo guest guest (match h with [] => list_byte_of_string "localhost" | s => s end) v p ssl)).
      { intros po HPO. rewrite (cut_nonul _ N). destruct h; apply port_vhost; auto. }
      destruct PP as [|p s D LE].
      - (* no port *)
        assert (DC : match [] ++ vt with [] => x00 | c :: _ => c end = x00 \/ match [] ++ vt with [] => x00 | c :: _ => c end = x2f).
        { cbn [app]. destruct vt as [|c r] eqn:PV; [auto|]. right. eapply vhost_head; eauto. }
        replace (Byte.eqb _ x3a) with false by (destruct DC as [->| ->]; reflexivity).
        unfold parse_user. replace (Byte.eqb _ x40) with false by (destruct DC as [->| ->]; reflexivity).
        unfold parse_host. replace (Byte.eqb _ x5b) with false by (destruct DC as [->| ->]; reflexivity).
        apply PH. auto.
      - change (str ":") with [x3a]. cbn [app]. change (Byte.eqb x3a x3a) with true. cbv iota.
        destruct (decimal_digits _ _ D) as (_ & _ & _ & F). pose proof (scan_then false s s vt (literal_encodes _ F)) as S. cbn [negb] in S.
        rewrite S by (intros c r K; rewrite (vhost_head _ _ _ _ V K); reflexivity). cbn [opt_bind].
        assert (DC : match vt with [] => x00 | c :: _ => c end = x00 \/ match vt with [] => x00 | c :: _ => c end = x2f).
        { destruct vt as [|c r] eqn:PV; [auto|]. right. eapply vhost_head; eauto. }
        unfold parse_user. replace (Byte.eqb _ x40) with false by (destruct DC as [->| ->]; reflexivity).
        unfold parse_host. replace (Byte.eqb _ x5b) with false by (destruct DC as [->| ->]; reflexivity).
        unfold parse_port_delim. replace (Byte.eqb _ x3a) with false by (destruct DC as [->| ->]; reflexivity).
        rewrite (cut_nonul _ N).
        pose proof (tail_vhost (if ssl then 5671 else 5672) ssl guest guest (match h with [] => localhost | s => s end) (Some s) p v vt (parse_decimal _ _ D LE) V) as T.
        destruct h; (destruct vt as [|d r]; [exact T|destruct T as [-> T]; exact T]). }
    destruct HP as [|hh e NE E|hh e E].
    + exact (HOST [] [] (enc_nil _ _)).
    + fold (parse_body cm ox (if ssl then 5671 else 5672) ssl (e ++ pt ++ vt)). rewrite (HOST hh e E). destruct hh; [congruence|reflexivity].
    + destruct (host_port_vhost ssl guest guest hh _ p pt v vt (hp_v6 _ _ _ E) PP V) as (h & d & r & S & ND & PHH). rewrite S. cbn [opt_bind].
      revert S. change (str "[") with [x5b]. rewrite <- !app_assoc. cbn [app scan]. intros S. injection S as <- <- <-. exact PHH.
  - rewrite <- !app_assoc. change (str "@") with [x40]. cbn [app]. destruct (scan_encodes _ _ _ E) as (N & _ & _ & S). cbn [negb] in S. rewrite S by reflexivity. cbn [opt_bind].
    change (Byte.eqb x40 x3a) with false. cbv iota. unfold parse_user. change (Byte.eqb x40 x40) with true. cbv iota.
    destruct (host_port_vhost ssl (cut u) guest hh ht p pt v vt HP PP V) as (h & d & r & S1 & ND & PHH). rewrite S1. cbn [opt_bind]. rewrite PHH.
    rewrite (cut_nonul _ N). reflexivity.
  - rewrite <- !app_assoc. change (str "@") with [x40]. change (str ":") with [x3a]. cbn [app].
    destruct (scan_encodes _ _ _ E) as (N & _ & _ & S). cbn [negb] in S. rewrite S by reflexivity. cbn [opt_bind].
    change (Byte.eqb x3a x3a) with true. cbv iota.
    destruct (scan_encodes _ _ _ F) as (N2 & _ & _ & S2). cbn [negb] in S2. rewrite S2 by reflexivity. cbn [opt_bind].
    unfold parse_user. change (Byte.eqb x40 x40) with true. cbv iota.
    destruct (host_port_vhost ssl (cut u) (cut pw) hh ht p pt v vt HP PP V) as (h & d & r & S1 & ND & PHH). rewrite S1. cbn [opt_bind]. rewrite PHH.
    rewrite (cut_nonul _ N), (cut_nonul _ N2). reflexivity.
Qed.

Lemma part_nonul ssl u pw ut hh ht p pt v vt : user_part cm u pw ut -> host_part cm hh ht -> port_part ssl p pt -> vhost_part cm v vt ->
  nonul (scheme ssl ++ ut ++ ht ++ pt ++ vt).
Proof.
  intros UP HP PP V. rewrite !nonul_app.
  assert (E : forall br d e, encodes cm br d e -> nonul e) by (intros br d e K; apply (scan_encodes _ _ _ K)).
  assert (L : forall c, c <> x00 -> nonul [c]) by (intros c K [H|[]]; congruence).
  split; [destruct ssl; intros H; cbn in H; intuition discriminate|].
  split; [destruct UP; [intros []| |]; repeat (rewrite nonul_app; split); eauto; apply L; discriminate|].
  split; [destruct HP; [intros []|eauto|]; repeat (rewrite nonul_app; split); eauto; apply L; discriminate|].
  split; [destruct PP as [|p s D]; [intros []|]; rewrite nonul_app; split; [apply L; discriminate|]|].
  - destruct (decimal_digits _ _ D) as (_ & _ & _ & F). exact (E _ _ _ (literal_encodes _ F)).
  - destruct V; [intros []|]. rewrite nonul_app; split; [apply L; discriminate|eauto].
Qed.
End C28.

(** C28.  A URL put together from a scheme, optional user and password, a host (a name, an
    address in brackets, or none), an optional decimal port up to 65535 and an optional
    vhost, all components percent-encoded wherever they like, is parsed to exactly these
    components, with the documented defaults for those left out. *)
Theorem C28_components : forall cm ox ssl user password host port vhost ut ht pt vt tail,
  user_part cm user password ut -> host_part cm host ht -> port_part ssl port pt -> vhost_part cm vhost vt ->
  exists ci m, amqp_parse_url cm ox ((scheme ssl ++ ut ++ ht ++ pt ++ vt) ++ x00 :: tail) = Some (AMQP_STATUS_OK, ci, m) /\
    string_of m (ci_user ci) = Some user /\ string_of m (ci_password ci) = Some password /\ string_of m (ci_host ci) = Some host /\
    string_of m (ci_vhost ci) = Some vhost /\ ci_port ci = port /\ ci_ssl ci = ssl.
Proof.
  intros cm ox ssl user password host port vhost ut ht pt vt tail UP HP PP V.
  pose proof (part_nonul cm ox ssl _ _ _ _ _ _ _ _ _ UP HP PP V) as NN.
  destruct (parse_url_ok cm ox _ tail NN) as (st & ci & P0 & E & L & H).
  assert (PE : parse cm ox (scheme ssl ++ ut ++ ht ++ pt ++ vt) = Some (mkInfo user password host vhost port ssl)).
  { pose proof (body_parts cm ox ssl _ _ _ _ _ _ _ _ _ UP HP PP V) as B. unfold parse. destruct ssl; cbn [scheme].
    - change (starts_with (list_byte_of_string "amqp://") (list_byte_of_string "amqps://" ++ ut ++ ht ++ pt ++ vt)) with false. cbv iota.
      rewrite starts_with_app. change (skipn 8 (list_byte_of_string "amqps://" ++ ut ++ ht ++ pt ++ vt)) with (ut ++ ht ++ pt ++ vt). exact B.
    - rewrite starts_with_app. change (skipn 7 (list_byte_of_string "amqp://" ++ ut ++ ht ++ pt ++ vt)) with (ut ++ ht ++ pt ++ vt). exact B. }
  rewrite PE in H. destruct H as (-> & H1 & H2 & H3 & H4 & H5 & H6). exists ci. eexists. split; [exact E|].
  repeat split; auto; apply ptr_string; assumption.
Qed.

(** ** C29 *)
Section C29.
Context (cm : Z) (ox : bool).

Lemma hexval_is_hex c v : hexval c = Some v -> exists n, is_hex c n.
Proof. intros H. unfold is_hex. destruct c; vm_compute in H; try discriminate;
  first [exists 0%nat; cbn; tauto|exists 1%nat; cbn; tauto|exists 2%nat; cbn; tauto|exists 3%nat; cbn; tauto|exists 4%nat; cbn; tauto|exists 5%nat; cbn; tauto|exists 6%nat; cbn; tauto
        |exists 7%nat; cbn; tauto|exists 8%nat; cbn; tauto|exists 9%nat; cbn; tauto|exists 10%nat; cbn; tauto|exists 11%nat; cbn; tauto|exists 12%nat; cbn; tauto
        |exists 13%nat; cbn; tauto|exists 14%nat; cbn; tauto|exists 15%nat; cbn; tauto].
Qed.
Lemma space_blank c : is_space c = true -> blank c.
Proof. unfold blank. destruct c; intros H; vm_compute in H; try discriminate; cbn; tauto. Qed.

Lemma escape_lenient r b : escape cm ox r = Some b -> exists h l r', r = h :: l :: r' /\ lenient_escape h l.
Proof.
  intros E. destruct (escape_two _ _ _ _ E) as (h & l & r' & ->). exists h, l, r'. split; [reflexivity|].
  unfold escape, sscanf_2x in E. cbn [skip_spaces] in E. destruct (is_space h) eqn:SH.
  - apply space_blank in SH. destruct (is_space l) eqn:SL.
    + destruct (skip_spaces r') as [k s'] eqn:ES. destruct (skip_spaces_spec _ _ _ ES) as (w & _ & ->). pose proof (zlen_nonneg w) as ZW.
      destruct s' as [|c s']; [discriminate|]. exfalso. revert E.
      destruct (is_sign c).
      * destruct s' as [|d s']; [discriminate|]. destruct (hexval d); [|discriminate]. destruct (Z.eqb_spec (zlen w + 1 + 1 + 2) 2); [lia|discriminate].
      * destruct (hexval c); [|discriminate]. destruct s' as [|d s'].
        -- destruct (Z.eqb_spec (zlen w + 1 + 1 + 1) 2); [lia|discriminate].
        -- destruct (hexval d); [destruct (Z.eqb_spec (zlen w + 1 + 1 + 2) 2); [lia|discriminate]|].
           destruct (Byte.eqb c x30 && _); [destruct ox; [destruct (Z.eqb_spec (zlen w + 1 + 1 + 2) 2); [lia|discriminate]|discriminate]|].
           destruct (Z.eqb_spec (zlen w + 1 + 1 + 1) 2); [lia|discriminate].
    + change (0 + 1 + 2) with 3 in E. change (0 + 1 + 1) with 2 in E. destruct (is_sign l) eqn:GL.
      { exfalso. destruct r' as [|d r']; [discriminate|]. destruct (hexval d); discriminate. }
      destruct (hexval l) eqn:HL; [|discriminate]. left. split; [auto|]. eapply hexval_is_hex; eauto.
  - change (0 + 2) with 2 in E. destruct (is_sign h) eqn:GH.
    + destruct (hexval l) eqn:HL; [|discriminate]. left. split; [|eapply hexval_is_hex; eauto].
      unfold is_sign in GH. apply orb_true_iff in GH. destruct GH as [G|G]; [destruct (byte_eqb_spec h x2b); [auto|discriminate]|destruct (byte_eqb_spec h x2d); [auto|discriminate]].
    + destruct (hexval h) eqn:HH; [|discriminate]. destruct (hexval l) eqn:HL.
      * left. split; [left; eapply hexval_is_hex; eauto|eapply hexval_is_hex; eauto].
      * destruct (Byte.eqb h x30 && _) eqn:OX.
        -- apply andb_true_iff in OX. destruct OX as [O1 O2]. apply orb_true_iff in O2. right.
           destruct (byte_eqb_spec h x30); [|discriminate]. split; [assumption|].
           destruct O2 as [O2|O2]; [destruct (byte_eqb_spec l x78); [auto|discriminate]|destruct (byte_eqb_spec l x58); [auto|discriminate]].
        -- exfalso. discriminate E.
Qed.

Lemma delim_literal colon c : is_delim colon c = false -> Byte.eqb c x25 = false -> c <> x00 -> literal (negb colon) c.
Proof.
  intros D P N. unfold literal. split; [exact N|]. split.
  - intros H. cbn in H. repeat destruct H as [<-|H]; try (destruct colon; discriminate); try discriminate; contradiction.
  - intros B H. destruct colon; [|discriminate]. cbn in H. repeat destruct H as [<-|H]; try discriminate; contradiction.
Qed.

Lemma scan_inv colon : forall k s dec d r, (length s <= k)%nat -> nonul s -> scan cm ox colon s = Some (dec, d, r) ->
  exists e, component (negb colon) e /\ nonul r /\
    (d <> x00 /\ is_delim colon d = true /\ s = e ++ d :: r \/ d = x00 /\ r = [] /\ s = e) /\
    (cut dec = [] -> e = [] \/ exists h l x, e = x25 :: h :: l :: x).
Proof.
  induction k as [|k IH]; intros s dec d r LK NN E.
  { destruct s; [|cbn in LK; lia]. cbn in E. injection E as <- <- <-. exists []. split; [constructor|]. split; [intros []|]. auto. }
  destruct s as [|c s].
  { cbn in E. injection E as <- <- <-. exists []. split; [constructor|]. split; [intros []|]. auto. }
  apply nonul_cons in NN. destruct NN as [NC NS]. cbn [scan] in E. destruct (is_delim colon c) eqn:DL.
  { injection E as <- <- <-. exists []. split; [constructor|]. split; [exact NS|]. auto. }
  cbn [length] in LK. destruct (Byte.eqb c x25) eqn:PC.
  - destruct (byte_eqb_spec c x25) as [->|]; [|discriminate]. destruct (escape cm ox s) as [b|] eqn:ES; [|discriminate].
    destruct (escape_lenient _ _ ES) as (h & l & s' & -> & LE). destruct (scan cm ox colon s') as [[[dec' d'] r']|] eqn:SE; [|discriminate].
    injection E as <- <- <-. apply nonul_cons in NS. destruct NS as [_ NS]. apply nonul_cons in NS. destruct NS as [_ NS].
    destruct (IH s' dec' d' r' ltac:(cbn [length] in LK; lia) NS SE) as (e & C & NR & H & _).
    exists (x25 :: h :: l :: e). split; [constructor; assumption|]. split; [exact NR|]. split; [|intros _; right; eauto].
    destruct H as [(H1 & H2 & ->)|(-> & -> & ->)]; auto.
  - destruct (scan cm ox colon s) as [[[dec' d'] r']|] eqn:SE; [|discriminate]. injection E as <- <- <-.
    destruct (IH s dec' d' r' ltac:(lia) NS SE) as (e & C & NR & H & _).
    exists (c :: e). split; [constructor; [apply delim_literal; assumption|exact C]|]. split; [exact NR|]. split.
    + destruct H as [(H1 & H2 & ->)|(-> & -> & ->)]; auto.
    + intros K. cbn in K. rewrite (eqb_false c x00) in K by exact NC. discriminate.
Qed.

(** what a delimiter and the rest are worth as text *)
Definition rest_text (d : byte) (r : bytes) : bytes := if Byte.eqb d x00 then [] else d :: r.
Lemma scan_text colon s dec d r : nonul s -> scan cm ox colon s = Some (dec, d, r) ->
  exists e, component (negb colon) e /\ nonul r /\ s = e ++ rest_text d r /\ (cut dec = [] -> e = [] \/ exists h l x, e = x25 :: h :: l :: x).
Proof.
  intros NN E. destruct (scan_inv colon (length s) s dec d r ltac:(lia) NN E) as (e & C & NR & H & V). exists e.
  split; [exact C|]. split; [exact NR|]. split; [|exact V]. unfold rest_text.
  destruct H as [(H1 & H2 & ->)|(-> & -> & ->)]; [rewrite (eqb_false d x00) by exact H1; reflexivity|]. cbn. rewrite app_nil_r. reflexivity.
Qed.

Lemma tail_text dport ssl u pw h po d r i : nonul r -> parse_tail cm ox dport ssl u pw h po d r = Some i -> vhost_text (rest_text d r).
Proof.
  intros NR. unfold parse_tail. destruct (match po with Some s => parse_port s | None => Some dport end); [|discriminate]. cbn [opt_bind].
  destruct (byte_eqb_spec d x2f) as [->|N].
  - destruct (scan cm ox true r) as [[[v d2] r2]|] eqn:E; [|discriminate]. cbn [opt_bind]. destruct (byte_eqb_spec d2 x00) as [->|]; [|discriminate].
    intros _. destruct (scan_text _ _ _ _ _ NR E) as (e & C & _ & -> & _). cbn [rest_text]. change (Byte.eqb x00 x00) with true. cbv iota. rewrite app_nil_r.
    apply (vt_vhost e). exact C.
  - destruct (byte_eqb_spec d x00) as [->|]; [|discriminate]. intros _. constructor.
Qed.
Lemma port_delim_text dport ssl u pw h po d r i : nonul r -> parse_port_delim cm ox dport ssl u pw h po d r = Some i ->
  exists p v, rest_text d r = p ++ v /\ (p = [] \/ exists e, component false e /\ p = str ":" ++ e) /\ vhost_text v.
Proof.
  intros NR. unfold parse_port_delim. destruct (byte_eqb_spec d x3a) as [->|N].
  - destruct (scan cm ox true r) as [[[ps d2] r2]|] eqn:E; [|discriminate]. cbn [opt_bind]. intros T.
    destruct (scan_text _ _ _ _ _ NR E) as (e & C & NR2 & -> & _). exists (str ":" ++ e), (rest_text d2 r2).
    split; [reflexivity|]. split; [eauto|]. eapply tail_text; eauto.
  - intros T. exists [], (rest_text d r). split; [reflexivity|]. split; [auto|]. eapply tail_text; eauto.
Qed.

(** host and the rest; [e] is the text of [h], [pe] that of the port, if seen *)
Lemma host_text_ok dport ssl u pw h po pe e d r i : nonul r -> component false e -> (cut h = [] -> e = [] \/ exists a b x, e = x25 :: a :: b :: x) ->
  match po with Some _ => exists f, component false f /\ pe = str ":" ++ f | None => pe = [] end ->
  parse_host cm ox dport ssl u pw h po d r = Some i ->
  exists hh pp vv, e ++ pe ++ rest_text d r = hh ++ pp ++ vv /\ host_text hh /\ port_text pp /\ vhost_text vv.
Proof.
  intros NR CE V HPO. unfold parse_host. destruct (byte_eqb_spec d x5b) as [->|N].
  - destruct po; [discriminate|]. subst pe. destruct (cut h) eqn:CH; [|discriminate]. specialize (V eq_refl).
    destruct (scan cm ox false r) as [[[h2 d2] r2]|] eqn:E; [|discriminate]. cbn [opt_bind]. destruct (byte_eqb_spec d2 x5d) as [->|]; [|discriminate].
    destruct (scan_text _ _ _ _ _ NR E) as (e2 & C2 & NR2 & -> & _). destruct (scan cm ox true r2) as [[[j d3] r3]|] eqn:E3; [|discriminate]. cbn [opt_bind].
    destruct (scan_text _ _ _ _ _ NR2 E3) as (k & C3 & NR3 & -> & V3). destruct (cut j) eqn:CJ; [|discriminate]. specialize (V3 eq_refl).
    intros T. destruct (port_delim_text _ _ _ _ _ _ _ _ _ NR3 T) as (p & v & EQ & HP & HV).
    exists (e ++ str "[" ++ e2 ++ str "]" ++ k), p, v. split; [|split; [|split; [destruct HP as [->|(g & CG & ->)]; constructor; exact CG|exact HV]]].
    + cbn [rest_text app]. change (Byte.eqb x5b x00) with false. change (Byte.eqb x5d x00) with false. cbv iota. rewrite EQ.
      change (str "[") with [x5b]. change (str "]") with [x5d]. unfold rest_text. change (Byte.eqb x5b x00) with false. change (Byte.eqb x5d x00) with false. cbv iota.
      rewrite <- !app_assoc. cbn [app]. rewrite <- ?app_assoc. reflexivity.
    + constructor; [split; assumption|exact C2|split; assumption].
  - intros T. destruct (port_delim_text _ _ _ _ _ _ _ _ _ NR T) as (p & v & EQ & HP & HV).
    destruct po as [q|].
    + destruct HPO as (f & CF & ->). rewrite EQ. destruct HP as [->|(g & CG & ->)].
      * exists e, (str ":" ++ f), v. split; [cbn [app]; rewrite <- ?app_assoc; reflexivity|]. split; [constructor; exact CE|]. split; [constructor; exact CF|exact HV].
      * exists e, (str ":" ++ f ++ str ":" ++ g), v. split; [rewrite <- ?app_assoc; reflexivity|].
        split; [constructor; exact CE|]. split; [apply pt_two; assumption|exact HV].
    + subst pe. rewrite EQ. exists e, p, v. split; [reflexivity|]. split; [constructor; exact CE|]. split; [|exact HV]. destruct HP as [->|(g & CG & ->)]; constructor; exact CG.
Qed.

Lemma user_text_ok dport ssl h po pe e d r i : nonul r -> component false e -> (cut h = [] -> e = [] \/ exists a b x, e = x25 :: a :: b :: x) ->
  match po with Some _ => exists f, component false f /\ pe = str ":" ++ f | None => pe = [] end ->
  parse_user cm ox dport ssl h po d r = Some i ->
  exists uu hh pp vv, e ++ pe ++ rest_text d r = uu ++ hh ++ pp ++ vv /\ user_text uu /\ host_text hh /\ port_text pp /\ vhost_text vv.
Proof.
  intros NR CE V HPO. unfold parse_user. destruct (byte_eqb_spec d x40) as [->|N].
  - destruct (scan cm ox true r) as [[[h2 d2] r2]|] eqn:E; [|discriminate]. cbn [opt_bind]. intros T.
    destruct (scan_text _ _ _ _ _ NR E) as (e2 & C2 & NR2 & -> & V2).
    destruct (host_text_ok _ _ _ _ h2 None [] e2 d2 r2 i NR2 C2 V2 eq_refl T) as (hh & pp & vv & EQ & HH & HP & HV).
    cbn [app] in EQ. exists (e ++ pe ++ str "@"), hh, pp, vv. split.
    + unfold rest_text at 1. change (Byte.eqb x40 x00) with false. cbv iota. rewrite EQ. change (str "@") with [x40]. rewrite <- !app_assoc. reflexivity.
    + split; [|auto]. destruct po; [destruct HPO as (f & CF & ->); rewrite <- app_assoc; constructor; assumption|subst pe; constructor; assumption].
  - intros T. destruct (host_text_ok _ _ _ _ h po pe e d r i NR CE V HPO T) as (hh & pp & vv & EQ & HH & HP & HV).
    exists [], hh, pp, vv. split; [exact EQ|]. split; [constructor|auto].
Qed.

Lemma body_text dport ssl s i : nonul s -> parse_body cm ox dport ssl s = Some i ->
  exists uu hh pp vv, s = uu ++ hh ++ pp ++ vv /\ user_text uu /\ host_text hh /\ port_text pp /\ vhost_text vv.
Proof.
  intros NN. unfold parse_body. destruct (scan cm ox true s) as [[[h d] r]|] eqn:E; [|discriminate]. cbn [opt_bind].
  destruct (scan_text _ _ _ _ _ NN E) as (e & C & NR & -> & V). destruct (byte_eqb_spec d x3a) as [->|N].
  - destruct (scan cm ox true r) as [[[p d2] r2]|] eqn:E2; [|discriminate]. cbn [opt_bind]. intros T.
    destruct (scan_text _ _ _ _ _ NR E2) as (f & C2 & NR2 & -> & V2).
    destruct (user_text_ok _ _ h (Some p) (str ":" ++ f) e d2 r2 i NR2 C V (ex_intro _ f (conj C2 eq_refl)) T) as (uu & hh & pp & vv & EQ & H). exists uu, hh, pp, vv.
    split; [|exact H]. rewrite <- EQ. unfold rest_text at 1. change (Byte.eqb x3a x00) with false. cbv iota. rewrite <- !app_assoc. reflexivity.
  - intros T. destruct (user_text_ok _ _ h None [] e d r i NR C V eq_refl T) as (uu & hh & pp & vv & EQ & H). exists uu, hh, pp, vv. split; [exact EQ|exact H].
Qed.
End C29.

(** the status amqp_parse_url returns for the string [s] *)
Definition status_for (cm : Z) (ox : bool) (s tail : bytes) : option Z := option_map (fun r => fst (fst r)) (amqp_parse_url cm ox (s ++ x00 :: tail)).

Lemma status_parse cm ox s tail : ~ In x00 s -> status_for cm ox s tail = Some (match parse cm ox s with Some _ => AMQP_STATUS_OK | None => AMQP_STATUS_BAD_URL end).
Proof.
  intros NN. unfold status_for. destruct (parse_url_ok cm ox s tail NN) as (st & ci & P0 & E & L & H). rewrite E. cbn.
  destruct (parse cm ox s); [destruct H as (-> & _)|subst st]; reflexivity.
Qed.

(** C29 (i).  Whatever amqp_parse_url accepts is scheme, user, host, port, vhost in this
    order, where every component consists of ordinary characters and escapes and no other
    character with a meaning of its own.  (Partial: escapes and ports are taken more
    liberally than the URL syntax allows; see the refutations below.) *)
Theorem C29_accepted_urls_partial : forall cm ox s tail, ~ In x00 s -> status_for cm ox s tail = Some AMQP_STATUS_OK ->
  exists ssl user host port vhost, s = scheme ssl ++ user ++ host ++ port ++ vhost /\
    user_text user /\ host_text host /\ port_text port /\ vhost_text vhost.
Proof.
  intros cm ox s tail NN. rewrite (status_parse _ _ _ _ NN). destruct (parse cm ox s) as [i|] eqn:E; [|discriminate]. intros _.
  unfold parse in E. destruct (starts_with (list_byte_of_string "amqp://") s) eqn:S1.
  - apply starts_with_spec in S1. destruct S1 as [r ->]. change (skipn 7 (list_byte_of_string "amqp://" ++ r)) with r in E.
    apply body_text in E; [|intros K; apply NN; apply in_or_app; auto]. destruct E as (u & h & p & v & -> & H). exists false, u, h, p, v. auto.
  - destruct (starts_with (list_byte_of_string "amqps://") s) eqn:S2; [|discriminate].
    apply starts_with_spec in S2. destruct S2 as [r ->]. change (skipn 8 (list_byte_of_string "amqps://" ++ r)) with r in E.
    apply body_text in E; [|intros K; apply NN; apply in_or_app; auto]. destruct E as (u & h & p & v & -> & H). exists true, u, h, p, v. auto.
Qed.

(** C29 (ii).  Any other scheme is refused ... *)
Theorem C29_scheme : forall cm ox s tail, ~ In x00 s -> (forall ssl rest, s <> scheme ssl ++ rest) -> status_for cm ox s tail = Some AMQP_STATUS_BAD_URL.
Proof.
  intros cm ox s tail NN H. rewrite (status_parse _ _ _ _ NN). unfold parse.
  destruct (starts_with (list_byte_of_string "amqp://") s) eqn:S1; [apply starts_with_spec in S1; destruct S1 as [r ->]; destruct (H false r eq_refl)|].
  destruct (starts_with (list_byte_of_string "amqps://") s) eqn:S2; [apply starts_with_spec in S2; destruct S2 as [r ->]; destruct (H true r eq_refl)|]. reflexivity.
Qed.

Lemma component_chars br e c : component br e -> In c e -> In c (str "?#") -> False.
Proof.
  induction 1 as [|x e (L1 & L2 & L3) C IH|h l e LE C IH]; intros HI HQ.
  - exact HI.
  - destruct HI as [->|HI]; [|auto]. apply L2. clear -HQ. cbn in *. intuition.
  - destruct HI as [<-|[<-|[<-|HI]]]; [| | |auto].
    + cbn in HQ. intuition discriminate.
    + destruct LE as [[[(a & [K|K])|[->|[->|K]]] _]|[-> _]].
      1,2: do 16 (destruct a as [|a]; [vm_compute in K; injection K as <-; cbn in HQ; intuition discriminate|]); destruct a; discriminate.
      1,2: cbn in HQ; intuition discriminate.
      * unfold blank in K. cbn in K. cbn in HQ. intuition (subst; discriminate).
      * cbn in HQ; intuition discriminate.
    + destruct LE as [[_ (a & [K|K])]|[_ [->| ->]]].
      1,2: do 16 (destruct a as [|a]; [vm_compute in K; injection K as <-; cbn in HQ; intuition discriminate|]); destruct a; discriminate.
      all: cbn in HQ; intuition discriminate.
Qed.

(** ... and so is a query or a fragment: '?' or '#' anywhere. *)
Theorem C29_query_fragment : forall cm ox s tail c, ~ In x00 s -> In c (str "?#") -> In c s -> status_for cm ox s tail = Some AMQP_STATUS_BAD_URL.
Proof.
  intros cm ox s tail c NN HQ HI. pose proof (C29_accepted_urls_partial cm ox s tail NN) as A. rewrite (status_parse _ _ _ _ NN) in *.
  destruct (parse cm ox s); [|reflexivity]. exfalso. specialize (A eq_refl). destruct A as (ssl & u & h & p & v & -> & U & H & P & V).
  assert (ONE : forall x, In c [x] -> In x (str "@:[]/") -> False).
  { intros x [<-|[]] K. cbn in HQ, K. intuition (subst; discriminate). }
  assert (CO : forall br e, component br e -> ~ In c e) by (intros br e K K2; eapply component_chars; eauto).
  apply in_app_or in HI. destruct HI as [HI|HI].
  { destruct ssl; cbn in HI, HQ; intuition (subst; discriminate). }
  apply in_app_or in HI. destruct HI as [HI|HI].
  { destruct U as [|e C|e f C D]; [destruct HI| |]; repeat (apply in_app_or in HI; destruct HI as [HI|HI]); first [eapply CO; [|exact HI]; eassumption|cbn in HI, HQ; clear -HI HQ; intuition (subst; discriminate)]. }
  apply in_app_or in HI. destruct HI as [HI|HI].
  { destruct H as [e C|j e k [J _] C [K _]]; [eapply CO; eassumption|]; repeat (apply in_app_or in HI; destruct HI as [HI|HI]);
      first [eapply CO; [|eassumption]; eassumption|cbn in HI, HQ; clear -HI HQ; intuition (subst; discriminate)]. }
  apply in_app_or in HI. destruct HI as [HI|HI].
  { destruct P as [|e C|e f C D]; [destruct HI| |]; repeat (apply in_app_or in HI; destruct HI as [HI|HI]); first [eapply CO; [|exact HI]; eassumption|cbn in HI, HQ; clear -HI HQ; intuition (subst; discriminate)]. }
  { destruct V as [|e C]; [destruct HI|]; repeat (apply in_app_or in HI; destruct HI as [HI|HI]); first [eapply CO; [|exact HI]; eassumption|cbn in HI, HQ; clear -HI HQ; intuition (subst; discriminate)]. }
Qed.

Definition escapes_ok (s : bytes) : Prop := forall a r, s = a ++ x25 :: r -> exists h l r', r = h :: l :: r' /\ lenient_escape h l.
Lemma app_split {A} : forall (x y a r : list A) c, x ++ y = a ++ c :: r ->
  (exists r1, x = a ++ c :: r1 /\ r = r1 ++ y) \/ (exists a2, a = x ++ a2 /\ y = a2 ++ c :: r).
Proof.
  induction x as [|z x IH]; intros y a r c E; [right; exists a; auto|]. destruct a as [|w a]; cbn in E; injection E as E1 E2.
  - left. exists x. subst. auto.
  - subst w. destruct (IH _ _ _ _ E2) as [(r1 & -> & ->)|(a2 & -> & ->)]; [left; exists r1; auto|right; exists a2; auto].
Qed.
Lemma escapes_app x y : escapes_ok x -> escapes_ok y -> escapes_ok (x ++ y).
Proof.
  intros X Y a r E. destruct (app_split _ _ _ _ _ E) as [(r1 & E1 & ->)|(a2 & -> & E1)].
  - destruct (X _ _ E1) as (h & l & r' & -> & L). exists h, l, (r' ++ y). auto.
  - exact (Y _ _ E1).
Qed.
Lemma escapes_component br e : component br e -> escapes_ok e.
Proof.
  intros C. induction C as [|c e L C IH|h l e LE C IH]; intros a r E.
  - destruct a; discriminate.
  - destruct a as [|y a]; injection E as E1 E2; [subst c; destruct L as (_ & L & _); exfalso; apply L; cbn; tauto|]. eauto.
  - assert (NP : forall x n, is_hex x n -> x <> x25).
    { intros x n [K|K] ->; do 16 (destruct n as [|n]; [discriminate|]); destruct n; discriminate. }
    assert (NH : h <> x25 /\ l <> x25).
    { destruct LE as [[K (m & K2)]|[-> [->| ->]]]; [|split; discriminate|split; discriminate]. split; [|eauto]. intros ->.
      destruct K as [(n & K)|[K|[K|K]]]; [exact (NP _ _ K eq_refl)|discriminate|discriminate|]. unfold blank in K. cbn in K. intuition discriminate. }
    destruct NH as [NH NL]. destruct a as [|y a]; cbn in E; [inversion E; exists h, l, e; auto|].
    destruct a as [|y2 a]; cbn in E; [inversion E; congruence|]. destruct a as [|y3 a]; cbn in E; [inversion E; congruence|].
    assert (E' : e = a ++ x25 :: r) by congruence. eauto.
Qed.
Lemma escapes_plain s : ~ In x25 s -> escapes_ok s.
Proof. intros H a r ->. destruct H. apply in_or_app. right. left. reflexivity. Qed.

(** C29 (iii).  In an accepted URL every percent sign is followed by two characters that
    make an escape: two hexadecimal digits -- or one of the forms of [lenient_escape]. *)
Theorem C29_escapes_partial : forall cm ox s tail, ~ In x00 s -> status_for cm ox s tail = Some AMQP_STATUS_OK ->
  forall a r, s = a ++ x25 :: r -> exists h l r', r = h :: l :: r' /\ lenient_escape h l.
Proof.
  intros cm ox s tail NN OK. destruct (C29_accepted_urls_partial cm ox s tail NN OK) as (ssl & u & h & p & v & -> & U & H & P & V).
  assert (PL : forall s0, ~ In x25 s0 -> escapes_ok s0) by exact escapes_plain.
  change (escapes_ok (scheme ssl ++ u ++ h ++ p ++ v)).
  assert (CO : forall br e, component br e -> escapes_ok e) by exact escapes_component.
  repeat apply escapes_app.
  - apply PL. destruct ssl; cbn; intuition discriminate.
  - destruct U; repeat apply escapes_app; try (eapply CO; eassumption); apply PL; cbn; intuition discriminate.
  - destruct H as [e C|j e k [J _] C [K _]]; repeat apply escapes_app; try (eapply CO; eassumption); apply PL; cbn; intuition discriminate.
  - destruct P; repeat apply escapes_app; try (eapply CO; eassumption); apply PL; cbn; intuition discriminate.
  - destruct V; repeat apply escapes_app; try (eapply CO; eassumption); apply PL; cbn; intuition discriminate.
Qed.

(** C29 (iv).  What is not refused although the syntax of URLs excludes it: an escape with a
    sign or a blank in place of the first digit, a port with a sign or blanks, a second port,
    an escaped NUL before an address in brackets, and userinfo after "%00". *)
Theorem C29_bad_escape_refuted : forall cm ox tail, 127 <= cm ->
  status_for cm ox (str "amqp://%+5") tail = Some AMQP_STATUS_OK /\ status_for cm ox (str "amqp://% 5/v") tail = Some AMQP_STATUS_OK.
Proof.
  intros cm ox tail H. assert (L : (cm <? 5) = false) by (apply Z.ltb_ge; lia).
  assert (E1 : escape cm ox (str "+5") = Some x05).
  { unfold escape. change (sscanf_2x ox (str "+5")) with (Some (5, 2)). cbv iota beta. change (2 =? 2) with true. rewrite L. reflexivity. }
  assert (E2 : escape cm ox (str " 5/v") = Some x05).
  { unfold escape. change (sscanf_2x ox (str " 5/v")) with (Some (5, 2)). cbv iota beta. change (2 =? 2) with true. rewrite L. reflexivity. }
  split; rewrite status_parse by (cbn; intuition discriminate).
  - assert (S : scan cm ox true (str "%+5") = Some ([x05], x00, [])).
    { change (scan cm ox true (str "%+5")) with (match escape cm ox (str "+5") with None => None | Some b => Some ([b], x00, @nil byte) end). rewrite E1. reflexivity. }
    change (parse cm ox (str "amqp://%+5")) with (parse_body cm ox 5672 false (str "%+5")). unfold parse_body. rewrite S. reflexivity.
  - assert (S : scan cm ox true (str "% 5/v") = Some ([x05], x2f, str "v")).
    { change (scan cm ox true (str "% 5/v")) with (match escape cm ox (str " 5/v") with None => None | Some b => Some ([b], x2f, str "v") end). rewrite E2. reflexivity. }
    change (parse cm ox (str "amqp://% 5/v")) with (parse_body cm ox 5672 false (str "% 5/v")). unfold parse_body. rewrite S. reflexivity.
Qed.
Theorem C29_bad_port_refuted : forall cm ox tail,
  status_for cm ox (str "amqp://h: +5672") tail = Some AMQP_STATUS_OK /\ status_for cm ox (str "amqp://h:x:5672") tail = Some AMQP_STATUS_OK.
Proof. intros cm ox tail. split; rewrite status_parse by (cbn; intuition discriminate); reflexivity. Qed.

(** C29 (v).  "%0x" and "%0X": the two kinds of C library differ.  Where sscanf takes the
    lone prefix of a hexadecimal number for zero ([ox = true]) the URL is accepted; where
    it does not, the URL is refused. *)
Theorem C29_zero_x : forall cm ox x tail, 127 <= cm -> In x (str "xX") ->
  status_for cm ox (str "amqp://h/%0" ++ [x]) tail = Some (if ox then AMQP_STATUS_OK else AMQP_STATUS_BAD_URL).
Proof.
  intros cm ox x tail H I. assert (L : (cm <? 0) = false) by (apply Z.ltb_ge; lia).
  destruct I as [<-|[<-|[]]]; (rewrite status_parse by (cbn; intuition discriminate)).
  - assert (E : escape cm ox [x30; x78] = if ox then Some x00 else None).
    { unfold escape. change (sscanf_2x ox [x30; x78]) with (if ox then Some (0, 2) else None). destruct ox; [cbv iota beta; change (2 =? 2) with true; rewrite L|]; reflexivity. }
    change (parse cm ox (str "amqp://h/%0" ++ [x78])) with (parse_body cm ox 5672 false (str "h/%0x")).
    assert (S : scan cm ox false (str "%0x") = if ox then Some ([x00], x00, []) else None).
    { change (scan cm ox false (str "%0x")) with (match escape cm ox [x30; x78] with None => None | Some b => Some ([b], x00, @nil byte) end). rewrite E. destruct ox; reflexivity. }
    unfold parse_body. change (scan cm ox true (str "h/%0x")) with (Some (str "h", x2f, str "%0x")). cbn [negb andb] in *. cbv iota beta.
    destruct ox; cbn in S |- *; rewrite ?S; reflexivity.
  - assert (E : escape cm ox [x30; x58] = if ox then Some x00 else None).
    { unfold escape. change (sscanf_2x ox [x30; x58]) with (if ox then Some (0, 2) else None). destruct ox; [cbv iota beta; change (2 =? 2) with true; rewrite L|]; reflexivity. }
    change (parse cm ox (str "amqp://h/%0" ++ [x58])) with (parse_body cm ox 5672 false (str "h/%0X")).
    assert (S : scan cm ox false (str "%0X") = if ox then Some ([x00], x00, []) else None).
    { change (scan cm ox false (str "%0X")) with (match escape cm ox [x30; x58] with None => None | Some b => Some ([b], x00, @nil byte) end). rewrite E. destruct ox; reflexivity. }
    unfold parse_body. change (scan cm ox true (str "h/%0X")) with (Some (str "h", x2f, str "%0X")). cbn [negb andb] in *. cbv iota beta.
    destruct ox; cbn in S |- *; rewrite ?S; reflexivity.
Qed.

(** Non-vacuity *)
Example url_example : exists ci m,
  amqp_parse_url 127 true (str "amqps://joe:s%3acret@[::1]:5673/a%2Fb" ++ [x00]) = Some (AMQP_STATUS_OK, ci, m) /\
  string_of m (ci_user ci) = Some (str "joe") /\ string_of m (ci_password ci) = Some (str "s:cret") /\ string_of m (ci_host ci) = Some (str "::1") /\
  string_of m (ci_vhost ci) = Some (str "a/b") /\ ci_port ci = 5673 /\ ci_ssl ci = true.
Proof.
  refine (C28_components 127 true true (str "joe") (str "s:cret") (str "::1") 5673 (str "a/b")
            (str "joe:s%3acret@") (str "[::1]") (str ":5673") (str "/a%2Fb") [] _ _ _ _).
  - apply (up_both _ (str "joe") (str "joe") (str "s:cret") (str "s%3acret")).
    + do 3 (apply enc_lit; [split; [discriminate|split; [|intros _]; cbn; intuition discriminate]|]). apply enc_nil.
    + apply enc_lit; [split; [discriminate|split; [|intros _]; cbn; intuition discriminate]|].
      apply (enc_pct _ _ x3a x33 x61 3 10); [left; reflexivity|left; reflexivity|reflexivity|discriminate|cbn; lia|].
      do 4 (apply enc_lit; [split; [discriminate|split; [|intros _]; cbn; intuition discriminate]|]). apply enc_nil.
  - apply (hp_v6 _ (str "::1") (str "::1")). do 3 (apply enc_lit; [split; [discriminate|split; [cbn; intuition discriminate|discriminate]]|]). apply enc_nil.
  - apply (pp_port _ 5673 (str "5673")); [|lia]. apply (dec_more 567 (str "567") x33 3); [|reflexivity]. apply (dec_more 56 (str "56") x37 7); [|reflexivity].
    apply (dec_more 5 (str "5") x36 6); [|reflexivity]. apply (dec_one x35 5). reflexivity.
  - apply (vp_vhost _ (str "a/b") (str "a%2Fb")). apply enc_lit; [split; [discriminate|split; [|intros _]; cbn; intuition discriminate]|].
    apply (enc_pct _ _ x2f x32 x46 2 15); [left; reflexivity|right; reflexivity|reflexivity|discriminate|cbn; lia|].
    apply enc_lit; [split; [discriminate|split; [|intros _]; cbn; intuition discriminate]|]. apply enc_nil.
Qed.
Example url_default : user_part 127 (str "guest") (str "guest") [] /\ host_part 127 (str "localhost") [] /\ port_part false 5672 [] /\ vhost_part 127 (str "/") [].
Proof. repeat split; constructor. Qed.
Example url_refused : status_for 127 true (str "amqp://h/%4") [] = Some AMQP_STATUS_BAD_URL /\ status_for 127 true (str "http://h") [] = Some AMQP_STATUS_BAD_URL /\
  status_for 127 true (str "amqp://h:65536") [] = Some AMQP_STATUS_BAD_URL /\ status_for 127 true (str "amqp://h/v?q") [] = Some AMQP_STATUS_BAD_URL /\
  status_for 127 true (str "amqp://a[::1]") [] = Some AMQP_STATUS_BAD_URL /\ status_for 127 true (str "amqp://h/a/b") [] = Some AMQP_STATUS_BAD_URL.
Proof. repeat split; reflexivity. Qed.

Print Assumptions C27_parse_url_total.
Print Assumptions C28_components.
Print Assumptions C29_accepted_urls_partial.
Print Assumptions C29_scheme.
Print Assumptions C29_escapes_partial.
Print Assumptions C29_query_fragment.
Print Assumptions C29_bad_escape_refuted.
Print Assumptions C29_bad_port_refuted.
Print Assumptions C29_zero_x.
