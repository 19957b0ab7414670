(** C60: the tools connect where their options say *)
From Coq Require Import String ZArith List Bool Lia.
From Verif Require Import Base BaseFacts Pool Url UrlProofs UrlParse UrlSpec Prop_Url Tools ToolOpts Prop_Tools.
Import ListNotations.
Local Open Scope list_scope.
Local Open Scope Z_scope.

(** ** Specification *)
(** a port number in --server: white space, a sign and digits; the value is the one the C
    library gives a long, as an int *)
Definition port_number (text : bytes) (n : Z) : Prop :=
  exists b sign d v, text = b ++ sign ++ d /\ Forall blank b /\ (sign = [] \/ sign = str "+" \/ sign = str "-") /\ decimal v d /\
    n = signed M32 (if list_eq_dec Byte.byte_eq_dec sign (str "-") then Z.max (- M63) (- v) else Z.min (M63 - 1) v) /\ 0 <= n <= 65535.
(** host and port of --server (and --ssl), or their defaults *)
Inductive server_says (ssl : bool) : option bytes -> bytes -> Z -> Prop :=
| ss_default : server_says ssl None (str "localhost") 5672
| ss_host h : ~ In x3a h -> server_says ssl (Some h) h (if ssl then 5671 else 5672)
| ss_port h p n : ~ In x3a h -> port_number p n -> server_says ssl (Some (h ++ str ":" ++ p)) h n.
Definition names_port (server : option bytes) : Prop := exists s, server = Some s /\ In x3a s.
Definition or_else {A} (x : option A) (d : A) : A := match x with Some a => a | None => d end.
(** the connection parameters the options stand for *)
Definition options_say (cm : Z) (ox : bool) (o : options) (t : target) : Prop :=
  0 <= o_heartbeat o /\
  match o_url o with
  | Some url =>
    o_server o = None /\ o_port o < 0 /\ o_vhost o = None /\ o_username o = None /\ o_password o = None /\ o_authfile o = None /\
    (o_ssl o = true -> t_ssl t = true) /\
    exists ci m, amqp_parse_url cm ox (url ++ [x00]) = Some (AMQP_STATUS_OK, ci, m) /\
      string_of m (ci_user ci) = Some (t_user t) /\ string_of m (ci_password ci) = Some (t_password t) /\
      string_of m (ci_host ci) = Some (t_host t) /\ string_of m (ci_vhost ci) = Some (t_vhost t) /\ ci_port ci = t_port t /\ ci_ssl ci = t_ssl t
  | None =>
    (exists port, server_says (o_ssl o) (o_server o) (t_host t) port /\
       (o_port o < 0 /\ t_port t = port \/ 0 <= o_port o /\ ~ names_port (o_server o) /\ t_port t = o_port o)) /\
    (o_authfile o = None /\ t_user t = or_else (o_username o) (str "guest") /\ t_password t = or_else (o_password o) (str "guest") \/
     o_username o = None /\ o_password o = None /\ exists f, o_authfile o = Some (Some f) /\ auth_file (t_user t) (t_password t) f) /\
    t_vhost t = or_else (o_vhost o) (str "/") /\ t_ssl t = o_ssl o
  end.

(** ** The port number in --server *)
Lemma blank_space c : is_space c = true <-> blank c.
Proof.
  split.
  - unfold is_space, blank. destruct c; vm_compute; intros H; try discriminate H; tauto.
  - unfold blank. cbn. intros H. repeat (destruct H as [<-|H]; [reflexivity|]). destruct H.
Qed.
Lemma digit_dec c d : digit c = Some d -> exists n, d = Z.of_nat n /\ is_dec c n.
Proof.
  destruct c; intros H; vm_compute in H; try discriminate H; injection H as <-; unfold is_dec;
    first [exists 0%nat; split; reflexivity|exists 1%nat; split; reflexivity|exists 2%nat; split; reflexivity|exists 3%nat; split; reflexivity
          |exists 4%nat; split; reflexivity|exists 5%nat; split; reflexivity|exists 6%nat; split; reflexivity|exists 7%nat; split; reflexivity
          |exists 8%nat; split; reflexivity|exists 9%nat; split; reflexivity].
Qed.
Lemma skip_spaces_ok : forall s k r, skip_spaces s = (k, r) -> exists b, s = b ++ r /\ Forall blank b /\ k = zlen b /\ (forall c r', r = c :: r' -> is_space c = false).
Proof.
  induction s as [|c s IH]; intros k r H; cbn [skip_spaces] in H.
  - injection H as <- <-. exists []. repeat split; [constructor|]. intros ? ? X. discriminate.
  - destruct (is_space c) eqn:S.
    + destruct (skip_spaces s) as [k0 r0] eqn:E. injection H as <- <-. destruct (IH _ _ eq_refl) as (b & -> & F & -> & N).
      exists (c :: b). split; [reflexivity|]. split; [constructor; [apply blank_space; exact S|exact F]|]. rewrite zlen_cons. split; [lia|exact N].
    + injection H as <- <-. exists []. repeat split; [constructor|]. intros c' r' X. injection X as <- _. exact S.
Qed.
Lemma skip_blanks b : forall r, Forall blank b -> (forall c r', r = c :: r' -> is_space c = false) -> skip_spaces (b ++ r) = (zlen b, r).
Proof.
  induction b as [|c b IH]; intros r F N.
  - cbn [app]. destruct r as [|c r]; [reflexivity|]. cbn [skip_spaces]. rewrite (N c r eq_refl). reflexivity.
  - inversion F as [|? ? B F']; subst. cbn [app skip_spaces]. apply blank_space in B. rewrite B, (IH r F' N). rewrite zlen_cons. reflexivity.
Qed.
Lemma digits_count : forall s acc k v n, digits s acc k = (v, n) -> k <= n <= k + zlen s.
Proof.
  induction s as [|c s IH]; intros acc k v n H; cbn [digits] in H; [injection H as <- <-; rewrite zlen_nil; lia|].
  rewrite zlen_cons. pose proof (zlen_nonneg s). destruct (digit c); [|injection H as <- <-; lia]. apply IH in H. lia.
Qed.
Lemma digits_more : forall s acc k v n pre, digits s acc k = (v, n) -> n = k + zlen s -> decimal acc pre -> decimal v (pre ++ s).
Proof.
  induction s as [|c s IH]; intros acc k v n pre H L D; cbn [digits] in H.
  - injection H as <- <-. rewrite app_nil_r. exact D.
  - rewrite zlen_cons in L. pose proof (zlen_nonneg s). destruct (digit c) as [d|] eqn:Dc; [|injection H as <- <-; lia].
    destruct (digit_dec _ _ Dc) as (m & -> & Im). replace (pre ++ c :: s) with ((pre ++ [c]) ++ s) by (rewrite <- app_assoc; reflexivity).
    apply (IH _ _ _ _ _ H); [lia|]. apply dec_more; assumption.
Qed.
Lemma digits_all s v : s <> [] -> digits s 0 0 = (v, zlen s) -> decimal v s.
Proof.
  destruct s as [|c s]; [congruence|]. intros _ H. cbn [digits] in H. rewrite zlen_cons in H. pose proof (zlen_nonneg s).
  destruct (digit c) as [d|] eqn:Dc; [|injection H as <- H; lia]. destruct (digit_dec _ _ Dc) as (m & -> & Im).
  change (c :: s) with ([c] ++ s). apply (digits_more _ _ _ _ _ _ H); [lia|]. rewrite Z.add_0_r || idtac. replace (10 * 0 + Z.of_nat m) with (Z.of_nat m) by lia. apply dec_one. exact Im.
Qed.

Lemma strtol_exact text v used : strtol10 text = (v, used) -> used <> 0 -> used = zlen text ->
  exists b sign d x, text = b ++ sign ++ d /\ Forall blank b /\ (sign = [] \/ sign = str "+" \/ sign = str "-") /\ decimal x d /\
    v = if list_eq_dec Byte.byte_eq_dec sign (str "-") then Z.max (- M63) (- x) else Z.min (M63 - 1) x.
Proof.
  unfold strtol10. destruct (skip_spaces text) as [k s] eqn:K. destruct (skip_spaces_ok _ _ _ K) as (b & -> & F & -> & N).
  destruct s as [|c r].
  - cbn [digits]. change (0 =? 0) with true. cbv iota. intros H U. injection H as _ <-. lia.
  - destruct (is_sign c) eqn:S.
    + destruct (digits r 0 0) as [x n] eqn:D. destruct (Z.eqb_spec n 0) as [->|NZ]; [intros H U; injection H as _ <-; lia|].
      intros H _ U. injection H as <- <-. rewrite zlen_app, zlen_cons in U. assert (n = zlen r) as -> by lia.
      assert (R : r <> []) by (intros ->; cbn [zlen] in NZ; rewrite zlen_nil in NZ; lia).
      exists b, [c], r, x. split; [reflexivity|]. split; [exact F|].
      assert (C : c = x2b \/ c = x2d). { unfold is_sign in S. apply orb_true_iff in S. destruct S as [S|S]; apply byte_eqb_eq in S; auto. }
      split; [destruct C as [->| ->]; auto|]. split; [apply digits_all; assumption|]. destruct C as [->| ->]; reflexivity.
    + destruct (digits (c :: r) 0 0) as [x n] eqn:D. destruct (Z.eqb_spec n 0) as [->|NZ]; [intros H U; injection H as _ <-; lia|].
      intros H _ U. injection H as <- <-. rewrite zlen_app in U. assert (n = zlen (c :: r)) as -> by lia.
      exists b, [], (c :: r), x. split; [reflexivity|]. split; [exact F|]. split; [auto|]. split; [apply digits_all; [discriminate|assumption]|]. reflexivity.
Qed.
Lemma strtol_complete b sign d x : Forall blank b -> (sign = [] \/ sign = str "+" \/ sign = str "-") -> decimal x d ->
  strtol10 (b ++ sign ++ d) = (if list_eq_dec Byte.byte_eq_dec sign (str "-") then Z.max (- M63) (- x) else Z.min (M63 - 1) x, zlen (b ++ sign ++ d)) /\ zlen (b ++ sign ++ d) <> 0.
Proof.
  intros F S D. destruct (decimal_digits _ _ D) as (E & V & (c & s' & n & -> & I) & _). destruct (is_dec_val _ _ I) as (_ & NS & NG & _).
  pose proof (zlen_nonneg b) as Lb. pose proof (zlen_nonneg s') as Ls.
  assert (L : forall q, zlen (b ++ q ++ c :: s') = zlen b + zlen q + zlen s' + 1) by (intros q; rewrite !zlen_app, zlen_cons; lia).
  rewrite L. pose proof (zlen_nonneg sign). split; [|lia].
  unfold strtol10. rewrite skip_blanks; [|exact F|].
  2: { intros c0 r' X. destruct S as [->|[->| ->]]; cbn in X; injection X as <- _; auto. }
  rewrite zlen_cons in E. destruct S as [->|[->| ->]].
  - cbn [app]. rewrite NG, E. destruct (Z.eqb_spec (zlen s' + 1) 0) as [X|_]; [lia|]. change (zlen (@nil byte)) with 0. f_equal. lia.
  - change (str "+" ++ c :: s') with (x2b :: c :: s'). cbv iota. change (is_sign x2b) with true. cbv iota. rewrite E.
    destruct (Z.eqb_spec (zlen s' + 1) 0) as [X|_]; [lia|]. change (zlen (str "+")) with 1. change (Byte.eqb x2b x2d) with false. cbv iota. f_equal. lia.
  - change (str "-" ++ c :: s') with (x2d :: c :: s'). cbv iota. change (is_sign x2d) with true. cbv iota. rewrite E.
    destruct (Z.eqb_spec (zlen s' + 1) 0) as [X|_]; [lia|]. change (zlen (str "-")) with 1. change (Byte.eqb x2d x2d) with true. cbv iota. f_equal. lia.
Qed.

Lemma at_colon_some : forall s h p, at_colon s = Some (h, p) -> s = h ++ str ":" ++ p /\ ~ In x3a h.
Proof.
  induction s as [|c s IH]; intros h p H; cbn [at_colon] in H; [discriminate|]. destruct (Byte.eqb c x3a) eqn:C.
  - injection H as <- <-. apply byte_eqb_eq in C. subst c. split; [reflexivity|intros []].
  - destruct (at_colon s) as [[h0 p0]|]; [|discriminate]. injection H as <- <-. destruct (IH _ _ eq_refl) as [-> N].
    split; [reflexivity|]. intros [X|X]; [subst c; discriminate C|contradiction].
Qed.
Lemma at_colon_none : forall s, at_colon s = None -> ~ In x3a s.
Proof.
  induction s as [|c s IH]; intros H; cbn [at_colon] in H; [intros []|]. destruct (Byte.eqb c x3a) eqn:C; [discriminate|].
  destruct (at_colon s) as [[? ?]|]; [discriminate|]. intros [X|X]; [subst c; discriminate C|]. exact (IH eq_refl X).
Qed.
Lemma at_colon_no s : ~ In x3a s -> at_colon s = None.
Proof. intros N. destruct (at_colon s) as [[h p]|] eqn:E; [|reflexivity]. apply at_colon_some in E. destruct E as [-> _]. destruct N. apply in_or_app. right. left. reflexivity. Qed.
Lemma at_colon_yes : forall h p, ~ In x3a h -> at_colon (h ++ str ":" ++ p) = Some (h, p).
Proof.
  induction h as [|c h IH]; intros p N; [reflexivity|]. cbn [app at_colon]. destruct (Byte.eqb c x3a) eqn:C; [apply byte_eqb_eq in C; subst c; destruct N; left; reflexivity|].
  rewrite IH; [reflexivity|]. intros X. apply N. right. exact X.
Qed.
Lemma has_colon h p : In x3a (h ++ str ":" ++ p).
Proof. apply in_or_app. right. left. reflexivity. Qed.

(** ** Exactness *)
Lemma and_then_returns {A B} (x : outcome A) (f : A -> outcome B) b : and_then x f = Returns b <-> exists a, x = Returns a /\ f a = Returns b.
Proof. destruct x; cbn [and_then]; split; try discriminate; try (intros (? & E & _); discriminate E). - intros H; eauto. - intros (a' & E & H). injection E as <-. exact H. Qed.
Lemma die_if_returns c u : die_if c = Returns u <-> c = false.
Proof. destruct c, u; cbn; split; congruence. Qed.

Section E.
Context (cm : Z) (ox : bool).

Lemma url_info_exact url t : url_info cm ox url = Returns t <->
  exists ci m, (exists st, amqp_parse_url cm ox (url ++ [x00]) = Some (st, ci, m) /\ 0 <= st) /\
      string_of m (ci_user ci) = Some (t_user t) /\ string_of m (ci_password ci) = Some (t_password t) /\
      string_of m (ci_host ci) = Some (t_host t) /\ string_of m (ci_vhost ci) = Some (t_vhost t) /\ ci_port ci = t_port t /\ ci_ssl ci = t_ssl t.
Proof.
  assert (K : forall m c s, member m c = Returns s <-> string_of m c = Some s).
  { intros m c s. destruct c as [x|p]; cbn; [split; congruence|]. destruct (cstr m p); split; congruence. }
  unfold url_info. destruct (amqp_parse_url cm ox (url ++ [x00])) as [[[st ci] m]|]; [|split; [discriminate|intros (? & ? & (? & E & _) & _); discriminate E]].
  split.
  - intros H. apply and_then_returns in H. destruct H as (? & H1 & H). apply die_if_returns in H1. apply Z.ltb_ge in H1.
    apply and_then_returns in H. destruct H as (u & Hu & H). apply and_then_returns in H. destruct H as (p & Hp & H).
    apply and_then_returns in H. destruct H as (h & Hh & H). apply and_then_returns in H. destruct H as (v & Hv & H). injection H as <-.
    apply K in Hu, Hp, Hh, Hv. exists ci, m. split; [eauto|]. cbn [t_user t_password t_host t_vhost t_port t_ssl]. auto 10.
  - intros (ci' & m' & (st' & E & L) & Hu & Hp & Hh & Hv & Po & Ss). injection E as <- <- <-. replace (st <? 0) with false by (symmetry; apply Z.ltb_ge; exact L).
    apply K in Hu, Hp, Hh, Hv. cbn [die_if and_then]. rewrite Hu. cbn [and_then]. rewrite Hp. cbn [and_then]. rewrite Hh. cbn [and_then]. rewrite Hv. cbn [and_then].
    rewrite Po, Ss. destruct t; reflexivity.
Qed.

(** For all options whose strings are C strings: the tools get the connection parameters
    [t] exactly if the options stand for [t]. *)
Theorem C60_options_exact o t : (forall u, o_url o = Some u -> ~ In x00 u) ->
  init_connection_info cm ox o = Returns t <-> options_say cm ox o t.
Proof.
  intros NN. unfold init_connection_info, options_say. destruct (o_url o) as [url|] eqn:U.
  - (* --url *)
    specialize (NN url eq_refl). assert (G : given (o_url o) = true) by (rewrite U; reflexivity).
    split.
    + intros H. repeat (apply and_then_returns in H; let x := fresh "x" in let E := fresh "E" in destruct H as (x & E & H)). injection H as <-.
      apply die_if_returns in E7. apply Z.ltb_ge in E7. split; [exact E7|]. clear E7 x7.
      unfold server_info in E0. rewrite G in E0. destruct (o_server o); [discriminate E0|]. injection E0 as ->.
      unfold ssl_info in E1. rewrite G in E1. unfold port_info in E2. rewrite G in E2. unfold username_info in E3. rewrite G in E3.
      unfold password_info in E4. rewrite G in E4. unfold authfile_info in E5. rewrite G in E5. unfold vhost_info in E6. rewrite G in E6. cbn [die_if and_then] in *.
      destruct (Z.leb_spec 0 (o_port o)) as [|PO]; [discriminate E2|]. injection E2 as ->.
      destruct (o_username o); [discriminate E3|]. injection E3 as ->. destruct (o_password o); [discriminate E4|]. injection E4 as ->.
      destruct (o_authfile o) as [f|]; [discriminate E5|]. injection E5 as ->. destruct (o_vhost o); [discriminate E6|]. injection E6 as ->.
      destruct (o_ssl o && negb (t_ssl x0)) eqn:SS; [discriminate E1|]. injection E1 as ->.
      apply url_info_exact in E. destruct E as (ci & m & (st & E & L) & R).
      repeat (split; [reflexivity || exact PO|]). split.
      { intros S. rewrite S in SS. destruct (t_ssl x6); [reflexivity|discriminate SS]. }
      exists ci, m. destruct (C27_parse_url_total cm ox url [] NN) as (st' & ci' & s' & E' & _ & [->| ->] & _).
      * change (url ++ [x00]) with (url ++ x00 :: []) in E. rewrite E' in E. injection E as <- <- <-. split; [exact E'|exact R].
      * change (url ++ [x00]) with (url ++ x00 :: []) in E. rewrite E' in E. injection E as <- _ _. unfold AMQP_STATUS_BAD_URL in L. lia.
    + intros (HB & S & P & V & Un & Pw & A & SS & ci & m & E & R).
      assert (X : url_info cm ox url = Returns t). { apply url_info_exact. exists ci, m. split; [exists AMQP_STATUS_OK; split; [exact E|unfold AMQP_STATUS_OK; lia]|exact R]. }
      rewrite X. cbn [and_then]. unfold server_info. rewrite S. cbn [and_then]. unfold ssl_info.
      assert (Y : o_ssl o && negb (t_ssl t) = false). { destruct (o_ssl o); [rewrite (SS eq_refl); reflexivity|reflexivity]. }
      rewrite Y. cbn [and_then]. unfold port_info. replace (0 <=? o_port o) with false by (symmetry; apply Z.leb_gt; exact P). cbn [and_then].
      unfold username_info. rewrite Un. cbn [and_then]. unfold password_info. rewrite Pw. cbn [and_then]. unfold authfile_info. rewrite A. cbn [and_then].
      unfold vhost_info. rewrite V. cbn [and_then]. replace (o_heartbeat o <? 0) with false by (symmetry; apply Z.ltb_ge; exact HB). reflexivity.
  - (* no --url *)
    clear NN. assert (G : given (o_url o) = false) by (rewrite U; reflexivity). cbn [and_then].
    assert (SV : forall x, server_info o default_info = Returns x <->
      (exists port, server_says (o_ssl o) (o_server o) (t_host x) port /\ t_port x = port /\ (0 <= o_port o -> ~ names_port (o_server o))) /\ x = mkTarget guest guest (t_host x) slash (t_port x) false).
    { intros x. unfold server_info. rewrite G. cbn [die_if and_then]. destruct (o_server o) as [server|].
      - destruct (at_colon server) as [[h p]|] eqn:AC.
        + destruct (at_colon_some _ _ _ AC) as [-> NC]. destruct (strtol10 p) as [v used] eqn:ST. split.
          * intros H. apply and_then_returns in H. destruct H as (? & H1 & H). apply die_if_returns in H1. apply Z.leb_gt in H1.
            apply and_then_returns in H. destruct H as (? & H2 & H). apply die_if_returns in H2. injection H as <-.
            apply orb_false_iff in H2. destruct H2 as [H2 H5]. apply orb_false_iff in H2. destruct H2 as [H2 H4]. apply orb_false_iff in H2. destruct H2 as [H2 H3].
            apply Z.ltb_ge in H2, H3. apply Z.eqb_neq in H4. apply negb_false_iff, Z.eqb_eq in H5.
            destruct (strtol_exact _ _ _ ST H4 H5) as (b & sign & d & n & -> & F & S & D & ->).
            cbn [t_host t_port]. split; [|reflexivity]. eexists. split; [apply ss_port; [exact NC|]|split; [reflexivity|lia]].
            exists b, sign, d, n. auto 10.
          * intros [(port & S & P & N) EX]. destruct x as [xu xp xh xv xpo xs]; cbn [t_host t_port] in S, P, EX; injection EX as -> -> -> ->. destruct (Z.leb_spec 0 (o_port o)) as [L|L].
            { destruct (N L). exists (h ++ str ":" ++ p). split; [reflexivity|apply has_colon]. }
            cbn [die_if and_then]. cbn [t_host t_port] in S, P.
            inversion S as [|h' NC' E1 E2|h' p' n NC' PN E1 E2 E3].
            { destruct NC'. subst. apply has_colon. }
            subst xh n. change (h' ++ str ":" ++ p' = h ++ str ":" ++ p) in E1.
            assert (X : at_colon (h ++ str ":" ++ p) = at_colon (h' ++ str ":" ++ p')) by (rewrite E1; reflexivity). rewrite !at_colon_yes in X by assumption. injection X as <- <-.
            destruct PN as (b & sign & d & y & -> & F & SG & D & -> & R). destruct (strtol_complete b sign d y F SG D) as [ST' NZ].
            rewrite ST in ST'. injection ST' as -> ->.
            set (n := signed M32 _) in *. rewrite P in *. cbn [t_host t_port].
            replace (n <? 0) with false by (symmetry; apply Z.ltb_ge; lia). replace (65535 <? n) with false by (symmetry; apply Z.ltb_ge; lia).
            replace (zlen (b ++ sign ++ d) =? 0) with false by (symmetry; apply Z.eqb_neq; exact NZ). rewrite Z.eqb_refl. reflexivity.
        + apply at_colon_none in AC. split.
          * intros H. injection H as <-. cbn [t_host t_port]. split; [|reflexivity]. eexists. split; [apply ss_host; exact AC|]. split; [reflexivity|].
            intros _ (s & E & I). injection E as <-. contradiction.
          * intros [(port & S & P & N) EX]. destruct x as [xu xp xh xv xpo xs]; cbn [t_host t_port] in S, P, EX; injection EX as -> -> -> ->. cbn [t_host t_port] in *. inversion S as [|h' NC' E1 E2|h' p' n NC' PN E1 E2 E3].
            { subst. reflexivity. }
            destruct AC. subst. apply has_colon.
      - split.
        + intros H. injection H as <-. split; [|reflexivity]. eexists. split; [apply ss_default|]. split; [reflexivity|]. intros _ (s & E & _). discriminate E.
        + intros [(port & S & P & N) EX]. destruct x as [xu xp xh xv xpo xs]; cbn [t_host t_port] in S, P, EX; injection EX as -> -> -> ->. cbn [t_host t_port] in *. inversion S as [E1 E2 E3| |]. subst. reflexivity. }
    split.
    + intros H. repeat (apply and_then_returns in H; let x := fresh "x" in let E := fresh "E" in destruct H as (x & E & H)). injection H as <-.
      apply die_if_returns in E6. apply Z.ltb_ge in E6. split; [exact E6|]. clear E6 x6.
      apply SV in E. destruct E as [(port & S & P & N) EX]. destruct x as [xu xp host xv xpo xs]; cbn [t_host t_port] in S, P, EX; injection EX as -> -> -> ->. clear SV. subst xpo.
      unfold ssl_info in E0. rewrite G in E0. unfold port_info in E1. rewrite G in E1. unfold username_info in E2. rewrite G in E2.
      unfold password_info in E3. rewrite G in E3. unfold authfile_info in E4. rewrite G in E4. unfold vhost_info in E5. rewrite G in E5. cbn [die_if and_then t_ssl negb] in *.
      assert (X0 : x0 = mkTarget guest guest host slash port (o_ssl o)). { destruct (o_ssl o); cbn [andb] in E0; injection E0 as <-; reflexivity. }
      clear E0. subst x0. cbn [t_user t_password t_host t_vhost t_port t_ssl] in *.
      set (fp := if 0 <=? o_port o then o_port o else port).
      assert (X1 : x1 = mkTarget guest guest host slash fp (o_ssl o)). { unfold fp. destruct (0 <=? o_port o); injection E1 as <-; reflexivity. }
      clear E1. subst x1. cbn [t_user t_password t_host t_vhost t_port t_ssl] in *.
      assert (X2 : x2 = mkTarget (or_else (o_username o) guest) guest host slash fp (o_ssl o) /\ (o_username o <> None -> o_authfile o = None)).
      { destruct (o_username o); [|injection E2 as <-; split; [reflexivity|congruence]]. destruct (o_authfile o); [discriminate E2|]. injection E2 as <-. split; reflexivity. }
      clear E2. destruct X2 as [-> A1]. cbn [t_user t_password t_host t_vhost t_port t_ssl] in *.
      assert (X3 : x3 = mkTarget (or_else (o_username o) guest) (or_else (o_password o) guest) host slash fp (o_ssl o) /\ (o_password o <> None -> o_authfile o = None)).
      { destruct (o_password o); [|injection E3 as <-; split; [reflexivity|congruence]]. destruct (o_authfile o); [discriminate E3|]. injection E3 as <-. split; reflexivity. }
      clear E3. destruct X3 as [-> A2]. cbn [t_user t_password t_host t_vhost t_port t_ssl] in *.
      assert (X5 : x5 = mkTarget (t_user x4) (t_password x4) (t_host x4) (or_else (o_vhost o) (t_vhost x4)) (t_port x4) (t_ssl x4)).
      { destruct (o_vhost o); injection E5 as <-; [reflexivity|destruct x4; reflexivity]. }
      clear E5. subst x5. cbn [t_user t_password t_host t_vhost t_port t_ssl].
      assert (FP : o_port o < 0 /\ fp = port \/ 0 <= o_port o /\ ~ names_port (o_server o) /\ fp = o_port o).
      { unfold fp. destruct (Z.leb_spec 0 (o_port o)) as [L|L]; [right; auto|left; auto]. }
      destruct (o_authfile o) as [[file|]|]; [| discriminate E4 |].
      * apply and_then_returns in E4. destruct E4 as ([u p] & RA & E4). injection E4 as <-. cbn [t_user t_password t_host t_vhost t_port t_ssl fst snd].
        split; [exists port; split; [exact S|exact FP]|]. split; [|split; reflexivity]. right.
        split; [destruct (o_username o); [specialize (A1 ltac:(discriminate)); discriminate A1|reflexivity]|]. split; [destruct (o_password o); [specialize (A2 ltac:(discriminate)); discriminate A2|reflexivity]|].
        exists file. split; [reflexivity|]. apply C59_authfile_exact. exact RA.
      * injection E4 as <-. cbn [t_user t_password t_host t_vhost t_port t_ssl]. split; [exists port; split; [exact S|exact FP]|]. split; [left; split; [reflexivity|split; reflexivity]|split; reflexivity].
    + intros (HB & (port & S & P) & CR & V & SS).
      assert (X : server_info o default_info = Returns (mkTarget guest guest (t_host t) slash port false)).
      { apply SV. cbn [t_host t_port]. split; [|reflexivity]. exists port. split; [exact S|]. split; [reflexivity|]. intros L. destruct P as [[L' _]|(_ & N & _)]; [lia|exact N]. }
      rewrite X. cbn [and_then]. unfold ssl_info. rewrite G. cbn [t_ssl negb]. rewrite andb_true_r.
      assert (X1 : (if o_ssl o then let* _ := die_if false in Returns (mkTarget guest guest (t_host t) slash port true) else Returns (mkTarget guest guest (t_host t) slash port false)) = Returns (mkTarget guest guest (t_host t) slash port (o_ssl o))) by (destruct (o_ssl o); reflexivity).
      cbn [t_user t_password t_host t_vhost t_port t_ssl]. rewrite X1. cbn [and_then].
      unfold port_info. rewrite G. cbn [t_user t_password t_host t_vhost t_port t_ssl].
      assert (X2 : (if 0 <=? o_port o then let* _ := die_if false in Returns (mkTarget guest guest (t_host t) slash (o_port o) (o_ssl o)) else Returns (mkTarget guest guest (t_host t) slash port (o_ssl o))) = Returns (mkTarget guest guest (t_host t) slash (t_port t) (o_ssl o))).
      { destruct (Z.leb_spec 0 (o_port o)) as [L|L]; destruct P as [[L' ->]|(L' & _ & ->)]; try lia; reflexivity. }
      rewrite X2. cbn [and_then]. unfold username_info, password_info, authfile_info, vhost_info. rewrite G. cbn [die_if and_then].
      destruct CR as [(-> & Un & Pw)|(-> & -> & f & -> & AF)].
      * cbn [given die_if and_then].
        assert (Y : forall x : option bytes, match x with Some u => Returns (mkTarget u guest (t_host t) slash (t_port t) (o_ssl o)) | None => Returns (mkTarget guest guest (t_host t) slash (t_port t) (o_ssl o)) end = Returns (mkTarget (or_else x guest) guest (t_host t) slash (t_port t) (o_ssl o))) by (intros [|]; reflexivity).
        cbn [t_user t_password t_host t_vhost t_port t_ssl]. rewrite Y. cbn [and_then t_user t_password t_host t_vhost t_port t_ssl].
        change guest with (str "guest"). rewrite <- Un.
        destruct (o_password o) as [pw|]; cbn [or_else] in Pw; cbn [and_then t_user t_password t_host t_vhost t_port t_ssl]; rewrite <- Pw;
          destruct (o_vhost o) as [vh|]; cbn [or_else] in V; cbn [and_then t_user t_password t_host t_vhost t_port t_ssl]; change slash with (str "/"); rewrite <- V, <- SS;
          replace (o_heartbeat o <? 0) with false by (symmetry; apply Z.ltb_ge; exact HB); destruct t; reflexivity.
      * cbn [and_then]. apply C59_authfile_exact in AF. rewrite AF. cbn [and_then fst snd t_user t_password t_host t_vhost t_port t_ssl].
        destruct (o_vhost o) as [vh|]; cbn [or_else] in V; cbn [and_then t_user t_password t_host t_vhost t_port t_ssl]; change slash with (str "/"); rewrite <- V, <- SS;
          replace (o_heartbeat o <? 0) with false by (symmetry; apply Z.ltb_ge; exact HB); destruct t; reflexivity.
Qed.

(** Whatever else happens, the program ends with a message, except for the auth files of
    C59_undefined_partial. *)
Theorem C60_otherwise_dies_partial o : (forall u, o_url o = Some u -> ~ In x00 u) ->
  (forall t, ~ options_say cm ox o t) ->
  init_connection_info cm ox o = Dies \/
  init_connection_info cm ox o = Undefined /\ o_url o = None /\ exists f, o_authfile o = Some (Some f) /\ read_authfile f = Undefined.
Proof.
  intros NN NO. assert (NR : forall t, init_connection_info cm ox o <> Returns t) by (intros t H; apply C60_options_exact in H; [exact (NO t H)|exact NN]).
  assert (AL : forall prefix f, auth_line prefix f <> Waits).
  { intros prefix f. unfold auth_line. destruct (fgets MAXAUTHTOKENLEN f) as [[? ?]|]; [|discriminate]. destruct (negb _); [discriminate|]. destruct (rev _); [discriminate|]. destruct (negb _); discriminate. }
  assert (RW : forall f, read_authfile f <> Waits).
  { intros f. unfold read_authfile. pose proof (AL username_prefix f). destruct (auth_line username_prefix f) as [[? f1]| | |]; try discriminate; try congruence.
    pose proof (AL password_prefix f1). destruct (auth_line password_prefix f1) as [[? [|]]| | |]; try discriminate; try congruence. }
  unfold init_connection_info in *. destruct (o_url o) as [u|] eqn:U.
  - (* only amqp_parse_url could be undefined *)
    left. assert (G : given (o_url o) = true) by (rewrite U; reflexivity).
    assert (UI : exists r, url_info cm ox u = r /\ (r = Dies \/ exists t, r = Returns t)).
    { destruct (C27_parse_url_total cm ox u [] (NN u eq_refl)) as (st & ci & s' & E & _ & OK & H). unfold url_info. change (u ++ [x00]) with (u ++ x00 :: []). rewrite E.
      eexists. split; [reflexivity|]. destruct OK as [->| ->]; [|left; reflexivity]. destruct (H eq_refl) as [F _]. change (AMQP_STATUS_OK <? 0) with false. cbn [die_if and_then].
      assert (M : forall c, (exists x, string_of (s' ++ [x00]) c = Some x) -> exists x, member (s' ++ [x00]) c = Returns x).
      { intros c (x & X). destruct c as [k|k]; cbn in *; [eauto|]. rewrite X. eauto. }
      inversion F as [|? ? [_ F1] F']; subst. inversion F' as [|? ? [_ F2] F'']; subst. inversion F'' as [|? ? [_ F3] F3']; subst. inversion F3' as [|? ? [_ F4] _]; subst.
      destruct (M _ F1) as (x1 & ->). destruct (M _ F2) as (x2 & ->). destruct (M _ F3) as (x3 & ->). destruct (M _ F4) as (x4 & ->). right. eexists. reflexivity. }
    destruct UI as (r & UE & [->|(t & ->)]); rewrite UE in *; [reflexivity|]. clear UE. cbn [and_then] in *.
    unfold server_info, ssl_info, port_info, username_info, password_info, authfile_info, vhost_info in *. rewrite G in *. cbn [die_if and_then] in *.
    destruct (o_server o); [reflexivity|]. cbn [and_then] in *. destruct (o_ssl o && negb (t_ssl t)); [reflexivity|]. cbn [and_then] in *.
    destruct (0 <=? o_port o); [reflexivity|]. cbn [and_then] in *. destruct (o_username o); [reflexivity|]. cbn [and_then] in *.
    destruct (o_password o); [reflexivity|]. cbn [and_then] in *. destruct (o_authfile o); [reflexivity|]. cbn [and_then] in *.
    destruct (o_vhost o); [reflexivity|]. cbn [and_then] in *. destruct (o_heartbeat o <? 0); [reflexivity|]. destruct (NR t eq_refl).
  - assert (G : given (o_url o) = false) by (rewrite U; reflexivity). cbn [and_then] in *.
    assert (ND : forall {B} (x : outcome target) (f : target -> outcome B), (exists t, x = Returns t) \/ x = Dies -> (exists t, x = Returns t /\ and_then x f = f t) \/ and_then x f = Dies).
    { intros B x f [(t & ->)| ->]; [left; exists t; split; reflexivity|right; reflexivity]. }
    assert (D : forall {B} c (k : outcome B), (let* _ := die_if c in k) = if c then Dies else k) by (intros B [|] k; reflexivity).
    assert (I1 : (exists t, server_info o default_info = Returns t) \/ server_info o default_info = Dies).
    { unfold server_info. rewrite G. destruct (o_server o) as [s|]; [|eauto]. rewrite D. destruct (at_colon s) as [[h p]|]; [|eauto]. rewrite D.
      destruct (0 <=? o_port o); [auto|]. destruct (strtol10 p) as [v used]. rewrite D. destruct (_ || _ || _ || _); eauto. }
    destruct (ND _ _ (fun ci => let* ci := ssl_info o ci in let* ci := port_info o ci in let* ci := username_info o ci in let* ci := password_info o ci in let* ci := authfile_info o ci in
      let* ci := vhost_info o ci in let* _ := die_if (o_heartbeat o <? 0) in Returns ci) I1) as [(t1 & _ & E)|E]; rewrite E in *; [clear E I1|left; reflexivity].
    assert (I2 : exists t, ssl_info o t1 = Returns t) by (unfold ssl_info; rewrite G; destruct (_ && _); cbn; eauto). destruct I2 as (t2 & E). rewrite E in *. clear E. cbn [and_then] in *.
    assert (I2 : exists t, port_info o t2 = Returns t) by (unfold port_info; rewrite G; destruct (0 <=? _); cbn; eauto). destruct I2 as (t3 & E). rewrite E in *. clear E. cbn [and_then] in *.
    assert (I2 : (exists t, username_info o t3 = Returns t) \/ username_info o t3 = Dies) by (unfold username_info; rewrite G; destruct (o_username o); [destruct (o_authfile o)|]; cbn; eauto).
    destruct I2 as [(t4 & E)|E]; rewrite E in *; clear E; cbn [and_then] in *; [|left; reflexivity].
    assert (I2 : (exists t, password_info o t4 = Returns t) \/ password_info o t4 = Dies) by (unfold password_info; rewrite G; destruct (o_password o); [destruct (o_authfile o)|]; cbn; eauto).
    destruct I2 as [(t5 & E)|E]; rewrite E in *; clear E; cbn [and_then] in *; [|left; reflexivity].
    unfold authfile_info in *. rewrite G in *. cbn [die_if and_then] in *.
    assert (LAST : forall t, (let* ci := vhost_info o t in let* _ := die_if (o_heartbeat o <? 0) in Returns ci) = Dies \/ exists x, (let* ci := vhost_info o t in let* _ := die_if (o_heartbeat o <? 0) in Returns ci) = Returns x).
    { intros t. unfold vhost_info. rewrite G. destruct (o_vhost o); cbn [die_if and_then]; destruct (o_heartbeat o <? 0); cbn; eauto. }
    destruct (o_authfile o) as [[f|]|] eqn:A; cbn [and_then] in *; [|left; reflexivity|].
    + destruct (read_authfile f) as [[u p]| | |] eqn:R; cbn [and_then] in *.
      * match goal with |- ?x = Dies \/ _ => match x with and_then (vhost_info o ?t) _ => destruct (LAST t) as [E|(x0 & E)] end end; [left; exact E|]. destruct (NR _ E).
      * left. reflexivity.
      * destruct (RW _ R).
      * right. split; [reflexivity|]. split; [reflexivity|]. exists f. split; [reflexivity|exact R].
    + destruct (LAST t5) as [E|(x0 & E)]; [left; exact E|]. destruct (NR _ E).
Qed.
End E.

(** The documented form of a port: a decimal number up to 65535 means itself. *)
Theorem C60_plain_port p n : decimal n p -> n <= 65535 -> port_number p n.
Proof.
  intros D L. pose proof (decimal_digits _ _ D) as (_ & N & _). exists [], [], p, n. repeat split; auto. 
  destruct (list_eq_dec Byte.byte_eq_dec [] (str "-")) as [X|_]; [discriminate X|]. rewrite Z.min_r by lia. unfold signed.
  rewrite Z.mod_small by lia. change (M32 / 2) with 2147483648. destruct (Z.ltb_spec n 2147483648); lia.
Qed.
(** ... but so does a number that is one modulo 2^32; and --ssl on its own does not select
    the standard port for TLS. *)
Definition no_options : options := mkOpts None None (-1) None None None 0 None false.
Theorem C60_options_refuted cm ox :
  init_connection_info cm ox (mkOpts None (Some (str "mq:4294972968")) (-1) None None None 0 None false) =
    Returns (mkTarget (str "guest") (str "guest") (str "mq") (str "/") 5672 false) /\
  init_connection_info cm ox (mkOpts None None (-1) None None None 0 None true) =
    Returns (mkTarget (str "guest") (str "guest") (str "localhost") (str "/") 5672 true) /\
  init_connection_info cm ox (mkOpts None (Some (str "localhost")) (-1) None None None 0 None true) =
    Returns (mkTarget (str "guest") (str "guest") (str "localhost") (str "/") 5671 true).
Proof. repeat split; vm_compute; reflexivity. Qed.

(** ** Concrete cases *)
Example C60_case : options_say 127 true (mkOpts (Some (str "amqps://joe:pw@mq/v")) None (-1) None None None 60 None true)
  (mkTarget (str "joe") (str "pw") (str "mq") (str "v") 5671 true).
Proof. apply C60_options_exact; [intros u H; injection H as <-; vm_compute; intuition discriminate|]. vm_compute. reflexivity. Qed.
Example C60_case_server : options_say 127 true (mkOpts None (Some (str "mq:5673")) (-1) (Some (str "v")) None None 0 (Some (Some (str "username:joe" ++ [newline] ++ str "password:pw" ++ [newline]))) false)
  (mkTarget (str "joe") (str "pw") (str "mq") (str "v") 5673 false).
Proof. apply C60_options_exact; [intros u H; discriminate|]. vm_compute. reflexivity. Qed.
Example C60_case_conflict : init_connection_info 127 true (mkOpts (Some (str "amqp://mq")) None 5672 None None None 0 None false) = Dies.
Proof. vm_compute. reflexivity. Qed.

Print Assumptions C60_options_exact.
Print Assumptions C60_otherwise_dies_partial.
