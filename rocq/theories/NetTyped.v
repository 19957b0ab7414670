(** What decoded frames look like, and where undefined behaviour can come from. *)
From Coq Require Import String ZArith List Bool Lia.
From Verif Require Prop_TableOps Prop_Sasl.
From Verif Require Import Base BaseFacts Codec CodecProofs TableModel TableSpec TableEnc TableDec TableRT TableOps FramingStmt FramingGen FramingModel MethodSpec FramingEnc FramingDec FramingProps
  Frame FrameSpec FrameProofs Prop_Method FrameStream FrameFacts Time Sasl Net NetApi NetSpec NetFacts NetSend NetRecv NetWalk NetAcct NetOrder NetWait NetOff NetCalls EncStatus NetRpc.
Import ListNotations.
Local Open Scope Z_scope.

(** The contents of a frame agree with its type. *)
Definition typed (f : frame) : Prop :=
  (f_type f = 1 -> exists id m enc oom n, f_pay f = PMethod id m /\ zlen enc < M30 /\ amqp_decode_method id enc oom = DOk m n) /\
  (f_type f = 2 -> exists cls size p enc oom n, f_pay f = PHeader cls size p enc /\ 0 <= size < M64 /\ zlen enc < M30 /\ amqp_decode_properties cls enc oom = DOk p n) /\
  (f_type f = 3 -> exists b, f_pay f = PBody b /\ zlen b < M30).
Definition in_ok (s : inst) : Prop :=
  zlen (i_hdr s) = 8 /\ 0 <= i_frame_max s < M30 /\ match i_buf s with IBlock _ _ bs => zlen bs < M30 | _ => True end.

Lemma write_len mem o x m : write mem o x = Some m -> zlen m = zlen mem.
Proof.
  unfold write. destruct (_ && _) eqn:Hb; [|discriminate]. intros H; injection H as <-. apply andb_true_iff in Hb. destruct Hb as [H1 H2].
  apply Z.leb_le in H1, H2. unfold zlen in *. rewrite !app_length, firstn_length, skipn_length. lia.
Qed.
Lemma consume_in_ok s d n s' r : consume_data s d = Some (n, s', r) -> in_ok s -> in_ok s'.
Proof.
  unfold consume_data, in_ok. destruct (i_buf s) as [|ch g bs|] eqn:Hb; try discriminate.
  - destruct (write _ _ _) eqn:Hw; [|discriminate]. apply write_len in Hw. intros H; inversion H; subst. cbn. intuition lia.
  - destruct (Nat.eqb _ _); [|discriminate]. destruct (write _ _ _) eqn:Hw; [|discriminate]. apply write_len in Hw. intros H; inversion H; subst. cbn. intuition lia.
Qed.
Lemma slice_len mem o n x : slice mem o n = Some x -> zlen x <= zlen mem /\ zlen x = n.
Proof.
  unfold slice. destruct (_ && _) eqn:Hb; [|discriminate]. intros H; injection H as <-.
  repeat (apply andb_true_iff in Hb; destruct Hb as [Hb ?]). apply Z.leb_le in Hb.
  repeat match goal with H : (_ <=? _) = true |- _ => apply Z.leb_le in H end.
  unfold zlen in *. rewrite firstn_length, skipn_length. lia.
Qed.
Lemma d_at_range w mem o v : d_at w mem o = Some v -> 0 <= v < wmod w.
Proof.
  intros H. assert (0 <= o /\ o + wbytes w <= zlen mem) as [H1 H2].
  { unfold d_at, slice in H. destruct (_ && _) eqn:Hb; [|discriminate]. apply andb_true_iff in Hb. destruct Hb as [Hb H2]. apply andb_true_iff in Hb. destruct Hb as [H1 _].
    apply Z.leb_le in H1, H2. auto. }
  rewrite d_at_nth in H by assumption. injection H as <-. pose proof (wnat_bytes w). 
  pose proof (be_val_bound (wnat w) (skipn (Z.to_nat o) mem) ltac:(rewrite skipn_length; unfold zlen in *; lia)) as Hr.
  destruct w; exact Hr.
Qed.

Definition htyped (r : hres) : Prop :=
  match r with HRet res f s' => in_ok s' /\ (res < 0 \/ typed f) | _ => True end.
Lemma typed_none ty ch g : ty <> 1 -> ty <> 2 -> ty <> 3 -> typed (mkFrame ty ch PNone g).
Proof. intros H1 H2 H3. repeat split; cbn; intros; contradiction. Qed.
Lemma typed_no_frame : typed no_frame.
Proof. apply typed_none; discriminate. Qed.
Lemma return_ok s : in_ok s -> in_ok (return_to_idle s).
Proof. intros (H1 & H2 & H3). repeat split; cbn; auto; apply H2. Qed.
Lemma raw_len s raw : in_ok s -> raw_bytes s = Some raw -> zlen raw < M30.
Proof.
  intros (H1 & H2 & H3). unfold raw_bytes. destruct (i_buf s); [|destruct (Nat.eqb _ _)|discriminate]; intros H; try discriminate; injection H as <-; lia.
Qed.
Lemma decode_empty id oom : switch id dec_table = Some [] -> oom SITE_METHOD 0 = false -> exists n, amqp_decode_method id [] oom = DOk [] n.
Proof. intros H1 H2. unfold amqp_decode_method. rewrite H1, H2. eexists. reflexivity. Qed.
Lemma handle_body_typed E n s : in_ok s -> htyped (handle_body E n s).
Proof.
  intros Hs. unfold handle_body. cbv zeta. destruct (raw_bytes s) as [raw|] eqn:Hraw; [|exact I]. apply (raw_len _ _ Hs) in Hraw.
  destruct (d_at W8 raw _); [|exact I]. destruct (negb _); [split; [exact Hs|left; reflexivity]|].
  destruct (d_at W8 raw 0) as [ty|]; [|exact I]. destruct (d_at W16 raw 1) as [ch|]; [|exact I].
  destruct (ae_nopool _); [split; [exact Hs|left; reflexivity]|].
  destruct (Z.eqb_spec ty AMQP_FRAME_METHOD) as [->|N1].
  { destruct (d_at W32 raw _) as [id|]; [|exact I]. destruct (slice raw _ _) as [enc|] eqn:Hsl.
    - apply slice_len in Hsl. destruct (amqp_decode_method id enc _) as [m k|st k| |] eqn:Hd; cbn [decoded]; try exact I.
      + split; [apply return_ok, Hs|]. right. repeat split; cbn; try discriminate. intros _. exists id, m, enc, (ae_oom (E (i_nf s))), k. split; [reflexivity|]. split; [lia|exact Hd].
      + split; [exact Hs|]. left. eapply decode_method_status; [|exact Hd]. lia.
    - destruct (switch id dec_table) as [[|]|] eqn:Hsw; [|exact I|split; [exact Hs|left; reflexivity]].
      destruct (ae_oom _ _ _) eqn:Ho; [split; [exact Hs|left; reflexivity]|]. split; [apply return_ok, Hs|]. right. repeat split; cbn; try discriminate. intros _.
      destruct (decode_empty id _ Hsw Ho) as [k Hk]. exists id, [], [], (ae_oom (E (i_nf s))), k. split; [reflexivity|]. split; [reflexivity|exact Hk]. }
  destruct (Z.eqb_spec ty AMQP_FRAME_HEADER) as [->|N2].
  { destruct (d_at W16 raw _) as [cls|]; [|exact I]. destruct (d_at W64 raw _) as [size|] eqn:Hsz; [|exact I]. apply d_at_range in Hsz.
    destruct (slice raw _ _) as [enc|] eqn:Hsl; [|exact I]. apply slice_len in Hsl.
    destruct (amqp_decode_properties cls enc _) as [m k|st k| |] eqn:Hd; cbn [decoded]; try exact I.
    - split; [apply return_ok, Hs|]. right. repeat split; cbn; try discriminate. intros _. exists cls, size, m, enc, (ae_oom (E (i_nf s))), k. split; [reflexivity|]. split; [exact Hsz|]. split; [lia|exact Hd].
    - split; [exact Hs|]. left. eapply decode_properties_status; [|exact Hd]. lia. }
  destruct (Z.eqb_spec ty AMQP_FRAME_BODY) as [->|N3].
  { destruct (slice raw _ _) as [b|] eqn:Hsl; [|exact I]. apply slice_len in Hsl. split; [apply return_ok, Hs|]. right. repeat split; cbn; try discriminate. intros _. exists b. split; [reflexivity|lia]. }
  destruct (Z.eqb_spec ty AMQP_FRAME_HEARTBEAT); (split; [apply return_ok, Hs|right; apply typed_none; [subst; try discriminate; assumption ..]]).
Qed.
Lemma handle_header_typed E n s d : in_ok s -> htyped (handle_header E n s d).
Proof.
  intros Hs. unfold handle_header. cbv zeta. destruct (raw_bytes s) as [raw|]; [|exact I].
  destruct (d_at W16 raw 1) as [ch|]; [|exact I]. destruct (d_at W32 raw 3) as [fs|]; [|exact I].
  destruct (_ <=? _); [split; [exact Hs|left; reflexivity]|]. destruct (Z.ltb_spec (u64 (i_frame_max s)) (u32 (fs + HEADER_SIZE + FOOTER_SIZE))) as [|Hfm]; [split; [exact Hs|left; reflexivity]|].
  destruct (ae_nopool _); [split; [exact Hs|left; reflexivity]|].
  destruct (ae_noblock _); [split; [destruct Hs as (A1 & A2 & A3); repeat split; cbn; auto; apply A2|left; reflexivity]|].
  destruct (slice (i_hdr s) _ _); [|exact I]. destruct (write _ _ _) as [block|] eqn:Hw; [|exact I].
  destruct (consume_data _ d) as [[[k s'] r]|] eqn:Hc; [|exact I].
  assert (in_ok s') as Hs'.
  { eapply consume_in_ok; [exact Hc|]. destruct Hs as (A1 & A2 & A3). split; [exact A1|]. split; [exact A2|]. cbn.
    apply write_len in Hw. rewrite Hw, zlen_fresh by (unfold u32; apply Z.mod_pos_bound; lia).
    rewrite u64_small in Hfm by assumption. lia. }
  destruct (_ <? _); [split; [exact Hs'|right; apply typed_no_frame]|apply handle_body_typed, Hs'].
Qed.
Lemma handle_input_typed E s d : in_ok s -> htyped (amqp_handle_input E s d).
Proof.
  intros Hs. unfold amqp_handle_input. destruct (_ =? _); [split; [exact Hs|right; apply typed_no_frame]|]. cbv zeta.
  set (s0 := match i_state s with IDLE => _ | _ => _ end).
  assert (in_ok s0) as H0 by (unfold s0; destruct (i_state s); exact Hs).
  destruct (consume_data s0 d) as [[[n s'] r]|] eqn:Hc; [|exact I]. apply (consume_in_ok _ _ _ _ _ Hc) in H0. clear Hc.
  destruct (_ <? _); [split; [exact H0|right; apply typed_no_frame]|].
  destruct (i_state s'); [exact I| |apply handle_header_typed, H0|apply handle_body_typed, H0].
  destruct (raw_bytes s') as [raw|]; [|exact I]. destruct (slice raw 0 4); [|exact I]. destruct (list_eq_dec _ _ _); [|apply handle_header_typed, H0].
  destruct (d_at W8 raw 4); [|exact I]. destruct (d_at W8 raw 5); [|exact I]. destruct (d_at W8 raw 6); [|exact I]. destruct (d_at W8 raw 7); [|exact I].
  split; [apply return_ok, H0|]. right. repeat split; cbn; discriminate.
Qed.

(** *** decoded methods and properties *)
Lemma nodup_find {A} (key : A -> Z) (l : list A) x : NoDup (map key l) -> In x l -> find (fun y => key y =? key x) l = Some x.
Proof.
  induction l as [|y l IH]; cbn [map find]; [intros _ []|]. intros Hn [->|Hx]; [rewrite Z.eqb_refl; reflexivity|].
  inversion Hn as [|? ? Hy Hn']; subst. destruct (Z.eqb_spec (key y) (key x)) as [Hk|_]; [|auto]. exfalso. apply Hy. rewrite Hk. apply in_map, Hx.
Qed.
Lemma entry_nodup : NoDup (map entry_id catalogue).
Proof. apply nodupZ_ok. vm_compute. reflexivity. Qed.
Lemma cat_in (e : Z * Z * list (string * dom)) : find (fun x => entry_id x =? entry_id e) catalogue = Some e -> In e catalogue.
Proof. intros H. apply find_some in H. apply H. Qed.
Definition fields_of (id : Z) : list (string * dom) :=
  match find (fun e => entry_id e =? id) catalogue with Some e => snd e | None => [] end.
(** a decoded method has the arguments of the method it claims to be *)
Lemma typed_method f : typed f -> f_type f = 1 -> exists id m, f_pay f = PMethod id m /\ method_of f = Some (id, m) /\ well_typed (fields_of id) m /\ norm_struct m = m /\ In id (map entry_id catalogue).
Proof.
  intros (H & _ & _) H1. destruct (H H1) as (id & m & enc & oom & n & Hp & He & Hd). exists id, m. split; [exact Hp|]. split; [unfold method_of; rewrite Hp; reflexivity|].
  destruct (C08_method_decoding_total_and_safe id enc oom He) as [(c & i & fs & args & off & Hin & Hid & Hd' & Hw & _ & _ & Hn & _)|(st & off & Hd' & _)]; [|congruence].
  rewrite Hd in Hd'. injection Hd' as <- _. split; [|split; [exact Hn|rewrite Hid; exact (in_map entry_id _ _ Hin)]]. unfold fields_of.
  change (method_id c i) with (entry_id (c, i, fs)) in Hid. rewrite Hid, (nodup_find entry_id catalogue _ entry_nodup Hin). exact Hw.
Qed.
(** a struct with these members, in this order *)
Fixpoint has_members (flags : Z) (l : list (Z * stmt)) (m : mstruct) : Prop :=
  match l with
  | [] => m = []
  | (k, st) :: l => if Z.land flags (Z.shiftl 1 k) =? 0 then has_members flags l m else exists v m', m = (stmt_field st, v) :: m' /\ has_members flags l m'
  end.
Lemma dec_one enc oom st off ms off' : (forall l, st <> SBits l) -> exec_dec enc oom st off = DOk ms off' -> exists v, ms = [(stmt_field st, v)].
Proof.
  intros Hs. destruct st as [w f|f|f|f|l]; cbn [exec_dec stmt_field]; [| | | |destruct (Hs l); reflexivity];
    match goal with |- dbind ?x _ = _ -> _ => destruct x; cbn [dbind]; try discriminate end; intros H; injection H as <- _; eauto.
Qed.
Lemma dec_members enc oom flags l : Forall (fun p => forall b, snd p <> SBits b) l ->
  forall off acc ms off', exec_dec_props l enc oom flags off acc = DOk ms off' -> exists m, ms = (acc ++ m)%list /\ has_members flags l m.
Proof.
  induction l as [|[k st] l IH]; intros Hl off acc ms off'; cbn [exec_dec_props has_members].
  - intros H; injection H as <- _. exists []. rewrite app_nil_r. auto.
  - apply Forall_cons_iff in Hl. destruct Hl as [Hst Hl]. destruct (_ =? 0); [apply IH, Hl|].
    destruct (exec_dec enc oom st off) as [m1 off1|e o| |] eqn:Hd; cbn [dbind]; try discriminate. apply dec_one in Hd; [|exact Hst]. destruct Hd as [v ->].
    intros H. destruct (IH Hl _ _ _ _ H) as (m & -> & Hm). exists ((stmt_field st, v) :: m). rewrite <- app_assoc. split; [reflexivity|eauto].
Qed.
Lemma has_names flags l m : has_members flags l m -> incl (map fst m) (map (fun p => stmt_field (snd p)) l).
Proof.
  revert m. induction l as [|[k st] l IH]; intros m; cbn [has_members map].
  - intros ->. apply incl_refl.
  - destruct (_ =? 0); [intros H; apply incl_tl, IH, H|]. intros (v & m' & -> & H). cbn [map fst snd]. apply incl_cons; [left; reflexivity|]. apply incl_tl, IH, H.
Qed.
Lemma clone_value_ok oom v n : exists n', (exists e, clone_value oom v n = (inl e, n') /\ (e = AMQP_STATUS_NO_MEMORY \/ e = AMQP_STATUS_INVALID_PARAMETER)) \/ clone_value oom v n = (inr v, n').
Proof.
  unfold clone_value. destruct v as [z|b|t|z]; try (eexists; right; reflexivity).
  - destruct (zlen b =? 0) eqn:H0; [apply Prop_TableOps.zlen_0 in H0; subst; eexists; right; reflexivity|].
    destruct (oom n); [eexists; left; eexists; split; [reflexivity|auto]|eexists; right; reflexivity].
  - pose proof (Prop_TableOps.clone_table_ok oom t n) as H. unfold Prop_TableOps.clone_ok in H. destruct (amqp_table_clone oom t n) as [[e|t'] n']; cbn [fst] in H; exists n'.
    + left. exists e. split; [reflexivity|]. destruct H as [[-> _]|[-> _]]; auto.
    + right. destruct H as [-> _]. reflexivity.
Qed.
Lemma lookup_skip {A} f (pre : list (string * A)) rest : ~ In f (map fst pre) -> lookup f (pre ++ rest)%list = lookup f rest.
Proof.
  induction pre as [|[g v] pre IH]; cbn; [reflexivity|]. intros H. destruct (String.eqb_spec f g) as [->|]; [exfalso; apply H; left; reflexivity|]. apply IH. intros K; apply H; right; exact K.
Qed.
Lemma clone_members_ok oom flags l : NoDup (map (fun p => stmt_field (snd p)) l) ->
  forall pre m n, has_members flags l m -> (forall s, In s (map fst pre) -> ~ In s (map (fun p => stmt_field (snd p)) l)) ->
  clone_members oom l flags (pre ++ m)%list n = Some (inr m) \/
  exists e, clone_members oom l flags (pre ++ m)%list n = Some (inl e) /\ (e = AMQP_STATUS_NO_MEMORY \/ e = AMQP_STATUS_INVALID_PARAMETER).
Proof.
  induction l as [|[k st] l IH]; intros Hn pre m n Hm Hp; cbn [clone_members has_members map] in *.
  - subst m. left. reflexivity.
  - cbn [snd] in Hn, Hp. inversion Hn as [|? ? Hst Hn']; subst. destruct (_ =? 0).
    + apply IH; auto. intros s Hs K. apply (Hp s Hs). right; exact K.
    + destruct Hm as (v & m' & -> & Hm'). rewrite lookup_skip by (intros K; apply (Hp _ K); left; reflexivity). cbn [lookup]. rewrite String.eqb_refl.
      destruct (clone_value_ok oom v n) as (n' & [(e & -> & He)| ->]); [right; exists e; auto|].
      change ((stmt_field st, v) :: m') with ([(stmt_field st, v)] ++ m')%list. rewrite app_assoc.
      destruct (IH Hn' (pre ++ [(stmt_field st, v)])%list m' n' Hm') as [->|(e & -> & He)]; [|left; reflexivity|right; exists e; auto].
      intros s. rewrite map_app, in_app_iff. cbn [map fst In]. intros [Hs|[<-|[]]] K; [apply (Hp s Hs); right; exact K|contradiction].
Qed.
Lemma props_nodup : NoDup (map (fun p => stmt_field (snd p)) dec_props_basic).
Proof. apply distinct_NoDup. vm_compute. reflexivity. Qed.
Lemma props_nobits : Forall (fun p => forall b, snd p <> SBits b) dec_props_basic.
Proof. unfold dec_props_basic. repeat constructor; discriminate. Qed.
(** cloning the decoded properties of a basic content header *)
Lemma clone_basic enc oom p n : amqp_decode_properties 60 enc oom = DOk p n -> forall o,
  amqp_basic_properties_clone o p = Some (inr p) \/
  exists e, amqp_basic_properties_clone o p = Some (inl e) /\ (e = AMQP_STATUS_NO_MEMORY \/ e = AMQP_STATUS_INVALID_PARAMETER).
Proof.
  intros H o. unfold amqp_decode_properties in H. destruct (decode_flags _ _ _ _ _) as [flags off|e off| |]; cbn [dbind] in H; try discriminate.
  change (existsb (Z.eqb 60) dec_props_classes) with true in H. destruct (oom SITE_METHOD off); [discriminate|]. change (60 =? 60) with true in H.
  destruct (exec_dec_props dec_props_basic enc oom flags off []) as [ms off'|e o'| |] eqn:Hd; cbn [dbind] in H; try discriminate. injection H as <- _.
  apply dec_members in Hd; [|apply props_nobits]. destruct Hd as (m & -> & Hm). cbn [app]. unfold amqp_basic_properties_clone. cbn [pflags pfields].
  pose proof (clone_members_ok o flags dec_props_basic props_nodup [] m 0%nat Hm (fun s Hs => False_ind _ Hs)) as K. cbn [app] in K.
  destruct K as [->|(e & -> & He)]; [left; reflexivity|right; exists e; auto].
Qed.

(** *** steps that touch neither the input, nor the queue, nor the size of the send buffer *)
Definition keepJ (c c' : conn) (l : list obs) : Prop :=
  c_in c' = c_in c /\ c_queue c' = c_queue c /\ zlen (c_outbuf c') = zlen (c_outbuf c) /\ frames l = [].
Lemma keepJ_refl c : keepJ c c [].
Proof. repeat split. Qed.
Lemma keepJ_trans c c1 c2 l1 l2 : keepJ c c1 l1 -> keepJ c1 c2 l2 -> keepJ c c2 (l1 ++ l2).
Proof. intros (A1 & A2 & A3 & A4) (B1 & B2 & B3 & B4). unfold keepJ. rewrite frames_app, A4, B4. repeat split; congruence. Qed.
Definition still_at {A} (m : M A) (c : conn) : Prop :=
  forall ev, wp m c ev (fun _ c' _ l => keepJ c c' l) (fun s c' l => keepJ c c' l /\ s <> UB).
Definition still {A} (m : M A) : Prop := forall c, still_at m c.
Lemma still_bind {A B} (m : M A) (k : A -> M B) c : still_at m c -> (forall a c', still_at (k a) c') -> still_at (bind m k) c.
Proof.
  intros H1 H2 ev. apply wp_bind. eapply wp_conseq; [apply H1| |auto]. cbv beta. intros a c1 ev1 l1 K.
  eapply wp_conseq; [apply H2| |]; cbv beta.
  - intros b c2 ev2 l2 K2. eapply keepJ_trans; eauto.
  - intros s c2 l2 [K2 Hs]. split; [eapply keepJ_trans; eauto|exact Hs].
Qed.
Lemma still_get_bind {B} (k : conn -> M B) c : still_at (k c) c -> still_at (bind get k) c.
Proof. intros H ev. apply wp_get_bind, H. Qed.
Lemma still_ret {A} (a : A) c : still_at (ret a) c.
Proof. intros ev. apply wp_ret, keepJ_refl. Qed.
Lemma still_halt {A} s c : s <> UB -> still_at (@halt A s) c.
Proof. intros H ev. apply wp_halt. split; [apply keepJ_refl|exact H]. Qed.
Lemma still_upd f c : (c_in (f c) = c_in c /\ c_queue (f c) = c_queue c /\ zlen (c_outbuf (f c)) = zlen (c_outbuf c)) -> still_at (upd f) c.
Proof. intros (H1 & H2 & H3) ev. apply wp_upd. repeat split; assumption. Qed.
Lemma still_note o c : frames [o] = [] -> still_at (note o) c.
Proof. intros H ev. apply wp_note. repeat split. exact H. Qed.
Lemma still_silent {A} (m : M A) c : silent m -> still_at m c.
Proof.
  intros H ev. eapply wp_conseq; [apply H| |]; cbv beta.
  - intros a c' ev' l [-> Hl]. destruct (idle_quiet _ Hl) as (_ & Hf & _). repeat split. exact Hf.
  - intros s c' l (-> & Hl & Hs & _). destruct (idle_quiet _ Hl) as (_ & Hf & _). split; [repeat split; exact Hf|exact Hs].
Qed.
Lemma still_send more b c : still_at (sys_send more b) c.
Proof. intros ev. unfold wp, sys_send. destruct ev as [|[] ev]; try (split; [apply keepJ_refl|discriminate]). destruct r; repeat split. Qed.
Lemma still_sysrecv n c : still_at (sys_recv n) c.
Proof. intros ev. unfold wp, sys_recv. destruct ev as [|[] ev]; try (split; [apply keepJ_refl|discriminate]). destruct r; repeat split. Qed.
Lemma still_syspoll w n c : still_at (sys_poll w n) c.
Proof. intros ev. unfold wp, sys_poll. destruct ev as [|[] ev]; try (split; [apply keepJ_refl|discriminate]). destruct r; repeat split. destruct (_ <? _); repeat split; discriminate. Qed.
Lemma still_sysclose c : still_at sys_close c.
Proof. intros ev. unfold wp, sys_close. destruct ev as [|[] ev]; try (split; [apply keepJ_refl|discriminate]). repeat split. Qed.
Lemma still_alloc c : still_at sys_alloc c.
Proof. intros ev. unfold wp, sys_alloc. destruct ev as [|[] ev]; try (split; [apply keepJ_refl|discriminate]). repeat split. Qed.
Lemma still_clone c : still_at sys_clone c.
Proof. intros ev. unfold wp, sys_clone. destruct ev as [|[] ev]; try (split; [apply keepJ_refl|discriminate]). repeat split. Qed.
Ltac still1 :=
  match goal with
  | |- still_at (bind get _) _ => apply still_get_bind
  | |- still_at (bind _ _) _ => apply still_bind; [|intros]
  | |- still_at (ret _) _ => apply still_ret
  | |- still_at (halt _) _ => apply still_halt; discriminate
  | |- still_at (sys_send _ _) _ => apply still_send
  | |- still_at (sys_recv _) _ => apply still_sysrecv
  | |- still_at (sys_poll _ _) _ => apply still_syspoll
  | |- still_at sys_close _ => apply still_sysclose
  | |- still_at sys_alloc _ => apply still_alloc
  | |- still_at (note _) _ => apply still_note; reflexivity
  | |- still_at (upd _) _ => apply still_upd; solve [repeat (match goal with |- context [match ?t with _ => _ end] => destruct t end); repeat split; reflexivity]
  | |- still_at (time_from_now _) _ => apply still_silent, silent_time_from_now
  | |- still_at (time_s_from_now _) _ => apply still_silent, silent_time_s
  | |- still_at (time_has_past _) _ => apply still_silent, silent_time_past
  | |- still_at (do_poll _ _ _) _ => apply still_silent, silent_do_poll
  | |- still_at (if ?b then _ else _) _ => destruct b
  | |- still_at (match ?x with _ => _ end) _ => destruct x
  | |- still_at (let _ := _ in _) _ => cbv zeta
  | H : forall c, still_at ?m c |- still_at ?m _ => apply H
  end.
Ltac still := repeat still1.
Section Still.
Context (N : nat).
Lemma still_send_loop fuel : forall more b c, still_at (tcp_send_loop fuel more b) c.
Proof. induction fuel as [|fuel IH]; intros; cbn [tcp_send_loop]; still. apply IH. Qed.
Lemma still_try_send b d more c : still_at (amqp_try_send N b d more) c.
Proof.
  unfold amqp_try_send. generalize (zlen b) as len. generalize b. clear b. generalize N at 2 as fuel. intros fuel. revert c.
  induction fuel as [|fuel IH]; intros c b len; cbn [try_send_loop]; unfold amqp_socket_send; still; try apply still_send_loop; apply IH.
Qed.
Lemma still_recv_loop fuel : forall n c, still_at (tcp_recv_loop fuel n) c.
Proof. induction fuel as [|fuel IH]; intros; cbn [tcp_recv_loop]; still. apply IH. Qed.
Lemma still_next_send c : still_at update_next_send c.
Proof. unfold update_next_send. still. Qed.
Lemma still_next_recv c : still_at update_next_recv c.
Proof. unfold update_next_recv. still. Qed.
Lemma still_recv fuel : forall t c, still_at (recv_with_timeout N fuel t) c.
Proof.
  induction fuel as [|fuel IH]; intros t c; cbn [recv_with_timeout]; unfold amqp_socket_recv, store_received; still; try apply still_recv_loop; try apply IH; try apply still_next_recv.
  apply still_silent, silent_amqp_poll.
Qed.
Lemma still_close c : still_at amqp_socket_close c.
Proof. unfold amqp_socket_close. still. Qed.
Lemma still_header d c : still_at (send_header_inner N d) c.
Proof. unfold send_header_inner. still. apply still_try_send. Qed.
Lemma still_create f c : still_at (create_link f) c.
Proof. unfold create_link. still. Qed.
End Still.

(** *** the pass *)
Section Typed.
Context (N : nat) (E : nat -> aenv) (X : frame -> Prop) (U : stop -> conn -> Prop)
  (U_other : forall s c, s <> UB -> U s c)
  (U_input : forall c, amqp_handle_input E (c_in c) (c_sbuf c) = HUB -> U UB c)
  (U_dead : forall c, ~ qalive c -> U UB c)
  (U_short : forall c, zlen (c_outbuf c) < 20 \/ zlen (c_outbuf c) < frame_max c \/ frame_max c < 8 -> U UB c).
Definition goodf (f : frame) : Prop := typed f /\ X f.
Definition J (c : conn) : Prop := in_ok (c_in c) /\ Forall goodf (queued c) /\ zlen (c_outbuf c) < M31.
Definition ty_at {A} (m : M A) (P : A -> Prop) (c : conn) : Prop :=
  forall ev, J c -> wp m c ev (fun a c' _ l => Forall X (frames l) -> J c' /\ Forall typed (frames l) /\ P a)
                              (fun s c' l => Forall X (frames l) -> J c' /\ Forall typed (frames l) /\ U s c').
Definition anyt {A} (a : A) : Prop := True.
Definition freshf (p : Z * frame) : Prop := fst p = AMQP_STATUS_OK -> f_type (snd p) <> 0 -> goodf (snd p).

Lemma Xapp l1 l2 : Forall X (frames (l1 ++ l2)) <-> Forall X (frames l1) /\ Forall X (frames l2).
Proof. rewrite frames_app. apply Forall_app. Qed.
Lemma ty_bind {A B} (m : M A) (k : A -> M B) (P : A -> Prop) Q c :
  ty_at m P c -> (forall a c', P a -> ty_at (k a) Q c') -> ty_at (bind m k) Q c.
Proof.
  intros Hm Hk ev Hc. apply wp_bind. eapply wp_conseq; [apply Hm, Hc| |]; cbv beta; [|auto].
  intros a c1 ev1 l1 H1. unfold wp. destruct (k a c1 ev1) as [b c2 ev2 l2|s c2 l2] eqn:Hr.
  - intros HX. apply Xapp in HX. destruct HX as [X1 X2]. destruct (H1 X1) as (J1 & T1 & P1). pose proof (Hk a c1 P1 ev1 J1) as H2. unfold wp in H2. rewrite Hr in H2.
    destruct (H2 X2) as (J2 & T2 & Q2). rewrite frames_app. split; [exact J2|]. split; [apply Forall_app; auto|exact Q2].
  - intros HX. apply Xapp in HX. destruct HX as [X1 X2]. destruct (H1 X1) as (J1 & T1 & P1). pose proof (Hk a c1 P1 ev1 J1) as H2. unfold wp in H2. rewrite Hr in H2.
    destruct (H2 X2) as (J2 & T2 & Q2). rewrite frames_app. split; [exact J2|]. split; [apply Forall_app; auto|exact Q2].
Qed.
Lemma ty_get_bind {B} (k : conn -> M B) Q c : ty_at (k c) Q c -> ty_at (bind get k) Q c.
Proof. intros H ev Hc. apply wp_get_bind, H, Hc. Qed.
Lemma ty_ret {A} (a : A) (P : A -> Prop) c : P a -> ty_at (ret a) P c.
Proof. intros H ev Hc. apply wp_ret. intros _. split; [exact Hc|split; [constructor|exact H]]. Qed.
Lemma ty_halt {A} s (P : A -> Prop) c : (J c -> U s c) -> ty_at (halt s) P c.
Proof. intros H ev Hc. apply wp_halt. intros _. split; [exact Hc|split; [constructor|apply H, Hc]]. Qed.
Lemma ty_upd f (P : unit -> Prop) c : (J c -> J (f c)) -> P tt -> ty_at (upd f) P c.
Proof. intros H HP ev Hc. apply wp_upd. intros _. split; [apply H, Hc|split; [constructor|exact HP]]. Qed.
Lemma ty_weak {A} (m : M A) (P Q : A -> Prop) c : ty_at m P c -> (forall a, P a -> Q a) -> ty_at m Q c.
Proof. intros H H1 ev Hc. eapply wp_conseq; [apply H, Hc| |auto]. cbv beta. intros a c' ev' l K HX. destruct (K HX) as (K1 & K2 & K3). auto. Qed.
Lemma keepJ_J c c' l : keepJ c c' l -> J c -> J c'.
Proof. intros (H1 & H2 & H3 & _) (A1 & A2 & A3). unfold J, queued. rewrite H1, H2, H3. auto. Qed.
Lemma ty_still {A} (m : M A) c : still_at m c -> ty_at m anyt c.
Proof.
  intros H ev Hc. eapply wp_conseq; [apply H| |]; cbv beta.
  - intros a c' ev' l K _. split; [eapply keepJ_J; eauto|]. destruct K as (_ & _ & _ & ->). split; [constructor|exact I].
  - intros s c' l [K Hs] _. split; [eapply keepJ_J; eauto|]. destruct K as (_ & _ & _ & ->). split; [constructor|apply U_other, Hs].
Qed.
Lemma ty_silent {A} (m : M A) c : silent m -> ty_at m anyt c.
Proof. intros H. apply ty_still, still_silent, H. Qed.
Lemma ty_consume c : ty_at (consume_one_frame E) freshf c.
Proof.
  intros ev (J1 & J2 & J3). unfold wp, consume_one_frame. pose proof (handle_input_typed E (c_in c) (c_sbuf c) J1) as H.
  destruct (amqp_handle_input E (c_in c) (c_sbuf c)) as [res f s| |] eqn:Hh.
  - cbn in H. destruct H as [H1 H2]. destruct (Z.ltb_spec res 0).
    + intros _. split; [split; [exact H1|auto]|]. split; [constructor|]. intros K. cbn in K. unfold AMQP_STATUS_OK in K. lia.
    + destruct H2 as [|H2]; [lia|]. destruct (Z.eqb_spec (f_type f) 0) as [H0|H0]; cbn [frames flat_map app].
      * intros _. split; [split; [exact H1|auto]|]. split; [constructor|]. intros _ K. contradiction.
      * intros HX. apply Forall_cons_iff in HX. destruct HX as [HX _]. split; [split; [exact H1|auto]|]. split; [repeat constructor; exact H2 || apply H2|]. intros _ _. split; [exact H2|exact HX].
  - intros _. split; [unfold J; auto|]. split; [constructor|apply U_input, Hh].
  - intros _. split; [unfold J; auto|]. split; [constructor|apply U_other; discriminate].
Qed.
Definition linkt (f : frame) (o : option (frame * nat)) : Prop := match o with Some e => fst e = f | None => True end.
Lemma ty_create f c : ty_at (create_link f) (linkt f) c.
Proof.
  intros ev Hc. unfold wp. pose proof (still_create f c ev) as H. unfold wp in H.
  assert (forall o c' ev' l, create_link f c ev = Done o c' ev' l -> linkt f o) as Hl.
  { unfold create_link, bind, sys_alloc, get, ret. intros o c' ev' l. destruct ev as [|[] ev]; try discriminate. intros K. injection K as <- _ _ _. destruct ok; cbn; auto. }
  destruct (create_link f c ev) as [o c' ev' l|s c' l].
  - intros _. split; [eapply keepJ_J; eauto|]. destruct H as (_ & _ & _ & ->). split; [constructor|]. eapply Hl. reflexivity.
  - intros _. destruct H as [H Hs]. split; [eapply keepJ_J; eauto|]. destruct H as (_ & _ & _ & ->). split; [constructor|apply U_other, Hs].
Qed.
Lemma ty_append e c : goodf (fst e) -> ty_at (append_entry e) anyt c.
Proof.
  intros He. apply ty_upd; [|exact I]. intros (J1 & J2 & J3). split; [exact J1|]. split; [|exact J3]. unfold queued in *. cbn. rewrite map_app. apply Forall_app. split; [exact J2|repeat constructor; apply He].
Qed.
Lemma ty_drain fuel : forall c, ty_at (try_recv_drain E fuel) anyt c.
Proof.
  induction fuel as [|fuel IH]; intros c; cbn [try_recv_drain]; [apply ty_halt; intros; apply U_other; discriminate|].
  apply ty_get_bind. destruct (negb _); [apply ty_ret; exact I|].
  eapply ty_bind; [apply ty_consume|]. intros [r f] c1 Hf. unfold freshf in Hf; cbn [fst snd] in Hf.
  destruct (Z.eqb_spec r AMQP_STATUS_OK) as [Hr|]; cbn [negb]; [|apply ty_ret; exact I].
  destruct (Z.eqb_spec (f_type f) 0); cbn [negb]; [apply IH|]. eapply ty_bind; [apply ty_create|].
  intros [e|] c2 He; [|apply ty_ret; exact I]. cbn in He. eapply ty_bind; [apply ty_append; rewrite He; auto|]. intros; apply IH.
Qed.
Lemma ty_try_recv c : ty_at (amqp_try_recv N E) anyt c.
Proof.
  unfold amqp_try_recv. eapply ty_bind; [apply ty_drain|]. intros r c1 _. destruct (negb _); [apply ty_ret; exact I|].
  eapply ty_bind; [apply ty_silent, silent_time_from_now|]. intros [r2 [t|]] c2 _; [|apply ty_ret; exact I].
  destruct (_ =? _); [apply ty_still, still_recv|apply ty_ret; exact I].
Qed.
Lemma ty_send_loop fuel : forall enc more d c, ty_at (send_frame_loop N E fuel enc more d) anyt c.
Proof.
  induction fuel as [|fuel IH]; intros enc more d c; cbn [send_frame_loop]; [apply ty_halt; intros; apply U_other; discriminate|].
  apply ty_get_bind. cbv zeta. eapply ty_bind; [apply ty_still, still_try_send|]. intros r c1 _.
  destruct (_ <? _); [apply ty_ret; exact I|]. destruct (negb _).
  - destruct (amqp_time_equal _ _); [apply ty_ret; exact I|]. eapply ty_bind; [apply ty_try_recv|]. intros r2 c2 _.
    destruct (_ =? _); [apply ty_ret; exact I|]. destruct (negb _); [apply ty_ret; exact I|apply IH].
  - apply ty_still, still_next_send.
Qed.
(** a frame that can be put into every buffer of at least frame_max (and 20) bytes *)
Definition sendable (fm : Z) (f : frame) : Prop := 8 <= fm -> forall buf, 20 <= zlen buf < M31 -> fm <= zlen buf -> amqp_frame_to_bytes f buf <> FUB.
Lemma ty_send f more d c : sendable (frame_max c) f -> ty_at (amqp_send_frame_inner N E f more d) anyt c.
Proof.
  intros Hs. unfold amqp_send_frame_inner. apply ty_get_bind. destruct (amqp_frame_to_bytes _ _) as [r b e|] eqn:Hf.
  - eapply (ty_bind _ _ anyt); [apply ty_upd; [|exact I]|].
    + intros (J1 & J2 & J3). split; [exact J1|]. split; [exact J2|]. cbn. apply frame_to_bytes_len in Hf. lia.
    + intros _ c1 _. destruct (negb _); [apply ty_ret; exact I|apply ty_send_loop].
  - apply ty_halt. intros (J1 & J2 & J3). apply U_short. destruct (Z_lt_ge_dec (zlen (c_outbuf c)) 20) as [|H1]; [left; assumption|].
    destruct (Z_lt_ge_dec (zlen (c_outbuf c)) (frame_max c)) as [|H2]; [right; left; assumption|]. destruct (Z_lt_ge_dec (frame_max c) 8) as [|H3]; [right; right; assumption|]. exfalso. apply (Hs ltac:(lia) (c_outbuf c)); try lia. exact Hf.
Qed.
Lemma heartbeat_sendable fm : sendable fm heartbeat_frame.
Proof.
  intros _ buf Hb _. assert (heartbeat_frame = c_frame 0 AHeartbeat) as -> by reflexivity.
  destruct (frame_to_bytes_ok 0 AHeartbeat buf I Hb ltac:(discriminate)) as (st & b & e & -> & _). discriminate.
Qed.
Lemma J_gens c g : J c -> J (set_gens c g).
Proof. intros (J1 & J2 & J3). split; [exact J1|]. split; [exact J2|exact J3]. Qed.
Lemma ty_release_on ch c : ty_at (amqp_maybe_release_buffers_on_channel ch) anyt c.
Proof.
  unfold amqp_maybe_release_buffers_on_channel. apply ty_get_bind. destruct (i_state _); try (apply ty_ret; exact I).
  destruct (forallb _ _) eqn:Hq; cbn [negb]; [|apply ty_halt; intros _; apply U_dead; unfold qalive; congruence]. destruct (existsb _ _); [apply ty_ret; exact I|].
  apply ty_upd; [|exact I]. apply J_gens.
Qed.
Lemma ty_release c : ty_at amqp_release_buffers anyt c.
Proof.
  unfold amqp_release_buffers. apply ty_get_bind. destruct (i_state _); try (apply ty_halt; intros; apply U_other; discriminate).
  destruct (forallb _ _) eqn:Hq; cbn [negb]; [|apply ty_halt; intros _; apply U_dead; unfold qalive; congruence].
  apply ty_upd; [|exact I]. apply J_gens.
Qed.
Lemma ty_maybe_release c : ty_at amqp_maybe_release_buffers anyt c.
Proof. unfold amqp_maybe_release_buffers. apply ty_get_bind. destruct (amqp_release_buffers_ok _); [apply ty_release|apply ty_ret; exact I]. Qed.

Lemma freshf_err r f : r <> AMQP_STATUS_OK -> freshf (r, f).
Proof. intros H H1. contradiction. Qed.
Lemma freshf_none r : freshf (r, no_frame).
Proof. intros _ H. contradiction H. reflexivity. Qed.
Lemma ty_wait_loop fuel : forall skip d c, ty_at (wait_frame_loop N E fuel skip d) freshf c.
Proof.
  induction fuel as [|fuel IH]; intros skip d c; cbn [wait_frame_loop]; [apply ty_halt; intros; apply U_other; discriminate|].
  apply ty_get_bind. destruct (_ && _).
  - eapply ty_bind; [apply ty_consume|]. intros [r f] c1 Hf.
    destruct (Z.eqb_spec r AMQP_STATUS_OK) as [->|]; cbn [negb]; [|apply ty_ret, freshf_err; assumption].
    destruct (_ =? _).
    + eapply ty_bind; [apply ty_release_on|]. intros; apply IH.
    + destruct (negb _); [apply ty_ret; exact Hf|apply IH].
  - eapply ty_bind; [apply ty_silent, silent_time_past|]. intros r c1 _. destruct (_ =? _); [apply ty_ret, freshf_none|].
    eapply (ty_bind _ _ anyt); [destruct (_ =? _); [apply ty_send, heartbeat_sendable|apply ty_ret; exact I]|]. intros r2 c2 _.
    destruct (negb _); [apply ty_ret, freshf_none|]. apply ty_get_bind. cbv zeta.
    eapply ty_bind; [apply ty_still, still_recv|]. intros r3 c3 _. destruct (_ =? _).
    + apply ty_get_bind. destruct (amqp_time_equal _ _).
      * eapply ty_bind; [apply ty_still, still_close|intros; apply ty_ret, freshf_none].
      * destruct (amqp_time_equal _ _); [apply ty_ret, freshf_none|]. destruct (amqp_time_equal _ _); [apply IH|apply ty_halt; intros; apply U_other; discriminate].
    + destruct (negb _); [apply ty_ret, freshf_none|apply IH].
Qed.
Lemma ty_wait d c : ty_at (wait_frame_inner N E d) freshf c.
Proof. apply ty_wait_loop. Qed.
(** a frame returned by a wait: of a known type *)
Definition freshw (p : Z * frame) : Prop := fst p = AMQP_STATUS_OK -> goodf (snd p).
Lemma wait_nonzero d c : forall ev, wp (wait_frame_inner N E d) c ev (fun p _ _ _ => fst p = AMQP_STATUS_OK -> f_type (snd p) <> 0) (fun _ _ _ => True).
Proof. intros ev. eapply wp_conseq; [apply wait_inner_ok| |auto]. cbv beta. intros p c' ev' l W Hr. destruct W as [F1 F2 F3 F4 F9 F5 F6 F7 F8]. apply F5, Hr. Qed.
Lemma ty_waitw d c : ty_at (wait_frame_inner N E d) freshw c.
Proof.
  intros ev Hc. pose proof (wp_split _ _ _ _ _ _ _ (ty_wait d c ev Hc) (wait_nonzero d c ev)) as H. eapply wp_conseq; [exact H| |]; cbv beta.
  - intros p c' ev' l [K1 K2] HX. destruct (K1 HX) as (A1 & A2 & A3). split; [exact A1|]. split; [exact A2|]. intros Hr. apply A3; [exact Hr|apply K2, Hr].
  - intros s c' l [K1 _]. exact K1.
Qed.
Lemma ty_queue_frame f c : goodf f -> ty_at (amqp_queue_frame f) anyt c.
Proof.
  intros Hf. unfold amqp_queue_frame. eapply ty_bind; [apply ty_create|]. intros [e|] c' He; [|apply ty_ret; exact I]. cbn in He.
  eapply ty_bind; [apply ty_append; rewrite He; exact Hf|intros; apply ty_ret; exact I].
Qed.
Lemma ty_put_back f c : goodf f -> ty_at (amqp_put_back_frame f) anyt c.
Proof.
  intros Hf. unfold amqp_put_back_frame. eapply ty_bind; [apply ty_create|]. intros [e|] c' He; [|apply ty_ret; exact I]. cbn in He.
  eapply (ty_bind _ _ anyt); [|intros; apply ty_ret; exact I]. apply ty_upd; [|exact I]. intros (J1 & J2 & J3). split; [exact J1|]. split; [|exact J3].
  unfold queued in *. cbn. constructor; [rewrite He; exact Hf|exact J2].
Qed.
Lemma ty_on_channel_loop fuel : forall ch c, ty_at (wait_on_channel_loop N E fuel ch) freshw c.
Proof.
  induction fuel as [|fuel IH]; intros ch c; cbn [wait_on_channel_loop]; [apply ty_halt; intros; apply U_other; discriminate|].
  eapply ty_bind; [apply ty_waitw|]. intros [r f] c1 Hf.
  destruct (Z.eqb_spec r AMQP_STATUS_OK) as [->|]; cbn [negb]; [|apply ty_ret; intros K; contradiction].
  destruct (_ =? _); [apply ty_ret; exact Hf|].
  eapply ty_bind; [apply ty_queue_frame, Hf; reflexivity|]. intros r2 c2 _.
  destruct (Z.eqb_spec r2 AMQP_STATUS_OK) as [->|]; cbn [negb]; [apply IH|apply ty_ret; intros K; contradiction].
Qed.
Lemma find_incl g ch q f q' : find_on_channel g ch q = Some (Some (f, q')) -> exists b n, q = b ++ (f, n) :: q'.
Proof.
  induction q as [|e q IH]; cbn; [discriminate|].
  destruct (entry_alive g e); [|discriminate]. cbn. destruct (on_channel ch e).
  - intros H; injection H as <- <-. exists [], (snd e). destruct e; reflexivity.
  - intros H. destruct (IH H) as (b & n & ->). exists (e :: b), n. reflexivity.
Qed.
Lemma find_none_dead g ch q : find_on_channel g ch q = None -> forallb (entry_alive g) q <> true.
Proof.
  induction q as [|e q IH]; cbn; [discriminate|]. destruct (entry_alive g e); cbn; [|discriminate]. destruct (on_channel ch e); [discriminate|exact IH].
Qed.
Lemma ty_on_channel ch c : ty_at (amqp_simple_wait_frame_on_channel N E ch) freshw c.
Proof.
  unfold amqp_simple_wait_frame_on_channel. apply ty_get_bind.
  destruct (find_on_channel _ _ _) as [[[f q]|]|] eqn:Hf; [|apply ty_on_channel_loop|].
  - apply find_incl in Hf. destruct Hf as (b & n & Hq). intros ev Hc. destruct Hc as (J1 & J2 & J3). unfold queued in J2. rewrite Hq, map_app in J2. cbn [map fst] in J2.
    apply Forall_app in J2. destruct J2 as [_ J2]. apply Forall_cons_iff in J2. destruct J2 as [J2 J2'].
    wstep. apply wp_ret. intros _. split; [split; [exact J1|split; [exact J2'|exact J3]]|]. split; [constructor|]. intros _. exact J2.
  - apply ty_halt. intros _. apply U_dead. apply find_none_dead in Hf. exact Hf.
Qed.
Lemma ty_noblock t c : ty_at (amqp_simple_wait_frame_noblock N E t) freshw c.
Proof.
  unfold amqp_simple_wait_frame_noblock. intros ev Hc0.
  (* a status other than OK comes with any frame *)
  revert ev Hc0. change (ty_at (bind (time_from_now t) (fun x => let '(res, deadline) := x in
    match deadline with
    | Some deadline => if negb (res =? AMQP_STATUS_OK) then ret (res, no_frame) else
        bind get (fun c0 => match c_queue c0 with
          | e :: q => if negb (entry_alive (gens c0) e) then halt UB else bind (upd (fun c1 => set_queue c1 q)) (fun _ => ret (AMQP_STATUS_OK, fst e))
          | [] => wait_frame_inner N E deadline end)
    | None => ret (res, no_frame) end)) freshw c).
  eapply (ty_bind _ _ (fun p => snd p = None -> fst p <> AMQP_STATUS_OK)).
  - intros ev Hc. pose proof (wp_split _ _ _ _ _ _ _ (ty_silent _ c (silent_time_from_now t) ev Hc) (from_now_res t c ev)) as H.
    eapply wp_conseq; [exact H| |]; cbv beta; [|intros s c' l [K _]; exact K]. intros p c' ev' l [K1 ((_ & _ & K2 & _) & _)] HX. destruct (K1 HX) as (A1 & A2 & _). auto.
  - intros [r [d|]] c1 Hn; cbn [fst snd] in Hn; [|apply ty_ret; intros K; cbn in K; specialize (Hn eq_refl); contradiction].
    destruct (Z.eqb_spec r AMQP_STATUS_OK) as [Hr|]; cbn [negb]; [|apply ty_ret; intros K; contradiction]. apply ty_get_bind. destruct (c_queue c1) as [|e q] eqn:Hq; [apply ty_waitw|].
    destruct (entry_alive _ _) eqn:Hal; cbn [negb].
    + intros ev (J1 & J2 & J3). unfold queued in J2. rewrite Hq in J2. cbn [map] in J2. apply Forall_cons_iff in J2. destruct J2 as [J2 J2'].
      wstep. apply wp_ret. intros _. split; [split; [exact J1|split; [exact J2'|exact J3]]|]. split; [constructor|]. intros _. exact J2.
    + apply ty_halt. intros _. apply U_dead. unfold qalive. rewrite Hq. cbn. rewrite Hal. discriminate.
Qed.
Lemma ty_need {A} (o : option A) (P : A -> Prop) c : (exists a, o = Some a /\ P a) -> ty_at (need o) P c.
Proof. intros (a & -> & H). apply ty_ret, H. Qed.
Lemma add_size_small a b : 0 <= a < M63 -> 0 <= b < M30 -> add_size a b = a + b.
Proof. intros. unfold add_size, u64. rewrite Z.mod_small; lia. Qed.
Lemma ty_read_body fuel : forall ch body n c, zlen body < M63 -> 0 <= n <= zlen body -> ty_at (read_body N E fuel ch body n) anyt c.
Proof.
  induction fuel as [|fuel IH]; intros ch body n c Hb Hn; cbn [read_body]; [apply ty_halt; intros; apply U_other; discriminate|].
  destruct (negb _); [apply ty_ret; exact I|]. eapply ty_bind; [apply ty_on_channel|]. intros [r f] c1 Hf.
  destruct (Z.eqb_spec r AMQP_STATUS_OK) as [Hr|]; cbn [negb]; [|apply ty_ret; exact I]. apply Hf in Hr. clear Hf. cbn [snd] in Hr.
  destruct (Z.eqb_spec (f_type f) AMQP_FRAME_BODY) as [Ht|]; cbn [negb]; [|destruct (is_close f) as [[]|]; apply ty_ret; exact I].
  destruct Hr as [(_ & _ & T) _]. destruct (T Ht) as (b & -> & Hl). pose proof (zlen_nonneg b). rewrite add_size_small by lia.
  destruct (Z.ltb_spec (zlen body) (n + zlen b)) as [|Hle]; [apply ty_ret; exact I|].
  eapply (ty_bind _ _ (fun body' => zlen body' = zlen body)); [apply ty_need|].
  - unfold write. destruct (Z.leb_spec 0 n); [|lia]. destruct (Z.leb_spec (n + zlen b) (zlen body)); [|lia]. cbn [andb]. eexists; split; [reflexivity|].
    unfold zlen in *. rewrite !app_length, firstn_length, skipn_length. lia.
  - intros body' c2 Hb'. apply IH; lia.
Qed.
(** content headers are of class basic *)
Definition basic_header (f : frame) : Prop := f_type f = 2 -> exists size p enc, f_pay f = PHeader 60 size p enc.
Context (X_basic : forall f, X f -> basic_header f).
Lemma ty_clone (P : (nat -> bool) -> Prop) c : (forall o, P o) -> ty_at sys_clone P c.
Proof.
  intros H ev Hc. unfold wp, sys_clone. destruct ev as [|[] ev]; try (intros _; split; [exact Hc|]; split; [constructor|]; apply U_other; discriminate).
  intros _. split; [exact Hc|]. split; [constructor|apply H].
Qed.
Lemma ty_malloc n c : ty_at (sys_malloc n) (fun b => b = true -> n < M63) c.
Proof.
  unfold sys_malloc. eapply (ty_bind _ _ anyt); [apply ty_still, still_alloc|]. intros ok c1 _. apply ty_ret. intros H. apply andb_true_iff in H. apply Z.ltb_lt, H.
Qed.
Lemma ty_put_back_end {A} f (k : Z -> A) c : goodf f -> ty_at (bind (amqp_put_back_frame f) (fun x => ret (k x))) anyt c.
Proof. intros H. eapply ty_bind; [apply ty_put_back, H|intros; apply ty_ret; exact I]. Qed.
Lemma ty_read_message ch c : ty_at (amqp_read_message N E ch) anyt c.
Proof.
  unfold amqp_read_message. eapply ty_bind; [apply ty_on_channel|]. intros [r f] c1 Hf.
  destruct (Z.eqb_spec r AMQP_STATUS_OK) as [Hr|]; cbn [negb]; [|apply ty_ret; exact I]. apply Hf in Hr. clear Hf. cbn [snd] in Hr.
  destruct (Z.eqb_spec (f_type f) AMQP_FRAME_HEADER) as [Ht|]; cbn [negb]; [|destruct (is_close f) as [[]|]; [apply ty_ret; exact I|apply ty_put_back_end, Hr]].
  destruct Hr as [(_ & T & _) HX]. destruct (T Ht) as (cls & size & p & enc & oom & k & Hp & Hs & He & Hd). rewrite Hp.
  destruct (X_basic f HX Ht) as (size' & p' & enc' & Hp'). rewrite Hp in Hp'. injection Hp' as -> _ _ _.
  eapply (ty_bind _ _ (fun _ => True)); [apply ty_clone; auto|]. intros o c2 _. 
  eapply (ty_bind _ _ anyt); [apply ty_need; destruct (clone_basic _ _ _ _ Hd o) as [->|(e & -> & _)]; eexists; (split; [reflexivity|exact I])|].
  intros [e|p1] c3 _; [apply ty_ret; exact I|].
  eapply (ty_bind _ _ (fun b => b = true -> size < M63)); [destruct (Z.eqb_spec size 0); [apply ty_ret; lia|apply ty_malloc]|]. intros [] c4 Hk; cbn [negb]; [|apply ty_ret; exact I].
  eapply (ty_bind _ _ anyt); [apply ty_read_body; unfold zlen; rewrite repeat_length; specialize (Hk eq_refl); lia|]. intros [r1 b1] c5 _. apply ty_ret; exact I.
Qed.
Ltac member H := repeat match type of H with Forall2 _ (_ :: _) _ => let K := fresh in inversion H as [|? [? ?] ? ? K ?]; subst; clear H; rename K into H end.
Lemma deliver_members m : well_typed (fields_of BASIC_DELIVER) m -> exists ct dt rd ex rk, m = [("consumer_tag", VBytes ct); ("delivery_tag", VInt dt); ("redelivered", VBool rd); ("exchange", VBytes ex); ("routing_key", VBytes rk)]%string.
Proof.
  intros H. assert (fields_of BASIC_DELIVER = [("consumer_tag", ShortStr); ("delivery_tag", Longlong); ("redelivered", Bit); ("exchange", ShortStr); ("routing_key", ShortStr)]%string) as E1 by (vm_compute; reflexivity).
  rewrite E1 in H. unfold well_typed in H.
  repeat match goal with H : Forall2 _ (_ :: _) _ |- _ => inversion H as [|? [? ?] ? ? [? ?] ?]; subst; clear H | H : Forall2 _ [] _ |- _ => inversion H; subst; clear H end. cbn [fst snd] in *. subst.
  repeat match goal with H : dom_val _ ?v |- _ => destruct v; cbn in H; try contradiction; clear H end. do 5 eexists. reflexivity.
Qed.
Lemma ty_consume_message t c : ty_at (amqp_consume_message N E t) anyt c.
Proof.
  unfold amqp_consume_message. eapply ty_bind; [apply ty_noblock|]. intros [r f] c1 Hf.
  destruct (Z.eqb_spec r AMQP_STATUS_OK) as [Hr|]; cbn [negb]; [|apply ty_ret; exact I]. apply Hf in Hr. clear Hf. cbn [snd] in Hr.
  destruct (Z.eqb_spec (f_type f) AMQP_FRAME_METHOD) as [Ht|]; [|apply ty_put_back_end, Hr].
  destruct (typed_method f (proj1 Hr) Ht) as (id & m & Hp & -> & Hw & _). destruct (Z.eqb_spec id BASIC_DELIVER) as [->|]; [|apply ty_put_back_end, Hr].
  destruct (deliver_members m Hw) as (ct & dt & rd & ex & rk & ->).
  do 5 (eapply (ty_bind _ _ anyt); [apply ty_need; eexists; split; [reflexivity|exact I]|intros ? ? _]).
  eapply (ty_bind _ _ anyt); [apply ty_still, still_alloc|]. intros ok c7 _. destruct (negb ok); [apply ty_ret; exact I|].
  eapply (ty_bind _ _ anyt); [apply ty_read_message|]. intros [r1 b1] c5 _. apply ty_ret; exact I.
Qed.
Lemma ty_confirm t c : ty_at (amqp_publisher_confirm_wait N E t) anyt c.
Proof.
  unfold amqp_publisher_confirm_wait. eapply ty_bind; [apply ty_noblock|]. intros [r f] c1 Hf.
  destruct (Z.eqb_spec r AMQP_STATUS_OK) as [Hr|]; cbn [negb]; [|apply ty_ret; exact I]. apply Hf in Hr. clear Hf. cbn [snd] in Hr.
  destruct (Z.eqb_spec (f_type f) AMQP_FRAME_METHOD) as [Ht|]; [|apply ty_put_back_end, Hr].
  destruct (method_of f) as [[id m]|]; [|apply ty_put_back_end, Hr].
  destruct (_ || _); [apply ty_ret; exact I|apply ty_put_back_end, Hr].
Qed.
Definition freshm (p : Z * (Z * mstruct)) : Prop := fst p = AMQP_STATUS_OK -> well_typed (fields_of (fst (snd p))) (snd (snd p)).
Lemma ty_wait_list ch ids d c : ty_at (amqp_simple_wait_method_list N E ch ids d) (fun p => fst p = AMQP_STATUS_OK -> well_typed (fields_of (fst (snd p))) (snd (snd p)) /\ In (fst (snd p)) ids) c.
Proof.
  unfold amqp_simple_wait_method_list.
  eapply (ty_bind _ _ (fun p => snd p = None -> fst p <> AMQP_STATUS_OK)).
  - intros ev Hc. pose proof (wp_split _ _ _ _ _ _ _ (ty_silent _ c (silent_time_tv d) ev Hc) (tv_until_ok d c ev)) as H.
    eapply wp_conseq; [exact H| |]; cbv beta; [|intros s c' l [K _]; exact K]. intros p c' ev' l [K1 (_ & _ & _ & K2)] HX. destruct (K1 HX) as (A1 & A2 & _). auto.
  - intros [r [t|]] c1 Hn; cbn [fst snd] in Hn; [|apply ty_ret; intros K; cbn in K; specialize (Hn eq_refl); contradiction].
    destruct (Z.eqb_spec r AMQP_STATUS_OK) as [Hr|]; cbn [negb]; [|apply ty_ret; intros K; contradiction].
    eapply ty_bind; [apply ty_noblock|]. intros [r1 f] c2 Hf.
    destruct (Z.eqb_spec r1 AMQP_STATUS_OK) as [Hr1|]; cbn [negb]; [|apply ty_ret; intros K; contradiction]. apply Hf in Hr1. clear Hf. cbn [snd] in Hr1.
    destruct (Z.eqb_spec AMQP_FRAME_METHOD (f_type f)) as [Ht|]; cbn [negb orb]; [|apply ty_ret; discriminate]. symmetry in Ht.
    destruct (negb _); [apply ty_ret; discriminate|]. destruct (typed_method f (proj1 Hr1) Ht) as (id & m & Hp & Hm & Hw & _).
    eapply (ty_bind _ _ (fun q => q = (id, m))); [apply ty_need; eauto|]. intros [? ?] c3 K; injection K as -> ->.
    destruct (amqp_id_in_reply_list id ids) eqn:Hi; cbn [negb]; apply ty_ret; [|discriminate]. intros _. cbn. split; [exact Hw|].
    unfold amqp_id_in_reply_list in Hi. apply existsb_exists in Hi. destruct Hi as (x & Hx & Hxx). apply Z.eqb_eq in Hxx. subst x. exact Hx.
Qed.
Lemma ty_rpc_wait fuel : forall ch ids d c, ty_at (rpc_wait N E fuel ch ids d) anyt c.
Proof.
  induction fuel as [|fuel IH]; intros ch ids d c; cbn [rpc_wait]; [apply ty_halt; intros; apply U_other; discriminate|].
  eapply ty_bind; [apply ty_waitw|]. intros [r f] c1 Hf.
  destruct (Z.eqb_spec r AMQP_STATUS_OK) as [Hr|]; cbn [negb].
  - apply Hf in Hr. clear Hf. cbn [snd] in Hr. destruct (concerns_rpc ch ids f) eqn:Hc; cbn [negb].
    + unfold concerns_rpc in Hc. apply andb_true_iff in Hc. destruct Hc as [Ht _]. apply Z.eqb_eq in Ht.
      destruct (typed_method f (proj1 Hr) Ht) as (id & m & Hp & Hm & Hw & _).
      eapply (ty_bind _ _ anyt); [apply ty_need; eexists; split; [exact Hm|exact I]|]. intros [? ?] c3 _. apply ty_ret; exact I.
    + eapply ty_bind; [apply ty_create|]. intros [e|] c2 He; [|apply ty_ret; exact I]. cbn in He. eapply ty_bind; [apply ty_append; rewrite He; exact Hr|]. intros; apply IH.
  - eapply (ty_bind _ _ anyt); [destruct (_ =? _); [apply ty_still, still_close|apply ty_ret; exact I]|]. intros ? c3 _. apply ty_ret; exact I.
Qed.
(** a method that can be sent *)
Definition sendm (ch id : Z) (m : mstruct) : Prop := forall fm, sendable fm (mkFrame AMQP_FRAME_METHOD ch (PMethod id m) 0).
Lemma ty_send_method ch id m more d c : sendm ch id m -> ty_at (amqp_send_method_inner N E ch id m more d) anyt c.
Proof. intros H. apply ty_send, H. Qed.
Lemma ty_rpc_inner ch id ids m d c : sendm ch id m -> ty_at (simple_rpc_inner N E ch id ids m d) anyt c.
Proof.
  intros H. unfold simple_rpc_inner, amqp_send_method. eapply ty_bind; [apply ty_send_method, H|]. intros r c1 _. destruct (_ <? _); [apply ty_ret; exact I|apply ty_rpc_wait].
Qed.
Lemma ty_rpc ch id ids m c : sendm ch id m -> ty_at (amqp_simple_rpc N E ch id ids m) anyt c.
Proof.
  intros H. unfold amqp_simple_rpc. apply ty_get_bind. eapply ty_bind; [apply ty_silent, silent_time_from_now|]. intros [r [d|]] c1 _; [|apply ty_ret; exact I].
  destruct (negb _); [apply ty_ret; exact I|apply ty_rpc_inner, H].
Qed.
Lemma J_recent c r : J c -> J (set_recent c r).
Proof. intros H. exact H. Qed.
Lemma ty_rpc_decoded ch id rid m c : sendm ch id m -> ty_at (amqp_simple_rpc_decoded N E ch id rid m) anyt c.
Proof.
  intros H. unfold amqp_simple_rpc_decoded. eapply ty_bind; [apply ty_rpc, H|]. intros r c1 _. eapply (ty_bind _ _ anyt); [apply ty_upd; [apply J_recent|exact I]|].
  intros ? ? _. apply ty_ret; exact I.
Qed.
Lemma asend fm ch a : aframe_ok a -> (forall b, a = ABody b -> 8 <= fm -> zlen b + 8 <= fm) -> sendable fm (c_frame ch a).
Proof. intros Ha Hb H0 buf H1 H2. destruct (frame_to_bytes_ok ch a buf Ha H1) as (st & b & e & -> & _); [intros b K; specialize (Hb b K H0); lia|discriminate]. Qed.
Lemma asendm ch c i fs m : In (c, i, fs) catalogue -> well_typed fs m -> sendm ch (method_id c i) m.
Proof. intros Hin Hw fm. change (mkFrame _ _ _ _) with (c_frame ch (AMethod c i fs m)). apply asend; [split; assumption|discriminate]. Qed.

(** publishing: the frame limit does not change *)
Definition keepfm {A} (m : M A) (c : conn) : Prop := forall ev, wp m c ev (fun _ c' _ _ => frame_max c' = frame_max c) (fun _ _ _ => True).
Lemma ty_bind_keeps {A B} (m : M A) (k : A -> M B) (P : A -> Prop) Q c :
  ty_at m P c -> keepfm m c -> (forall a c', P a -> frame_max c' = frame_max c -> ty_at (k a) Q c') -> ty_at (bind m k) Q c.
Proof.
  intros Hm Hf Hk ev Hc. apply wp_bind.
  pose proof (wp_split _ _ _ _ _ _ _ (Hm ev Hc) (Hf ev)) as H.
  eapply wp_conseq; [exact H| |]; cbv beta; [|intros s c' l [K _]; exact K].
  intros a c1 ev1 l1 [H1 H0]. pose proof (fun Pa J1 => Hk a c1 Pa H0 ev1 J1) as H2. unfold wp in *. destruct (k a c1 ev1) as [b c2 ev2 l2|s c2 l2] eqn:Hr.
  - intros HX. apply Xapp in HX. destruct HX as [X1 X2]. destruct (H1 X1) as (J1 & T1 & P1).
    destruct (H2 P1 J1 X2) as (J2 & T2 & Q2). rewrite frames_app. split; [exact J2|]. split; [apply Forall_app; auto|exact Q2].
  - intros HX. apply Xapp in HX. destruct HX as [X1 X2]. destruct (H1 X1) as (J1 & T1 & P1).
    destruct (H2 P1 J1 X2) as (J2 & T2 & Q2). rewrite frames_app. split; [exact J2|]. split; [apply Forall_app; auto|exact Q2].
Qed.
Lemma keepfm_send f more d c : d <= amqp_time_infinite -> keepfm (amqp_send_frame_inner N E f more d) c.
Proof.
  intros Hd ev. eapply wp_conseq; [apply (send_frame_ok N E f more d c ev Hd)| |auto]. cbv beta. intros r c' ev' l H.
  apply sent_f_facts in H. apply H.
Qed.
Lemma keepfm_try_recv c : keepfm (amqp_try_recv N E) c.
Proof. intros ev. eapply wp_conseq; [apply try_recv_ok| |auto]. cbv beta. intros r c' ev' l (_ & _ & _ & _ & _ & H & _). apply H. Qed.
Lemma keepfm_silent {A} (m : M A) c : silent m -> keepfm m c.
Proof. intros H ev. eapply wp_conseq; [apply H| |auto]. cbv beta. intros a c' ev' l [-> _]. reflexivity. Qed.
Lemma ty_publish_body fuel : forall ch body off c fm, frame_max c = fm -> 0 <= fm < M30 -> zlen body < M63 -> 0 <= off <= zlen body ->
  ty_at (publish_body N E fuel ch body (u64 (fm - 8)) off) anyt c.
Proof.
  induction fuel as [|fuel IH]; intros ch body off c fm Hfm Hr Hb Ho; cbn [publish_body]; [apply ty_halt; intros; apply U_other; discriminate|].
  destruct (Z.ltb_spec off (zlen body)) as [Hlt|]; cbn [negb]; [|apply ty_ret; exact I]. cbv zeta.
  assert (sub_size (zlen body) off = zlen body - off) as -> by (unfold sub_size, u64; rewrite Z.mod_small; lia).
  destruct (_ =? 0); [apply ty_ret; exact I|].
  assert (0 <= u64 (fm - 8)) as Hu0 by (unfold u64; apply Z.mod_pos_bound; lia).
  set (len := if u64 (fm - 8) <=? zlen body - off then u64 (fm - 8) else zlen body - off).
  assert (0 <= len <= zlen body - off /\ len <= u64 (fm - 8)) as [Hl1 Hl2] by (unfold len; destruct (Z.leb_spec (u64 (fm - 8)) (zlen body - off)); lia).
  eapply (ty_bind_keeps _ _ (fun fr => zlen fr = len)).
  - apply ty_need. unfold slice. destruct (Z.leb_spec 0 off); [|lia]. destruct (Z.leb_spec 0 len); [|lia]. destruct (Z.leb_spec (off + len) (zlen body)); [|lia]. cbn [andb].
    eexists; split; [reflexivity|]. unfold zlen in *. rewrite firstn_length, skipn_length. lia.
  - intros ev. destruct (slice _ _ _); [apply wp_ret; reflexivity|apply wp_halt; exact I].
  - intros fr c1 Hfr Hf1. eapply (ty_bind_keeps _ _ anyt).
    + apply ty_send. change (mkFrame AMQP_FRAME_BODY ch (PBody fr) 0) with (c_frame ch (ABody fr)). apply asend; [exact I|]. intros b K H8. injection K as <-.
      rewrite Hf1, Hfm in *. assert (u64 (fm - 8) = fm - 8) as Hu by (unfold u64; apply Z.mod_small; lia). lia.
    + apply keepfm_send. unfold amqp_time_infinite, UINT64_MAX. lia.
    + intros r c2 _ Hf2. destruct (r <? 0); [apply ty_ret; exact I|].
      assert (add_size off len = off + len) as -> by (unfold add_size, u64; rewrite Z.mod_small; lia). apply IH; auto; [congruence|lia].
Qed.
(** properties that can be sent *)
Definition props_fine (p : option props) : Prop :=
  match p with Some p => exists pl, 0 <= pflags p < M32 /\ present (pflags p) basic_catalogue (pfields p) = Some pl /\ props_typed pl | None => True end.
Lemma ty_publish ch ex rk ma im p body c : zlen ex < M63 -> zlen rk < M63 -> - M31 <= ma < M31 -> - M31 <= im < M31 -> props_fine p -> zlen body < M63 ->
  ty_at (amqp_basic_publish N E ch ex rk ma im p body) anyt c.
Proof.
  intros He Hk Hma Him Hp Hb. unfold amqp_basic_publish. apply ty_get_bind. cbv zeta. intros ev Hc. pose proof Hc as ((_ & Hfm & _) & _ & _). revert ev Hc.
  change (HEADER_SIZE + FOOTER_SIZE) with 8.
  assert (amqp_time_infinite <= amqp_time_infinite) as Hinf by lia.
  eapply (ty_bind_keeps _ _ anyt); [apply ty_silent, silent_time_past|apply keepfm_silent, silent_time_past|]. intros r c1 _ H1.
  destruct (_ =? _); [apply ty_ret; exact I|].
  eapply (ty_bind_keeps _ _ anyt); [destruct (_ =? _); [apply ty_try_recv|apply ty_ret; exact I]|destruct (_ =? _); [apply keepfm_try_recv|intros ev; apply wp_ret; reflexivity]|]. intros r2 c2 _ H2.
  destruct (_ =? _); [apply ty_ret; exact I|]. destruct (negb _); [apply ty_ret; exact I|].
  unfold amqp_send_method_inner.
  eapply (ty_bind_keeps _ _ anyt); [apply (ty_send_method ch BASIC_PUBLISH)|apply keepfm_send; exact Hinf|].
  { apply (asendm ch 60 40 [("ticket", Short); ("exchange", ShortStr); ("routing_key", ShortStr); ("mandatory", Bit); ("immediate", Bit)]%string);
      [apply cat_in; reflexivity|unfold well_typed; repeat (constructor; [split; [reflexivity|cbn; assumption || lia]|]); constructor]. }
  intros r3 c3 _ H3. destruct (_ <? _); [apply ty_ret; exact I|].
  eapply (ty_bind_keeps _ _ anyt); [apply ty_send|apply keepfm_send; exact Hinf|].
  { destruct p as [[fl ms]|]; cbn [props_fine pflags pfields] in Hp.
    - destruct Hp as (pl & Hp1 & Hp2 & Hp3). change (mkFrame _ _ _ _) with (c_frame ch (AContent (zlen body) fl ms pl)). apply asend; [|discriminate].
      pose proof (zlen_nonneg body). repeat split; auto; lia.
    - change (mkFrame _ _ _ _) with (c_frame ch (AContent (zlen body) 0 [] [])). apply asend; [|discriminate].
      pose proof (zlen_nonneg body). repeat split; auto; try lia. constructor. }
  intros r4 c4 _ H4. destruct (_ <? _); [apply ty_ret; exact I|]. apply ty_publish_body; auto; [congruence|]. pose proof (zlen_nonneg body). lia.
Qed.
(** *** login *)
Lemma ty_tune cm fm hb c : 0 <= fm < M30 -> ty_at (amqp_tune_connection cm fm hb) anyt c.
Proof.
  intros Hfm. unfold amqp_tune_connection. apply ty_get_bind. destruct (i_state _); try (apply ty_halt; intros; apply U_other; discriminate).
  eapply (ty_bind _ _ anyt).
  { apply ty_upd; [|exact I]. intros ((A1 & A2 & A3) & J2 & J3). split; [split; [exact A1|split; [exact Hfm|exact A3]]|]. split; [exact J2|exact J3]. }
  intros _ c1 _. eapply (ty_bind _ _ anyt); [apply ty_still, still_next_send|]. intros r c2 _. destruct (negb _); [apply ty_ret; exact I|].
  eapply (ty_bind _ _ anyt); [apply ty_still, still_next_recv|]. intros r2 c3 _. destruct (negb _); [apply ty_ret; exact I|].
  eapply (ty_bind _ _ anyt); [apply ty_still, still_alloc|]. intros [] c4 _; (eapply (ty_bind _ _ anyt); [apply ty_upd; [|exact I]|intros ? ? _; apply ty_ret; exact I]).
  - intros (J1 & J2 & J3). split; [exact J1|]. split; [exact J2|]. cbn. unfold zlen in *. rewrite app_length, firstn_length, repeat_length. lia.
  - intros (J1 & J2 & J3). split; [exact J1|]. split; [exact J2|]. cbn [set_outbuf c_outbuf]. destruct (_ <? _); [change (zlen (@nil byte)) with 0; lia|].
    unfold zlen in *. rewrite firstn_length. lia.
Qed.
Lemma ty_login_error r c : ty_at (login_error r) anyt c.
Proof. unfold login_error. eapply ty_bind; [apply ty_still, still_close|intros; apply ty_ret; exact I]. Qed.
Ltac methodok := apply cat_in; reflexivity.
Ltac typedok := unfold well_typed; repeat (constructor; [split; [reflexivity|cbn; assumption || lia]|]); constructor.
Lemma ty_login_open vh d c : zlen vh < M63 -> ty_at (login_open N E vh d) anyt c.
Proof.
  intros Hv. unfold login_open. eapply (ty_bind _ _ anyt).
  { apply ty_rpc_inner. apply (asendm 0 10 40 [("virtual_host", ShortStr); ("capabilities", ShortStr); ("insist", Bit)]%string); [methodok|]. pose proof (eq_refl : zlen (@nil byte) = 0). typedok. }
  intros r c1 _. destruct r; try (apply ty_ret; exact I). eapply ty_bind; [apply ty_maybe_release|intros; apply ty_ret; exact I].
Qed.
Ltac members H E1 :=
  rewrite E1 in H; unfold well_typed in H;
  repeat match goal with H : Forall2 _ (_ :: _) _ |- _ => inversion H as [|? [? ?] ? ? [? ?] ?]; subst; clear H | H : Forall2 _ [] _ |- _ => inversion H; subst; clear H end; cbn [fst snd] in *; subst;
  repeat match goal with H : dom_val _ ?v |- _ => destruct v; cbn in H; try contradiction; clear H end.
Lemma tune_members m : well_typed (fields_of CONNECTION_TUNE) m -> exists a b h, m = [("channel_max", VInt a); ("frame_max", VInt b); ("heartbeat", VInt h)]%string.
Proof.
  intros H. assert (fields_of CONNECTION_TUNE = [("channel_max", Short); ("frame_max", Long); ("heartbeat", Short)]%string) as E1 by (vm_compute; reflexivity).
  members H E1. do 3 eexists. reflexivity.
Qed.
Lemma start_members m : well_typed (fields_of CONNECTION_START) m ->
  exists a b t me lo, m = [("version_major", VInt a); ("version_minor", VInt b); ("server_properties", VTable t); ("mechanisms", VBytes me); ("locales", VBytes lo)]%string.
Proof.
  intros H. assert (fields_of CONNECTION_START = [("version_major", Octet); ("version_minor", Octet); ("server_properties", Tbl); ("mechanisms", LongStr); ("locales", LongStr)]%string) as E1 by (vm_compute; reflexivity).
  members H E1. do 5 eexists. reflexivity.
Qed.
Lemma tune_chmax_range s cl : 0 <= s < M16 -> 0 <= cl < M16 -> 0 <= tune_channel_max s cl < M16.
Proof. intros. unfold tune_channel_max. destruct (negb _ && _); [lia|]. destruct (_ && _); lia. Qed.
Lemma tune_limit_range s cl b : 0 <= s -> 0 <= cl < b -> 0 <= tune_limit s cl < b.
Proof. intros. unfold tune_limit. destruct (negb _); cbn [andb]; [destruct (Z.ltb_spec s cl)|]; lia. Qed.
Lemma ty_login_tune vh cm fm hb d c : zlen vh < M63 -> 0 <= cm < M16 -> 0 <= fm < M30 -> 0 <= hb < M16 -> ty_at (login_tune N E vh cm fm hb d) anyt c.
Proof.
  intros Hv Hcm Hfm Hhb. unfold login_tune. eapply ty_bind; [apply ty_release|]. intros _ c0 _. eapply ty_bind; [apply ty_wait_list|]. intros [r [id m]] c1 Hm.
  destruct (Z.eqb_spec r AMQP_STATUS_OK) as [Hr|]; cbn [negb]; [|apply ty_login_error]. cbn [fst snd] in Hm. destruct (Hm Hr) as [Hw Hi]. clear Hm.
  destruct (Z.eqb_spec id CONNECTION_CLOSE) as [|Hn]; [apply ty_ret; exact I|].
  destruct Hi as [<-|[<-|[]]]; [|contradiction]. destruct (tune_members m Hw) as (a & b & h & ->).
  do 3 (eapply (ty_bind _ _ anyt); [apply ty_need; eexists; split; [reflexivity|exact I]|intros ? ? _]). cbv zeta.
  assert (forall z, 0 <= u16 z < M16) as U16 by (intros; apply Z.mod_pos_bound; lia). assert (forall z, 0 <= u32 z) as U32 by (intros; apply Z.mod_pos_bound; lia).
  pose proof (tune_chmax_range (u16 a0) cm (U16 _) Hcm). pose proof (tune_limit_range (u32 a1) fm M30 (U32 _) Hfm). pose proof (tune_limit_range (u16 a2) hb M16 (proj1 (U16 _)) Hhb).
  eapply ty_bind; [apply ty_tune; assumption|]. intros r2 c2 _. destruct (_ <? _); [apply ty_login_error|].
  eapply (ty_bind _ _ anyt).
  { apply ty_send_method. apply (asendm 0 10 31 [("channel_max", Short); ("frame_max", Long); ("heartbeat", Short)]%string); [methodok|]. typedok. }
  intros r3 c3 _. destruct (_ <? _); [apply ty_login_error|]. eapply ty_bind; [apply ty_release|]. intros; apply ty_login_open, Hv.
Qed.
(** credentials and client properties that fit into memory; no key twice *)
Definition cred_fine (cr : credentials) : Prop := match cr with Plain u p => zlen u + zlen p + 2 < M63 | External i => zlen i < M63 end.
Definition cprops_fine (t : option table) : Prop := match t with Some t => c_table t /\ Prop_TableOps.distinct (FTable t) | None => True end.
Lemma sasl_fine nomem cr : cred_fine cr -> match sasl_response nomem cr with RBytes b => zlen b < M63 | RNull => True | RUB => False end.
Proof.
  destruct cr as [u p|i]; cbn [cred_fine sasl_response]; intros H.
  - rewrite Prop_Sasl.C31_plain_response. destruct nomem; [exact I|]. unfold zlen in *. cbn [app Datatypes.length]. rewrite app_length. cbn [Datatypes.length]. lia.
  - destruct i as [|x i]; [destruct nomem; exact I|]. rewrite Prop_Sasl.C31_external_response_partial by discriminate. destruct nomem; [exact I|exact H].
Qed.
Lemma all_Forall {A} (P : A -> Prop) l : all P l <-> Forall P l.
Proof. induction l; cbn; [split; constructor|]. rewrite IHl. split; [intros []; constructor; auto|intros H; inversion H; auto]. Qed.
Lemma c_table_In t k v : c_table t -> In (k, v) t -> zlen k < M63 /\ c_value v.
Proof. unfold c_table. rewrite all_Forall, Forall_forall. intros H Hin. apply (H _ Hin). Qed.
Lemma lookup_In t k v : Prop_TableOps.lookup k t = Some v -> In (k, v) t.
Proof. induction t as [|[k' v'] t IH]; cbn; [discriminate|]. destruct (list_eq_dec _ _ _) as [->|]; [intros H; injection H as ->; left; reflexivity|right; auto]. Qed.
Lemma In_lookup t k v : NoDup (map fst t) -> In (k, v) t -> Prop_TableOps.lookup k t = Some v.
Proof.
  induction t as [|[k' v'] t IH]; cbn; [intros _ []|]. intros Hn [H|H].
  - injection H as -> ->. destruct (list_eq_dec _ _ _); [reflexivity|contradiction].
  - inversion Hn as [|? ? Hk Hn']; subst. destruct (list_eq_dec _ _ _) as [->|]; [exfalso; apply Hk; apply (in_map fst) in H; exact H|auto].
Qed.
Lemma merge_typed base add r : Prop_TableOps.is_merge base add r -> c_table base -> c_table add -> c_table r.
Proof.
  revert base add r. fix IH 4. intros base add r [H1 H2 H3 H4] Hb Ha. unfold c_table. apply all_Forall, Forall_forall. intros [k v] Hin. cbn [fst snd].
  pose proof (In_lookup r k v H4 Hin) as Hl. destruct (Prop_TableOps.lookup k add) as [w|] eqn:Hk.
  - pose proof (c_table_In _ _ _ Ha (lookup_In _ _ _ Hk)) as [K1 K2]. split; [exact K1|].
    destruct (Prop_TableOps.lookup k base) as [x|] eqn:Hx.
    + assert (Hcase : (exists a b, w = FTable a /\ x = FTable b) \/ ~ exists a b, w = FTable a /\ x = FTable b).
      { destruct w; try (right; intros (a9 & b9 & K & _); discriminate K). destruct x; try (right; intros (a9 & b9 & _ & K); discriminate K).
        left. eexists. eexists. split; reflexivity. }
      destruct Hcase as [(a & b & -> & ->)|Hno].
      * destruct (H1 k a b Hk Hx) as (m & Hm & M). rewrite Hl in Hm. injection Hm as ->.
        pose proof (c_table_In _ _ _ Hb (lookup_In _ _ _ Hx)) as [_ K3]. exact (IH b a m M K3 K2).
      * rewrite (H2 k w Hk) in Hl; [injection Hl as <-; exact K2|]. intros a b [-> K]. apply Hno. exists a, b. split; [reflexivity|congruence].
    + rewrite (H2 k w Hk) in Hl; [injection Hl as <-; exact K2|]. intros a b [_ K]. congruence.
  - rewrite (H3 k Hk) in Hl. apply lookup_In in Hl. exact (c_table_In _ _ _ Hb Hl).
Qed.
Lemma default_fine pf : zlen (lit pf) < M63 -> c_table (default_properties pf) /\ Prop_TableOps.distinct (FTable (default_properties pf)).
Proof.
  intros H. split.
  - unfold c_table, default_properties, utf8_entry. cbn [all fst snd c_value]. repeat split; try exact H; vm_compute; reflexivity || discriminate.
  - cbn [Prop_TableOps.distinct]. split; [|repeat split; cbn; repeat constructor; cbn; intuition discriminate].
    cbn [default_properties utf8_entry map fst]. repeat constructor; cbn; intuition discriminate.
Qed.
Lemma merge_fine oom pf t : zlen (lit pf) < M63 -> cprops_fine t -> exists r n, amqp_merge_capabilities oom (default_properties pf) t 0 = Some (r, n) /\ match r with inr m => c_table m | _ => True end.
Proof.
  intros Hp Ht. destruct (default_fine pf Hp) as [D1 D2]. destruct t as [t|].
  - destruct Ht as [T1 T2]. destruct (Prop_TableOps.C23_merge_sound oom (default_properties pf) t 0%nat D2 T2) as (r & n & E1 & R). exists r, n. split; [exact E1|].
    destruct r as [|m]; [exact I|]. eapply merge_typed; eauto.
  - unfold amqp_merge_capabilities. pose proof (Prop_TableOps.C22_clone_faithful oom (default_properties pf) 0) as K.
    destruct (amqp_table_clone oom (default_properties pf) 0) as [[e|m] n]; [eexists _, _; split; [reflexivity|exact I]|].
    destruct (K m eq_refl) as [-> _]. eexists _, _. split; [reflexivity|exact D1].
Qed.
Lemma ty_login pf vh cm fm hb cp t cr c : zlen (lit pf) < M63 -> zlen vh < M63 -> fm < M30 -> cprops_fine cp -> cred_fine cr ->
  ty_at (amqp_login_inner N E pf vh cm fm hb cp t cr) anyt c.
Proof.
  intros Hpf Hvh Hfm Hcp Hcr. unfold amqp_login_inner.
  destruct ((cm <? 0) || (65535 <? cm)) eqn:G1; [apply ty_ret; exact I|]. destruct (fm <? 0) eqn:G2; [apply ty_ret; exact I|]. destruct ((hb <? 0) || (65535 <? hb)) eqn:G3; [apply ty_ret; exact I|].
  apply orb_false_iff in G1, G3. destruct G1 as [G1 G1']. destruct G3 as [G3 G3']. apply Z.ltb_ge in G1, G1', G2, G3, G3'.
  eapply ty_bind; [apply ty_silent, silent_time_from_now|]. intros [r [d|]] c1 _; [|apply ty_login_error].
  destruct (negb _); [apply ty_login_error|]. eapply ty_bind; [apply ty_still, still_header|]. intros r2 c2 _. destruct (negb _); [apply ty_login_error|].
  unfold simple_wait_method_inner. eapply ty_bind; [apply ty_wait_list|]. intros [r3 [id m]] c3 Hm.
  destruct (Z.eqb_spec r3 AMQP_STATUS_OK) as [Hr|]; cbn [negb]; [|apply ty_login_error]. cbn [fst snd] in Hm. destruct (Hm Hr) as [Hw [<-|[]]]. clear Hm.
  destruct (start_members m Hw) as (va & vb & st & me & lo & ->).
  do 2 (eapply (ty_bind _ _ anyt); [apply ty_need; eexists; split; [reflexivity|exact I]|intros ? ? _]). destruct (_ || _); [apply ty_login_error|].
  eapply (ty_bind _ _ anyt); [apply ty_need; eexists; split; [reflexivity|exact I]|intros ? ? _].
  eapply (ty_bind _ _ anyt); [apply ty_clone; intros; exact I|]. intros oom c6 _.
  destruct (fst _) as [e|tt']; [apply ty_login_error|]. eapply (ty_bind _ _ anyt); [apply ty_upd; [intros H; exact H|exact I]|]; intros ? ? _.
  eapply (ty_bind _ _ anyt); [apply ty_need; eexists; split; [reflexivity|exact I]|intros mechs ? _].
  destruct (Prop_Sasl.C30_whole_words mechs (cred_method cr)) as (found & -> & _). destruct found; [|apply ty_login_error].
  eapply (ty_bind _ _ anyt); [apply ty_still, still_alloc|]; intros ok ? _. pose proof (sasl_fine (negb ok) cr Hcr) as Hs. destruct (sasl_response _ _) as [resp| |]; [|apply ty_login_error|contradiction].
  eapply (ty_bind _ _ anyt); [apply ty_clone; intros; exact I|]; intros oom2 ? _.
  destruct (merge_fine oom2 pf cp Hpf Hcp) as (mr & mn & -> & Hmr). eapply (ty_bind _ _ (fun q => q = (mr, mn))); [apply ty_need; eauto|]. intros ? ? ->.
  cbn [fst]. destruct mr as [|props]; [apply ty_login_error|].
  eapply (ty_bind _ _ anyt); [apply ty_upd; [intros H; exact H|exact I]|]; intros ? ? _.
  eapply (ty_bind _ _ anyt).
  { apply ty_send_method. apply (asendm 0 10 11 [("client_properties", Tbl); ("mechanism", ShortStr); ("response", LongStr); ("locale", ShortStr)]%string); [methodok|].
    assert (zlen (sasl_method_name (cred_method cr)) < M63) by (destruct cr; vm_compute; reflexivity). assert (zlen (lit "en_US") < M63) by (vm_compute; reflexivity). typedok. }
  intros r5 ? _. destruct (_ <? _); [apply ty_login_error|]. apply ty_login_tune; lia.
Qed.

(** *** every call *)
(** arguments of their C types that fit into memory *)
Definition call_fine (a : api) : Prop :=
  match a with
  | SendFrame f => forall fm, sendable fm f
  | SendMethod ch id m | Rpc ch id _ m => sendm ch id m
  | Call w ch args => exists m, build_request (rpc_fields w) (match find (fun p => fst p =? rpc_request w) struct_table with Some p => snd p | None => [] end) args = Some m /\ sendm ch (rpc_request w) m
  | Publish ch ex rk ma im p body => zlen ex < M63 /\ zlen rk < M63 /\ - M31 <= ma < M31 /\ - M31 <= im < M31 /\ props_fine p /\ zlen body < M63
  | Ack _ t mu => 0 <= t < M64 /\ - M31 <= mu < M31
  | Nack _ t mu rq => 0 <= t < M64 /\ - M31 <= mu < M31 /\ - M31 <= rq < M31
  | Reject _ t rq => 0 <= t < M64 /\ - M31 <= rq < M31
  | BasicGet _ q na => zlen q < M63 /\ - M31 <= na < M31
  | Tune _ fm _ => 0 <= fm < M30
  | Login pf vh cm fm hb p cr => zlen (lit pf) < M63 /\ zlen vh < M63 /\ fm < M30 /\ cprops_fine p /\ cred_fine cr
  | _ => True
  end.
Lemma digits_len fuel z : zlen (digits fuel z) <= Z.of_nat fuel.
Proof.
  revert z. induction fuel as [|fuel IH]; intros z; cbn [digits]; [reflexivity|]. rewrite zlen_app. change (zlen [byte_of_Z (48 + z mod 10)]) with 1.
  destruct (_ <? _); [change (zlen (@nil byte)) with 0; lia|]. specialize (IH (z / 10)). lia.
Qed.
Lemma close_fine ch c i code : In (c, i, [("reply_code", Short); ("reply_text", ShortStr); ("class_id", Short); ("method_id", Short)]%string) catalogue -> 0 <= code <= 65535 ->
  sendm ch (method_id c i) (close_request code).
Proof. intros H Hc. eapply asendm; [exact H|]. unfold close_request. pose proof (digits_len 5 code). assert (zlen (digits 5 code) < M63) by lia. typedok. Qed.
Lemma ty_exec a c : call_fine a -> ty_at (exec N E a) anyt c.
Proof.
  intros Ha.
  assert (forall (A : Type) (m : M A) (k : A -> M outcome_t) c, (exists P, ty_at m P c) -> (forall (a : A) c', ty_at (k a) anyt c') -> ty_at (bind m k) anyt c) as B
    by (intros A m k c0 [P HP] Hk; eapply ty_bind; [exact HP|auto]).
  assert (forall (A : Type) (a : A) c, ty_at (ret a) anyt c) as Rt by (intros; apply ty_ret; exact I).
  destruct a; cbn [exec call_fine] in *; try (apply B; [|intros; try match goal with |- ty_at (match ?x with _ => _ end) _ _ => destruct x; try match goal with |- ty_at (match ?x with _ => _ end) _ _ => destruct x end end; apply Rt]).
  - exists anyt. apply ty_still. apply still_header.
  - exists anyt. apply ty_send, Ha.
  - exists anyt. apply ty_send_method, Ha.
  - eexists. apply ty_noblock.
  - eexists. apply ty_wait_list.
  - exists anyt. apply ty_rpc, Ha.
  - exists anyt. destruct Ha as (m & Hm & Hs). unfold amqp_call. rewrite Hm. apply ty_rpc_decoded, Hs.
  - exists anyt. unfold amqp_channel_close. destruct (_ || _) eqn:G; [apply Rt|]. apply orb_false_iff in G. destruct G as [G1 G2]. apply Z.ltb_ge in G1, G2.
    apply ty_rpc. apply (close_fine channel 20 40); [methodok|lia].
  - exists anyt. unfold amqp_connection_close. destruct (_ || _) eqn:G; [apply Rt|]. apply orb_false_iff in G. destruct G as [G1 G2]. apply Z.ltb_ge in G1, G2.
    apply ty_rpc. apply (close_fine 0 10 50); [methodok|lia].
  - exists anyt. destruct Ha as (A1 & A2 & A3 & A4 & A5 & A6). apply ty_publish; assumption.
  - exists anyt. destruct Ha as (A1 & A2). apply ty_send_method. apply (asendm channel 60 80 [("delivery_tag", Longlong); ("multiple", Bit)]%string); [methodok|typedok].
  - exists anyt. destruct Ha as (A1 & A2 & A3). apply ty_send_method. apply (asendm channel 60 120 [("delivery_tag", Longlong); ("multiple", Bit); ("requeue", Bit)]%string); [methodok|typedok].
  - exists anyt. destruct Ha as (A1 & A2). apply ty_send_method. apply (asendm channel 60 90 [("delivery_tag", Longlong); ("requeue", Bit)]%string); [methodok|typedok].
  - exists anyt. destruct Ha as (A1 & A2). unfold amqp_basic_get. eapply ty_bind; [apply ty_rpc|].
    + apply (asendm channel 60 70 [("ticket", Short); ("queue", ShortStr); ("no_ack", Bit)]%string); [methodok|typedok].
    + intros r c1 _. eapply (ty_bind _ _ anyt); [apply ty_upd; [apply J_recent|exact I]|]. intros; apply Rt.
  - exists anyt. apply ty_read_message.
  - exists anyt. apply ty_consume_message.
  - exists anyt. apply ty_confirm.
  - exists anyt. apply ty_release.
  - exists anyt. apply ty_maybe_release.
  - exists anyt. apply ty_release_on.
  - exists anyt. apply ty_tune, Ha.
  - apply ty_get_bind. cbv zeta. apply B; [exists anyt; apply ty_upd; [intros H; exact H|exact I]|intros; apply Rt].
  - apply ty_get_bind. cbv zeta. apply B; [exists anyt; apply ty_upd; [intros H; exact H|exact I]|intros; apply Rt].
  - exists anyt. destruct Ha as (A1 & A2 & A3 & A4 & A5). unfold amqp_login_with_properties. apply ty_get_bind. apply ty_login; assumption.
Qed.
Lemma ty_exec_all l : Forall call_fine l -> forall c, ty_at (exec_all N E l) anyt c.
Proof.
  induction l as [|a l IH]; intros Hl c; cbn [exec_all]; [apply ty_ret; exact I|]. apply Forall_cons_iff in Hl. destruct Hl as [Ha Hl].
  eapply ty_bind; [apply ty_exec, Ha|]. intros o c1 _. eapply ty_bind; [apply IH, Hl|]. intros os c2 _. apply ty_ret; exact I.
Qed.
End Typed.
