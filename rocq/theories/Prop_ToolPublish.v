(** C62: amqp-publish. *)
From Coq Require Import String ZArith List Bool Lia.
From Verif Require Import Base BaseFacts Codec TableModel TableSpec FramingStmt FramingGen FramingModel MethodSpec
  Frame FrameSpec Time Net NetApi NetSpec NetFacts NetOrder NetTyped NetWell NetRoom Prop_Frame Prop_Safe Prop_Publish Tools ToolPublish ToolSpec Prop_Tools.
Import ListNotations.
Local Open Scope list_scope.
Local Open Scope Z_scope.

(** ** Vocabulary *)
(** strings in memory *)
Definition in_memory (s : bytes) : Prop := zlen s < 2^62.
Definition some_in_memory (o : option bytes) : Prop := forall s, o = Some s -> in_memory s.
Definition options_fit (o : publish_options) : Prop :=
  some_in_memory (exchange o) /\ some_in_memory (routing_key o) /\ some_in_memory (content_type o) /\
  some_in_memory (content_encoding o) /\ some_in_memory (reply_to o) /\ some_in_memory (body o) /\ Forall in_memory (headers o).
(** what is sent for a message *)
Definition message_of (o : publish_options) (t : table) (frame_max : Z) (message : bytes) : bytes :=
  message_wire 1 (publish_method (cstring_bytes (exchange o)) (cstring_bytes (routing_key o)) 0 0) (header_of o t message) frame_max message.
(** a line which fgets returns whole and which is a C string *)
Definition plain_line (l : bytes) : Prop := zlen l < 32768 /\ ~ In x00 l.

(** ** Proofs *)
Lemma eqb_self b : Byte.eqb b b = true.
Proof. destruct b; reflexivity. Qed.
Lemma split_at_some c k s : ~ In c k -> split_at c (k ++ c :: s) = Some (k, s).
Proof.
  induction k as [|x k IH]; intros H; cbn [app split_at]; [rewrite eqb_self; reflexivity|].
  destruct (Byte.eqb x c) eqn:E; [destruct H; left; apply byte_eqb_eq, E|]. rewrite IH; [reflexivity|]. intros K; apply H; right; exact K.
Qed.
Lemma split_at_none c s : ~ In c s -> split_at c s = None.
Proof.
  induction s as [|x s IH]; intros H; [reflexivity|]. cbn [split_at].
  destruct (Byte.eqb x c) eqn:E; [destruct H; left; apply byte_eqb_eq, E|]. rewrite IH; [reflexivity|]. intros K; apply H; right; exact K.
Qed.
Lemma skip_blanks_some n v : hd_error v <> Some blank -> skip_blanks (repeat blank n ++ v) = v.
Proof.
  intros H. induction n as [|n IH]; cbn [repeat app]; [|cbn [skip_blanks]; rewrite eqb_self; exact IH].
  destruct v as [|x v]; [reflexivity|]. cbn [skip_blanks]. destruct (Byte.eqb x blank) eqn:E; [|reflexivity]. apply byte_eqb_eq in E. subst. contradiction H; reflexivity.
Qed.
Lemma entries_are l t : headers_are l t -> header_entries l = t.
Proof.
  induction 1 as [|h l t Hn H IH|h l t k v (H1 & H2 & n & ->) H IH]; cbn [header_entries]; [reflexivity| |].
  - rewrite (split_at_none _ _ Hn). exact IH.
  - rewrite (split_at_some _ _ _ H1), (skip_blanks_some _ _ H2), IH. reflexivity.
Qed.
Lemma entries_all l : Forall (fun h => In colon h) l -> length (header_entries l) = length l.
Proof.
  induction 1 as [|h l H _ IH]; [reflexivity|]. cbn [header_entries length]. destruct (in_split _ _ H) as (a & b & ->).
  assert (forall a b, exists k v, split_at colon (a ++ colon :: b) = Some (k, v)) as K.
  { clear. induction a as [|x a IH]; intros b; cbn [app split_at]; [rewrite eqb_self; eauto|]. destruct (Byte.eqb x colon); [eauto|]. destruct (IH b) as (k & v & ->). eauto. }
  destruct (K a b) as (k & v & ->). cbn [length]. rewrite IH. reflexivity.
Qed.
Lemma table_is l t : Forall (fun h => In colon h) l -> headers_are l t -> header_table l = t.
Proof. intros Hc H. unfold header_table. rewrite (entries_all _ Hc), Nat.sub_diag, app_nil_r. apply entries_are, H. Qed.
Lemma headers_fit l t : Forall in_memory l -> headers_are l t -> c_table t.
Proof.
  intros Hm H. unfold c_table. induction H as [|h l t Hn H IH|h l t k v (H1 & H2 & n & ->) H IH]; [exact I| |]; inversion Hm as [|h' l' Hh Hl]; subst; [exact (IH Hl)|].
  split; [|exact (IH Hl)]. cbn [fst snd c_value]. unfold in_memory, zlen in *. rewrite app_length in Hh. cbn [length] in Hh. rewrite app_length in Hh. split; lia.
Qed.
Section Publish.
Context (N : nat) (E : nat -> aenv).
Definition flags_of (o : publish_options) (t : table) : Z := fold_right Z.add 0 (map fst (properties o t)).
Lemma props_are o t : Forall (fun h => In colon h) (headers o) -> headers_are (headers o) t ->
  pflags (publish_props o) = flags_of o t /\ 0 <= flags_of o t < M32 /\ present (flags_of o t) basic_catalogue (pfields (publish_props o)) = Some (map snd (properties o t)).
Proof.
  intros Hc H. pose proof (table_is _ _ Hc H) as Ht. unfold publish_props, flags_of, properties. cbn [pflags pfields]. rewrite Ht.
  destruct (content_type o), (content_encoding o), (reply_to o), (headers o) as [|h0 hs]; cbn [when given map app fst snd cstring_bytes]; (split; [reflexivity|]); (split; [split; [discriminate|reflexivity]|reflexivity]).
Qed.
Lemma props_types o t : options_fit o -> headers_are (headers o) t -> props_typed (map snd (properties o t)).
Proof.
  intros (F1 & F2 & F3 & F4 & F5 & F6 & F7) H. unfold props_typed, properties.
  assert (forall s, in_memory s -> zlen s < M63) as K by (unfold in_memory; intros; lia).
  rewrite !map_app. repeat (apply Forall_app; split).
  - destruct (content_type o) as [s|]; constructor; [|constructor]. apply K, F3; reflexivity.
  - destruct (content_encoding o) as [s|]; constructor; [|constructor]. apply K, F4; reflexivity.
  - destruct (headers o) as [|h0 hs]; [constructor|]. constructor; [|constructor]. exact (headers_fit _ _ F7 H).
  - constructor; [|constructor]. cbn. destruct (persistent o); lia.
  - destruct (reply_to o) as [s|]; constructor; [|constructor]. apply K, F5; reflexivity.
Qed.
Lemma wire_same ch m size fl ms ms' pl fm b : message_wire ch m (AContent size fl ms pl) fm b = message_wire ch m (AContent size fl ms' pl) fm b.
Proof. reflexivity. Qed.
(** the program sends [W] *)
Definition posts (W : bytes) (m : M (outcome unit)) (c : conn) : Prop := forall ev,
  wp m c ev (fun r c' _ l => prefix (out_bytes l) W /\ (r = Returns tt -> out_bytes l = W) /\ room c c' l) (fun _ _ l => prefix (out_bytes l) W).
Lemma do_posts o t message c : options_fit o -> in_memory message -> Forall (fun h => In colon h) (headers o) -> headers_are (headers o) t ->
  roomy c -> zlen (c_outbuf c) < M31 -> posts (message_of o t (frame_max c) message) (do_publish N E o message) c.
Proof.
  intros HF HM Hc H HR HB ev. destruct (props_are o t Hc H) as (P1 & P2 & P3). pose proof (props_types o t HF H) as P4. pose proof HF as (F1 & F2 & _).
  assert (forall x, some_in_memory x -> zlen (cstring_bytes x) < M63) as K.
  { intros [s|] Hs; cbn [cstring_bytes]; [specialize (Hs s eq_refl); unfold in_memory in Hs; lia|reflexivity]. }
  unfold do_publish. apply wp_bind. eapply wp_conseq.
  - apply (publish_ok N E 1 (cstring_bytes (exchange o)) (cstring_bytes (routing_key o)) 0 0 (Some (publish_props o)) message
      (AContent (zlen message) (flags_of o t) (pfields (publish_props o)) (map snd (properties o t))) c (K _ F1) (K _ F2) ltac:(lia) ltac:(lia)).
    + cbn [props_fine]. exists (map snd (properties o t)). rewrite P1. auto.
    + unfold in_memory in HM; lia.
    + exact HR.
    + exact HB.
    + cbn [content_header]. exists (map snd (properties o t)). rewrite P1. auto.
  - cbv beta. intros r c' ev' l (A1 & A2 & A3 & A4). apply wp_ret. rewrite app_nil_r. split; [exact A2|]. split; [|exact A4].
    destruct (Z.ltb_spec r 0); [discriminate|]. intros _. apply A3. unfold AMQP_STATUS_OK. lia.
  - cbv beta. intros s c' l A. exact A.
Qed.
Lemma posts_seq W1 W2 m1 (k : M (outcome unit)) c : posts W1 m1 c ->
  (forall c', zlen (c_outbuf c') = zlen (c_outbuf c) -> frame_max c' = frame_max c -> posts W2 k c') ->
  posts (W1 ++ W2) (bind m1 (fun r => match r with Returns _ => k | r => ret r end)) c.
Proof.
  intros H1 H2 ev. apply wp_bind. eapply wp_conseq; [apply H1| |]; cbv beta; [|intros s c' l H; apply prefix_more, H].
  intros r c1 ev1 l1 (A2 & A3 & A4 & A5).
  assert (forall x : outcome unit, x <> Returns tt -> wp (ret x) c1 ev1 (fun r2 c' _ l' => prefix (out_bytes (l1 ++ l')) (W1 ++ W2) /\ (r2 = Returns tt -> out_bytes (l1 ++ l') = W1 ++ W2) /\ room c c' (l1 ++ l'))
    (fun _ _ l' => prefix (out_bytes (l1 ++ l')) (W1 ++ W2))) as Hret.
  { intros x Hx. apply wp_ret. rewrite app_nil_r. split; [apply prefix_more, A2|]. split; [intros; contradiction|split; assumption]. }
  destruct r as [[]| | |]; try (apply Hret; discriminate). clear Hret. specialize (A3 eq_refl).
  eapply wp_conseq; [apply (H2 c1 A4 A5)| |]; cbv beta.
  - intros r2 c2 ev2 l2 (B2 & B3 & B4 & B5). rewrite out_bytes_app, A3. split; [apply prefix_app_r, B2|]. split; [intros K; rewrite (B3 K); reflexivity|]. split; congruence.
  - intros s c2 l2 B2. rewrite out_bytes_app, A3. apply prefix_app_r, B2.
Qed.
Lemma posts_ret W x c : (x = Returns tt -> W = []) -> posts W (ret x) c.
Proof. intros H ev. apply wp_ret. split; [apply prefix_nil|]. split; [intros K; rewrite (H K); reflexivity|split; reflexivity]. Qed.
Lemma posts_halt W s c : posts W (halt s) c.
Proof. intros ev. apply wp_halt. apply prefix_nil. Qed.
Lemma upto_nul_all l : ~ In x00 l -> upto_nul l = l.
Proof.
  induction l as [|x l IH]; intros H; [reflexivity|]. cbn [upto_nul]. destruct (Byte.eqb x x00) eqn:K; [destruct H; left; apply byte_eqb_eq, K|].
  rewrite IH; [reflexivity|]. intros K2; apply H; right; exact K2.
Qed.
Lemma take_line_more n : forall l text, ~ In newline l -> (length l < n)%nat -> take_line n (l ++ newline :: text) = (l ++ [newline], text).
Proof.
  induction n as [|n IH]; intros l text H L; [lia|]. destruct l as [|x l]; cbn [app take_line]; [reflexivity|].
  destruct (Byte.eqb x newline) eqn:K; [destruct H; left; apply byte_eqb_eq, K|]. rewrite IH; [reflexivity|intros K2; apply H; right; exact K2|cbn [length] in L; lia].
Qed.
Lemma take_line_last n : forall l, ~ In newline l -> (length l <= n)%nat -> take_line n l = (l, []).
Proof.
  induction n as [|n IH]; intros [|x l] H L; try reflexivity; [cbn [length] in L; lia|]. cbn [take_line].
  destruct (Byte.eqb x newline) eqn:K; [destruct H; left; apply byte_eqb_eq, K|]. rewrite IH; [reflexivity|intros K2; apply H; right; exact K2|cbn [length] in L; lia].
Qed.
Lemma lines_post o t : options_fit o -> Forall (fun h => In colon h) (headers o) -> headers_are (headers o) t ->
  forall input ls, lines input ls -> Forall plain_line ls -> forall fuel c, roomy c -> zlen (c_outbuf c) < M31 ->
  posts (concat (map (message_of o t (frame_max c)) ls)) (publish_lines N E fuel o input) c.
Proof.
  intros HF Hc Hh. assert (forall l, plain_line l -> in_memory l) as Hpl by (unfold plain_line, in_memory; intros l []; lia).
  induction 1 as [|l Hne Hnl|l text ls Hnl Hls IH]; intros Hp fuel c HR HB.
  - destruct fuel; [apply posts_halt|]. cbn [publish_lines fgets]. apply posts_ret. reflexivity.
  - inversion Hp as [|? ? P1 P2]; subst. destruct fuel as [|fuel]; [apply posts_halt|]. cbn [publish_lines]. unfold fgets. assert (match l with [] => None | _ :: _ => Some (take_line (Z.to_nat (MAX_LINE_LENGTH - 1)) l) end = Some (take_line (Z.to_nat (MAX_LINE_LENGTH - 1)) l)) as -> by (destruct l; [contradiction|reflexivity]).
    assert (take_line (Z.to_nat (MAX_LINE_LENGTH - 1)) l = (l, [])) as ->. { apply take_line_last; [exact Hnl|]. destruct P1 as [P1 _]. unfold zlen in P1. unfold MAX_LINE_LENGTH. lia. }
    rewrite (upto_nul_all l) by apply P1. cbn [map concat]. apply posts_seq; [apply do_posts; auto|].
    intros c' R1 R2. destruct fuel; [apply posts_halt|]. apply posts_ret. reflexivity.
  - inversion Hp as [|? ? P1 P2]; subst. destruct fuel as [|fuel]; [apply posts_halt|]. cbn [publish_lines].
    assert (fgets MAX_LINE_LENGTH (l ++ newline :: text) = Some (l ++ [newline], text)) as ->.
    { unfold fgets. destruct (l ++ newline :: text) eqn:El; [destruct l; discriminate|]. rewrite <- El. f_equal. apply take_line_more; [exact Hnl|].
      destruct P1 as [P1 _]. unfold zlen in P1. rewrite app_length in P1. cbn [length] in P1. unfold MAX_LINE_LENGTH. lia. }
    rewrite (upto_nul_all (l ++ [newline])) by apply P1. cbn [map concat]. apply posts_seq; [apply do_posts; auto|].
    intros c' R1 R2. specialize (IH P2 fuel c'). rewrite R2 in IH. apply IH; [unfold roomy in *; rewrite R1, R2; exact HR|rewrite R1; exact HB].
Qed.
Lemma main_posts o sched input mem t ls c : options_fit o -> in_memory input -> Forall (fun h => In colon h) (headers o) -> headers_are (headers o) t ->
  ~ In false mem -> messages o input ls -> (body o = None \/ line_buffered o = false) -> (line_buffered o = true -> Forall plain_line ls) ->
  roomy c -> zlen (c_outbuf c) < M31 ->
  posts (concat (map (message_of o t (frame_max c)) ls)) (publish_main N E o sched input mem) c.
Proof.
  intros HF HI Hc Hh Hm Hls Hb Hl HR HB.
  assert (forall x, in_memory x -> posts (concat (map (message_of o t (frame_max c)) [x])) (do_publish N E o x) c) as Hone.
  { intros x Hx. cbn [map concat]. rewrite app_nil_r. apply do_posts; assumption. }
  assert (posts (concat (map (message_of o t (frame_max c)) ls))
    match body o with
    | Some b => if line_buffered o then ret (Returns tt) else do_publish N E o b
    | None => if line_buffered o then publish_lines N E (S (length input)) o input
      else match read_all sched input mem with
        | Returns (buf, len) => match buf with
          | Some b => match slice b 0 len with Some data => do_publish N E o data | None => halt UB end
          | None => if len =? 0 then do_publish N E o [] else halt UB
          end
        | Dies => ret Dies | Waits => ret Waits | Undefined => halt UB
        end
    end c) as G.
  2:{ unfold publish_main. destruct (exchange o), (routing_key o); try exact G. apply posts_ret; discriminate. }
  unfold messages in Hls. destruct (body o) as [b|] eqn:Eb.
  - destruct Hb as [Hb|Hb]; [discriminate|]. rewrite Hb. subst ls. apply Hone. destruct HF as (_ & _ & _ & _ & _ & HF & _). apply HF, Eb.
  - destruct (line_buffered o) eqn:El; [apply lines_post; auto|]. subst ls.
    pose proof (C52_read_all_partial sched input mem HI) as R. destruct (read_all sched input mem) as [[[b|] n]| | |]; try (apply posts_ret; discriminate); [|contradiction|contradiction].
    rewrite R. apply Hone, HI.
Qed.
End Publish.

(** A header without colon: the content header cannot be encoded. *)
Section Colonless.
Context (N : nat) (E : nat -> aenv).
Lemma entries_short l : (length (header_entries l) <= length l)%nat /\ (Exists no_colon l -> (length (header_entries l) < length l)%nat).
Proof.
  induction l as [|h l [IH1 IH2]]; [split; [apply le_n|intros H; inversion H]|]. cbn [header_entries].
  destruct (split_at colon h) as [[k v]|] eqn:S; cbn [length].
  - split; [lia|]. intros H. inversion H as [? ? Hh|? ? Hl]; subst; [|specialize (IH2 Hl); lia]. rewrite (split_at_none _ _ Hh) in S. discriminate.
  - split; lia.
Qed.
Lemma known_app a b : known_table (a ++ b) = known_table a && known_table b.
Proof. apply forallb_app. Qed.
Lemma colonless_unknown l : Exists no_colon l -> known_table (header_table l) = false.
Proof.
  intros H. destruct (entries_short l) as [_ K]. specialize (K H). unfold header_table. rewrite known_app. destruct (length l - length (header_entries l))%nat eqn:D; [lia|]. cbn [repeat].
  change (known_table (([], FOther 0) :: repeat ([], FOther 0) n)) with false. apply andb_false_r.
Qed.
Lemma split_at_fit c : forall h k v, split_at c h = Some (k, v) -> (length k + length v < length h)%nat.
Proof.
  induction h as [|x h IH]; intros k v H; [discriminate|]. cbn [split_at] in H. destruct (Byte.eqb x c); [injection H as <- <-; cbn [length]; lia|].
  destruct (split_at c h) as [[a b]|]; [|discriminate]. injection H as <- <-. specialize (IH a b eq_refl). cbn [length]. lia.
Qed.
Lemma skip_blanks_len s : (length (skip_blanks s) <= length s)%nat.
Proof. induction s as [|x s IH]; [apply le_n|]. cbn [skip_blanks]. destruct (Byte.eqb x blank); cbn [length]; lia. Qed.
Lemma all_app {A} (P : A -> Prop) a b : all P a -> all P b -> all P (a ++ b).
Proof. induction a as [|x a IH]; [auto|]. intros [H1 H2] H. split; auto. Qed.
Lemma header_table_fit l : Forall in_memory l -> c_table (header_table l).
Proof.
  intros H. unfold header_table, c_table. apply all_app.
  - induction H as [|h l Hh Hl IH]; [exact I|]. cbn [header_entries]. destruct (split_at colon h) as [[k v]|] eqn:S; [|exact IH]. split; [|exact IH].
    apply split_at_fit in S. pose proof (skip_blanks_len v). unfold in_memory, zlen in *. cbn [fst snd c_value]. unfold zlen. split; lia.
  - generalize (length l - length (header_entries l))%nat as n. induction n as [|n IH]; [exact I|]. cbn [repeat]. split; [|exact IH]. cbn [fst snd c_value]. change (zlen (@nil byte)) with 0. split; [lia|split; [lia|reflexivity]].
Qed.
Definition colonless_pl (o : publish_options) : list (string * dom * mval) := map snd (properties o (header_table (headers o))).
Lemma props_are' o : let t := header_table (headers o) in
  pflags (publish_props o) = flags_of o t /\ 0 <= flags_of o t < M32 /\ present (flags_of o t) basic_catalogue (pfields (publish_props o)) = Some (colonless_pl o).
Proof.
  cbv zeta. unfold colonless_pl. unfold publish_props, flags_of, properties. cbn [pflags pfields]. generalize (header_table (headers o)) as t. intros t.
  destruct (content_type o), (content_encoding o), (reply_to o), (headers o) as [|h0 hs]; cbn [when given map app fst snd cstring_bytes]; (split; [reflexivity|]); (split; [split; [discriminate|reflexivity]|reflexivity]).
Qed.
Lemma props_types' o : options_fit o -> props_typed (colonless_pl o).
Proof.
  intros (F1 & F2 & F3 & F4 & F5 & F6 & F7). unfold colonless_pl, props_typed, properties.
  assert (forall s, in_memory s -> zlen s < M63) as K by (unfold in_memory; intros; lia).
  rewrite !map_app. repeat (apply Forall_app; split).
  - destruct (content_type o) as [s|]; constructor; [|constructor]. apply K, F3; reflexivity.
  - destruct (content_encoding o) as [s|]; constructor; [|constructor]. apply K, F4; reflexivity.
  - destruct (headers o) as [|h0 hs]; [constructor|]. constructor; [|constructor]. apply header_table_fit, F7.
  - constructor; [|constructor]. cbn. destruct (persistent o); lia.
  - destruct (reply_to o) as [s|]; constructor; [|constructor]. apply K, F5; reflexivity.
Qed.
Lemma colonless_pl_bad o : Exists no_colon (headers o) -> props_representable (colonless_pl o) = false.
Proof.
  intros H. pose proof (colonless_unknown _ H) as K. unfold colonless_pl, props_representable, properties. rewrite !map_app, !forallb_app.
  destruct (headers o) as [|h0 hs]; [inversion H|]. cbn [when map forallb fst snd representable]. rewrite K. cbn [andb]. rewrite !andb_false_r. reflexivity.
Qed.
Lemma colonless_publish o message c : options_fit o -> in_memory message -> Exists no_colon (headers o) -> roomy c -> zlen (c_outbuf c) < M31 -> forall ev,
  wp (do_publish N E o message) c ev (fun r _ _ l => r = Dies /\ prefix (out_bytes l) (ser_frame 1 (publish_method (cstring_bytes (exchange o)) (cstring_bytes (routing_key o)) 0 0))) (fun _ _ _ => True).
Proof.
  intros HF HM HX HR HB ev. destruct (props_are' o) as (P1 & P2 & P3). pose proof (props_types' o HF) as P4. pose proof HF as (F1 & F2 & _).
  assert (forall x, some_in_memory x -> zlen (cstring_bytes x) < M63) as K.
  { intros [s|] Hs; cbn [cstring_bytes]; [specialize (Hs s eq_refl); unfold in_memory in Hs; lia|reflexivity]. }
  unfold do_publish. apply wp_bind. eapply wp_conseq.
  - destruct (publish_refused N E 1 (cstring_bytes (exchange o)) (cstring_bytes (routing_key o)) 0 0 (Some (publish_props o)) message
      (AContent (zlen message) (flags_of o (header_table (headers o))) (pfields (publish_props o)) (colonless_pl o)) c (K _ F1) (K _ F2) ltac:(lia) ltac:(lia)) as [_ H].
    + cbn [props_fine]. exists (colonless_pl o). rewrite P1. auto.
    + unfold in_memory in HM; lia.
    + exact HR.
    + exact HB.
    + cbn [content_header]. exists (colonless_pl o). rewrite P1. auto.
    + apply H. left. cbn [aframe_representable]. apply colonless_pl_bad, HX.
  - cbv beta. intros r c' ev' l [A1 A2]. apply wp_ret. rewrite app_nil_r. split; [|exact A2]. destruct (Z.ltb_spec r 0); [reflexivity|lia].
  - auto.
Qed.
End Colonless.

(** ** C62 *)
(** What the user asks for: if the program succeeds, the bytes it hands to the socket are
    the messages, one after the other, each complete, with the exchange, routing key and
    properties of the options; if it fails or does not end, a beginning of them. *)
Definition as_asked (N : nat) (E : nat -> aenv) (o : publish_options) (sched : list rd) (input : bytes) (mem : list bool)
    (t : table) (ls : list bytes) (c : conn) (ev : list event) : Prop :=
  let W := concat (map (message_of o t (frame_max c)) ls) in
  match publish_main N E o sched input mem c ev with
  | Done (Returns _) _ _ l => out_bytes l = W
  | Done _ _ _ l => prefix (out_bytes l) W
  | Halt _ _ l => prefix (out_bytes l) W
  end.
(** Partial: not with --body and --line-buffered together, with a header without colon,
    with a line of 32768 bytes or more or a NUL in it, or out of memory. *)
Theorem C62_publish_partial :
  forall (N : nat) (E : nat -> aenv) (o : publish_options) (sched : list rd) (input : bytes) (mem : list bool)
         (t : table) (ls : list bytes) (c : conn) (ev : list event),
    options_fit o -> in_memory input -> headers_are (headers o) t -> messages o input ls ->
    Forall (fun h => In colon h) (headers o) -> ~ In false mem -> (body o = None \/ line_buffered o = false) -> (line_buffered o = true -> Forall plain_line ls) ->
    roomy c -> zlen (c_outbuf c) < M31 ->
    as_asked N E o sched input mem t ls c ev.
Proof.
  intros N E o sched input mem t ls c ev HF HI Hh Hm Hc HM Hb Hl HR HB.
  pose proof (main_posts N E o sched input mem t ls c HF HI Hc Hh HM Hm Hb Hl HR HB ev) as H. unfold wp in H. unfold as_asked. cbv zeta.
  destruct (publish_main N E o sched input mem c ev) as [[[]| | |] c' ev' l|s c' l]; try exact H; destruct H as (H1 & H2 & _); auto.
Qed.
(** nothing is sent without an exchange or a routing key *)
Theorem C62_no_destination : forall (N : nat) (E : nat -> aenv) (o : publish_options) (sched : list rd) (input : bytes) (mem : list bool) (c : conn) (ev : list event),
  exchange o = None -> routing_key o = None -> publish_main N E o sched input mem c ev = Done Dies c ev [].
Proof. intros N E o sched input mem c ev H1 H2. unfold publish_main. rewrite H1, H2. reflexivity. Qed.

(** The full property is false.  --line-buffered with --body: success, nothing sent. *)
Definition some_options := mkPublish (Some [x65]) (Some [x6b]) None None None None false false [].
Definition quick (n : nat) : list event := repeat (EvSend (SOk 99999)) n.
Theorem C62_body_and_lines_refuted : exists o ls, options_fit o /\ messages o [] ls /\ headers_are (headers o) [] /\
  ls = [[x61]] /\ ~ as_asked 100 plain_env o [] [] [] [] ls small_conn (quick 10).
Proof.
  exists (mkPublish (Some [x65]) (Some [x6b]) None None None (Some [x61]) false true []), [[x61]].
  split; [repeat split; try constructor; intros s H; try discriminate H; injection H as <-; reflexivity|].
  split; [reflexivity|]. split; [constructor|]. split; [reflexivity|].
  intros H. assert (zlen (concat (map (message_of (mkPublish (Some [x65]) (Some [x6b]) None None None (Some [x61]) false true []) [] 40) [[x61]])) = 0) as K by exact (eq_sym (f_equal zlen H)).
  vm_compute in K. discriminate K.
Qed.
(** A line with a NUL: the rest of the line is lost, and the program succeeds. *)
Definition nul_input : bytes := [x61; x00; x62; x0a].
Theorem C62_nul_refuted : exists ls, lines nul_input ls /\
  match publish_main 100 plain_env (mkPublish (Some [x65]) (Some [x6b]) None None None None false true []) [] nul_input [] small_conn (quick 10) with
  | Done (Returns _) _ _ l => zlen (out_bytes l) < zlen (concat (map (message_of (mkPublish (Some [x65]) (Some [x6b]) None None None None false true []) [] 40) ls))
      /\ out_bytes l = message_of (mkPublish (Some [x65]) (Some [x6b]) None None None None false true []) [] 40 [x61]
  | _ => False
  end.
Proof.
  exists [nul_input]. split; [apply (lines_more [x61; x00; x62] [] []); [intros [H|[H|[H|[]]]]; discriminate H|constructor]|]. vm_compute. split; reflexivity.
Qed.
(** A line of 32768 bytes (with its newline) becomes two messages. *)
Definition long_line : bytes := repeat x61 (Z.to_nat 32767) ++ [newline].
Theorem C62_long_line_refuted : lines long_line [long_line] /\
  fgets MAX_LINE_LENGTH long_line = Some (repeat x61 (Z.to_nat 32767), [newline]) /\
  forall N E o c ev, publish_lines N E (S (length long_line)) o long_line c ev =
    bind (do_publish N E o (repeat x61 (Z.to_nat 32767))) (fun r => match r with Returns _ => publish_lines N E (length long_line) o [newline] | r => ret r end) c ev.
Proof.
  split; [apply (lines_more (repeat x61 (Z.to_nat 32767)) [] []); [intros H; apply repeat_spec in H; discriminate H|constructor]|].
  assert (fgets MAX_LINE_LENGTH long_line = Some (repeat x61 (Z.to_nat 32767), [newline])) as F.
  { assert (forall n rest, take_line n (repeat x61 n ++ rest) = (repeat x61 n, rest)) as T by (induction n as [|n IH]; intros rest; [reflexivity|cbn [repeat app take_line]; rewrite IH; reflexivity]).
    unfold fgets. rewrite <- T. change (MAX_LINE_LENGTH - 1) with 32767. unfold long_line. destruct (repeat x61 (Z.to_nat 32767)); reflexivity. }
  split; [exact F|]. intros N E o c ev. change (publish_lines N E (S (length long_line)) o long_line) with (match fgets MAX_LINE_LENGTH long_line with
    | None => ret (Returns tt)
    | Some (line, input) => bind (do_publish N E o (upto_nul line)) (fun r => match r with Returns _ => publish_lines N E (length long_line) o input | r => ret r end)
    end). rewrite F. rewrite upto_nul_all by (intros H; apply repeat_spec in H; discriminate H). reflexivity.
Qed.
(** A header without colon is not ignored as the program says: whatever the server, no
    message is published, the program fails. *)
Theorem C62_colonless_refuted :
  forall (N : nat) (E : nat -> aenv) (o : publish_options) (sched : list rd) (input : bytes) (mem : list bool) (c : conn) (ev : list event),
    options_fit o -> in_memory input -> Exists no_colon (headers o) -> line_buffered o = false -> ~ In false mem ->
    roomy c -> zlen (c_outbuf c) < M31 ->
    match publish_main N E o sched input mem c ev with
    | Done r _ _ l => (r = Dies \/ r = Waits) /\ prefix (out_bytes l) (ser_frame 1 (publish_method (cstring_bytes (exchange o)) (cstring_bytes (routing_key o)) 0 0))
    | Halt _ _ _ => True
    end.
Proof.
  intros N E o sched input mem c ev HF HI HX HL HM HR HB.
  assert (forall x, in_memory x -> match do_publish N E o x c ev with
    | Done r _ _ l => (r = Dies \/ r = Waits) /\ prefix (out_bytes l) (ser_frame 1 (publish_method (cstring_bytes (exchange o)) (cstring_bytes (routing_key o)) 0 0))
    | Halt _ _ _ => True end) as K.
  { intros x Hx. pose proof (colonless_publish N E o x c HF Hx HX HR HB ev) as H. unfold wp in H. destruct (do_publish N E o x c ev); [|exact I]. destruct H as [-> H]. auto. }
  unfold publish_main. rewrite HL. pose proof HF as (_ & _ & _ & _ & _ & F6 & _).
  assert (forall r : outcome unit, r = Dies \/ r = Waits -> match ret r c ev with
    | Done r _ _ l => (r = Dies \/ r = Waits) /\ prefix (out_bytes l) (ser_frame 1 (publish_method (cstring_bytes (exchange o)) (cstring_bytes (routing_key o)) 0 0))
    | Halt _ _ _ => True end) as Kr by (intros r Hr; cbn [ret]; split; [exact Hr|apply prefix_nil]).
  pose proof (C52_read_all_partial sched input mem HI) as R.
  destruct (exchange o), (routing_key o); try (apply Kr; auto; fail); destruct (body o) as [b|]; try (apply K, F6; reflexivity);
    (destruct (read_all sched input mem) as [[[b|] n]| | |]; try (apply Kr; auto; fail); try contradiction; rewrite R; apply K, HI).
Qed.

(** ** Non-vacuity *)
Definition full_options := mkPublish None (Some [x6b]) (Some [x74]) None (Some [x72]) None true true [[x61; x3a; x20; x20; x62]].
Example C62_case :
  headers_are (headers full_options) [([x61], FUtf8 [x62])] /\ options_fit full_options /\
  lines [x31; x0a; x32] [[x31; x0a]; [x32]] /\
  match publish_main 100 plain_env full_options [] [x31; x0a; x32] [] (set_in (set_outbuf (new_connection 5) (repeat x00 100)) (mkIn IDLE 100 (repeat x00 8) IHdr 0 7 (fun _ => 0%nat) 0)) (quick 20) with
  | Done (Returns _) _ _ l => out_bytes l = message_of full_options [([x61], FUtf8 [x62])] 100 [x31; x0a] ++ message_of full_options [([x61], FUtf8 [x62])] 100 [x32]
  | _ => False
  end.
Proof.
  split; [constructor; [split; [intros [H|[]]; discriminate H|split; [discriminate|exists 2%nat; reflexivity]]|constructor]|].
  split; [repeat split; try (intros s H; try discriminate H; injection H as <-; reflexivity); repeat constructor|].
  split; [apply (lines_more [x31] [x32]); [intros [H|[]]; discriminate H|apply lines_last; [discriminate|intros [H|[]]; discriminate H]]|].
  vm_compute. reflexivity.
Qed.
Example C62_colonless_case : Exists no_colon (headers (mkPublish None (Some [x6b]) None None None None false false [[x61]])).
Proof. constructor. intros [H|[]]; discriminate H. Qed.

Print Assumptions C62_publish_partial.
Print Assumptions C62_no_destination.
Print Assumptions C62_body_and_lines_refuted.
Print Assumptions C62_nul_refuted.
Print Assumptions C62_long_line_refuted.
Print Assumptions C62_colonless_refuted.
