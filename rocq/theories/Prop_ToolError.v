(** * C80: the error reports of the command line tools. *)
From Coq Require Import String ZArith List Bool Lia.
From Verif Require Import Base BaseFacts Codec TableModel TableSpec FramingStmt FramingGen FramingModel MethodSpec FramingEnc FramingDec Frame FrameSpec FrameFacts FrameProofs Prop_Method Time Net NetApi NetSpec NetFacts NetRoom NetTyped
  CallSpec Prop_Calls Prop_Rpc Prop_Safe ErrStr ToolError Tools ReportSpec.
From Verif Require Prop_ErrStr.
From Verif Require Import SpeakSpec CodesSpec Prop_Codes NetRx NetWell Prop_Frame.
Import ListNotations.
Local Open Scope string_scope.
Local Open Scope list_scope.
Local Open Scope Z_scope.

(** ** Proofs *)
Lemma upto_spec s : up_to_nul s (upto_nul s).
Proof.
  unfold up_to_nul. induction s as [|b s (IH1 & r & IH2 & IH3)]; [split; [intros []|exists []; cbn; auto]|]. cbn [upto_nul]. destruct (Byte.eqb b x00) eqn:E.
  - apply Byte.byte_dec_bl in E. subst b. split; [intros []|]. exists (x00 :: s). split; [reflexivity|]. right. eauto.
  - split; [intros [K|K]; [subst b; discriminate E|auto]|]. exists r. cbn [app]. split; [f_equal; exact IH2|exact IH3].
Qed.
Lemma upto_len s : zlen (upto_nul s) <= zlen s.
Proof. induction s as [|b s IH]; [cbn; lia|]. cbn [upto_nul]. unfold zlen in *. destruct (Byte.eqb b x00); cbn [length]; lia. Qed.
Lemma digits_len n : forall z, zlen (digits n z) <= Z.of_nat n.
Proof.
  induction n as [|n IH]; intros z; cbn [digits]; [apply Z.le_refl|]. rewrite zlen_app. change (zlen [byte_of_Z (48 + z mod 10)]) with 1. specialize (IH (z / 10)).
  destruct (z <? 10); [change (zlen (@nil byte)) with 0|]; lia.
Qed.
Lemma snprintf_all size t : zlen t < size -> snprintf size t = t.
Proof. intros H. unfold snprintf. apply firstn_all2. unfold zlen in H. lia. Qed.
Lemma status_string st : st <> - M31 -> amqp_error_string2 st = Some (match Prop_ErrStr.lookup st with Some msg => msg | None => "(unknown error)" end).
Proof.
  intros H. rewrite (Prop_ErrStr.string2_parts st H).
  rewrite Prop_ErrStr.parts_expect by (apply Z.mod_pos_bound; lia).
  unfold Prop_ErrStr.expect, Prop_ErrStr.lookup.
  rewrite (Prop_ErrStr.find_ext (fun p => (fst p + (- st) mod 65536) mod 65536 =? 0) (fun p => (fst p - st) mod 65536 =? 0)).
  2:{ intros p. rewrite Z.add_mod_idemp_r by lia. reflexivity. }
  destruct (find _ Prop_ErrStr.documented); reflexivity.
Qed.
(** a close that has been decoded: its code and its text *)
Lemma close_members f id m : typed f -> f_type f = 1 -> f_pay f = PMethod id m -> id = CONNECTION_CLOSE \/ id = CHANNEL_CLOSE ->
  exists code text, lookup "reply_code" m = Some (VInt code) /\ lookup "reply_text" m = Some (VBytes text) /\ 0 <= code <= 65535 /\ zlen text <= 255.
Proof.
  intros (H & _ & _) H1 Hp Hid. destruct (H H1) as (id' & m' & enc & oom & n & Hp' & He & Hd). rewrite Hp in Hp'. injection Hp' as <- <-.
  destruct (C08_method_decoding_total_and_safe id enc oom He) as [(c & i & fs & args & off & Hin & Hi & Hd' & Hw & Hr & _)|(st & off & Hd' & _)]; [|congruence].
  rewrite Hd in Hd'. injection Hd' as <- _.
  assert (fs = [("reply_code", Short); ("reply_text", ShortStr); ("class_id", Short); ("method_id", Short)]) as ->.
  { assert (entry_id (c, i, fs) = id) as Hi' by (symmetry; exact Hi). clear - Hin Hi' Hid.
    pose proof (nodup_find entry_id catalogue _ entry_nodup Hin) as F. rewrite Hi' in F. destruct Hid as [-> | ->]; vm_compute in F; injection F as <- <- <-; reflexivity. }
  clear - Hw Hr. unfold well_typed in Hw. inversion Hw as [|[? ?] [n1 v1] ? ? [N1 D1] Hw2]; clear Hw; subst. inversion Hw2 as [|[? ?] [n2 v2] ? ? [N2 D2] Hw3]; clear Hw2; subst. cbn [fst snd] in *. subst.
  destruct v1 as [code| | |]; try contradiction. destruct v2 as [|text| |]; try contradiction. exists code, text. split; [reflexivity|]. split; [reflexivity|].
  cbn in D1. split; [lia|]. unfold representable_args in Hr. cbn [combine forallb] in Hr. apply andb_true_iff in Hr. destruct Hr as [_ Hr]. cbn [combine forallb map] in Hr. apply andb_true_iff in Hr. apply Z.leb_le, (proj1 Hr).
Qed.

Lemma exception_ok what m code text : lookup "reply_code" m = Some (VInt code) -> lookup "reply_text" m = Some (VBytes text) -> 0 <= code <= 65535 -> zlen text <= 255 ->
  zlen (lit what) <= 200 -> exists report, exception_text what m = Some report /\ close_report what m report.
Proof.
  intros H1 H2 H3 H4 H5. unfold exception_text, precision_s. rewrite H1, H2. pose proof (zlen_nonneg text).
  replace (signed M32 (zlen text)) with (zlen text). 2:{ unfold signed. rewrite Z.mod_small by lia. change (M32 / 2) with 2147483648. destruct (Z.ltb_spec (zlen text) 2147483648); lia. }
  destruct (Z.ltb_spec (zlen text) 0); [lia|]. eexists. split; [reflexivity|].
  exists code, text, (digits 5 code), (upto_nul text). repeat (split; [assumption || lia|]). split; [apply digits_ok; change (10 ^ Z.of_nat 5) with 100000; lia|].
  split; [apply upto_spec|]. apply snprintf_all. rewrite !zlen_app. pose proof (digits_len 5 code). pose proof (upto_len text). change (zlen (lit ", message: ")) with 11. lia.
Qed.

(** what a call says of the server was said by the server *)
Definition said (ch : Z) (r : rpc_reply_t) (fs : list frame) : Prop :=
  match r with
  | RServer id m => exists f, In f fs /\ f_type f = 1 /\ f_pay f = PMethod id m /\ ((f_chan f = ch /\ id = CHANNEL_CLOSE) \/ (f_chan f = 0 /\ id = CONNECTION_CLOSE))
  | RLibrary st => st < 0
  | RNone => False
  | RNormal _ _ => True
  end.
Lemma rpc_said N E ch id ids m c ev : zlen (c_outbuf c) < M31 ->
  match amqp_simple_rpc N E ch id ids m c ev with Done r _ _ l => said ch r (frames l) | Halt _ _ _ => True end.
Proof.
  intros Hb. destruct (amqp_simple_rpc N E ch id ids m c ev) as [r c1 ev1 l|] eqn:Hrun; [|exact I].
  destruct (C38_rpc N E ch id ids m c c1 ev ev1 r l Hb Hrun) as [H _]. destruct r as [|i mm|st|i mm]; cbn [said]; auto.
  destruct H as (b & f & H1 & [H2 H3] & H4). exists f. split; [rewrite H1; apply in_or_app; right; left; reflexivity|]. auto.
Qed.
Lemma call_said N E w ch args c ev : zlen (c_outbuf c) < M31 ->
  match amqp_call N E w ch args c ev with Done _ c' _ l => said ch (c_recent c') (frames l) | Halt _ _ _ => True end.
Proof.
  intros Hb. unfold amqp_call. destruct (build_request _ _ _) as [req|]; [|exact I]. unfold amqp_simple_rpc_decoded, bind.
  pose proof (rpc_said N E ch (rpc_request w) [rpc_reply w] req c ev Hb) as H. destruct (amqp_simple_rpc N E ch _ _ req c ev) as [r c1 ev1 l|]; [|exact I].
  unfold upd, ret. cbn [app]. rewrite app_nil_r. exact H.
Qed.
Lemma said_explained ch r fs context : Forall typed fs -> said ch r fs -> r <> RLibrary (- M31) ->
  match die_rpc r (lit context) with
  | None => exists id m, r = RNormal id m
  | Some (Some report) => exists text, report = line context text /\ explained ch fs text
  | Some None => False
  end.
Proof.
  intros HT HS Hn. unfold die_rpc. destruct r as [|id m|st|id m]; cbn [is_normal].
  - destruct HS.
  - eauto.
  - cbn [amqp_rpc_reply_string]. rewrite status_string by congruence. eexists. split; [reflexivity|]. left. exists st. split; [exact HS|reflexivity].
  - destruct HS as (f & F1 & F2 & F3 & F4). cbn [amqp_rpc_reply_string]. rewrite Forall_forall in HT. specialize (HT f F1).
    destruct (close_members f id m HT F2 F3 ltac:(tauto)) as (code & text & M1 & M2 & M3 & M4). unfold amqp_server_exception_string.
    destruct F4 as [[F4 ->]|[F4 ->]].
    + change (CHANNEL_CLOSE =? CONNECTION_CLOSE) with false. change (CHANNEL_CLOSE =? CHANNEL_CLOSE) with true. cbv iota.
      destruct (exception_ok "server channel error " m code text M1 M2 M3 M4 ltac:(vm_compute; congruence)) as (rep & -> & R). exists rep. split; [reflexivity|]. right; left. exists f, m. auto.
    + change (CONNECTION_CLOSE =? CONNECTION_CLOSE) with true. cbv iota.
      destruct (exception_ok "server connection error " m code text M1 M2 M3 M4 ltac:(vm_compute; congruence)) as (rep & -> & R). exists rep. split; [reflexivity|]. right; right. exists f, m. auto.
Qed.

Definition any_frame (f : frame) : Prop := True.
Lemma J_any c : J basic_content c -> J any_frame c.
Proof. intros (H1 & H2 & H3). split; [exact H1|]. split; [|exact H3]. eapply Forall_impl; [|exact H2]. intros f [H _]. split; [exact H|exact I]. Qed.
(** calls receive well-typed frames only *)
Lemma typed_call N E w ch args c ev : In w rpc_table -> given (rpc_params w) args -> J any_frame c ->
  wp (amqp_call N E w ch args) c ev (fun _ c' _ l => J any_frame c' /\ Forall typed (frames l)) (fun _ _ _ => True).
Proof.
  intros Hw Hg HJ. pose proof (arguments_fine (Call w ch args) (conj Hw Hg)) as HA. cbn [call_fine] in HA. destruct HA as (req & HA1 & HA2).
  unfold amqp_call. rewrite HA1.
  eapply wp_conseq; [apply (ty_rpc_decoded N E any_frame (fun _ _ => True) ltac:(intros; exact I) ltac:(intros; exact I) ltac:(intros; exact I) ltac:(intros; exact I) ch _ _ req c HA2 ev HJ)| |auto].
  cbv beta. intros a c' ev' l H. destruct H as (H1 & H2 & _); [apply Forall_forall; intros; exact I|]. auto.
Qed.
Lemma typed_close N E c ev : J any_frame c -> forall call ch, In (call, ch) [(amqp_channel_close N E 1 200, 1); (amqp_connection_close N E 200, 0)] ->
  wp call c ev (fun r c' _ l => J any_frame c' /\ Forall typed (frames l) /\ said ch r (frames l)) (fun _ _ _ => True).
Proof.
  intros HJ call ch Hin.
  assert (forall ch id ids m, sendm ch id m -> wp (amqp_simple_rpc N E ch id ids m) c ev (fun r c' _ l => J any_frame c' /\ Forall typed (frames l) /\ said ch r (frames l)) (fun _ _ _ => True)) as A.
  { intros ch0 id ids m Hs. unfold wp. pose proof (rpc_said N E ch0 id ids m c ev (proj2 (proj2 HJ))) as S.
    pose proof (ty_rpc N E any_frame (fun _ _ => True) ltac:(intros; exact I) ltac:(intros; exact I) ltac:(intros; exact I) ltac:(intros; exact I) ch0 id ids m c Hs ev HJ) as T. unfold wp in T.
    destruct (amqp_simple_rpc N E ch0 id ids m c ev) as [r c1 ev1 l|]; [|exact I]. destruct T as (T1 & T2 & _); [apply Forall_forall; intros; exact I|]. auto. }
  destruct Hin as [H|[H|[]]]; injection H as <- <-.
  - unfold amqp_channel_close. change ((200 <? 0) || (65535 <? 200)) with false. cbv iota. apply A, (close_fine 1 20 40); [apply cat_in; reflexivity|lia].
  - unfold amqp_connection_close. change ((200 <? 0) || (65535 <? 200)) with false. cbv iota. apply A, (close_fine 0 10 50); [apply cat_in; reflexivity|lia].
Qed.
Lemma fatal ch r fs context : Forall typed fs -> said ch r fs ->
  match die_rpc r (lit context) with
  | None => exists id m, r = RNormal id m
  | Some (Some report) => exists text, report = line context text /\ explained ch fs text
  | Some None => True
  end.
Proof.
  intros HT HS. destruct r as [|id m|st|id m]; try (pose proof (said_explained ch _ fs context HT HS ltac:(discriminate)) as H; destruct (die_rpc _ _) as [[?|]|]; auto; fail).
  destruct (Z.eq_dec st (- M31)) as [->|Hn].
  - reflexivity || (cbn; exact I).
  - pose proof (said_explained ch _ fs context HT HS ltac:(congruence)) as H. destruct (die_rpc _ _) as [[?|]|]; auto.
Qed.

(** ** Theorems *)
(** die_rpc lets the program go on after a normal reply, and only then *)
Theorem C80_goes_on :
  forall (r : rpc_reply_t) (context : bytes), die_rpc r context = None <-> exists id m, r = RNormal id m.
Proof. intros r x. unfold die_rpc. destruct r; cbn [is_normal]; split; try discriminate; try (intros (? & ? & K); discriminate K); eauto. Qed.
(** After any history of calls on a connection that started idle or new, a synchronous call
    that fails and whose reply is given to die_rpc ends the program with one line: the
    context and the text of the library's status or the code and the text of the close that
    the server sent during this call. *)
Theorem C80_report :
  forall (N : nat) (E : nat -> aenv) (calls : list api) (w : rpc_wrapper) (ch : Z) (args : list (string * mval)) (context : string)
         (c c1 c2 : conn) (ev ev1 ev2 : list event) (os : list outcome_t) (r : option mstruct) (l1 l2 : list obs),
    Forall arguments_ok (Call w ch args :: calls) ->
    (exists fd, c = new_connection fd) \/ (idle (c_in c) /\ c_queue c = [] /\ 0 <= frame_max c < 2 ^ 30 /\ 20 <= zlen (c_outbuf c) < M31) ->
    exec_all N E calls c ev = Done os c1 ev1 l1 -> Forall basic_content (frames l1) -> 20 <= zlen (c_outbuf c1) ->
    amqp_call N E w ch args c1 ev1 = Done r c2 ev2 l2 ->
    c_recent c2 <> RLibrary (- M31) ->
    match die_rpc (c_recent c2) (lit context) with
    | None => exists m, r = Some m
    | Some (Some report) => r = None /\ exists text, report = line context text /\ explained ch (frames l2) text
    | Some None => False
    end.
Proof.
  intros N E calls w ch args context c c1 c2 ev ev1 ev2 os r l1 l2 Ha Hc H1 HB Hroom H2 Hn.
  pose proof (Forall_inv Ha) as [Hw Hg]. apply Forall_inv_tail in Ha.
  assert (J basic_content c) as HJ.
  { destruct Hc as [(fd & ->)|(I1 & I2 & I3 & I4)].
    - split; [repeat split; cbn; lia|]. split; [constructor|]. change (c_outbuf (new_connection fd)) with (repeat x00 (Z.to_nat 65536)). unfold zlen. rewrite repeat_length. lia.
    - split; [apply idle_in_ok; assumption|]. split; [|apply I4]. unfold queued. rewrite I2. constructor. }
  assert (J basic_content c1) as HJ1.
  { pose proof (ty_exec_all N E basic_content (fun _ _ => True) ltac:(intros; exact I) ltac:(intros; exact I) ltac:(intros; exact I) ltac:(intros; exact I) basic_content_header calls) as H.
    assert (Forall call_fine calls) as Hf by (eapply Forall_impl; [exact arguments_fine|exact Ha]). specialize (H Hf c ev HJ). unfold wp in H. rewrite H1 in H. apply H, HB. }
  apply J_any in HJ1. pose proof (typed_call N E w ch args c1 ev1 Hw Hg HJ1) as T. unfold wp in T. rewrite H2 in T. destruct T as [_ T].
  pose proof (call_said N E w ch args c1 ev1 (proj2 (proj2 HJ1))) as S. rewrite H2 in S.
  pose proof (said_explained ch (c_recent c2) (frames l2) context T S Hn) as X.
  destruct (C55_calls w args Hw Hg) as (cc & i & c' & i' & fs & m & _ & _ & _ & K). specialize (K N E ch c1 ev1 (conj Hroom (proj2 (proj2 HJ1)))). rewrite H2 in K.
  destruct r as [reply|].
  - destruct K as (_ & _ & K). unfold die_rpc in *. rewrite K in *. cbn [is_normal]. eauto.
  - destruct K as [_ K]. destruct (die_rpc (c_recent c2) (lit context)) as [[rep|]|]; [split; [reflexivity|exact X]|exact X|]. destruct X as (id & mm & X). rewrite X in K. destruct K.
Qed.
(** The excluded status does not occur while the clock is steady and the timeouts are those
    of C73. *)
Theorem C80_steady :
  forall (N : nat) (E : nat -> aenv) (calls : list api) (w : rpc_wrapper) (ch : Z) (args : list (string * mval))
         (c c1 c2 : conn) (ev ev1 ev2 : list event) (os : list outcome_t) (r : option mstruct) (l1 l2 : list obs) (T : Z),
    Forall given_args (Call w ch args :: calls) -> settled_at T c ->
    exec_all N E calls c ev = Done os c1 ev1 l1 ->
    amqp_call N E w ch args c1 ev1 = Done r c2 ev2 l2 ->
    steady T (l1 ++ l2) -> c_recent c2 <> RLibrary (- M31).
Proof.
  intros N E calls w ch args c c1 c2 ev ev1 ev2 os r l1 l2 T Hg Hs H1 H2 HT Hr.
  assert (exec N E (Call w ch args) c1 ev1 = Done (OutDecoded r) c2 ev2 (l2 ++ [])) as H3 by (cbn [exec]; unfold bind; rewrite H2; reflexivity). rewrite app_nil_r in H3.
  pose proof (C73_codes N E calls (Call w ch args) c c1 c2 ev ev1 ev2 os _ l1 l2 T Hg Hs H1 H3 HT) as K. cbn [reports] in K. rewrite Hr in K. cbn [reply_in] in K.
  apply C73_declared in K. destruct K as [[_ K]|[(? & ? & ? & ? & ? & ? & ? & K) _]]; [|discriminate K].
  assert (forallb (fun st => - M31 <? st) declared_statuses = true) as D by (vm_compute; reflexivity).
  pose proof (C73_codes N E calls (Call w ch args) c c1 c2 ev ev1 ev2 os _ l1 l2 T Hg Hs H1 H3 HT) as K2. cbn [reports] in K2. rewrite Hr in K2. cbn [reply_in] in K2.
  apply C73_declared in K2. destruct K2 as [[K2 _]|[(? & ? & ? & ? & ? & ? & ? & K2) _]]; [|discriminate K2].
  rewrite forallb_forall in D. specialize (D _ K2). apply Z.ltb_lt in D. lia.
Qed.

(** ** Cases *)
(** the server closes the channel: the queue does not exist; the text has a NUL *)
Definition refusal (text : bytes) : aframe :=
  AMethod 20 40 [("reply_code", Short); ("reply_text", ShortStr); ("class_id", Short); ("method_id", Short)]
    [("reply_code", VInt 404); ("reply_text", VBytes text); ("class_id", VInt 50); ("method_id", VInt 30)].
Definition purge_call : option rpc_wrapper := find (fun w => String.eqb (rpc_name w) "amqp_queue_purge") rpc_table.
Example C80_case :
  match purge_call with
  | Some w =>
    match amqp_call 100 plain_env w 1 [("queue", VBytes [x71])] ready [EvSend (SOk 99); EvRecv (ROk (ser [(1, refusal (lit "NOT_FOUND - no queue"))]))] with
    | Done r c _ l => r = None /\ die_rpc (c_recent c) (lit "queue.purge") = Some (Some (lit "queue.purge: server channel error 404, message: NOT_FOUND - no queue" ++ [newline]))
    | Halt _ _ _ => False
    end /\
    match amqp_call 100 plain_env w 1 [("queue", VBytes [x71])] ready [EvSend (SOk 99); EvRecv (ROk (ser [(1, refusal (lit "gone" ++ [x00; x41]))]))] with
    | Done r c _ l => r = None /\ die_rpc (c_recent c) (lit "queue.purge") = Some (Some (lit "queue.purge: server channel error 404, message: gone" ++ [newline]))
    | Halt _ _ _ => False
    end /\
    match amqp_call 100 plain_env w 1 [("queue", VBytes [x71])] ready [EvSend (SOk 99); EvRecv (ROk [])] with
    | Done r c _ l => r = None /\ die_rpc (c_recent c) (lit "queue.purge") = Some (Some (lit "queue.purge: connection closed unexpectedly" ++ [newline]))
    | Halt _ _ _ => False
    end
  | None => False
  end.
Proof. vm_compute. repeat split. Qed.
(** any other method number: eight hexadecimal digits *)
Example C80_unknown : die_rpc (RServer 0x003C0050 []) (lit "x") = Some (Some (lit "x: unknown server error, method id 0x003C0050" ++ [newline])).
Proof. vm_compute. reflexivity. Qed.

(** die_amqp_error: the program goes on exactly when the status is not an error; otherwise
    the report has the library's text for it. *)
Theorem C80_status :
  forall (st : Z) (context : bytes), - M31 < st < M31 ->
    (die_amqp_error st context = None <-> 0 <= st) /\ (st < 0 -> die_amqp_error st context = Some (Some (context ++ lit ": " ++ status_text st ++ [newline]))).
Proof.
  intros st context H. unfold die_amqp_error. rewrite (status_string st) by lia. destruct (Z.leb_spec 0 st); (split; [split|]); try discriminate; try reflexivity; try lia.
Qed.
Print Assumptions C80_goes_on.
Print Assumptions C80_report.
Print Assumptions C80_steady.
Print Assumptions C80_status.
