(** C55: application calls translate to the documented method. *)
From Coq Require Import String ZArith List Bool Lia.
From Verif Require Import Base BaseFacts Codec TableModel TableSpec FramingStmt FramingGen FramingModel MethodSpec
  Frame FrameSpec FrameProofs Prop_Frame Time Net NetApi NetSpec CallSpec NetFacts NetSend NetRecv NetWalk NetAcct NetOrder NetWait NetOff NetCalls EncStatus NetRpc NetOffAll Prop_Rpc Prop_Send.
Import ListNotations.
Local Open Scope string_scope.
Local Open Scope list_scope.
Local Open Scope Z_scope.

Lemma cat_in c i fs : find (fun q => (fst (fst q) =? c) && (snd (fst q) =? i)) catalogue = Some (c, i, fs) -> In (c, i, fs) catalogue.
Proof. intros H. apply find_some in H. apply H. Qed.
Lemma doc_in n r r' : find (fun q => String.eqb n (fst (fst q))) documented = Some (n, r, r') -> In (n, r, r') documented.
Proof. intros H. apply find_some in H. apply H. Qed.
(** the static part: for every call of the library the documented request *)
Lemma call_request w args : In w rpc_table -> given (rpc_params w) args ->
  exists c i c' i' fs m,
    In (rpc_name w, (c, i), (c', i')) documented /\ In (c, i, fs) catalogue /\
    documented_args fs args m /\ well_typed fs m /\
    rpc_reply w = method_id c' i' /\ rpc_request w = method_id c i /\ method_id c' i' <> conn_close /\
    build_request (rpc_fields w) (match find (fun p => fst p =? rpc_request w) struct_table with Some p => snd p | None => [] end) args = Some m.
Proof.
  intros Hw Hg. unfold given in Hg.
  repeat (destruct Hw as [<-|Hw]; [
    cbn [rpc_params rpc_fields rpc_request rpc_reply rpc_name] in *;
    repeat match goal with H : Forall _ (_ :: _) |- _ => let H1 := fresh in let H2 := fresh in apply Forall_cons_iff in H; destruct H as [H1 H2]; destruct H1 as (? & ? & ?); cbn [fst snd] in * end;
    match goal with |- exists c i c' i' fs m, In (?n, _, _) documented /\ _ =>
      let r := eval vm_compute in (find (fun p => String.eqb n (fst (fst p))) documented) in
      match r with Some (_, (?c, ?i), (?c', ?i')) =>
        let f := eval vm_compute in (find (fun q => (fst (fst q) =? c) && (snd (fst q) =? i)) catalogue) in
        match f with Some (_, _, ?fs) => exists c, i, c', i', fs end
      end
    end;
    match goal with |- exists m, _ /\ _ /\ _ /\ _ /\ _ /\ _ /\ _ /\ build_request ?l ?t args = Some m =>
      let t' := eval vm_compute in t in change t with t' end;
    cbn [build_request lookup];
    repeat match goal with H : lookup ?p args = Some _ |- context [lookup ?p args] => rewrite H end;
    repeat match goal with |- context [string_dec ?a ?b] => destruct (string_dec a b); [|congruence] || destruct (string_dec a b); [congruence|] end;
    eexists;
    split; [apply doc_in; reflexivity|]; split; [apply cat_in; reflexivity|];
    split; [|split; [|split; [reflexivity|split; [reflexivity|split; [discriminate|reflexivity]]]]];
    [unfold documented_args; repeat (constructor; [split; [reflexivity|cbn; assumption || reflexivity]|]); constructor
    |unfold well_typed; repeat (constructor; [split; [reflexivity|cbn; assumption || lia || (vm_compute; repeat split; congruence) || (vm_compute; tauto)]|]); constructor]
  |]).
  destruct Hw.
Qed.

Lemma request_wire ch c i fs m conn l :
  In (c, i, fs) catalogue -> well_typed fs m -> 20 <= zlen (c_outbuf conn) < M31 ->
  request_sent ch (method_id c i) m conn l -> sent_only (out_bytes l) (ser_frame ch (AMethod c i fs m)).
Proof.
  intros Hc Hm Hb [->|(buf & enc & Hf & H)]; [left; apply prefix_nil|].
  destruct (C10_frame_bytes ch (AMethod c i fs m) (c_outbuf conn) (conj Hc Hm) Hb ltac:(discriminate)) as (st & buf' & enc' & Hf' & _ & Hcase).
  change (c_frame ch (AMethod c i fs m)) with (method_frame ch (method_id c i) m) in Hf'. rewrite Hf in Hf'. injection Hf' as <- <- <-.
  destruct Hcase as [(_ & -> & _)|(Hn & _)]; [exact H|discriminate Hn].
Qed.
Lemma reply_wire ch c i fs m conn buf enc :
  In (c, i, fs) catalogue -> well_typed fs m -> 20 <= zlen (c_outbuf conn) < M31 ->
  amqp_frame_to_bytes (method_frame ch (method_id c i) m) (c_outbuf conn) = FRet AMQP_STATUS_OK buf enc ->
  enc = ser_frame ch (AMethod c i fs m).
Proof.
  intros Hc Hm Hb Hf.
  destruct (C10_frame_bytes ch (AMethod c i fs m) (c_outbuf conn) (conj Hc Hm) Hb ltac:(discriminate)) as (st & buf' & enc' & Hf' & _ & Hcase).
  change (c_frame ch (AMethod c i fs m)) with (method_frame ch (method_id c i) m) in Hf'. rewrite Hf in Hf'. injection Hf' as <- <- <-.
  destruct Hcase as [(_ & -> & _)|(Hn & _)]; [reflexivity|discriminate Hn].
Qed.

(** C55.  Every synchronous call of the library is documented; it sends exactly
    the documented method with the documented argument values on the given channel
    (and nothing else but heartbeats, wherever the run stops); if it returns a
    result the whole request has been sent, the result is the content of the
    documented reply received on that channel, and amqp_get_rpc_reply agrees. *)
Theorem C55_calls :
  forall (w : rpc_wrapper) (args : list (string * mval)),
    In w rpc_table -> given (rpc_params w) args ->
    exists c i c' i' fs m,
      In (rpc_name w, (c, i), (c', i')) documented /\ In (c, i, fs) catalogue /\ documented_args fs args m /\
      forall (N : nat) (E : nat -> aenv) (ch : Z) (s : conn) (ev : list event),
        20 <= zlen (c_outbuf s) < M31 ->
        match amqp_call N E w ch args s ev with
        | Done (Some reply) s' _ l =>
            (exists hb, whole_beats hb /\ out_bytes l = ser_frame ch (AMethod c i fs m) ++ hb) /\
            (exists before f, frames l = before ++ [f] /\ f_type f = 1 /\ f_chan f = ch /\ f_pay f = PMethod (method_id c' i') reply) /\
            c_recent s' = RNormal (method_id c' i') reply
        | Done None s' _ l =>
            sent_only (out_bytes l) (ser_frame ch (AMethod c i fs m)) /\
            match c_recent s' with RLibrary st => st < 0 | RServer id _ => id = chan_close \/ id = conn_close | _ => False end
        | Halt _ _ l => sent_only (out_bytes l) (ser_frame ch (AMethod c i fs m))
        end.
Proof.
  intros w args Hw Hg. destruct (call_request w args Hw Hg) as (c & i & c' & i' & fs & m & H1 & H2 & H3 & H4 & H5 & H6 & H7 & H8).
  exists c, i, c', i', fs, m. split; [exact H1|]. split; [exact H2|]. split; [exact H3|]. intros N E ch s ev Hb.
  unfold amqp_call. rewrite H8, H5, H6. unfold amqp_simple_rpc_decoded, bind at 1.
  pose proof (simple_rpc_sends N E ch (method_id c i) [method_id c' i'] m s ev) as Hsend. unfold wp in Hsend.
  assert (zlen (c_outbuf s) < M31) as Hb' by lia.
  destruct (amqp_simple_rpc N E ch (method_id c i) [method_id c' i'] m s ev) as [r s1 ev1 l1|st s1 l1] eqn:Hrun.
  2:{ eapply request_wire; eauto. }
  unfold upd, bind, ret. cbn [app]. rewrite app_nil_r.
  pose proof (C38_rpc N E ch _ _ m s s1 ev ev1 r l1 Hb' Hrun) as [Hc _].
  destruct r as [|rid rm|st|rid rm].
  - destruct Hc.
  - destruct (C38_right_channel N E ch (method_id c i) [method_id c' i'] m s s1 ev ev1 rid rm l1 Hb') as (Hin & pre & f & F1 & F2 & F3 & F4); [intros [Hx|[]]; exact (H7 Hx)|exact Hrun|].
    destruct Hin as [<-|[]]. cbn [c_recent set_recent]. split; [|split; [exists pre, f; auto|reflexivity]].
    pose proof (simple_rpc_ok N E ch (method_id c i) [method_id c' i'] m s ev Hb') as Ho. unfold wp in Ho. rewrite Hrun in Ho.
    destruct (rpc_sends _ _ _ _ _ _ _ _ Ho eq_refl) as (buf & enc & hb & G1 & G2 & G3). exists hb. split; [exact G2|].
    rewrite G3. f_equal. eapply reply_wire; eauto.
  - cbn [c_recent set_recent]. split; [eapply request_wire; eauto|exact Hc].
  - cbn [c_recent set_recent]. split; [eapply request_wire; eauto|]. destruct Hc as (_ & _ & _ & _ & [[_ ->]|[_ ->]]); auto.
Qed.

Lemma incl_dec (a b : list string) : forallb (fun x => existsb (String.eqb x) b) a = true -> forall p, In p a -> In p b.
Proof.
  intros H p Hp. rewrite forallb_forall in H. specialize (H p Hp). apply existsb_exists in H. destruct H as (x & Hx & He).
  apply String.eqb_eq in He. subst. exact Hx.
Qed.
Lemma in_app_3 (a : list string) x y z p : In p (x :: y :: z :: a) -> In p a \/ p = x \/ p = y \/ p = z.
Proof. intros [H|[H|[H|H]]]; auto. Qed.
Definition complete_b (w : rpc_wrapper) : bool :=
  match find (fun p => String.eqb (rpc_name w) (fst (fst p))) documented with
  | Some (_, (c, i), _) =>
      match find (fun q => (fst (fst q) =? c) && (snd (fst q) =? i)) catalogue with
      | Some (_, _, fs) =>
          forallb (fun x => existsb (String.eqb x) (map fst fs)) (map fst (rpc_params w)) &&
          forallb (fun x => existsb (String.eqb x) ("ticket" :: "nowait" :: "out_of_band" :: map fst (rpc_params w))) (map fst fs)
      | None => false
      end
  | None => false
  end.
(** Every documented call exists, and every parameter of a call is an argument of
    the method it sends. *)
Theorem C55_complete :
  map rpc_name rpc_table = map (fun d => fst (fst d)) documented /\
  forall w, In w rpc_table -> exists c i c' i' fs, In (rpc_name w, (c, i), (c', i')) documented /\ In (c, i, fs) catalogue /\
    (forall p, In p (map fst (rpc_params w)) -> In p (map fst fs)) /\
    (forall p, In p (map fst fs) -> In p (map fst (rpc_params w)) \/ p = "ticket" \/ p = "nowait" \/ p = "out_of_band").
Proof.
  split; [reflexivity|]. intros w Hw.
  assert (forallb complete_b rpc_table = true) as H by (vm_compute; reflexivity).
  rewrite forallb_forall in H. specialize (H w Hw). unfold complete_b in H.
  destruct (find _ documented) as [[[n [c i]] [c' i']]|] eqn:F1; [|discriminate H].
  destruct (find _ catalogue) as [[[x y] fs]|] eqn:F2; [|discriminate H].
  apply find_some in F1. destruct F1 as [F1 F1']. cbn [fst snd] in F1'. apply String.eqb_eq in F1'. subst n.
  apply find_some in F2. destruct F2 as [F2 F2']. cbn [fst snd] in F2'. apply andb_true_iff in F2'. destruct F2' as [G1 G2].
  apply Z.eqb_eq in G1, G2. subst x y. apply andb_true_iff in H. destruct H as [H1 H2].
  exists c, i, c', i', fs. split; [exact F1|]. split; [exact F2|]. split; intros p Hp.
  - exact (incl_dec _ _ H1 p Hp).
  - apply in_app_3. exact (incl_dec _ _ H2 p Hp).
Qed.

(** The remaining calls: amqp_basic_ack, amqp_basic_nack, amqp_basic_reject
    (one method frame, no reply), amqp_basic_get, amqp_channel_close and
    amqp_connection_close (RPC). *)
Theorem C55_acks :
  forall (N : nat) (E : nat -> aenv) (ch tag : Z) (multiple requeue : Z) (s : conn) (ev : list event),
    20 <= zlen (c_outbuf s) < M31 -> 0 <= tag < M64 -> - M31 <= multiple < M31 -> - M31 <= requeue < M31 ->
    forall call i fs m,
      In (call, i, fs, m)
        [ (amqp_basic_ack N E ch tag multiple, 80, [("delivery_tag", Longlong); ("multiple", Bit)], [("delivery_tag", VInt tag); ("multiple", VBool multiple)]);
          (amqp_basic_reject N E ch tag requeue, 90, [("delivery_tag", Longlong); ("requeue", Bit)], [("delivery_tag", VInt tag); ("requeue", VBool requeue)]);
          (amqp_basic_nack N E ch tag multiple requeue, 120, [("delivery_tag", Longlong); ("multiple", Bit); ("requeue", Bit)],
             [("delivery_tag", VInt tag); ("multiple", VBool multiple); ("requeue", VBool requeue)]) ] ->
      In (60, i, fs) catalogue /\
      match call s ev with
      | Done r _ _ l => prefix (out_bytes l) (ser_frame ch (AMethod 60 i fs m)) /\
          (r = AMQP_STATUS_OK -> out_bytes l = ser_frame ch (AMethod 60 i fs m)) /\ r <= 0
      | Halt _ _ l => prefix (out_bytes l) (ser_frame ch (AMethod 60 i fs m))
      end.
Proof.
  intros N E ch tag mu rq s ev Hb Ht Hm Hr call i fs m Hin.
  assert (forall i fs m, In (60, i, fs) catalogue -> well_typed fs m ->
    match amqp_send_method N E ch (method_id 60 i) m s ev with
    | Done r _ _ l => prefix (out_bytes l) (ser_frame ch (AMethod 60 i fs m)) /\
        (r = AMQP_STATUS_OK -> out_bytes l = ser_frame ch (AMethod 60 i fs m)) /\ r <= 0
    | Halt _ _ l => prefix (out_bytes l) (ser_frame ch (AMethod 60 i fs m))
    end) as A.
  { intros i' fs' m' H1 H2. pose proof (C33_send_frame N E ch (AMethod 60 i' fs' m') s ev (conj H1 H2) Hb ltac:(discriminate)) as H.
    unfold amqp_send_frame in H. unfold amqp_send_method, amqp_send_method_inner. cbn [c_frame] in H. change AMQP_FRAME_METHOD with 1.
    destruct (amqp_send_frame_inner _ _ _ _ _ _ _); tauto. }
  destruct Hin as [H|[H|[H|[]]]].
  - injection H as <- <- <- <-. split; [apply cat_in; reflexivity|]. unfold amqp_basic_ack. change BASIC_ACK with (method_id 60 80).
    apply A; [apply cat_in; reflexivity|]. unfold well_typed. repeat (constructor; [split; [reflexivity|cbn [snd dom_val]; lia]|]). constructor.
  - injection H as <- <- <- <-. split; [apply cat_in; reflexivity|]. unfold amqp_basic_reject. change BASIC_REJECT with (method_id 60 90).
    apply A; [apply cat_in; reflexivity|]. unfold well_typed. repeat (constructor; [split; [reflexivity|cbn [snd dom_val]; lia]|]). constructor.
  - injection H as <- <- <- <-. split; [apply cat_in; reflexivity|]. unfold amqp_basic_nack. change BASIC_NACK with (method_id 60 120).
    apply A; [apply cat_in; reflexivity|]. unfold well_typed. repeat (constructor; [split; [reflexivity|cbn [snd dom_val]; lia]|]). constructor.
Qed.

(** decimal digits, as sprintf("%d") writes them *)
Definition decimal_of (s : bytes) (z : Z) : Prop :=
  s <> [] /\ Forall (fun b => 48 <= Z_of_byte b <= 57) s /\ fold_left (fun a b => 10 * a + (Z_of_byte b - 48)) s 0 = z /\
  (hd x00 s = x30 -> s = [x30]).
Lemma fold_digits_app a b z : fold_left (fun a b => 10 * a + (Z_of_byte b - 48)) (a ++ b) z = fold_left (fun a b => 10 * a + (Z_of_byte b - 48)) b (fold_left (fun a b => 10 * a + (Z_of_byte b - 48)) a z).
Proof. apply fold_left_app. Qed.
Lemma digits_ok fuel : forall z, 0 <= z < 10 ^ Z.of_nat (S fuel) -> decimal_of (digits (S fuel) z) z.
Proof.
  induction fuel as [|fuel IH]; intros z Hz.
  - change (10 ^ Z.of_nat 1) with 10 in Hz. cbn [digits]. destruct (Z.ltb_spec z 10); [|lia]. rewrite Z.mod_small by lia.
    assert (Hb : Z_of_byte (byte_of_Z (48 + z)) = 48 + z) by (rewrite Z_of_byte_of_Z; apply Z.mod_small; lia).
    split; [discriminate|]. split; [constructor; [rewrite Hb; lia|constructor]|]. split; [cbn [app fold_left]; rewrite Hb; lia|]. cbn [app hd]. intros ->; reflexivity.
  - remember (S fuel) as f eqn:Ef. cbn [digits]. destruct (Z.ltb_spec z 10).
    + rewrite Z.mod_small by lia.
      assert (Hb : Z_of_byte (byte_of_Z (48 + z)) = 48 + z) by (rewrite Z_of_byte_of_Z; apply Z.mod_small; lia).
      split; [discriminate|]. split; [constructor; [rewrite Hb; lia|constructor]|]. split; [cbn [app fold_left]; rewrite Hb; lia|]. cbn [app hd]. intros ->; reflexivity.
    + assert (0 <= z / 10 < 10 ^ Z.of_nat f) as Hq.
      { split; [apply Z.div_pos; lia|]. apply Z.div_lt_upper_bound; [lia|]. replace (Z.of_nat (S f)) with (Z.of_nat f + 1) in Hz by lia. rewrite Z.pow_add_r in Hz by lia. lia. }
      destruct (IH _ Hq) as (D1 & D2 & D3 & D4).
      pose proof (Z.mod_pos_bound z 10 ltac:(lia)). assert (Hb : Z_of_byte (byte_of_Z (48 + z mod 10)) = 48 + z mod 10) by (rewrite Z_of_byte_of_Z; apply Z.mod_small; lia).
      split; [destruct (digits f (z / 10)); discriminate|]. split; [apply Forall_app; split; [exact D2|constructor; [rewrite Hb; lia|constructor]]|].
      split; [rewrite fold_digits_app, D3; cbn [fold_left]; rewrite Hb; pose proof (Z.div_mod z 10); lia|].
      destruct (digits f (z / 10)) as [|x r] eqn:Hd; [contradiction|]. cbn [app hd] in *. intros ->. specialize (D4 eq_refl). injection D4 as ->.
      cbn in D3. pose proof (Z.div_str_pos z 10 ltac:(lia)). lia.
Qed.

Theorem C55_closes :
  forall (N : nat) (E : nat -> aenv) (ch code : Z) (s : conn) (ev : list event),
    20 <= zlen (c_outbuf s) < M31 ->
    let fs := [("reply_code", Short); ("reply_text", ShortStr); ("class_id", Short); ("method_id", Short)] in
    forall call cls i i' chan,
      In (call, cls, i, i', chan) [(amqp_channel_close N E ch code, 20, 40, 41, ch); (amqp_connection_close N E code, 10, 50, 51, 0)] ->
      In (cls, i, fs) catalogue /\
      if (code <? 0) || (65535 <? code)
      then call s ev = Done (RLibrary AMQP_STATUS_INVALID_PARAMETER) s ev []
      else exists text, decimal_of text code /\
        let request := ser_frame chan (AMethod cls i fs [("reply_code", VInt code); ("reply_text", VBytes text); ("class_id", VInt 0); ("method_id", VInt 0)]) in
        match call s ev with
        | Done r s' _ l =>
            sent_only (out_bytes l) request /\
            match r with
            | RNone => False
            | RLibrary st => st < 0
            | RNormal rid rm => rid = method_id cls i' /\ (exists hb, whole_beats hb /\ out_bytes l = request ++ hb) /\
                exists before f, frames l = before ++ [f] /\ f_type f = 1 /\ f_chan f = chan /\ f_pay f = PMethod rid rm
            | RServer rid _ => rid = chan_close \/ rid = conn_close
            end
        | Halt _ _ l => sent_only (out_bytes l) request
        end.
Proof.
  intros N E ch code s ev Hb fs call cls i i' chan Hin.
  assert (forall cls i i' chan, In (cls, i, fs) catalogue -> method_id cls i' <> conn_close ->
    (code <? 0) || (65535 <? code) = false ->
    exists text, decimal_of text code /\
        let request := ser_frame chan (AMethod cls i fs [("reply_code", VInt code); ("reply_text", VBytes text); ("class_id", VInt 0); ("method_id", VInt 0)]) in
        match amqp_simple_rpc N E chan (method_id cls i) [method_id cls i'] (close_request code) s ev with
        | Done r s' _ l =>
            sent_only (out_bytes l) request /\
            match r with
            | RNone => False
            | RLibrary st => st < 0
            | RNormal rid rm => rid = method_id cls i' /\ (exists hb, whole_beats hb /\ out_bytes l = request ++ hb) /\
                exists before f, frames l = before ++ [f] /\ f_type f = 1 /\ f_chan f = chan /\ f_pay f = PMethod rid rm
            | RServer rid _ => rid = chan_close \/ rid = conn_close
            end
        | Halt _ _ l => sent_only (out_bytes l) request
        end) as A.
  { clear Hin. intros cls' j j' chan' Hc Hne Hr. apply orb_false_iff in Hr. destruct Hr as [R1 R2]. apply Z.ltb_ge in R1, R2.
    assert (decimal_of (digits 5 code) code) as Hd by (apply digits_ok; change (10 ^ Z.of_nat 5) with 100000; lia).
    exists (digits 5 code). split; [exact Hd|]. cbv zeta. unfold close_request. set (m := [("reply_code", VInt code); ("reply_text", VBytes (digits 5 code)); ("class_id", VInt 0); ("method_id", VInt 0)]).
    assert (well_typed fs m) as Hm.
    { unfold well_typed, fs, m. constructor; [split; [reflexivity|cbn; lia]|]. constructor; [split; [reflexivity|]|].
      - cbn [snd dom_val]. assert (forall f z, zlen (digits f z) <= Z.of_nat f) as G.
        { induction f as [|f IHf]; intros z; cbn [digits]; [change (zlen (@nil byte)) with 0; lia|]. rewrite zlen_app. change (zlen [byte_of_Z (48 + z mod 10)]) with 1.
          destruct (z <? 10); [change (zlen (@nil byte)) with 0; lia|]. specialize (IHf (z / 10)). lia. }
        specialize (G 5%nat code). lia.
      - constructor; [split; [reflexivity|cbn; lia]|]. constructor; [split; [reflexivity|cbn; lia]|]. constructor. }
    pose proof (simple_rpc_sends N E chan' (method_id cls' j) [method_id cls' j'] m s ev) as Hsend. unfold wp in Hsend.
    assert (zlen (c_outbuf s) < M31) as Hb' by lia.
    destruct (amqp_simple_rpc N E chan' (method_id cls' j) [method_id cls' j'] m s ev) as [r s1 ev1 l1|st s1 l1] eqn:Hrun.
    2:{ eapply request_wire; eauto. }
    split; [eapply request_wire; eauto|].
    pose proof (C38_rpc N E chan' _ _ m s s1 ev ev1 r l1 Hb' Hrun) as [Hcc _].
    destruct r as [|rid rm|st|rid rm]; [destruct Hcc| |exact Hcc|destruct Hcc as (_ & _ & _ & _ & [[_ ->]|[_ ->]]); auto].
    destruct (C38_right_channel N E chan' (method_id cls' j) [method_id cls' j'] m s s1 ev ev1 rid rm l1 Hb') as (Hi & pre & f & F1 & F2 & F3 & F4); [intros [Hx|[]]; exact (Hne Hx)|exact Hrun|].
    destruct Hi as [<-|[]]. split; [reflexivity|]. split; [|exists pre, f; auto].
    pose proof (simple_rpc_ok N E chan' (method_id cls' j) [method_id cls' j'] m s ev Hb') as Ho. unfold wp in Ho. rewrite Hrun in Ho.
    destruct (rpc_sends _ _ _ _ _ _ _ _ Ho eq_refl) as (buf & enc & hb & G1 & G2 & G3). exists hb. split; [exact G2|].
    rewrite G3. f_equal. eapply reply_wire; eauto. }
  destruct Hin as [H|[H|[]]]; injection H as <- <- <- <- <-; (split; [apply cat_in; reflexivity|]).
  - unfold amqp_channel_close. destruct ((code <? 0) || (65535 <? code)) eqn:Hr; [reflexivity|].
    apply (A 20 40 41 ch); [apply cat_in; reflexivity|discriminate|reflexivity].
  - unfold amqp_connection_close. destruct ((code <? 0) || (65535 <? code)) eqn:Hr; [reflexivity|].
    apply (A 10 50 51 0); [apply cat_in; reflexivity|discriminate|reflexivity].
Qed.

Theorem C55_get :
  forall (N : nat) (E : nat -> aenv) (ch : Z) (queue : bytes) (no_ack : Z) (s : conn) (ev : list event),
    20 <= zlen (c_outbuf s) < M31 -> zlen queue < M63 -> - M31 <= no_ack < M31 ->
    let fs := [("ticket", Short); ("queue", ShortStr); ("no_ack", Bit)] in
    let request := ser_frame ch (AMethod 60 70 fs [("ticket", VInt 0); ("queue", VBytes queue); ("no_ack", VBool no_ack)]) in
    In (60, 70, fs) catalogue /\
    match amqp_basic_get N E ch queue no_ack s ev with
    | Done r s' _ l =>
        c_recent s' = r /\ sent_only (out_bytes l) request /\
        match r with
        | RNone => False
        | RLibrary st => st < 0
        | RNormal rid rm => (rid = method_id 60 71 \/ rid = method_id 60 72) /\ (exists hb, whole_beats hb /\ out_bytes l = request ++ hb) /\
            exists before f, frames l = before ++ [f] /\ f_type f = 1 /\ f_chan f = ch /\ f_pay f = PMethod rid rm
        | RServer rid _ => rid = chan_close \/ rid = conn_close
        end
    | Halt _ _ l => sent_only (out_bytes l) request
    end.
Proof.
  intros N E ch q na s ev Hb Hq Hn fs request. split; [apply cat_in; reflexivity|].
  assert (In (60, 70, fs) catalogue) as Hc by (apply cat_in; reflexivity).
  set (m := [("ticket", VInt 0); ("queue", VBytes q); ("no_ack", VBool na)]) in *.
  assert (well_typed fs m) as Hm by (unfold well_typed, fs, m; repeat (constructor; [split; [reflexivity|cbn [snd dom_val]; lia]|]); constructor).
  unfold amqp_basic_get. fold m. change BASIC_GET with (method_id 60 70). change [BASIC_GET_OK; BASIC_GET_EMPTY] with [method_id 60 71; method_id 60 72].
  unfold bind at 1.
  pose proof (simple_rpc_sends N E ch (method_id 60 70) [method_id 60 71; method_id 60 72] m s ev) as Hsend. unfold wp in Hsend.
  assert (zlen (c_outbuf s) < M31) as Hb' by lia.
  destruct (amqp_simple_rpc N E ch (method_id 60 70) [method_id 60 71; method_id 60 72] m s ev) as [r s1 ev1 l1|st s1 l1] eqn:Hrun.
  2:{ eapply request_wire; eauto. }
  unfold upd, bind, ret. cbn [app]. rewrite app_nil_r. split; [reflexivity|]. split; [eapply request_wire; eauto|].
  pose proof (C38_rpc N E ch _ _ m s s1 ev ev1 r l1 Hb' Hrun) as [Hcc _].
  destruct r as [|rid rm|st|rid rm]; [destruct Hcc| |exact Hcc|destruct Hcc as (_ & _ & _ & _ & [[_ ->]|[_ ->]]); auto].
  destruct (C38_right_channel N E ch (method_id 60 70) [method_id 60 71; method_id 60 72] m s s1 ev ev1 rid rm l1 Hb') as (Hi & pre & f & F1 & F2 & F3 & F4); [intros [G|[G|[]]]; discriminate G|exact Hrun|].
  split; [destruct Hi as [<-|[<-|[]]]; auto|]. split; [|exists pre, f; auto].
  pose proof (simple_rpc_ok N E ch (method_id 60 70) [method_id 60 71; method_id 60 72] m s ev Hb') as Ho. unfold wp in Ho. rewrite Hrun in Ho.
  destruct (rpc_sends _ _ _ _ _ _ _ _ Ho eq_refl) as (buf & enc & hb & G1 & G2 & G3). exists hb. split; [exact G2|].
  rewrite G3. f_equal. eapply reply_wire; eauto.
Qed.

(** amqp_queue_purge on channel 2 *)
Definition purge_run (w : rpc_wrapper) :=
  amqp_call 100 plain_env w 2 [("queue", VBytes [x71])] (set_in (new_connection 5) idle0)
    [EvSend (SOk 100); EvRecv (ROk (ser_frame 2 (AMethod 50 31 [("message_count", Long)] [("message_count", VInt 7)])))].
Example C55_case :
  exists w, In w rpc_table /\ rpc_name w = "amqp_queue_purge" /\ given (rpc_params w) [("queue", VBytes [x71])] /\
    match purge_run w with
    | Done r _ _ l => r = Some [("message_count", VInt 7)] /\
        out_bytes l = [x01; x00; x02; x00; x00; x00; x09; x00; x32; x00; x1e; x00; x00; x01; x71; x00; xce]
    | Halt _ _ _ => False
    end.
Proof.
  exists (nth 9 rpc_table (mkRpc "" [] 0 [] 0)). split; [apply nth_In; apply Nat.ltb_lt; vm_compute; reflexivity|].
  split; [reflexivity|]. split; [constructor; [|constructor]; exists (VBytes [x71]); split; reflexivity|].
  vm_compute. split; reflexivity.
Qed.

Print Assumptions C55_calls.
Print Assumptions C55_complete.
Print Assumptions C55_acks.
Print Assumptions C55_closes.
Print Assumptions C55_get.
