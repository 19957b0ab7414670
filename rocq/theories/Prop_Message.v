(** C42: reading a message. *)
From Coq Require Import String ZArith List Bool Lia.
From Verif Require Import Base BaseFacts Codec TableModel TableSpec TableOps FramingStmt FramingGen FramingModel MethodSpec
  Frame FrameSpec Time Sasl Net NetApi NetSpec NetFacts NetSend NetRecv NetWalk NetAcct NetOrder NetWait NetOff NetCalls EncStatus NetRpc NetOffAll NetChan NetTyped NetRx NetWell Queue
  Prop_Frame Prop_Send Prop_Release Prop_Rpc Prop_Queue Prop_Consume Prop_Receive Prop_Safe.
Import ListNotations.
Local Open Scope Z_scope.

(** ** Vocabulary *)
(** the frames of one channel, in order (heartbeats left out) *)
Definition on (ch : Z) (l : list frame) : list frame := filter (fun f => f_chan f =? ch) (no_hb l).

Definition header_frame (ch : Z) (f : frame) (size : Z) (p : props) : Prop :=
  f_type f = 2 /\ f_chan f = ch /\ exists cls enc, f_pay f = PHeader cls size p enc.
Definition body_frame (ch : Z) (f : frame) (b : bytes) : Prop :=
  f_type f = 3 /\ f_chan f = ch /\ f_pay f = PBody b.
(** channel.close or connection.close *)
Definition close_frame (ch : Z) (f : frame) (id : Z) (args : mstruct) : Prop :=
  f_chan f = ch /\ carries [method_id 20 40; method_id 10 50] f id args.

(** Reading the rest of a body of [size] bytes of which [k] are there: the frames of
    the channel that are used up, the reply and the fragments. *)
Inductive body_outcome (ch size : Z) : Z -> list frame -> rpc_reply_t -> list bytes -> Prop :=
| body_complete : body_outcome ch size size [] (RNormal 0 []) []
| body_fragment k f b fs r bs : k < size -> body_frame ch f b -> k + zlen b <= size ->
    body_outcome ch size (k + zlen b) fs r bs -> body_outcome ch size k (f :: fs) r (b :: bs)
| body_closed k f id args : k < size -> close_frame ch f id args -> body_outcome ch size k [f] (RServer id args) []
| body_wrong k f : k < size -> f_chan f = ch -> f_type f <> 3 -> (forall id args, ~ close_frame ch f id args) ->
    body_outcome ch size k [f] (RLibrary AMQP_STATUS_BAD_AMQP_DATA) []
| body_too_long k f b : k < size -> body_frame ch f b -> size < k + zlen b ->
    body_outcome ch size k [f] (RLibrary AMQP_STATUS_BAD_AMQP_DATA) []
| body_wait_failed k st : k < size -> st < 0 -> body_outcome ch size k [] (RLibrary st) [].

Definition if_normal {A} (r : rpc_reply_t) (x : A) : option A := match r with RNormal _ _ => Some x | _ => None end.

(** Reading a message; [put_back f]: what is known about a frame that is returned
    to the connection. *)
Inductive message_outcome (ch : Z) (put_back : frame -> Prop) : list frame -> rpc_reply_t -> option message -> Prop :=
| msg_header h size p fs r bs : header_frame ch h size p -> 0 <= size < M63 -> body_outcome ch size 0 fs r bs ->
    message_outcome ch put_back (h :: fs) r (if_normal r (mkMsg p (concat bs)))
| msg_closed f id args : close_frame ch f id args -> message_outcome ch put_back [f] (RServer id args) None
| msg_unexpected f : f_chan f = ch -> f_type f <> 2 -> (forall id args, ~ close_frame ch f id args) -> put_back f ->
    message_outcome ch put_back [] (RLibrary AMQP_STATUS_UNEXPECTED_STATE) None
| msg_wait_failed st : st < 0 -> message_outcome ch put_back [] (RLibrary st) None
| msg_no_memory h size p st : header_frame ch h size p -> st = AMQP_STATUS_NO_MEMORY \/ st = AMQP_STATUS_INVALID_PARAMETER ->
    message_outcome ch put_back [h] (RLibrary st) None.

(** A frame as amqp_handle_input delivers it: the properties of a content header
    of class basic were decoded from its bytes; fragments fit into memory. *)
Definition delivered_content (f : frame) : Prop :=
  (f_type f = 2 -> exists size p enc oom n, f_pay f = PHeader 60 size p enc /\ 0 <= size < M64 /\ amqp_decode_properties 60 enc oom = DOk p n) /\
  (f_type f = 3 -> exists b, f_pay f = PBody b /\ zlen b < M30).

(** ** Proofs *)
Lemma on_app ch a b : on ch (a ++ b) = on ch a ++ on ch b.
Proof. unfold on. rewrite no_hb_app. apply filter_app. Qed.
Lemma on_none ch l : Forall (fun h => f_chan h <> ch) l -> on ch l = [].
Proof.
  induction 1 as [|h l Hh H IH]; [reflexivity|]. change (h :: l) with ([h] ++ l). rewrite on_app, IH, app_nil_r.
  unfold on, no_hb. cbn. destruct (negb _); [|reflexivity]. cbn. destruct (Z.eqb_spec (f_chan h) ch); [contradiction|reflexivity].
Qed.
Lemma is_close_some ch f id args : f_chan f = ch -> is_close f = Some (id, args) -> close_frame ch f id args.
Proof.
  unfold is_close, close_frame, carries, method_of. intros Hc H. split; [exact Hc|]. destruct (Z.eqb_spec (f_type f) AMQP_FRAME_METHOD) as [Ht|]; [|discriminate].
  destruct (f_pay f); try discriminate. destruct (_ || _) eqn:Hid; [|discriminate]. injection H as -> ->. split; [exact Ht|]. split; [reflexivity|].
  apply orb_true_iff in Hid. destruct Hid as [Hid|Hid]; apply Z.eqb_eq in Hid; subst; cbn; auto.
Qed.
Lemma is_close_none ch f : is_close f = None -> forall id args, ~ close_frame ch f id args.
Proof.
  unfold is_close, close_frame, carries, method_of. intros H id args (_ & Ht & Hp & Hin). rewrite Hp in H. unfold AMQP_FRAME_METHOD in H. rewrite Ht in H. cbn [Z.eqb Pos.eqb] in H.
  destruct (_ || _) eqn:Hid; [discriminate|]. apply orb_false_iff in Hid. destruct Hid as [H1 H2]. apply Z.eqb_neq in H1, H2.
  cbn in Hin. unfold CHANNEL_CLOSE, CONNECTION_CLOSE in *. destruct Hin as [K|[K|[]]]; unfold method_id in K; lia.
Qed.

(** all allocations succeeded, nothing was thrown away, frames are as delivered *)
Definition fine (l : list obs) : Prop := no_oom_obs l /\ no_lost l /\ Forall delivered_content (frames l).
Lemma fine_app a b : fine (a ++ b) <-> fine a /\ fine b.
Proof. unfold fine. rewrite no_oom_obs_app, no_lost_app, frames_app, Forall_app. tauto. Qed.
Lemma fine_nil : fine [].
Proof. repeat split; constructor. Qed.

Definition dq (c : conn) : Prop := Forall delivered_content (queued c).
(** one frame of the channel: it is the next one *)
Definition one_ok (ch : Z) (c : conn) (p : Z * frame) (c' : conn) (l : list obs) : Prop :=
  fst p <= 0 /\ (fst p <> AMQP_STATUS_OK -> dq c -> fine l -> on ch (queued c ++ frames l) = on ch (queued c') /\ dq c') /\
  (fst p = AMQP_STATUS_OK -> f_chan (snd p) = ch /\ falive (gens c') (snd p) /\
     (dq c -> fine l -> on ch (queued c ++ frames l) = on ch [snd p] ++ on ch (queued c') /\ delivered_content (snd p) /\ dq c')).
Lemma in_no_hb f l : In f (no_hb l) -> In f l.
Proof. unfold no_hb. rewrite filter_In. tauto. Qed.
Lemma no_hb_idem l : no_hb (no_hb l) = no_hb l.
Proof. unfold no_hb. induction l as [|f l IH]; [reflexivity|]. cbn. destruct (negb _) eqn:H; [cbn; rewrite H, IH; reflexivity|exact IH]. Qed.
Lemma dq_no_hb l : Forall delivered_content (no_hb l) -> Forall delivered_content l.
Proof.
  intros H. apply Forall_forall. intros f Hf. destruct (is_heartbeat f) eqn:Hb.
  - unfold is_heartbeat in Hb. apply Z.eqb_eq in Hb. split; intros K; lia.
  - eapply Forall_forall in H; [exact H|]. unfold no_hb. apply filter_In. rewrite Hb. auto.
Qed.
Lemma no_hb_dq l : Forall delivered_content l -> Forall delivered_content (no_hb l).
Proof. intros H. apply Forall_forall. intros f Hf. apply in_no_hb in Hf. eapply Forall_forall in H; eauto. Qed.
Lemma on_no_hb ch l : on ch (no_hb l) = on ch l.
Proof. unfold on. rewrite no_hb_idem. reflexivity. Qed.

Section Msg.
Context (N : nat) (E : nat -> aenv).
Lemma one_frame ch c ev : qalive c ->
  wp (amqp_simple_wait_frame_on_channel N E ch) c ev (fun p c' _ l => qalive c' /\ one_ok ch c p c' l) (fun _ _ _ => True).
Proof.
  intros Hq. pose proof (al_on_channel N E ch c ev Hq) as H2. pose proof (on_channel_ok N E ch c ev Hq) as H1.
  eapply wp_conseq; [apply (wp_split _ _ _ _ _ _ _ H1 H2)| |auto]. cbv beta. intros [r f] c' ev' l (K & A1 & A2). cbn [fst snd] in *. split; [exact A1|]. unfold one_ok. cbn [fst snd].
  destruct K as [(before & n & after & E1 & E2 & E3 & -> & -> & ->)|(E1 & E2 & [G1 G2 G3 G4 G5 G6 G7])].
  - assert (queued c = map fst before ++ f :: map fst after) as EQ by (unfold queued; rewrite E1, map_app; reflexivity).
    split; [unfold AMQP_STATUS_OK; lia|]. split; [congruence|]. intros _. split; [exact E3|]. split; [apply A2; reflexivity|]. intros Hd _. 
    change (frames []) with (@nil frame). rewrite app_nil_r. unfold dq in *. change (queued (set_queue c after)) with (map fst after). 
    rewrite EQ in *. apply Forall_app in Hd. destruct Hd as [_ Hd]. inversion Hd; subst.
    rewrite on_app, (on_none _ _ E2). change (f :: map fst after) with ([f] ++ map fst after). rewrite on_app. auto.
  - split; [exact E2|]. split.
    + intros Hr Hd (F1 & F2 & F3). rewrite okf_not in * by exact Hr. unfold took in G1. specialize (G1 F1). cbn [opt] in G1. rewrite app_nil_r in G1.
      split; [unfold on; rewrite G1; reflexivity|]. apply dq_no_hb. rewrite <- G1. apply no_hb_dq, Forall_app. auto.
    + intros ->. change (okf AMQP_STATUS_OK f) with (Some f) in *. destruct (G2 f eq_refl) as (P1 & P2 & P3). apply Z.eqb_eq in P1.
      split; [congruence|]. split; [apply A2; reflexivity|]. intros Hd (F1 & F2 & F3). destruct (G3 f eq_refl F1 F2) as (others & O1 & O2 & O3).
      assert (Forall delivered_content (others ++ [f])) as D by (rewrite <- O2; apply no_hb_dq, F3).
      assert (on ch others = []) as Ho. { apply on_none. eapply Forall_impl; [|exact O3]. intros g Hg. apply Z.eqb_neq in Hg. congruence. }
      apply Forall_app in D. destruct D as [D1 D2]. inversion D2; subst.
      split; [|split; [assumption|unfold dq; rewrite O1; apply Forall_app; auto]].
      rewrite O1, !on_app, Ho, app_nil_r, <- (on_no_hb _ (frames l)), O2, on_app, Ho. cbn [app].
      rewrite (on_none _ (queued c)); [rewrite app_nil_r; reflexivity|]. exact E1.
Qed.

Lemma zlen_firstn_all (b : bytes) : firstn (Z.to_nat (zlen b)) b = b.
Proof. apply firstn_all2. unfold zlen. lia. Qed.
Definition body_post (ch : Z) (c : conn) (body : bytes) (k : Z) (p : rpc_reply_t * bytes) (c' : conn) (l : list obs) : Prop :=
  dq c -> fine l -> dq c' /\ exists taken bs, body_outcome ch (zlen body) k taken (fst p) bs /\
    on ch (queued c ++ frames l) = on ch taken ++ on ch (queued c') /\
    match fst p with RNormal _ _ => snd p = firstn (Z.to_nat k) body ++ concat bs | _ => True end.
Lemma read_body_ok ch fuel : forall body k c ev, qalive c -> 0 <= k <= zlen body -> zlen body < M63 ->
  wp (read_body N E fuel ch body k) c ev (fun p c' _ l => body_post ch c body k p c' l) (fun _ _ _ => True).
Proof.
  induction fuel as [|fuel IH]; intros body k c ev Hq Hk Hs; cbn [read_body]; [exact I|].
  destruct (Z.ltb_spec k (zlen body)) as [Hlt|Hge]; cbn [negb].
  2:{ apply wp_ret. intros Hd _. cbn [fst snd]. split; [exact Hd|]. assert (k = zlen body) as -> by lia. exists [], []. split; [constructor|].
      cbn [frames flat_map concat on no_hb filter app]. rewrite !app_nil_r, zlen_firstn_all. auto. }
  apply wp_bind. eapply wp_conseq; [apply one_frame; assumption| |auto]. cbv beta. intros [r f] c1 ev1 l1 (Hq1 & H1 & H2 & H3). cbn [fst snd] in *.
  destruct (Z.eqb_spec r AMQP_STATUS_OK) as [->|Hr]; cbn [negb].
  2:{ apply wp_ret. rewrite app_nil_r. intros Hd Hf. cbn [fst snd]. destruct (H2 Hr Hd Hf) as [E1 E2]. split; [exact E2|]. exists [], []. split; [constructor; [exact Hlt|unfold AMQP_STATUS_OK in Hr; lia]|]. auto. }
  destruct (H3 eq_refl) as (Hc & _ & H4). clear H2 H3.
  assert (forall X : rpc_reply_t, (match X with RNormal _ _ => False | _ => True end) -> body_outcome ch (zlen body) k [f] X [] ->
    wp (ret (X, @nil byte)) c1 ev1
    (fun p c' (_ : list event) l => body_post ch c body k p c' (l1 ++ l)) (fun _ _ _ => True)) as Hend.
  { intros X HX HO. apply wp_ret. rewrite app_nil_r. intros Hd Hf. cbn [fst snd]. destruct (H4 Hd Hf) as (E1 & E2 & E3). split; [exact E3|]. exists [f], []. split; [exact HO|]. split; [exact E1|]. destruct X; tauto. }
  destruct (Z.eqb_spec (f_type f) AMQP_FRAME_BODY) as [Ht|Ht]; cbn [negb].
  2:{ destruct (is_close f) as [[id m]|] eqn:Hcl; apply Hend; try exact I.
      - constructor; [exact Hlt|]. apply is_close_some; assumption.
      - constructor; try assumption. apply is_close_none, Hcl. }
  destruct (f_pay f) as [| | |b|] eqn:Hp; try exact I. pose proof (zlen_nonneg b) as Hb0.
  destruct (Z.ltb_spec (zlen body) (add_size k (zlen b))) as [Hlong|Hfit].
  { apply wp_ret. rewrite app_nil_r. intros Hd Hf. cbn [fst snd]. destruct (H4 Hd Hf) as (E1 & E2 & E3). split; [exact E3|]. exists [f], []. split; [|auto].
    destruct E2 as [_ E2]. destruct (E2 Ht) as (b' & Hb' & Hz). rewrite Hp in Hb'. injection Hb' as <-.
    eapply body_too_long; [exact Hlt|split; [exact Ht|split; [exact Hc|exact Hp]]|]. unfold add_size in Hlong. rewrite Z.mod_small in Hlong by lia. exact Hlong. }
  destruct (write body k b) as [body'|] eqn:Hw; cbn [need]; [|exact I].
  wstep. pose proof (write_len _ _ _ _ Hw) as Hz'.
  pose proof (write_inv _ _ _ _ Hw) as (W1 & W2 & W3). 
  assert (add_size k (zlen b) = k + zlen b) as Ha by (unfold add_size; apply Z.mod_small; lia). rewrite Ha in *.
  eapply wp_conseq; [apply (IH body' (k + zlen b) c1 ev1); [exact Hq1|lia|lia]| |auto]. cbv beta. intros [r2 out] c2 ev2 l2 H2 Hd Hf. apply fine_app in Hf. destruct Hf as [Hf1 Hf2].
  destruct (H4 Hd Hf1) as (E1 & E2 & E3). destruct (H2 E3 Hf2) as (E4 & taken & bs & E5 & E6 & E7). cbn [fst snd] in *. split; [exact E4|].
  exists (f :: taken), (b :: bs). rewrite Hz' in E5. split; [eapply body_fragment; [exact Hlt|repeat split; assumption|exact W2|exact E5]|]. split.
  - rewrite frames_app, app_assoc, on_app, E1. change (f :: taken) with ([f] ++ taken). rewrite (on_app ch [f] taken), <- !app_assoc, <- E6, on_app. reflexivity.
  - destruct r2; try exact I. cbn [concat]. rewrite E7, W3, app_assoc. f_equal. unfold patch. 
    assert (length body = length body') as HL by (unfold zlen in Hz'; lia).
    assert (length (firstn (Z.to_nat k) body) = Z.to_nat k) as HL1 by (rewrite firstn_length; unfold zlen in *; lia).
    replace (Z.to_nat (k + zlen b)) with (length (firstn (Z.to_nat k) body ++ b)) by (rewrite app_length, HL1; unfold zlen in *; lia).
    rewrite app_assoc, firstn_app, Nat.sub_diag, firstn_all. cbn [firstn]. apply app_nil_r.
Qed.

Lemma alloc_fine b : frames [OAlloc b] = [].
Proof. reflexivity. Qed.
Definition msg_post (ch : Z) (c : conn) (p : rpc_reply_t * option message) (c' : conn) (l : list obs) : Prop :=
  dq c -> fine l -> dq c' /\ exists taken, message_outcome ch (fun f => can_be_read_again N E c' f (tl (queued c'))) taken (fst p) (snd p) /\
    on ch (queued c ++ frames l) = on ch taken ++ on ch (queued c').
Lemma put_back_q f c ev : qalive c -> falive (gens c) f ->
  wp (amqp_put_back_frame f) c ev
    (fun _ c' _ l => (exists b, l = [OAlloc b]) /\ (no_oom_obs l -> can_be_read_again N E c' f (queued c) /\ queued c' = f :: queued c)) (fun _ _ _ => True).
Proof.
  intros Hq Hf. assert (wp (amqp_put_back_frame f) c ev (fun _ c' _ l => no_oom_obs l -> queued c' = f :: queued c) (fun _ _ _ => True)) as H2.
  { unfold amqp_put_back_frame, create_link, wp, bind, sys_alloc, get, ret, upd. destruct ev as [|[] ev]; try exact I. destruct ok; cbn [app]; [reflexivity|]. intros H. inversion H; discriminate. }
  eapply wp_conseq; [apply (wp_split _ _ _ _ _ _ _ (put_back_ok N E f c ev Hq Hf) H2)| |auto]. cbv beta. intros a c' ev' l [[K1 K2] K3]. auto.
Qed.

Lemma read_message_ok ch c ev : qalive c ->
  wp (amqp_read_message N E ch) c ev (fun p c' _ l => msg_post ch c p c' l) (fun _ _ _ => True).
Proof.
  intros Hq. unfold amqp_read_message. apply wp_bind. eapply wp_conseq; [apply one_frame; assumption| |auto]. cbv beta. intros [r f] c1 ev1 l1 (Hq1 & H1 & H2 & H3). cbn [fst snd] in *.
  destruct (Z.eqb_spec r AMQP_STATUS_OK) as [->|Hr]; cbn [negb].
  2:{ apply wp_ret. rewrite app_nil_r. intros Hd Hf. cbn [fst snd]. destruct (H2 Hr Hd Hf) as [E1 E2]. split; [exact E2|]. exists []. split; [apply msg_wait_failed; unfold AMQP_STATUS_OK in Hr; lia|exact E1]. }
  destruct (H3 eq_refl) as (Hc & Hfa & H4). clear H2 H3.
  destruct (Z.eqb_spec (f_type f) AMQP_FRAME_HEADER) as [Ht|Ht]; cbn [negb].
  2:{ destruct (is_close f) as [[id m]|] eqn:Hcl.
      - apply wp_ret. rewrite app_nil_r. intros Hd Hf. cbn [fst snd]. destruct (H4 Hd Hf) as (E1 & E2 & E3). split; [exact E3|]. exists [f]. split; [apply msg_closed, is_close_some; assumption|exact E1].
      - apply wp_bind. eapply wp_conseq; [apply put_back_q; assumption| |auto]. cbv beta. intros a c2 ev2 l2 [(b & ->) K]. apply wp_ret. rewrite app_nil_r. intros Hd Hf. cbn [fst snd].
        apply fine_app in Hf. destruct Hf as [Hf1 Hf2]. destruct (H4 Hd Hf1) as (E1 & E2 & E3). destruct (K (proj1 Hf2)) as [K1 K2]. split; [unfold dq; rewrite K2; constructor; assumption|].
        exists []. split; [apply (msg_unexpected _ _ f); try assumption; [apply is_close_none, Hcl|rewrite K2; exact K1]|]. rewrite frames_app, alloc_fine, app_nil_r, E1, K2. change (f :: queued c1) with ([f] ++ queued c1). rewrite on_app. reflexivity. }
  destruct (f_pay f) as [| |cls size p enc| |] eqn:Hp; try exact I.
  apply wp_bind. unfold sys_clone at 1, wp at 1. destruct ev1 as [|[| | | | | |oom] ev2]; try exact I. cbn [app].
  destruct (amqp_basic_properties_clone oom p) as [res|] eqn:Hcl; cbn [need]; [|exact I]. wstep.
  assert (header_frame ch f size p) as Hh by (split; [exact Ht|split; [exact Hc|eauto]]).
  destruct res as [e|p'].
  { apply wp_ret. rewrite ?app_nil_r. intros Hd Hf. cbn [fst snd]. destruct (H4 Hd Hf) as (E1 & E2 & E3). split; [exact E3|]. exists [f]. split; [|exact E1].
    eapply msg_no_memory; [exact Hh|]. destruct E2 as [E2 _]. destruct (E2 Ht) as (s' & q & enc' & oo & n & Hp' & _ & Hdec). rewrite Hp in Hp'. injection Hp' as -> -> -> ->.
    destruct (clone_basic _ _ _ _ Hdec oom) as [K|(e' & K & Hk)]; rewrite Hcl in K; [discriminate|]. injection K as <-. exact Hk. }
  apply wp_bind.
  assert (wp (if size =? 0 then ret true else sys_malloc size) c1 ev2
    (fun b c' _ l => c' = c1 /\ frames l = [] /\ (b = true -> size < M63)) (fun _ _ _ => True)) as Hm.
  { destruct (Z.eqb_spec size 0); [apply wp_ret; repeat split; lia|]. unfold sys_malloc, sys_alloc, wp, bind, ret. destruct ev2 as [|[] ev2]; try exact I. repeat split.
    intros K. apply andb_true_iff in K. destruct K as [_ K]. apply Z.ltb_lt in K. exact K. }
  eapply wp_conseq; [exact Hm| |auto]. cbv beta. intros ok c2 ev3 l3 (-> & Hl3 & Hok). destruct ok; cbn [negb].
  2:{ apply wp_ret. rewrite ?app_nil_r. intros Hd Hf. cbn [fst snd]. apply fine_app in Hf. destruct Hf as [Hf1 Hf2]. destruct (H4 Hd Hf1) as (E1 & E2 & E3). split; [exact E3|]. exists [f].
      split; [eapply msg_no_memory; eauto|]. rewrite frames_app, Hl3, app_nil_r. exact E1. }
  specialize (Hok eq_refl). apply wp_bind.
  assert (0 <= zlen (repeat x00 (Z.to_nat size)) < M63) as Hsz by (unfold zlen; rewrite repeat_length; lia).
  eapply wp_conseq; [apply (read_body_ok ch N (repeat x00 (Z.to_nat size)) 0 c1 ev3); [exact Hq1|lia|lia]| |auto]. cbv beta. intros [r2 out] c4 ev4 l4 HB.
  apply wp_ret. rewrite ?app_nil_r. intros Hd Hf. cbn [fst snd]. apply fine_app in Hf. destruct Hf as [Hf1 Hf2]. apply fine_app in Hf2. destruct Hf2 as [Hf2 Hf3].
  destruct (H4 Hd Hf1) as (E1 & E2 & E3). destruct (HB E3 Hf3) as (B1 & taken & bs & B2 & B3 & B4). cbn [fst snd] in *. split; [exact B1|].
  destruct E2 as [E2 _]. destruct (E2 Ht) as (s' & q & enc' & oo & n & Hp' & Hs' & Hdec). rewrite Hp in Hp'. injection Hp' as -> -> -> ->.
  assert (p' = q) as ->. { destruct (clone_basic _ _ _ _ Hdec oom) as [K|(e' & K & Hk)]; rewrite Hcl in K; [|discriminate]. injection K as ->. reflexivity. }
  assert (zlen (repeat x00 (Z.to_nat s')) = s') as Hz by (unfold zlen; rewrite repeat_length; lia). rewrite Hz in B2.
  exists (f :: taken). split.
  - replace (match r2 with RNormal _ _ => Some (mkMsg q out) | _ => None end) with (if_normal r2 (mkMsg q (concat bs))).
    { eapply msg_header; [exact Hh|lia|exact B2]. }
    destruct r2; try reflexivity. cbn [if_normal]. rewrite B4. cbn [Z.to_nat firstn app]. reflexivity.
  - rewrite !frames_app, Hl3. cbn [app]. rewrite app_assoc, on_app, E1. change (f :: taken) with ([f] ++ taken). rewrite (on_app ch [f] taken), <- !app_assoc, <- B3, on_app. reflexivity.
Qed.
End Msg.

(** *** amqp_consume_message *)
(** the arguments of a basic.deliver *)
Definition deliver_args (ctag : bytes) (dtag redelivered : Z) (ex rk : bytes) : mstruct :=
  [("consumer_tag", VBytes ctag); ("delivery_tag", VInt dtag); ("redelivered", VBool redelivered); ("exchange", VBytes ex); ("routing_key", VBytes rk)]%string.
(** Every return of the call: the next frame of the connection was a basic.deliver,
    and a message was read from its channel (or memory ran out); it was something
    else, and is put back; or waiting failed. *)
Inductive consume_outcome (N : nat) (E : nat -> aenv) (c c' : conn) (l : list obs) : rpc_reply_t -> option envelope -> Prop :=
| consumed f ctag dtag red ex rk rest l1 l2 taken r m : l = l1 ++ l2 -> next_frame c l1 f rest ->
    carries deliver f (method_id 60 60) (deliver_args ctag dtag red ex rk) ->
    message_outcome (f_chan f) (fun g => can_be_read_again N E c' g (tl (queued c'))) taken r m ->
    on (f_chan f) (rest ++ frames l2) = on (f_chan f) taken ++ on (f_chan f) (queued c') ->
    consume_outcome N E c c' l r (option_map (mkEnv (f_chan f) ctag dtag red ex rk) m)
| consumed_other f rest : next_frame c l f rest -> (forall id args, ~ carries deliver f id args) -> can_be_read_again N E c' f rest ->
    consume_outcome N E c c' l (RLibrary AMQP_STATUS_UNEXPECTED_STATE) None
| consumed_none st : st < 0 -> no_hb (queued c') = no_hb (queued c ++ frames l) -> consume_outcome N E c c' l (RLibrary st) None.

(** the basic.deliver methods among the frames have the arguments of a basic.deliver *)
Definition delivered_deliver (f : frame) : Prop :=
  forall args, carries deliver f (method_id 60 60) args -> exists ctag dtag red ex rk, args = deliver_args ctag dtag red ex rk.

Section Consume2.
Context (N : nat) (E : nat -> aenv).
Lemma next_in f c l rest : next_frame c l f rest -> In f (queued c ++ frames l).
Proof.
  intros [[-> _]|(_ & _ & pre & -> & _)]; [left; reflexivity|]. apply in_or_app; right. apply in_or_app; right; left; reflexivity.
Qed.
Lemma next_dq P f c l rest : next_frame c l f rest -> Forall P (queued c ++ frames l) -> no_lost l -> Forall P rest.
Proof.
  intros [[H _]|(_ & _ & pre & Hp & Hr)] HF HL; [|destruct (Hr HL) as [_ ->]; constructor]. rewrite H in HF. inversion HF; subst. apply Forall_app in H3. apply H3.
Qed.
Lemma consume_full t c ev : qalive c ->
  wp (amqp_consume_message N E t) c ev
    (fun p c' _ l => dq c -> fine l -> Forall delivered_deliver (queued c ++ frames l) -> consume_outcome N E c c' l (fst p) (snd p)) (fun _ _ _ => True).
Proof.
  intros Hq. unfold amqp_consume_message. apply wp_bind. eapply wp_conseq; [apply noblock_next, Hq| |auto]. cbv beta.
  intros [r f] c1 ev1 l1 (Hn & Hq1 & Hf). cbn [fst snd] in *. unfold fresh_ok in Hf. cbn [fst snd] in Hf.
  destruct (Z.eqb_spec r AMQP_STATUS_OK) as [->|Hr]; cbn [negb].
  2:{ apply wp_ret. rewrite app_nil_r. cbn [fst snd]. destruct Hn as [H1 H2 H3 H4 H5 H6 H7 H8 H9 H10]. intros _ (Ho & _) _. apply consumed_none; [unfold AMQP_STATUS_OK in *; lia|]. symmetry. apply H6; assumption. }
  specialize (Hf eq_refl). pose proof (nexted_next N E _ _ _ _ Hn) as Hx.
  assert ((forall id args, ~ carries deliver f id args) ->
    wp (bind (amqp_put_back_frame f) (fun _ => ret (RLibrary AMQP_STATUS_UNEXPECTED_STATE, @None envelope))) c1 ev1
      (fun p c' (_ : list event) l => dq c -> fine (l1 ++ l) -> Forall delivered_deliver (queued c ++ frames (l1 ++ l)) -> consume_outcome N E c c' (l1 ++ l) (fst p) (snd p)) (fun _ _ _ => True)) as Hpb.
  { intros Hno. apply wp_bind. eapply wp_conseq; [apply put_back_ok; eassumption| |auto]. cbv beta. intros st c2 ev2 l2 [(b & ->) H2].
    apply wp_ret. rewrite app_nil_r. cbn [fst snd]. intros _ Hfi _. eapply consumed_other; [apply next_frame_more; [exact Hx|apply alloc_input]|exact Hno|].
    apply fine_app in Hfi. destruct Hfi as [_ [Ho _]]. apply H2, Ho. }
  destruct (Z.eqb_spec (f_type f) AMQP_FRAME_METHOD) as [Ht|Ht].
  2:{ apply Hpb. intros id args (K & _). apply Ht. exact K. }
  unfold method_of. destruct (f_pay f) as [|id m| | |] eqn:Hp; try (apply Hpb; intros id' args (_ & K & _); congruence).
  destruct (Z.eqb_spec id BASIC_DELIVER) as [->|Hid].
  2:{ apply Hpb. intros id' args (_ & K & Hin). rewrite Hp in K. injection K as -> ->. cbn in Hin. unfold BASIC_DELIVER in *. destruct Hin as [K|[]]; unfold method_id in K; lia. }
  assert (carries deliver f (method_id 60 60) m) as Hcar by (split; [exact Ht|split; [exact Hp|left; reflexivity]]).
  destruct (get_bytes "consumer_tag" m) as [ct|] eqn:A1; cbn [need]; [|exact I]. wstep.
  destruct (get_int "delivery_tag" m) as [dt|] eqn:A2; cbn [need]; [|exact I]. wstep.
  destruct (get_bool "redelivered" m) as [rd|] eqn:A3; cbn [need]; [|exact I]. wstep.
  destruct (get_bytes "exchange" m) as [ex|] eqn:A4; cbn [need]; [|exact I]. wstep.
  destruct (get_bytes "routing_key" m) as [rk|] eqn:A5; cbn [need]; [|exact I]. wstep.
  apply wp_bind. unfold sys_alloc at 1, wp at 1. destruct ev1 as [|[| | | | |ok|] ev2]; try exact I. destruct ok; cbn [negb].
  2:{ apply wp_ret. intros _ Hfi. apply fine_app in Hfi. destruct Hfi as [_ (Ho & _)]. cbn [app] in Ho. inversion Ho; discriminate. }
  apply wp_bind. eapply wp_conseq; [apply read_message_ok, Hq1| |auto]. cbv beta. intros [r2 msg] c3 ev3 l3 HM. apply wp_ret. rewrite ?app_nil_r. cbn [fst snd]. intros Hd Hfi HD.
  apply fine_app in Hfi. destruct Hfi as [Hf1 Hf2]. apply fine_app in Hf2. destruct Hf2 as [Hf2 Hf3].
  assert (dq c1) as Hd1. { apply (next_dq _ _ _ _ _ Hx); [apply Forall_app; split; [exact Hd|apply Hf1]|apply Hf1]. }
  destruct (HM Hd1 Hf3) as (_ & taken & M1 & M2). cbn [fst snd] in *.
  assert (delivered_deliver f) as HDf. { eapply Forall_forall in HD; [exact HD|]. rewrite frames_app, app_assoc. apply in_or_app. left. apply (next_in _ _ _ _ Hx). }
  destruct (HDf m Hcar) as (ct' & dt' & rd' & ex' & rk' & ->). cbn in A1, A2, A3, A4, A5. injection A1 as ->; injection A2 as ->; injection A3 as ->; injection A4 as ->; injection A5 as ->.
  replace (match msg with Some msg => Some (mkEnv (f_chan f) ct dt rd ex rk msg) | None => None end) with (option_map (mkEnv (f_chan f) ct dt rd ex rk) msg) by (destruct msg; reflexivity).
  eapply (consumed N E c c3 _ f ct dt rd ex rk (queued c1) l1 ([OAlloc true] ++ l3) taken); auto.
Qed.
End Consume2.

(** ** C42 *)
(** A call of amqp_read_message that returns, on a connection with any frames
    pending, in any schedule.  [taken]: the frames it used up; they are exactly the
    first ones of the channel, in order, among those pending and those received,
    and the others of the channel are still pending. *)
Theorem C42_read_message :
  forall (N : nat) (E : nat -> aenv) (ch : Z) (c c' : conn) (ev ev' : list event) (l : list obs)
         (r : rpc_reply_t) (m : option message),
    Forall (entry_valid c) (c_queue c) -> Forall delivered_content (queued c ++ frames l) ->
    amqp_read_message N E ch c ev = Done (r, m) c' ev' l -> no_oom_obs l -> no_lost l ->
    exists taken,
      message_outcome ch (fun f => can_be_read_again N E c' f (tl (queued c'))) taken r m /\
      on ch (queued c ++ frames l) = on ch taken ++ on ch (queued c').
Proof.
  intros N E ch c c' ev ev' l r m Hv Hd Hrun Ho Hl. apply valid_qalive in Hv. apply Forall_app in Hd. destruct Hd as [Hd1 Hd2].
  pose proof (read_message_ok N E ch c ev Hv) as H. unfold wp in H. rewrite Hrun in H. destruct (H Hd1) as (_ & taken & H1 & H2); [repeat split; assumption|]. eauto.
Qed.
(** In particular: on success the message has the properties of the content header
    and its body has the announced length and is the concatenation of the payloads
    of the body frames after it, as many as needed and no more. *)
Lemma body_normal ch size k fs r bs : body_outcome ch size k fs r bs -> r = RNormal 0 [] ->
  Forall2 (body_frame ch) fs bs /\ k + zlen (concat bs) = size /\
  (forall bs1 b bs2, bs = bs1 ++ b :: bs2 -> k + zlen (concat bs1) < size).
Proof.
  induction 1; intros Hr; try discriminate.
  - split; [constructor|]. split; [change (zlen (concat [])) with 0; lia|]. intros [] ? ?; discriminate.
  - destruct (IHbody_outcome Hr) as (I1 & I2 & I3). split; [constructor; assumption|]. split; [cbn [concat]; rewrite zlen_app; lia|].
    intros [|b1 bs1] b2 bs2 Hb; cbn [app] in Hb; injection Hb as <- ->; [change (zlen (concat [])) with 0; lia|]. specialize (I3 _ _ _ eq_refl). cbn [concat]. rewrite zlen_app. lia.
Qed.
Lemma body_reply ch size k fs r bs : body_outcome ch size k fs r bs -> forall i d, r = RNormal i d -> i = 0 /\ d = [].
Proof. induction 1; intros i d K; try discriminate; [injection K as <- <-; auto|eauto]. Qed.
Theorem C42_message :
  forall (N : nat) (E : nat -> aenv) (ch : Z) (c c' : conn) (ev ev' : list event) (l : list obs)
         (r : rpc_reply_t) (p : props) (body : bytes),
    Forall (entry_valid c) (c_queue c) -> Forall delivered_content (queued c ++ frames l) ->
    amqp_read_message N E ch c ev = Done (r, Some (mkMsg p body)) c' ev' l -> no_oom_obs l -> no_lost l ->
    r = RNormal 0 [] /\
    exists header fragments payloads,
      on ch (queued c ++ frames l) = header :: fragments ++ on ch (queued c') /\
      header_frame ch header (zlen body) p /\ Forall2 (body_frame ch) fragments payloads /\ body = concat payloads /\
      (forall before b after, payloads = before ++ b :: after -> zlen (concat before) < zlen body).
Proof.
  intros N E ch c c' ev ev' l r p body Hv Hd Hrun Ho Hl. destruct (C42_read_message N E ch c c' ev ev' l r _ Hv Hd Hrun Ho Hl) as (taken & H & HE).
  inversion H as [h size q fs r' bs Hh Hs Hb Et Er Em| | | |]; subst. unfold if_normal in Em. destruct r; try discriminate. injection Em as -> <-.
  assert (RNormal id decoded = RNormal 0 []) as Hr by (destruct (body_reply _ _ _ _ _ _ Hb id decoded eq_refl) as [-> ->]; reflexivity).
  split; [exact Hr|]. destruct (body_normal _ _ _ _ _ _ Hb Hr) as (B1 & B2 & B3). exists h, fs, bs.
  assert (on ch (h :: fs) = h :: fs) as Hon.
  { clear -Hh B1. assert (Forall (fun f => f_chan f = ch /\ f_type f <> 8) (h :: fs)) as HF.
    { constructor; [destruct Hh as (T & C & _); split; [exact C|lia]|]. clear Hh. induction B1 as [|f b fs' bs' (T & C & _) B1 IH]; constructor; auto. split; [exact C|lia]. }
    clear -HF. induction HF as [|f fs' [C T] HF IH]; [reflexivity|]. change (f :: fs') with ([f] ++ fs'). rewrite on_app, IH. unfold on, no_hb, is_heartbeat. cbn.
    destruct (Z.eqb_spec (f_type f) 8); [contradiction|]. cbn. rewrite C, Z.eqb_refl. reflexivity. }
  split; [rewrite HE, Hon; reflexivity|]. assert (zlen (concat bs) = size) as Hz by lia. rewrite Hz. auto.
Qed.

(** The hypotheses hold in every session (see C56 for the conditions on the calls;
    the server uses content headers of class basic); with heartbeats off, no bytes
    are lost. *)
Lemma typed_deliver f : typed f -> delivered_deliver f.
Proof.
  intros Ht args (H1 & H2 & _). destruct (typed_method f Ht H1) as (id & m & Hp & _ & Hw & _). rewrite H2 in Hp. injection Hp as <- <-.
  change (method_id 60 60) with BASIC_DELIVER in Hw. destruct (deliver_members args Hw) as (ct & dt & rd & ex & rk & ->). exists ct, dt, rd, ex, rk. reflexivity.
Qed.
Lemma session_content N E calls a c c1 c2 ev ev1 ev2 os o l1 l2 :
    Forall arguments_ok calls -> arguments_ok a ->
    idle (c_in c) -> c_queue c = [] -> 0 <= frame_max c < M30 -> zlen (c_outbuf c) < M31 ->
    exec_all N E calls c ev = Done os c1 ev1 l1 -> exec N E a c1 ev1 = Done o c2 ev2 l2 ->
    Forall basic_content (frames (l1 ++ l2)) ->
    Forall (entry_valid c1) (c_queue c1) /\ Forall delivered_content (queued c1 ++ frames l2) /\ Forall delivered_deliver (queued c1 ++ frames l2).
Proof.
  intros Ha Haa Hi Hq Hf Hb Hrun1 Hrun2 HF. rewrite frames_app in HF. apply Forall_app in HF. destruct HF as [HF1 HF2].
  assert (qalive c) as Q0 by (unfold qalive; rewrite Hq; reflexivity).
  pose proof (al_exec_all N E calls c ev Q0) as Al. unfold wp in Al. rewrite Hrun1 in Al. destruct Al as [Al _]. 
  set (U := fun (s : stop) (c : conn) => True).
  pose proof (ty_exec_all N E basic_content U ltac:(intros; exact I) ltac:(intros; exact I) ltac:(intros; exact I) ltac:(intros; exact I) basic_content_header calls) as T.
  assert (Forall call_fine calls) as Hfine by (eapply Forall_impl; [|exact Ha]; apply arguments_fine).
  assert (J basic_content c) as HJ. { split; [apply idle_in_ok; assumption|]. split; [|exact Hb]. unfold queued. rewrite Hq. constructor. }
  specialize (T Hfine c ev HJ). unfold wp in T. rewrite Hrun1 in T. destruct (T HF1) as (HJ1 & _ & _).
  pose proof (ty_exec N E basic_content U ltac:(intros; exact I) ltac:(intros; exact I) ltac:(intros; exact I) ltac:(intros; exact I) basic_content_header a c1 (arguments_fine a Haa) ev1 HJ1) as T2.
  unfold wp in T2. rewrite Hrun2 in T2. destruct (T2 HF2) as (_ & T3 & _).
  assert (forall f, typed f -> basic_content f -> delivered_content f) as TD.
  { intros f (_ & K2 & K3) HB. split.
    - intros Ht. destruct (K2 Ht) as (cls & size & p & enc & oom & n & E1 & E2 & E3 & E4). unfold basic_content in HB. rewrite E1 in HB. subst cls. exists size, p, enc, oom, n. auto.
    - intros Ht. destruct (K3 Ht) as (b & E1 & E2). eauto. }
  destruct HJ1 as (_ & HJ1 & _).
  split; [apply valid_qalive, Al|]. split; apply Forall_app; split.
  - eapply Forall_impl; [|exact HJ1]. intros f [K1 K2]. auto.
  - apply Forall_forall. intros f Hin. apply TD; [eapply Forall_forall in T3; eauto|eapply Forall_forall in HF2; eauto].
  - eapply Forall_impl; [|exact HJ1]. intros f [K1 K2]. apply typed_deliver, K1.
  - eapply Forall_impl; [|exact T3]. apply typed_deliver.
Qed.
Lemma session_facts N E calls a c c1 c2 ev ev1 ev2 os o l1 l2 :
    Forall arguments_ok calls -> arguments_ok a -> Forall no_heartbeat calls -> no_heartbeat a -> off c ->
    idle (c_in c) -> c_queue c = [] -> 0 <= frame_max c < M30 -> zlen (c_outbuf c) < M31 ->
    exec_all N E calls c ev = Done os c1 ev1 l1 -> exec N E a c1 ev1 = Done o c2 ev2 l2 ->
    Forall basic_content (frames (l1 ++ l2)) ->
    Forall (entry_valid c1) (c_queue c1) /\ Forall delivered_content (queued c1 ++ frames l2) /\ Forall delivered_deliver (queued c1 ++ frames l2) /\ no_lost l2.
Proof.
  intros Ha Haa Hn Hnn Hoff Hi Hq Hf Hb Hrun1 Hrun2 HF.
  destruct (session_content N E calls a c c1 c2 ev ev1 ev2 os o l1 l2 Ha Haa Hi Hq Hf Hb Hrun1 Hrun2 HF) as (S1 & S2 & S3).
  pose proof (of_exec_all N E calls c Hn ev Hoff) as O1. unfold wp in O1. rewrite Hrun1 in O1. destruct O1 as (O1 & _ & _).
  pose proof (of_exec_all N E [a] c1 ltac:(repeat constructor; assumption) ev1 O1) as O2. cbn [exec_all] in O2. unfold wp, bind at 1 in O2. rewrite Hrun2 in O2. cbn [ret bind] in O2. 
  assert (no_lost l2) as NL. { destruct O2 as (_ & O2 & _). rewrite ?app_nil_r in O2. exact O2. }
  auto.
Qed.
Theorem C42_session :
  forall (N : nat) (E : nat -> aenv) (calls : list api) (ch : Z) (c c1 c2 : conn) (ev ev1 ev2 : list event) (os : list outcome_t)
         (l1 l2 : list obs) (r : rpc_reply_t) (m : option message),
    Forall arguments_ok calls -> Forall no_heartbeat calls -> off c ->
    idle (c_in c) -> c_queue c = [] -> 0 <= frame_max c < M30 -> zlen (c_outbuf c) < M31 ->
    exec_all N E calls c ev = Done os c1 ev1 l1 ->
    amqp_read_message N E ch c1 ev1 = Done (r, m) c2 ev2 l2 ->
    Forall basic_content (frames (l1 ++ l2)) -> no_oom_obs l2 ->
    exists taken,
      message_outcome ch (fun f => can_be_read_again N E c2 f (tl (queued c2))) taken r m /\
      on ch (queued c1 ++ frames l2) = on ch taken ++ on ch (queued c2).
Proof.
  intros N E calls ch c c1 c2 ev ev1 ev2 os l1 l2 r m Ha Hn Hoff Hi Hq Hf Hb Hrun1 Hrun2 HF Ho.
  assert (exec N E (ReadMessage ch) c1 ev1 = Done (OutMessage r m) c2 ev2 l2) as Hx. { cbn [exec]. unfold bind. rewrite Hrun2. cbn [ret]. rewrite app_nil_r. reflexivity. }
  destruct (session_facts N E calls (ReadMessage ch) c c1 c2 ev ev1 ev2 os _ l1 l2 Ha I Hn I Hoff Hi Hq Hf Hb Hrun1 Hx HF) as (S1 & S2 & S3 & S4).
  eapply C42_read_message; eauto.
Qed.

(** The server sends a message on channel 2 in two fragments, with a basic.ack on
    channel 3 in between, and a method for channel 2 after it. *)
Definition a_header : aframe := AContent 5 32768 [("content_type", VBytes [x61; x2f; x62])]%string [(("content_type", ShortStr), VBytes [x61; x2f; x62])]%string.
Definition mixed_stream : list (Z * aframe) := [(2, a_header); (2, ABody [x68; x65]); (3, sample_ack); (0, AHeartbeat); (2, ABody []); (2, ABody [x6c; x6c; x6f]); (2, sample_ack)].
Example C42_case :
  match exec_all 100 plain_env [ReadMessage 2; WaitFrame None; WaitFrame None] ready
    [EvRecv (ROk (firstn 30 (ser mixed_stream))); EvClone (fun _ => false); EvAlloc true; EvRecv (ROk (skipn 30 (ser mixed_stream))); EvAlloc true] with
  | Done os c' _ l =>
      os = [OutMessage (RNormal 0 []) (Some (mkMsg (mkProps 32768 [("content_type", VBytes [x61; x2f; x62])]%string) [x68; x65; x6c; x6c; x6f]));
            OutFrame 0 (received_frame 0 3 sample_ack); OutFrame 0 (received_frame 0 2 sample_ack)] /\
      no_oom_obs l /\ no_lost l
  | Halt _ _ _ => False
  end.
Proof. vm_compute. split; [reflexivity|]. split; repeat constructor. Qed.
(** Too much body. *)
Example C42_case_long :
  match exec_all 100 plain_env [ReadMessage 2; WaitFrame None] ready
    [EvRecv (ROk (ser [(2, a_header); (2, ABody [x68; x65]); (2, ABody [x68; x65; x6c; x6c; x6f]); (2, sample_ack)])); EvClone (fun _ => false); EvAlloc true] with
  | Done os c' _ l => os = [OutMessage (RLibrary AMQP_STATUS_BAD_AMQP_DATA) None; OutFrame 0 (received_frame 0 2 sample_ack)]
  | Halt _ _ _ => False
  end.
Proof. vm_compute. reflexivity. Qed.

(** A content header of another class (50, queue) whose flags word has the bit of
    content-type set: its properties are not those of class basic, and the library
    copies them as if they were. *)
Definition foreign_header : bytes := wire 2 2 (be 2 50 ++ be 2 0 ++ be 8 0 ++ [x80; x00]).
Theorem C42_foreign_header_refuted :
  match exec_all 100 plain_env [ReadMessage 2] ready [EvRecv (ROk foreign_header); EvClone (fun _ => false)] with
  | Halt UB _ l => map f_type (frames l) = [2] /\ in_bytes l = foreign_header
  | _ => False
  end.
Proof. vm_compute. split; reflexivity. Qed.
(** A connection.close (on channel 0) does not end the wait for the body: it is
    queued, and the call goes on waiting, although the server will send nothing
    more. *)
Definition connection_close : aframe :=
  AMethod 10 50 [("reply_code", Short); ("reply_text", ShortStr); ("class_id", Short); ("method_id", Short)]%string
    [("reply_code", VInt 320); ("reply_text", VBytes []); ("class_id", VInt 0); ("method_id", VInt 0)]%string.
Theorem C42_connection_close_refuted :
  match exec_all 100 plain_env [ReadMessage 2] ready
    [EvRecv (ROk (ser [(2, a_header); (2, ABody [x68; x65]); (0, connection_close)])); EvClone (fun _ => false); EvAlloc true; EvAlloc true; EvRecv RAgain] with
  | Halt Blocked c' l => queued c' = [received_frame 0 0 connection_close]
  | _ => False
  end.
Proof. vm_compute. reflexivity. Qed.

(** ** C48: the message of a delivery *)
Theorem C48_consume_message :
  forall (N : nat) (E : nat -> aenv) (timeout : option timeval) (c c' : conn) (ev ev' : list event) (l : list obs)
         (r : rpc_reply_t) (e : option envelope),
    Forall (entry_valid c) (c_queue c) -> Forall delivered_content (queued c ++ frames l) -> Forall delivered_deliver (queued c ++ frames l) ->
    amqp_consume_message N E timeout c ev = Done (r, e) c' ev' l -> no_oom_obs l -> no_lost l ->
    consume_outcome N E c c' l r e.
Proof.
  intros N E t c c' ev ev' l r e Hv Hd Hdd Hrun Ho Hl. apply valid_qalive in Hv. apply Forall_app in Hd. destruct Hd as [Hd1 Hd2].
  pose proof (consume_full N E t c ev Hv) as H. unfold wp in H. rewrite Hrun in H. apply H; [exact Hd1| |exact Hdd]. repeat split; assumption.
Qed.
Theorem C48_session :
  forall (N : nat) (E : nat -> aenv) (calls : list api) (timeout : option timeval) (c c1 c2 : conn) (ev ev1 ev2 : list event) (os : list outcome_t)
         (l1 l2 : list obs) (r : rpc_reply_t) (e : option envelope),
    Forall arguments_ok calls -> Forall no_heartbeat calls -> off c ->
    idle (c_in c) -> c_queue c = [] -> 0 <= frame_max c < M30 -> zlen (c_outbuf c) < M31 ->
    exec_all N E calls c ev = Done os c1 ev1 l1 ->
    amqp_consume_message N E timeout c1 ev1 = Done (r, e) c2 ev2 l2 ->
    Forall basic_content (frames (l1 ++ l2)) -> no_oom_obs l2 ->
    consume_outcome N E c1 c2 l2 r e.
Proof.
  intros N E calls t c c1 c2 ev ev1 ev2 os l1 l2 r m Ha Hn Hoff Hi Hq Hf Hb Hrun1 Hrun2 HF Ho.
  assert (exec N E (ConsumeMessage t) c1 ev1 = Done (OutEnvelope r m) c2 ev2 l2) as Hx. { cbn [exec]. unfold bind. rewrite Hrun2. cbn [ret]. rewrite app_nil_r. reflexivity. }
  destruct (session_facts N E calls (ConsumeMessage t) c c1 c2 ev ev1 ev2 os _ l1 l2 Ha I Hn I Hoff Hi Hq Hf Hb Hrun1 Hx HF) as (S1 & S2 & S3 & S4).
  eapply C48_consume_message; eauto.
Qed.
Definition sample_deliver : aframe :=
  AMethod 60 60 [("consumer_tag", ShortStr); ("delivery_tag", Longlong); ("redelivered", Bit); ("exchange", ShortStr); ("routing_key", ShortStr)]%string
    (deliver_args [x63] 9 1 [x65] [x6b]).
Example C48_case_consume :
  match exec_all 100 plain_env [ConsumeMessage None] ready
    [EvRecv (ROk (ser ((2, sample_deliver) :: mixed_stream))); EvAlloc true; EvClone (fun _ => false); EvAlloc true; EvAlloc true] with
  | Done os c' _ l =>
      os = [OutEnvelope (RNormal 0 []) (Some (mkEnv 2 [x63] 9 1 [x65] [x6b] (mkMsg (mkProps 32768 [("content_type", VBytes [x61; x2f; x62])]%string) [x68; x65; x6c; x6c; x6f])))] /\
      no_oom_obs l /\ no_lost l
  | Halt _ _ _ => False
  end.
Proof. vm_compute. split; [reflexivity|]. split; repeat constructor. Qed.

Print Assumptions C42_read_message.
Print Assumptions C42_message.
Print Assumptions C42_session.
Print Assumptions C42_foreign_header_refuted.
Print Assumptions C42_connection_close_refuted.
Print Assumptions C48_consume_message.
Print Assumptions C48_session.
