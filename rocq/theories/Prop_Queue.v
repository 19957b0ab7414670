(** C36, C37: the queue of pending frames. *)
From Coq Require Import String ZArith List Bool Lia.
From Verif Require Import Base BaseFacts Codec TableModel TableSpec TableOps FramingStmt FramingGen FramingModel MethodSpec
  Frame FrameSpec Time Sasl Net NetApi NetSpec NetFacts NetSend NetRecv NetWalk NetAcct NetOrder NetWait NetOff NetCalls EncStatus NetRpc NetOffAll NetChan Queue Prop_Frame Prop_Send Prop_Release Prop_Rpc.
Import ListNotations.
Local Open Scope Z_scope.

(** ** The specification: a list *)
(** the first frame of a channel, what is before it and what is after it *)
Fixpoint split_on (ch : Z) (q : list frame) : list frame * option (frame * list frame) :=
  match q with
  | [] => ([], None)
  | f :: q => if ch =? f_chan f then ([], Some (f, q)) else let (b, r) := split_on ch q in (f :: b, r)
  end.
Definition lstep (o : qop) (q : list frame) : qres * list frame :=
  match o with
  | Enqueue _ f | QueueFrame _ _ f => (QDone, q ++ [f])
  | PutBack _ _ f => (QDone, f :: q)
  | TakeFirst => match q with [] => (QFrame None, []) | f :: q => (QFrame (Some f), q) end
  | TakeOn ch => match snd (split_on ch q) with Some (f, r) => (QFrame (Some f), r) | None => (QFrame None, q) end
  | ReleaseOn _ => (QDone, q)
  | AnyQueued => (QBool (match q with [] => false | _ => true end), q)
  end.
Fixpoint lrun (ops : list qop) (q : list frame) : list qres * list frame :=
  match ops with
  | [] => ([], q)
  | o :: ops => let (r, q) := lstep o q in let (rs, q) := lrun ops q in (r :: rs, q)
  end.

(** ** The links represent the list *)
Fixpoint chain (h : heap) (p : ptr) (q : list (nat * frame)) : Prop :=
  match q with
  | [] => p = None
  | (a, f) :: r => p = Some a /\ exists n, h a = Some (mkLink n f) /\ chain h n r
  end.
Definition last_of (q : list (nat * frame)) : ptr := fold_left (fun _ p => Some (fst p)) q None.
Definition represents (s : qstate) (q : list (nat * frame)) : Prop :=
  chain (q_heap s) (q_first s) q /\ NoDup (map fst q) /\ q_last s = last_of q.

Lemma last_of_app q x : last_of (q ++ [x]) = Some (fst x).
Proof. unfold last_of. rewrite fold_left_app. reflexivity. Qed.
Lemma last_of_cons x q : q <> [] -> last_of (x :: q) = last_of q.
Proof. destruct q; [contradiction|reflexivity]. Qed.
Lemma chain_put h a l : forall q p, ~ In a (map fst q) -> chain h p q -> chain (put h a l) p q.
Proof.
  induction q as [|[b f] q IH]; intros p Hn H; cbn in *; [exact H|]. destruct H as (-> & n & H1 & H2). split; [reflexivity|]. exists n.
  split; [|apply IH; tauto]. unfold put. destruct (Nat.eqb_spec b a); [tauto|exact H1].
Qed.
Lemma chain_fresh h a : h a = None -> forall q p, chain h p q -> ~ In a (map fst q).
Proof.
  intros Hn. induction q as [|[b f] q IH]; intros p H; cbn in *; [tauto|]. destruct H as (-> & n & H1 & H2). intros [->|Hi]; [congruence|].
  apply (IH _ H2 Hi).
Qed.
(** linking a new last element *)
Lemma chain_snoc h a f : forall q p, NoDup (map fst q) -> ~ In a (map fst q) -> chain h p q -> h a = Some (mkLink None f) -> q <> [] ->
  exists h', set_next h (last_of q) (Some a) = Some h' /\ chain h' p (q ++ [(a, f)]).
Proof.
  induction q as [|[b g] q IH]; intros p Hd Hn H Ha Hne; [contradiction|]. cbn in H. destruct H as (-> & n & H1 & H2).
  cbn in Hd. apply NoDup_cons_iff in Hd. destruct Hd as [Hd1 Hd2]. cbn in Hn.
  destruct q as [|x q].
  - cbn. rewrite H1. cbn in H2. subst n. eexists. split; [reflexivity|]. cbn. split; [reflexivity|]. exists (Some a). split.
    + unfold put. rewrite Nat.eqb_refl. reflexivity.
    + split; [reflexivity|]. exists None. split; [|reflexivity]. unfold put. destruct (Nat.eqb_spec a b); [subst; tauto|exact Ha].
  - destruct (IH n Hd2 ltac:(tauto) H2 Ha ltac:(discriminate)) as (h' & G1 & G2). exists h'. rewrite last_of_cons by discriminate.
    split; [exact G1|]. cbn [app chain]. split; [reflexivity|]. exists n. split; [|exact G2].
    assert (exists z, last_of (x :: q) = Some z /\ In z (map fst (x :: q))) as (z & Hz & Hin).
    { clear. revert x. induction q as [|y q IH]; intros x; [exists (fst x); split; [reflexivity|left; reflexivity]|].
      rewrite last_of_cons by discriminate. destruct (IH y) as (z & H1 & H2). exists z. split; [exact H1|right; exact H2]. }
    rewrite Hz in G1. cbn in G1. destruct (h z); [|discriminate]. injection G1 as <-. unfold put. destruct (Nat.eqb_spec b z); [subst; contradiction|exact H1].
Qed.
Lemma last_none q : last_of q = None <-> q = [].
Proof.
  split; [|intros ->; reflexivity].
  destruct q as [|y q]; [reflexivity|]. destruct (exists_last (l := y :: q)) as (q' & x & ->); [discriminate|]. rewrite last_of_app. discriminate.
Qed.
Lemma chain_first h p q : chain h p q -> (p = None <-> q = []).
Proof. destruct q as [|[a f] q]; cbn; [intros ->; tauto|intros [-> _]; split; discriminate]. Qed.

Lemma put_same h a l : put h a l a = l.
Proof. unfold put. rewrite Nat.eqb_refl. reflexivity. Qed.
Lemma put_put h a l l' : forall b, put (put h a l) a l' b = put h a l' b.
Proof. intros b. unfold put. destruct (Nat.eqb b a); reflexivity. Qed.
Lemma chain_ext h h' : (forall a, h a = h' a) -> forall q p, chain h p q -> chain h' p q.
Proof. intros He. induction q as [|[a f] q IH]; intros p H; cbn in *; [exact H|]. destruct H as (-> & n & H1 & H2). split; [reflexivity|]. exists n. rewrite <- He. auto. Qed.

Definition ok_step (o : option (qres * qstate)) (r : qres) (q' : list frame) : Prop :=
  exists s' q'', o = Some (r, s') /\ represents s' q'' /\ map snd q'' = q'.

Lemma step_enqueue s q a f : represents s q -> q_heap s a = None ->
  exists s', enqueue s a f = Some s' /\ represents s' (q ++ [(a, f)]).
Proof.
  intros (H1 & H2 & H3) Hn. pose proof (chain_fresh _ _ Hn _ _ H1) as Hf. unfold enqueue.
  assert (NoDup (map fst (q ++ [(a, f)]))) as Hd.
  { rewrite map_app. cbn. apply NoDup_Add with (a := a) (l := map fst q); [|auto].
    rewrite <- (app_nil_r (map fst q)) at 1. apply Add_app. }
  destruct (q_last s) eqn:Hl.
  - assert (q <> []) as Hne by (intros ->; discriminate H3).
    destruct (chain_snoc (put (q_heap s) a (Some (mkLink None f))) a f q (q_first s) H2 Hf (chain_put _ _ _ _ _ Hf H1) (put_same _ _ _) Hne) as (h' & G1 & G2).
    rewrite <- H3 in G1. rewrite G1. eexists. split; [reflexivity|]. split; [exact G2|]. split; [exact Hd|]. cbn. symmetry. apply (last_of_app q (a, f)).
  - symmetry in H3. apply last_none in H3. subst q. eexists. split; [reflexivity|]. split; [|split; [exact Hd|reflexivity]].
    cbn. split; [reflexivity|]. exists None. split; [apply put_same|reflexivity].
Qed.
Lemma step_queue s q a j f : represents s q -> q_heap s a = None ->
  exists s', queue_frame s a j f = Some s' /\ represents s' (q ++ [(a, f)]).
Proof.
  intros (H1 & H2 & H3) Hn. pose proof (chain_fresh _ _ Hn _ _ H1) as Hf. unfold queue_frame.
  assert (NoDup (map fst (q ++ [(a, f)]))) as Hd.
  { rewrite map_app. cbn. apply NoDup_Add with (a := a) (l := map fst q); [|auto].
    rewrite <- (app_nil_r (map fst q)) at 1. apply Add_app. }
  pose proof (chain_first _ _ _ H1) as Hcf.
  destruct (q_first s) eqn:Hfi.
  - assert (q <> []) as Hne by (intros ->; discriminate (proj2 Hcf eq_refl)).
    (* write next of the last link, then next of the new one: the same as with the new one's next set before *)
    destruct (chain_snoc (put (q_heap s) a (Some (mkLink None f))) a f q _ H2 Hf (chain_put _ _ _ _ _ Hf H1) (put_same _ _ _) Hne) as (h' & G1 & G2).
    rewrite <- H3 in G1.
    assert (exists z, q_last s = Some z /\ In z (map fst q)) as (z & Hz & Hin).
    { rewrite H3. clear - Hne. destruct (exists_last Hne) as (q' & x & ->). exists (fst x). rewrite last_of_app. split; [reflexivity|]. rewrite map_app. apply in_or_app. right. left. reflexivity. }
    assert (z <> a) as Hza by congruence.
    rewrite Hz in *. cbn [set_next] in *. unfold put in G1 at 1. unfold put at 1. destruct (Nat.eqb_spec z a); [contradiction|]. destruct (q_heap s z) as [lz|]; [|discriminate G1].
    assert (forall m, put (put (q_heap s) a m) z (Some (mkLink (Some a) (l_data lz))) a = m) as Hm.
    { intros m. unfold put. destruct (Nat.eqb_spec a z); [congruence|]. rewrite Nat.eqb_refl. reflexivity. }
    rewrite Hm. eexists. split; [reflexivity|]. split; [|split; [exact Hd|cbn; symmetry; apply (last_of_app q (a, f))]].
    cbn [q_heap q_first]. injection G1 as <-. eapply chain_ext; [|exact G2]. intros b. unfold put. destruct (Nat.eqb_spec b a) as [Eb|Eb]; destruct (Nat.eqb_spec b z) as [Ez|Ez]; try (exfalso; congruence); try reflexivity.
  - assert (q = []) as -> by (apply Hcf; reflexivity). cbn [set_next]. rewrite put_same. eexists. split; [reflexivity|]. split; [|split; [exact Hd|reflexivity]].
    cbn. split; [reflexivity|]. exists None. split; [apply put_same|reflexivity].
Qed.
Lemma step_put_back s q a j f : represents s q -> q_heap s a = None ->
  exists s', put_back_frame s a j f = Some s' /\ represents s' ((a, f) :: q).
Proof.
  intros (H1 & H2 & H3) Hn. pose proof (chain_fresh _ _ Hn _ _ H1) as Hf. unfold put_back_frame.
  assert (NoDup (map fst ((a, f) :: q))) as Hd by (cbn; constructor; assumption).
  pose proof (chain_first _ _ _ H1) as Hcf.
  destruct (q_first s) eqn:Hfi.
  - cbn [set_next]. rewrite put_same. eexists. split; [reflexivity|]. split; [|split; [exact Hd|]].
    + cbn [q_heap q_first chain]. split; [reflexivity|]. exists (Some n). split; [rewrite put_same; reflexivity|].
      eapply chain_ext; [intros b; symmetry; apply put_put|]. apply chain_put; assumption.
    + cbn [q_last]. rewrite H3. symmetry. apply last_of_cons. intros ->. discriminate (proj2 Hcf eq_refl).
  - assert (q = []) as -> by (apply Hcf; reflexivity). cbn [set_next]. rewrite put_same. eexists. split; [reflexivity|]. split; [|split; [exact Hd|reflexivity]].
    cbn. split; [reflexivity|]. exists None. split; [apply put_same|reflexivity].
Qed.
(** dropping the head *)
Lemma tail_rep h n q a f : chain h n q -> NoDup (map fst ((a, f) :: q)) -> forall la, la = last_of ((a, f) :: q) ->
  represents (mkQ h n (match n with None => None | _ => la end)) q.
Proof.
  intros H1 H2 la ->. cbn in H2. apply NoDup_cons_iff in H2. split; [exact H1|]. split; [apply H2|]. cbn [q_last].
  pose proof (chain_first _ _ _ H1) as Hcf. destruct n.
  - apply last_of_cons. intros ->. discriminate (proj2 Hcf eq_refl).
  - assert (q = []) as -> by (apply Hcf; reflexivity). reflexivity.
Qed.
Lemma step_first s q : represents s q ->
  match q with
  | [] => take_first s = Some (None, s)
  | (a, f) :: r => exists s', take_first s = Some (Some f, s') /\ represents s' r
  end.
Proof.
  intros (H1 & H2 & H3). unfold take_first. destruct q as [|[a f] q]; cbn in H1; [rewrite H1; reflexivity|].
  destruct H1 as (-> & n & H1 & H1'). rewrite H1. eexists. split; [reflexivity|]. cbn [l_next]. eapply tail_rep; eauto.
Qed.
Lemma NoDup_tail {A} (a b : list A) : NoDup (a ++ b) -> NoDup b.
Proof. induction a as [|x a IH]; cbn; [auto|]. intros H. apply NoDup_cons_iff in H. apply IH, H. Qed.
Lemma walk_on ch s : forall q pre p fuel, chain (q_heap s) p q -> NoDup (map fst (pre ++ q)) -> q_last s = last_of (pre ++ q) -> (length q < fuel)%nat ->
  match snd (split_on ch (map snd q)) with
  | Some (f, r) => exists s' r', take_on_channel fuel p ch s = Some (Some f, s') /\ represents s' r' /\ map snd r' = r
  | None => take_on_channel fuel p ch s = Some (None, s)
  end.
Proof.
  induction q as [|[a f] q IH]; intros pre p fuel H1 H2 H3 Hf; cbn in H1.
  - subst p. cbn. destruct fuel; reflexivity.
  - destruct H1 as (-> & n & H1 & H1'). destruct fuel as [|fuel]; [cbn in Hf; lia|]. cbn [take_on_channel map snd split_on]. rewrite H1. cbn [l_data l_next].
    destruct (ch =? f_chan f) eqn:Hc.
    + cbn [snd]. eexists _, q. split; [reflexivity|]. split; [|reflexivity].
      eapply (tail_rep _ _ _ a f); [exact H1'| |].
      * rewrite map_app in H2. apply NoDup_tail in H2. exact H2.
      * rewrite H3. unfold last_of. rewrite fold_left_app. reflexivity.
    + specialize (IH (pre ++ [(a, f)]) n fuel H1'). rewrite <- app_assoc in IH. specialize (IH H2 H3 ltac:(cbn in Hf; lia)).
      destruct (split_on ch (map snd q)) as [b o]. exact IH.
Qed.
Lemma walk_any ch s : forall q p fuel, chain (q_heap s) p q -> (length q < fuel)%nat ->
  any_on_channel fuel p ch s = Some (existsb (fun f => ch =? f_chan f) (map snd q)).
Proof.
  induction q as [|[a f] q IH]; intros p fuel H1 Hf; cbn in H1.
  - subst p. destruct fuel; reflexivity.
  - destruct H1 as (-> & n & H1 & H1'). destruct fuel as [|fuel]; [cbn in Hf; lia|]. cbn [any_on_channel map snd existsb]. rewrite H1. cbn [l_data l_next].
    destruct (ch =? f_chan f); [reflexivity|]. apply IH; [exact H1'|cbn in Hf; lia].
Qed.
Lemma chain_recycle ch s : forall q p, chain (q_heap s) p q -> existsb (fun f => ch =? f_chan f) (map snd q) = false -> chain (q_heap (recycle ch s)) p q.
Proof.
  induction q as [|[a f] q IH]; intros p H1 H2; cbn in *; [exact H1|]. destruct H1 as (-> & n & H1 & H1'). apply orb_false_iff in H2. destruct H2 as [H2 H2'].
  split; [reflexivity|]. exists n. rewrite H1. cbn. rewrite Z.eqb_sym, H2. split; [reflexivity|auto].
Qed.
Lemma qstep_ok fuel o s q : represents s q -> new_address o s -> (length q < fuel)%nat ->
  ok_step (qstep fuel o s) (fst (lstep o (map snd q))) (snd (lstep o (map snd q))).
Proof.
  intros H Hn Hf. unfold ok_step. destruct o; cbn [qstep lstep new_address] in *.
  - destruct (step_enqueue s q a f H Hn) as (s' & -> & H'). exists s', (q ++ [(a, f)]). rewrite map_app. auto.
  - destruct (step_queue s q a junk f H Hn) as (s' & -> & H'). exists s', (q ++ [(a, f)]). rewrite map_app. auto.
  - destruct (step_put_back s q a junk f H Hn) as (s' & -> & H'). exists s', ((a, f) :: q). auto.
  - pose proof (step_first s q H) as G. destruct q as [|[a f] q].
    + rewrite G. exists s, []. auto.
    + destruct G as (s' & -> & H'). exists s', q. auto.
  - pose proof (walk_on channel s q [] (q_first s) fuel) as G. destruct H as (H1 & H2 & H3). specialize (G H1 H2 H3 Hf).
    destruct (snd (split_on channel (map snd q))) as [[f r]|].
    + destruct G as (s' & r' & -> & G1 & G2). exists s', r'. auto.
    + rewrite G. exists s, q. split; [reflexivity|]. split; [split; auto|reflexivity].
  - unfold release_on_channel. destruct H as (H1 & H2 & H3). rewrite (walk_any channel s q _ fuel H1 Hf).
    destruct (existsb _ _) eqn:He; eexists _, q; (split; [reflexivity|]; split; [|reflexivity]; split; [|split; [exact H2|exact H3]]).
    + exact H1.
    + apply chain_recycle; assumption.
  - exists s, q. split; [|split; [exact H|reflexivity]]. unfold frames_enqueued. destruct H as (H1 & _). destruct q as [|[a f] q]; cbn in H1; [rewrite H1; reflexivity|].
    destruct H1 as (-> & _). reflexivity.
Qed.

(** the number of frames a sequence of operations can put into the queue *)
Lemma lstep_len o q : (length (snd (lstep o q)) <= S (length q))%nat.
Proof.
  destruct o; cbn [lstep snd]; rewrite ?app_length; cbn [length]; try lia; [destruct q; cbn; lia|].
  enough (forall f r, snd (split_on channel q) = Some (f, r) -> (length r <= length q)%nat) as H.
  { destruct (snd (split_on channel q)) as [[f r]|] eqn:Hs; cbn [snd]; [specialize (H f r eq_refl); lia|lia]. }
  induction q as [|g q IH]; intros f r; cbn [split_on]; [discriminate|]. destruct (channel =? f_chan g).
  - intros H. injection H as <- <-. cbn. lia.
  - destruct (split_on channel q) as [b [[f' r']|]]; cbn [snd]; [|discriminate]. intros H. injection H as <- <-. specialize (IH f' r' eq_refl). cbn. lia.
Qed.

(** C36, the data structure.  Starting from an empty queue, for every sequence of
    queue operations (and of releases of pools in between) the links behave like a
    list: new frames go to the end, a frame put back goes to the front, taking takes
    from the front, amqp_frames_enqueued tells whether the list is empty; and no
    link is used that is not in memory. *)
Theorem C36_links_are_a_list :
  forall (ops : list qop) (h : heap) (fuel : nat),
    (length ops < fuel)%nat -> allocations_ok fuel ops (empty_queue h) ->
    exists s, qrun fuel ops (empty_queue h) = Some (fst (lrun ops []), s).
Proof.
  intros ops h fuel Hf Ha.
  enough (forall ops s q, represents s q -> allocations_ok fuel ops s -> (length q + length ops < fuel)%nat ->
    exists s', qrun fuel ops s = Some (fst (lrun ops (map snd q)), s')) as G.
  { apply (G ops (empty_queue h) []); [|exact Ha|exact Hf]. split; [reflexivity|]. split; [constructor|reflexivity]. }
  clear. induction ops as [|o ops IH]; intros s q H Ha Hf; [exists s; reflexivity|].
  cbn [qrun lrun]. cbn [allocations_ok] in Ha. destruct Ha as [Ha1 Ha2]. cbn [length] in Hf.
  destruct (qstep_ok fuel o s q H Ha1 ltac:(lia)) as (s' & q' & G1 & G2 & G3). rewrite G1 in *.
  destruct (lstep o (map snd q)) as [r lq] eqn:Hl. cbn [fst snd] in *.
  assert (length q' <= S (length q))%nat as Hlen.
  { pose proof (lstep_len o (map snd q)) as L. rewrite Hl in L. cbn [snd] in L. rewrite <- G3, !map_length in L. exact L. }
  destruct (IH s' q' G2 Ha2 ltac:(lia)) as (s'' & G4). rewrite G4, G3. destruct (lrun ops lq) as [rs lq']. cbn [fst]. exists s''. reflexivity.
Qed.

(** Net.v's operations on the queue are those of the list. *)
Theorem C36_net_uses_the_list :
  forall (g : Z -> nat) (c : conn) (ev : list event) (e : frame * nat) (f : frame) (ch : Z),
    (* amqp_try_recv, amqp_simple_rpc, amqp_queue_frame *)
    append_entry e c ev = Done tt (set_queue c (c_queue c ++ [e])) ev [] /\
    map fst (c_queue c ++ [e]) = snd (lstep (Enqueue 0 (fst e)) (queued c)) /\
    (* amqp_put_back_frame *)
    (forall r c' ev' l, amqp_put_back_frame f c ev = Done r c' ev' l ->
       (r = AMQP_STATUS_OK /\ queued c' = snd (lstep (PutBack 0 None f) (queued c))) \/ (r = AMQP_STATUS_NO_MEMORY /\ c' = c)) /\
    (* amqp_simple_wait_frame_on_channel *)
    (forall r, find_on_channel g ch (c_queue c) = Some r ->
       lstep (TakeOn ch) (queued c) = match r with Some (h, q) => (QFrame (Some h), map fst q) | None => (QFrame None, queued c) end) /\
    amqp_frames_enqueued c = match fst (lstep AnyQueued (queued c)) with QBool b => b | _ => false end.
Proof.
  intros g c ev e f ch. split; [reflexivity|]. split; [unfold queued; cbn; apply map_app|]. split; [|split].
  - intros r c' ev' l. unfold amqp_put_back_frame, create_link, bind, sys_alloc, get, ret, upd.
    destruct ev as [|[] ev]; try discriminate. destruct ok; intros H; injection H as <- <- <- <-; [left|right]; auto.
  - unfold queued. induction (c_queue c) as [|x q IH]; intros r; cbn [find_on_channel]; [intros H; injection H as <-; reflexivity|].
    destruct (negb (entry_alive g x)); [discriminate|]. unfold on_channel. cbn [lstep map split_on] in *. destruct (ch =? f_chan (fst x)).
    + intros H; injection H as <-. reflexivity.
    + intros H. specialize (IH r H). destruct (split_on ch (map fst q)) as [b [[h q']|]]; cbn [snd] in *; destruct r as [[h' q'']|]; try discriminate; auto.
  - unfold amqp_frames_enqueued, queued. cbn. destruct (c_queue c); reflexivity.
Qed.

(** amqp_simple_wait_frame(_noblock): a queued frame is returned before anything
    is read, the oldest first; with an infinite timeout it always is. *)
Theorem C36_queued_first :
  forall (N : nat) (E : nat -> aenv) (timeout : option timeval) (c : conn) (ev : list event) (first : frame) (rest : list frame),
    Forall (entry_valid c) (c_queue c) -> queued c = first :: rest ->
    match amqp_simple_wait_frame_noblock N E timeout c ev with
    | Done (r, f) c' _ l =>
        no_input l /\ out_bytes l = [] /\
        ((r = AMQP_STATUS_OK /\ f = first /\ queued c' = rest) \/ (r < 0 /\ c' = c /\ timeout <> None))
    | Halt s c' l => timeout <> None /\ s = Blocked /\ c' = c /\ no_input l /\ out_bytes l = []
    end.
Proof.
  intros N E t c ev f0 rest Hv Hq. apply valid_qalive in Hv.
  assert (wp (amqp_simple_wait_frame_noblock N E t) c ev
    (fun p c' _ l => no_input l /\ out_bytes l = [] /\ ((fst p = AMQP_STATUS_OK /\ snd p = f0 /\ queued c' = rest) \/ (fst p < 0 /\ c' = c /\ t <> None)))
    (fun s c' l => t <> None /\ s = Blocked /\ c' = c /\ no_input l /\ out_bytes l = [])) as H.
  2:{ unfold wp in H. destruct (amqp_simple_wait_frame_noblock N E t c ev) as [[r f] c' ev' l|]; exact H. }
  unfold amqp_simple_wait_frame_noblock. apply wp_bind.
  assert (wp (time_from_now t) c ev (fun _ _ _ _ => True) (fun s _ _ => t <> None /\ s = Blocked)) as Hs.
  { unfold time_from_now. destruct t as [tv|]; [|apply wp_ret; exact I]. destruct (_ || _); [apply wp_ret; exact I|]. apply wp_bind.
    unfold wp at 1, sys_clock. destruct ev as [|[] ev]; try (split; [discriminate|reflexivity]). apply wp_ret. exact I. }
  eapply wp_conseq; [apply (wp_split _ _ _ _ _ _ _ (from_now_ok t c ev) Hs)| |]; cbv beta.
  2:{ intros s c' l [(-> & Hl & _) [H1 H2]]. split; [exact H1|]. split; [exact H2|]. split; [reflexivity|]. split; [apply quiet_input, Hl|apply (quiet_facts _ Hl)]. }
  intros [r d] c1 ev1 l1 [(-> & Hl & (D1 & _ & D2 & D3) & D4) _]. cbn [fst snd] in *.
  pose proof (quiet_input _ Hl) as Hi. destruct (quiet_facts _ Hl) as (_ & Ho & _).
  assert (r <> AMQP_STATUS_OK -> no_input l1 /\ out_bytes l1 = [] /\ ((r = AMQP_STATUS_OK /\ no_frame = f0 /\ queued c = rest) \/ (r < 0 /\ c = c /\ t <> None))) as He.
  { intros Hr. split; [exact Hi|]. split; [exact Ho|]. right. unfold AMQP_STATUS_OK in *. split; [lia|]. split; [reflexivity|]. intros Ht.
    specialize (D4 Ht). injection D4 as -> _. contradiction. }
  destruct d as [d|]; [|apply wp_ret; rewrite app_nil_r; auto].
  destruct (Z.eqb_spec r AMQP_STATUS_OK) as [->|Hr]; cbn [negb]; [|apply wp_ret; rewrite app_nil_r; auto].
  wstep. unfold queued in Hq. unfold qalive in Hv. destruct (c_queue c) as [|e q]; [discriminate|]. cbn in Hq. injection Hq as <- <-.
  cbn in Hv. apply andb_true_iff in Hv. destruct Hv as [-> _]. cbn [negb]. wstep. apply wp_ret. rewrite app_nil_r. split; [exact Hi|]. split; [exact Ho|].
  left. auto.
Qed.

(** A frame that is put back is the next one returned, and the queue is then as it
    was before. *)
Theorem C36_put_back_next :
  forall (N : nat) (E : nat -> aenv) (f : frame) (c : conn) (ev : list event),
    frame_valid c f ->
    match (r <- amqp_put_back_frame f;; p <- amqp_simple_wait_frame N E;; ret (r, p)) c (EvAlloc true :: ev) with
    | Done (r, (r', f')) c' ev' l => r = AMQP_STATUS_OK /\ r' = AMQP_STATUS_OK /\ f' = f /\ c' = c /\ ev' = ev /\ no_input l
    | Halt _ _ _ => False
    end.
Proof.
  intros N E f c ev Hf. unfold amqp_put_back_frame, create_link, amqp_simple_wait_frame, amqp_simple_wait_frame_noblock, time_from_now,
    bind, sys_alloc, get, upd, ret. cbn [amqp_time_from_now]. change (negb (AMQP_STATUS_OK =? AMQP_STATUS_OK)) with false. cbv iota.
  cbn [c_queue set_queue].
  assert (entry_alive (gens (set_queue c ((f, gens c (f_chan f)) :: c_queue c))) (f, gens c (f_chan f)) = true) as ->.
  { apply (valid_alive c). split; [reflexivity|exact Hf]. }
  cbn [negb fst]. split; [reflexivity|]. split; [reflexivity|]. split; [reflexivity|]. split; [destruct c; reflexivity|]. split; [reflexivity|].
  repeat constructor.
Qed.

(** ** C37 *)
(** What holds: the call returns the oldest pending frame of its channel; if it has
    to wait, all the frames of other channels it meets are queued behind the pending
    ones, in order; the pending frames after the one returned stay. *)
Theorem C37_on_channel_partial :
  forall (N : nat) (E : nat -> aenv) (ch : Z) (c c' : conn) (ev ev' : list event) (f : frame) (l : list obs),
    Forall (entry_valid c) (c_queue c) ->
    amqp_simple_wait_frame_on_channel N E ch c ev = Done (AMQP_STATUS_OK, f) c' ev' l ->
    f_chan f = ch /\
    match split_on ch (queued c) with
    | (before, Some (first, after)) => f = first /\ queued c' = after /\ l = []
    | (_, None) =>
        (no_oom_obs l -> exists others, no_hb (queued c') = no_hb (queued c) ++ others /\ no_hb (frames l) = others ++ [f]) /\
        (no_oom_obs l -> no_lost l -> exists others, queued c' = queued c ++ others /\ no_hb (frames l) = others ++ [f] /\ Forall (fun g => f_chan g <> ch) others)
    end.
Proof.
  intros N E ch c c' ev ev' f l Hv Hrun. apply valid_qalive in Hv. pose proof (on_channel_ok N E ch c ev Hv) as H. unfold wp in H. rewrite Hrun in H. cbn [fst snd] in H.
  assert (forall b x after, Forall (fun h => f_chan h <> ch) b -> f_chan x = ch -> split_on ch (b ++ x :: after) = (b, Some (x, after))) as S1.
  { induction b as [|y b IH]; intros x after H1 H2; cbn.
    - rewrite H2, Z.eqb_refl. reflexivity.
    - apply Forall_cons_iff in H1. destruct H1 as [H1 H1']. destruct (Z.eqb_spec ch (f_chan y)); [congruence|]. rewrite IH by assumption. reflexivity. }
  assert (forall b, Forall (fun h => f_chan h <> ch) b -> split_on ch b = (b, None)) as S2.
  { induction b as [|y b IH]; intros H1; cbn; [reflexivity|]. apply Forall_cons_iff in H1. destruct H1 as [H1 H1']. destruct (Z.eqb_spec ch (f_chan y)); [congruence|].
    rewrite IH by assumption. reflexivity. }
  destruct H as [(b & n & after & H1 & H2 & H3 & _ & -> & ->)|(H1 & _ & G)].
  - split; [exact H3|]. unfold queued at 1. rewrite H1, map_app. cbn [map fst]. rewrite S1 by assumption. auto.
  - rewrite S2 by exact H1. unfold okf in G. rewrite Z.eqb_refl in G. destruct G as [G1 G2 G3 G4 G5 G6 G7].
    destruct (G2 f eq_refl) as (P1 & P2 & P3). apply Z.eqb_eq in P1. split; [auto|]. split.
    + intros Ho. specialize (G1 Ho). cbn [opt] in G1. destruct (G4 f eq_refl) as [pre Hpre]. rewrite Hpre, !no_hb_app, (no_hb_one f P3), app_assoc in G1.
      apply app_inj_tail in G1. destruct G1 as [G1 _]. exists (no_hb pre). split; [symmetry; exact G1|]. rewrite Hpre, no_hb_app, no_hb_one by assumption. reflexivity.
    + intros Ho Hl. destruct (G3 f eq_refl Ho Hl) as (others & K1 & K2 & K3). exists others. split; [exact K1|]. split; [exact K2|].
      eapply Forall_impl; [|exact K3]. cbv beta. intros g Hg. apply Z.eqb_neq in Hg. congruence.
Qed.

(** What does not hold: pending frames of other channels that are before the frame
    returned are thrown away. *)
Theorem C37_earlier_frames_dropped_refuted :
  forall (N : nat) (E : nat -> aenv) (ch : Z) (c : conn) (ev : list event) (before after : list frame) (first : frame),
    Forall (entry_valid c) (c_queue c) -> split_on ch (queued c) = (before, Some (first, after)) ->
    exists c', amqp_simple_wait_frame_on_channel N E ch c ev = Done (AMQP_STATUS_OK, first) c' ev [] /\
      queued c = before ++ first :: after /\ queued c' = after.
Proof.
  intros N E ch c ev before after first Hv Hs. apply valid_qalive in Hv. unfold amqp_simple_wait_frame_on_channel, bind, get.
  assert (queued c = before ++ first :: after) as Hq.
  { clear Hv. revert before Hs. induction (queued c) as [|x q IH]; intros b; cbn; [discriminate|]. destruct (ch =? f_chan x).
    - intros H. injection H as <- <- <-. reflexivity.
    - destruct (split_on ch q) as [b' o]. intros H. injection H as <- ->. cbn. f_equal. apply IH. reflexivity. }
  pose proof (C36_net_uses_the_list (gens c) c ev (first, 0%nat) first ch) as (_ & _ & _ & H & _).
  pose proof (find_split (gens c) ch (c_queue c) Hv) as Hf.
  destruct (find_on_channel (gens c) ch (c_queue c)) as [r|]; [|contradiction]. specialize (H r eq_refl). cbn [lstep] in H. rewrite Hs in H. cbn [snd] in H.
  destruct r as [[h q]|]; [|discriminate]. injection H as <- H. unfold upd, ret. exists (set_queue c q). split; [reflexivity|]. split; [exact Hq|]. unfold queued. cbn. auto.
Qed.

(** The same seen through the API: while amqp_queue_purge on channel 3 waits for its
    reply, a basic.cancel for channel 1 and a content header for channel 2 arrive and
    are queued.  Reading the message on channel 2 (its body is empty) makes the frame
    of channel 1 disappear: nothing is left to be read. *)
Definition cancel_1 : bytes := ser_frame 1 (AMethod 60 30 [("consumer_tag", ShortStr); ("nowait", Bit)]%string [("consumer_tag", VBytes [x74]); ("nowait", VBool 1)]%string).
Definition empty_header_2 : bytes := ser_frame 2 (AContent 0 0 [] []).
Definition purge_ok_3 : bytes := ser_frame 3 (AMethod 50 31 [("message_count", Long)]%string [("message_count", VInt 7)]%string).
Theorem C37_other_channel_refuted :
  match exec_all 100 plain_env
    [Rpc 3 (method_id 50 30) [method_id 50 31] [("ticket", VInt 0); ("queue", VBytes [x71]); ("nowait", VBool 0)]%string;
     ReadMessage 2;
     WaitFrame (Some (mkTv 0 0))]
    (set_in (new_connection 5) idle0)
    [EvSend (SOk 100); EvRecv (ROk (cancel_1 ++ empty_header_2 ++ purge_ok_3)); EvAlloc true; EvAlloc true;
     EvClone (fun _ => false); EvClock 1000; EvRecv RAgain; EvClock 1001; EvPoll PTimeout]
  with
  | Done [OutReply r; OutMessage r2 m; OutFrame st _] c' _ l =>
      r = RNormal (method_id 50 31) [("message_count", VInt 7)]%string /\
      r2 = RNormal 0 [] /\ m = Some (mkMsg (mkProps 0 []) []) /\
      map f_chan (frames l) = [1; 2; 3] /\
      (* channel 1's frame is neither delivered nor pending *)
      st = AMQP_STATUS_TIMEOUT /\ c_queue c' = [] /\ no_lost l
  | _ => False
  end.
Proof. vm_compute. repeat split; repeat constructor. Qed.

(** non-vacuity: a connection whose queue satisfies the hypotheses *)
Example C36_C37_case :
  let c := set_queue (set_in (new_connection 5) idle0) [(body_1, 0%nat); (mkFrame 3 2 (PBody [x61]) 0, 0%nat)] in
  Forall (entry_valid c) (c_queue c) /\ queued c = [body_1; mkFrame 3 2 (PBody [x61]) 0] /\
  split_on 2 (queued c) = ([body_1], Some (mkFrame 3 2 (PBody [x61]) 0, [])).
Proof. split; [repeat constructor|split; reflexivity]. Qed.
Example C36_ops_case :
  let ops := [Enqueue 1 body_1; QueueFrame 2 (Some 9%nat) no_frame; PutBack 3 None heartbeat_frame; TakeFirst; ReleaseOn 5; TakeFirst; AnyQueued; TakeFirst; TakeFirst] in
  allocations_ok 10 ops (empty_queue (fun _ => None)) /\
  fst (lrun ops []) = [QDone; QDone; QDone; QFrame (Some heartbeat_frame); QDone; QFrame (Some body_1); QBool true; QFrame (Some no_frame); QFrame None].
Proof. cbn. repeat split. Qed.

Print Assumptions C36_links_are_a_list.
Print Assumptions C36_net_uses_the_list.
Print Assumptions C36_queued_first.
Print Assumptions C36_put_back_next.
Print Assumptions C37_on_channel_partial.
Print Assumptions C37_earlier_frames_dropped_refuted.
Print Assumptions C37_other_channel_refuted.
