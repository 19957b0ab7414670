(** Memory pools: C16, C17, C18. *)
From Coq Require Import ZArith List Bool Lia Permutation.
From Verif Require Import Base BaseFacts Pool PoolSpec PoolProofs.
Import ListNotations.
Local Open Scope Z_scope.

(** C16.  Every history of allocations (with any failures of the system allocator)
    and recycles on a pool of any page size runs without undefined behaviour, and
    what it has handed out since the last recycle are blocks of at least the
    requested size inside live blocks of the system, 8-byte aligned, and pairwise
    disjoint. *)
Theorem C16_pool_blocks : forall ps ops, 0 <= ps < M63 -> Forall sane ops ->
  exists h p out, history no_heap (init_amqp_pool ps) [] ops = Some (h, p, out) /\
    Forall (fun x => 0 < hd_size x /\ 0 <= hd_off x /\ hd_off x mod 8 = 0 /\
                     exists size, In (hd_blk x, size) (h_live h) /\ hd_off x + hd_size x <= size) out /\
    ForallOrdPairs disjoint out /\ NoDup (map fst (h_live h)).
Proof.
  intros ps ops Hps S. destruct (history_inv ops _ _ _ _ _ (inv_init ps Hps) S) as (h & p & out & lk & LS & E & I & EP & _).
  exists h, p, out. split; [exact E|]. destruct I as [[HP HN HX HL HO1 HO2] I2 I3 I4 I5 I6 I7].
  split; [|split; [exact I7|exact HN]].
  eapply Forall_impl; [|exact I6]. intros x (Y1 & Y2 & Y3 & Y4). split; [auto|]. split; [auto|]. split; [auto|].
  destruct Y4 as [(U & Y5 & _)|(Y4 & sz & U & Y5)].
  - exists (p_pagesize p). split; [|exact Y5]. apply (Permutation_in _ (Permutation_sym HP)).
    apply in_used in U. rewrite !in_app_iff. destruct U as [U|U]; [left|right; right; right; right];
      unfold pages_sized; apply (in_map (fun b => (b, p_pagesize p))); exact U.
  - exists sz. split; [|lia]. apply (Permutation_in _ (Permutation_sym HP)). rewrite !in_app_iff. tauto.
Qed.

(** A request is answered with NULL only if it is for zero bytes or the system
    allocator failed. *)
Theorem C16_no_spurious_null : forall ps ops h p out amount, 0 <= ps < M63 -> Forall sane ops -> sane (OAlloc false false amount) ->
  history no_heap (init_amqp_pool ps) [] ops = Some (h, p, out) ->
  exists r h' p', amqp_pool_alloc false false h p amount = Some (r, h', p') /\ (r = None <-> amount = 0).
Proof.
  intros ps ops h p out amount Hps S SA E. destruct (history_inv ops _ _ _ _ _ (inv_init ps Hps) S) as (h' & p' & out' & lk & LS & E' & I & EP & _).
  rewrite E in E'. injection E' as <- <- <-.
  destruct (alloc_inv false false h p out lk LS amount I SA) as (r & h1 & p1 & lk1 & LS1 & E1 & _ & _ & _ & Z1 & Z2).
  exists r, h1, p1. split; [exact E1|]. split; [|exact Z1]. intros ->. destruct (Z.eq_dec amount 0) as [->|N]; [auto|]. exfalso. apply (Z2 N); auto.
Qed.

(** The bound on the request in [sane] is needed: asking for 2^64-1 bytes is
    answered with a pointer although no byte was reserved. *)
Theorem C16_huge_request_refuted : exists h p b o,
  history no_heap (init_amqp_pool 4096) [] [OAlloc false false 8; OAlloc false false (M64 - 1)] =
  Some (h, p, [mkHanded b o (M64 - 1); mkHanded 0%nat 0 8]) /\ b = 0%nat /\ o = 8 /\ h_live h = [(1%nat, 8); (0%nat, 4096)].
Proof. do 4 eexists. split; [vm_compute; reflexivity|]. repeat split. Qed.

(** C17.  Recycling frees exactly the large blocks and the array that lists them:
    afterwards the live blocks are the pages, the array of pages, and the pages that
    could not be recorded because the system allocator failed at that moment. *)
Theorem C17_recycle_keeps_pages : forall ps ops h p out, 0 <= ps < M63 -> Forall sane ops ->
  history no_heap (init_amqp_pool ps) [] ops = Some (h, p, out) ->
  exists h' p' leaked, recycle_amqp_pool h p = Some (h', p') /\ p_pages p' = p_pages p /\ bl_blocks (p_large p') = [] /\
    Permutation (h_live h') (map (fun b => (b, p_pagesize p)) (bl_blocks (p_pages p)) ++
                             match bl_array (p_pages p) with Some a => [(a, 8 * zlen (bl_blocks (p_pages p)))] | None => [] end ++
                             map (fun b => (b, p_pagesize p)) leaked) /\
    (Forall no_failure ops -> leaked = []).
Proof.
  intros ps ops h p out Hps S E. destruct (history_inv ops _ _ _ _ _ (inv_init ps Hps) S) as (h' & p' & out' & lk & LS & E' & I & EP & L).
  rewrite E in E'. injection E' as <- <- <-.
  destruct (recycle_inv h p out lk LS I) as (h1 & p1 & E1 & IV & E2 & E3 & P). exists h1, p1, lk.
  split; [exact E1|]. split; [exact E2|]. split; [|split; [exact P|exact L]].
  destruct (iv_heap _ _ _ _ _ IV) as [_ _ _ HL _ _]. cbn in HL. auto.
Qed.

(** Emptying the pool frees everything, each block once (freeing a block twice, or a
    block that is not live, is [None] in the model). *)
Theorem C17_empty_frees_everything : forall ps ops h p out, 0 <= ps < M63 -> Forall sane ops -> Forall no_failure ops ->
  history no_heap (init_amqp_pool ps) [] ops = Some (h, p, out) ->
  exists h' p', empty_amqp_pool h p = Some (h', p') /\ h_live h' = [].
Proof.
  intros ps ops h p out Hps S F E. destruct (history_inv ops _ _ _ _ _ (inv_init ps Hps) S) as (h' & p' & out' & lk & LS & E' & I & EP & L).
  rewrite E in E'. injection E' as <- <- <-. rewrite (L F) in I.
  destruct (empty_inv h p out [] LS I) as (h1 & p1 & E1 & P). exists h1, p1. split; [exact E1|].
  apply Permutation_sym, Permutation_nil in P. exact P.
Qed.

(** With failures of the system allocator, nothing is freed twice either, and what
    stays behind are pages whose recording failed: at most one per failed request. *)
Theorem C17_empty_safe_after_failures : forall ps ops h p out, 0 <= ps < M63 -> Forall sane ops ->
  history no_heap (init_amqp_pool ps) [] ops = Some (h, p, out) ->
  exists h' p', empty_amqp_pool h p = Some (h', p') /\ Forall (fun b => snd b = p_pagesize p) (h_live h') /\
    NoDup (map fst (h_live h')) .
Proof.
  intros ps ops h p out Hps S E. destruct (history_inv ops _ _ _ _ _ (inv_init ps Hps) S) as (h' & p' & out' & lk & LS & E' & I & EP & L).
  rewrite E in E'. injection E' as <- <- <-.
  destruct (empty_inv h p out lk LS I) as (h1 & p1 & E1 & P). exists h1, p1. split; [exact E1|].
  split.
  - apply Forall_forall. intros x Hx. apply (Permutation_in _ P) in Hx. unfold pages_sized in Hx.
    apply in_map_iff in Hx. destruct Hx as (b & <- & _). reflexivity.
  - eapply Permutation_NoDup; [apply Permutation_sym; apply (Permutation_map fst P)|]. rewrite map_fst_pages.
    pose proof (nodup_pages h p lk LS (iv_heap _ _ _ _ _ I)) as N. revert N. generalize (bl_blocks (p_pages p)) (map fst LS). intros l1 l2.
    induction l1 as [|x l1 IH]; [|intros N; inversion N; auto]. induction l2 as [|x l2 IH]; [auto|intros N; inversion N; auto].
Qed.

(** A failed recording does leak: the page stays allocated for ever. *)
Theorem C17_leak_after_failure_refuted : exists h p h' p',
  history no_heap (init_amqp_pool 4096) [] [OAlloc false true 8] = Some (h, p, []) /\
  empty_amqp_pool h p = Some (h', p') /\ h_live h' = [(0%nat, 4096)].
Proof. do 4 eexists. split; [vm_compute; reflexivity|]. split; vm_compute; reflexivity. Qed.

(** A non-trivial history. *)
Example C16_example : exists h p out,
  history no_heap (init_amqp_pool 64) [] [OAlloc false false 10; OAlloc true false 200; OAlloc false false 200; OAlloc false false 50; ORecycle;
    OAlloc false false 20; OAlloc false false 60; OAlloc false false 1] = Some (h, p, out) /\ length out = 3%nat /\ length (h_live h) = 4%nat.
Proof. do 3 eexists. split; [vm_compute; reflexivity|]. split; reflexivity. Qed.

(** ** C18 *)
(** A history of calls amqp_get_or_create_channel_pool (does the allocation fail?,
    channel), with their results. *)
Fixpoint creations (t : pool_table) (ops : list (bool * Z)) : list (Z * option nat) * pool_table :=
  match ops with
  | [] => ([], t)
  | (nomem, c) :: ops =>
    let (r, t) := amqp_get_or_create_channel_pool nomem t c in
    let (l, t) := creations t ops in ((c, r) :: l, t)
  end.

Lemma nth_set_nth_eq {A} n x (l : list A) d : (n < length l)%nat -> nth n (set_nth n x l) d = x.
Proof. revert n. induction l as [|y l IH]; intros [|n]; cbn; intros; try lia; auto. apply IH. lia. Qed.
Lemma nth_set_nth_neq {A} n m x (l : list A) d : n <> m -> nth n (set_nth m x l) d = nth n l d.
Proof. revert n m. induction l as [|y l IH]; intros [|n] [|m]; cbn; intros; try lia; auto. Qed.
Lemma length_set_nth {A} n x (l : list A) : length (set_nth n x l) = length l.
Proof. revert n. induction l as [|y l IH]; intros [|n]; cbn; auto. Qed.

Lemma bucket_lt c n : length n = 16%nat -> (Z.to_nat (c mod POOL_TABLE_SIZE) < @length (list entry) n)%nat.
Proof. intros ->. pose proof (Z.mod_pos_bound c 16 ltac:(lia)). unfold POOL_TABLE_SIZE. lia. Qed.

Lemma create_get nomem t c r t' : length (t_buckets t) = 16%nat ->
  amqp_get_or_create_channel_pool nomem t c = (r, t') ->
  length (t_buckets t') = 16%nat /\ amqp_get_channel_pool t' c = r /\
  (forall c', c' <> c -> amqp_get_channel_pool t' c' = amqp_get_channel_pool t c') /\
  (t_next t <= t_next t')%nat /\
  match amqp_get_channel_pool t c with
  | Some p => r = Some p /\ t' = t
  | None => (nomem = true /\ r = None /\ t' = t) \/ (nomem = false /\ r = Some (t_next t) /\ t_next t' = S (t_next t))
  end.
Proof.
  intros L E. unfold amqp_get_or_create_channel_pool in E.
  change (amqp_get_channel_pool t c) with (find_entry c (nth (Z.to_nat (c mod POOL_TABLE_SIZE)) (t_buckets t) [])).
  destruct (find_entry c (nth (Z.to_nat (c mod POOL_TABLE_SIZE)) (t_buckets t) [])) as [p|] eqn:F.
  { injection E as <- <-. unfold amqp_get_channel_pool. repeat split; auto. }
  destruct nomem; injection E as <- <-.
  { unfold amqp_get_channel_pool. repeat split; auto. }
  unfold amqp_get_channel_pool. cbn [t_buckets t_next]. rewrite length_set_nth.
  rewrite nth_set_nth_eq by (apply bucket_lt; exact L). cbn [find_entry e_channel e_pool]. rewrite Z.eqb_refl.
  split; [exact L|]. split; [reflexivity|]. split; [|split; [lia|right; auto]].
  intros c' N. destruct (Nat.eq_dec (Z.to_nat (c' mod POOL_TABLE_SIZE)) (Z.to_nat (c mod POOL_TABLE_SIZE))) as [->|D].
  - rewrite nth_set_nth_eq by (apply bucket_lt; exact L). cbn [find_entry e_channel e_pool].
    destruct (Z.eqb_spec c' c); [contradiction|reflexivity].
  - rewrite nth_set_nth_neq by exact D. reflexivity.
Qed.

(** what holds of a table *)
Definition table_ok (t : pool_table) : Prop :=
  length (t_buckets t) = 16%nat /\
  (forall c p, amqp_get_channel_pool t c = Some p -> (p < t_next t)%nat) /\
  (forall c c' p, amqp_get_channel_pool t c = Some p -> amqp_get_channel_pool t c' = Some p -> c = c').

Lemma create_ok nomem t c r t' : table_ok t -> amqp_get_or_create_channel_pool nomem t c = (r, t') ->
  table_ok t' /\ (forall c p, amqp_get_channel_pool t c = Some p -> amqp_get_channel_pool t' c = Some p).
Proof.
  intros (L & B & J) E. destruct (create_get _ _ _ _ _ L E) as (L' & G & O & NX & C).
  destruct (amqp_get_channel_pool t c) as [p|] eqn:GC.
  { destruct C as [-> ->]. split; [split; [exact L|auto]|auto]. }
  destruct C as [(-> & -> & ->)|(-> & -> & N)]; [split; [split; [exact L|auto]|auto]|].
  split; [split; [exact L'|split]|].
  - intros c1 p1 G1. destruct (Z.eq_dec c1 c) as [->|D].
    + rewrite G in G1. injection G1 as <-. lia.
    + rewrite O in G1 by exact D. apply B in G1. lia.
  - intros c1 c2 p1 G1 G2. destruct (Z.eq_dec c1 c) as [->|D1]; destruct (Z.eq_dec c2 c) as [->|D2]; auto.
    + rewrite O in G2 by exact D2. rewrite G in G1. injection G1 as <-. apply B in G2. lia.
    + rewrite O in G1 by exact D1. rewrite G in G2. injection G2 as <-. apply B in G1. lia.
    + rewrite O in G1, G2 by assumption. eauto.
  - intros c1 p1 G1. rewrite O; [exact G1|]. intros ->. congruence.
Qed.

Lemma creations_ok : forall ops t log t', table_ok t -> creations t ops = (log, t') ->
  table_ok t' /\ (forall c p, amqp_get_channel_pool t c = Some p -> amqp_get_channel_pool t' c = Some p) /\
  (forall c p, In (c, Some p) log -> amqp_get_channel_pool t' c = Some p) /\
  (forall c p, amqp_get_channel_pool t' c = Some p -> amqp_get_channel_pool t c = Some p \/ In (c, Some p) log) /\
  (Forall (fun o => fst o = false) ops -> Forall (fun r => snd r <> None) log).
Proof.
  induction ops as [|[nomem c] ops IH]; intros t log t' T E.
  - injection E as <- <-. cbn. split; [exact T|]. split; [auto|]. split; [tauto|]. auto.
  - cbn in E. destruct (amqp_get_or_create_channel_pool nomem t c) as [r t1] eqn:E1. destruct (creations t1 ops) as [l t2] eqn:E2.
    injection E as <- <-. destruct (create_ok _ _ _ _ _ T E1) as [T1 M1]. destruct (IH _ _ _ T1 E2) as (T2 & M2 & I2 & R2 & F2).
    destruct (create_get _ _ _ _ _ (proj1 T) E1) as (_ & G & O & _ & C).
    split; [exact T2|]. split; [auto|]. split; [|split].
    + intros c1 p1 [H|H]; [|auto]. injection H as -> ->. apply M2. exact G.
    + intros c1 p1 H. destruct (R2 c1 p1 H) as [H1|H1]; [|right; right; exact H1].
      destruct (Z.eq_dec c1 c) as [->|D]; [right; left; congruence|]. rewrite O in H1 by exact D. auto.
    + intros F. inversion F as [|? ? F3 F4]. cbn in F3. subst. constructor; [|auto]. cbn.
      destruct (amqp_get_channel_pool t c); [destruct C as [-> _]; discriminate|].
      destruct C as [(K & _)|(_ & -> & _)]; discriminate.
Qed.

Lemma empty_ok : table_ok empty_table.
Proof.
  assert (G : forall c, amqp_get_channel_pool empty_table c = None).
  { intros c. unfold amqp_get_channel_pool, empty_table. cbn [t_buckets].
    replace (nth _ _ _) with (@nil entry); [reflexivity|]. symmetry. generalize (Z.to_nat (c mod POOL_TABLE_SIZE)) as n.
    generalize 16%nat as m. induction m as [|m IH]; intros [|n]; cbn; auto. }
  split; [reflexivity|]. split; intros c; [intros p|intros c' p]; rewrite G; discriminate.
Qed.

(** C18.  After any history of calls, with any failures: two results are the same pool
    exactly when the channels are the same; amqp_get_channel_pool finds for each
    channel exactly the pool that was handed out for it, and nothing for the others. *)
Theorem C18_one_pool_per_channel : forall ops log t, creations empty_table ops = (log, t) ->
  (forall c c' p p', In (c, Some p) log -> In (c', Some p') log -> (p = p' <-> c = c')) /\
  (forall c p, amqp_get_channel_pool t c = Some p <-> In (c, Some p) log).
Proof.
  intros ops log t E. destruct (creations_ok _ _ _ _ empty_ok E) as (T & _ & I & R & _). split.
  - intros c c' p p' H H'. apply I in H. apply I in H'. split; intros ->; [|congruence].
    destruct T as (_ & _ & J). exact (J _ _ _ H H').
  - intros c p. split; [|apply I]. intros H. destruct (R c p H) as [K|K]; [|exact K].
    destruct empty_ok as (_ & B & _). apply B in K. cbn in K. lia.
Qed.

(** A pool is refused only when the allocator fails. *)
Theorem C18_no_spurious_null : forall ops log t, creations empty_table ops = (log, t) ->
  Forall (fun o => fst o = false) ops -> Forall (fun r => snd r <> None) log.
Proof. intros ops log t E. apply (creations_ok _ _ _ _ empty_ok E). Qed.

Example C18_example : exists t, creations empty_table [(false, 1); (false, 17); (true, 33); (false, 1); (false, 33)] =
  ([(1, Some 0%nat); (17, Some 1%nat); (33, None); (1, Some 0%nat); (33, Some 2%nat)], t).
Proof. eexists. vm_compute. reflexivity. Qed.

Print Assumptions C16_pool_blocks.
Print Assumptions C16_no_spurious_null.
Print Assumptions C16_huge_request_refuted.
Print Assumptions C17_recycle_keeps_pages.
Print Assumptions C17_empty_frees_everything.
Print Assumptions C17_empty_safe_after_failures.
Print Assumptions C17_leak_after_failure_refuted.
Print Assumptions C18_one_pool_per_channel.
Print Assumptions C18_no_spurious_null.
