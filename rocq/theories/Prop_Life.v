(** C67: connections, messages and envelopes give back all their memory, once.

    A program creates connections, uses them (retuning, frames received on any channel,
    buffers released, properties stored, sockets replaced) and destroys them, and reads and
    destroys messages and envelopes, in any order.  Nothing is freed twice and nothing is
    freed that is not the object's: the run is never undefined.  At every moment the live
    blocks are exactly the blocks the objects that exist can reach (no two of them share
    one), plus at most one block for every failed recording.  So when all of them are
    destroyed, nothing is left.
    Specification: LifeSpec.v. *)
From Coq Require Import ZArith List Bool Lia Permutation.
From Verif Require Import Base BaseFacts Pool PoolSpec Life LifeSpec LifeProofs PermTac.
Import ListNotations.
Local Open Scope Z_scope.

Definition cfine (c : option cmem) : Prop := match c with Some m => fine m | None => True end.
Lemma flat_conns : forall cs i m, nth i cs None = Some m -> exists rest, Permutation (flat_map of_conn cs) (of_mem m ++ rest) /\
  forall c, Permutation (flat_map of_conn (set_nth i c cs)) (of_conn c ++ rest).
Proof.
  induction cs as [|x cs IH]; intros i m H; [destruct i; discriminate|]. destruct i as [|i].
  - cbn in H. subst x. exists (flat_map of_conn cs). split; [reflexivity|]. intros c. reflexivity.
  - cbn in H. destruct (IH i m H) as (r & P & Q). exists (of_conn x ++ r). split; [cbn [flat_map]; rewrite P; perm|]. intros c. cbn [set_nth flat_map]. rewrite (Q c). perm.
Qed.
Lemma mem_op_ok h m o l : fine m -> sound (Do 0 o) -> holds h (of_mem m ++ l) ->
  exists h' m' lost, mem_op h m o = Some (h', m') /\ fine m' /\ holds h' (of_mem m' ++ lost ++ l) /\ zlen lost <= forgets (Do 0 o).
Proof.
  intros F Hz H. destruct o as [clock fails fm|ne nm nr ch am|ch|nm nr am|fails]; cbn [mem_op sound forgets] in *.
  - destruct (holds_tune clock fails h m fm l F Hz H) as (ok & h' & m' & E & F' & H'). rewrite E. exists h', m', []. repeat split; try apply F'; try apply H'. change (zlen []) with 0. lia.
  - destruct (holds_mem_alloc ne nm nr h m ch am l F H) as (h' & m' & lost & E & F' & H' & Z'). exists h', m', lost. destruct nr; auto.
  - destruct (holds_mem_recycle h m ch l F H) as (h' & m' & E & F' & H'). exists h', m', []. repeat split; try apply F'; try apply H'; try exact E. change (zlen []) with 0. lia.
  - destruct (holds_mem_props nm nr h m am l F H) as (h' & m' & lost & E & F' & H' & Z'). exists h', m', lost. destruct nr; auto.
  - destruct (holds_mem_socket fails h m l F H) as (h' & m' & E & F' & H'). exists h', m', []. repeat split; try apply F'; try apply H'; try exact E. change (zlen []) with 0. lia.
Qed.
Definition xfine (x : option item) : Prop := match x with Some x => item_fine x | None => True end.
Lemma flat_slots : forall xs j x, nth j xs None = Some x -> exists rest, Permutation (flat_map of_slot xs) (of_item x ++ rest) /\
  forall y, Permutation (flat_map of_slot (set_nth j y xs)) (of_slot y ++ rest).
Proof.
  induction xs as [|z xs IH]; intros j x H; [destruct j; discriminate|]. destruct j as [|j].
  - cbn in H. subst z. exists (flat_map of_slot xs). split; [reflexivity|]. intros c. reflexivity.
  - cbn in H. destruct (IH j x H) as (r & P & Q). exists (of_slot z ++ r). split; [cbn [flat_map]; rewrite P; perm|]. intros c. cbn [set_nth flat_map]. rewrite (Q c). perm.
Qed.
Lemma nth_fine {A} (P : option A -> Prop) l i a : Forall P l -> nth i l None = Some a -> P (Some a).
Proof.
  intros Hf Nt. assert (In (Some a) l) as K.
  { rewrite <- Nt. apply nth_In. destruct (Nat.lt_ge_cases i (length l)) as [|G]; [assumption|]. rewrite (nth_overflow l None G) in Nt. discriminate. }
  rewrite Forall_forall in Hf. exact (Hf _ K).
Qed.
Lemma run_world_ok : forall ops h cs xs lost, Forall sound ops -> Forall cfine cs -> Forall xfine xs ->
  holds h (flat_map of_conn cs ++ flat_map of_slot xs ++ lost) ->
  exists h' cs' xs' lost', run_world h cs xs ops = Some (h', cs', xs') /\
    holds h' (flat_map of_conn cs' ++ flat_map of_slot xs' ++ lost') /\ zlen lost' <= zlen lost + forgotten ops.
Proof.
  induction ops as [|o ops IH]; intros h cs xs lost Hn Hf Hx H.
  { exists h, cs, xs, lost. split; [reflexivity|]. split; [exact H|]. cbn. lia. }
  inversion Hn as [|? ? N1 N2]; subst. cbn [run_world forgotten fold_right]. fold (forgotten ops).
  assert (forall h1 cs1 xs1 lo, Forall cfine cs1 -> Forall xfine xs1 -> holds h1 (flat_map of_conn cs1 ++ flat_map of_slot xs1 ++ lo ++ lost) -> zlen lo <= forgets o ->
    exists h' cs' xs' lost', run_world h1 cs1 xs1 ops = Some (h', cs', xs') /\
      holds h' (flat_map of_conn cs' ++ flat_map of_slot xs' ++ lost') /\ zlen lost' <= zlen lost + (forgets o + forgotten ops)) as Go.
  { intros h1 cs1 xs1 lo F1 X1 H1 Z1. destruct (IH h1 cs1 xs1 (lo ++ lost) N2 F1 X1 H1) as (h2 & cs2 & xs2 & lo2 & E2 & H2 & Z2).
    exists h2, cs2, xs2, lo2. split; [exact E2|]. split; [exact H2|]. rewrite zlen_app in Z2. lia. }
  assert (0 <= forgets o) as Pos. { destruct o as [[] [] [] []|i [| ? ? [] | | ? [] | ]|i|s|d t x k s|j]; cbn [forgets]; try lia; apply unrecorded_nonneg. }
  assert (zlen (@nil blk) <= forgets o) as Pos' by exact Pos.
  destruct o as [f1 clock f2 f3|i o|i|s|d t x k s|j].
  - destruct (holds_new f1 clock f2 f3 h _ H) as (r & h1 & lo & E & F & H1 & Z1). rewrite E. apply (Go _ _ _ lo); auto.
    { apply Forall_app. split; [exact Hf|]. constructor; [exact F|constructor]. }
    { eapply holds_perm; [exact H1|]. rewrite flat_map_app. cbn [flat_map]. perm. }
  - destruct (nth i cs None) as [m|] eqn:Nt; [|apply (Go _ _ _ []); auto].
    destruct (flat_conns cs i m Nt) as (r & P & Q). pose proof (nth_fine cfine cs i m Hf Nt : fine m) as Fm.
    destruct (mem_op_ok h m o (r ++ flat_map of_slot xs ++ lost) Fm N1) as (h1 & m1 & lo & E & F1 & H1 & Z1). { eapply holds_perm; [exact H|]. rewrite P. perm. }
    rewrite E. apply (Go _ _ _ lo); auto.
    { apply Forall_set_nth; assumption. }
    { eapply holds_perm; [exact H1|]. rewrite (Q (Some m1)). cbn [of_conn]. perm. }
  - destruct (nth i cs None) as [m|] eqn:Nt; [|apply (Go _ _ _ []); auto].
    destruct (flat_conns cs i m Nt) as (r & P & Q). pose proof (nth_fine cfine cs i m Hf Nt : fine m) as Fm.
    destruct (holds_destroy h m (r ++ flat_map of_slot xs ++ lost) Fm) as (h1 & E & H1). { eapply holds_perm; [exact H|]. rewrite P. perm. }
    rewrite E. apply (Go _ _ _ []); auto.
    { apply Forall_set_nth; [exact Hf|exact I]. }
    { eapply holds_perm; [exact H1|]. rewrite (Q None). reflexivity. }
  - destruct (holds_read h s _ N1 H) as (r & h1 & lo & E & F & H1 & Z1). rewrite E. apply (Go _ _ _ lo); auto.
    { apply Forall_app. split; [exact Hx|]. constructor; [|constructor]. destruct r; exact F. }
    { eapply holds_perm; [exact H1|]. rewrite flat_map_app. cbn [flat_map]. destruct r; cbn [option_map of_slot of_item]; perm. }
  - destruct (holds_consume h d t x k s _ N1 H) as (r & h1 & lo & E & F & H1 & Z1). rewrite E. apply (Go _ _ _ lo); auto.
    { apply Forall_app. split; [exact Hx|]. constructor; [|constructor]. destruct r; exact F. }
    { eapply holds_perm; [exact H1|]. rewrite flat_map_app. cbn [flat_map]. destruct r as [e|]; cbn [option_map of_slot]; [set (y := of_item (Envelope e))|]; perm. }
  - destruct (nth j xs None) as [x|] eqn:Nt; [|apply (Go _ _ _ []); auto].
    destruct (flat_slots xs j x Nt) as (r & P & Q). pose proof (nth_fine xfine xs j x Hx Nt : item_fine x) as Fx.
    destruct (holds_destroy_item h x (flat_map of_conn cs ++ r ++ lost) Fx) as (h1 & E & H1). { eapply holds_perm; [exact H|]. rewrite P. perm. }
    rewrite E. apply (Go _ _ _ []); auto.
    { apply Forall_set_nth; [exact Hx|exact I]. }
    { eapply holds_perm; [exact H1|]. rewrite (Q None). reflexivity. }
Qed.
Lemma holds_nothing : holds no_heap [].
Proof. repeat split; constructor. Qed.

(** Never undefined, and the live blocks are those of the connections, messages and
    envelopes that exist, each once, and the forgotten ones.  (Not for frame_max 0, nor
    when the malloc of a body fails.) *)
Theorem C67_memory_partial : forall ops, Forall sound ops ->
  exists h cs xs lost, run_world no_heap [] [] ops = Some (h, cs, xs) /\
    let all := flat_map of_conn cs ++ flat_map of_slot xs ++ lost in
    Permutation (live_blocks h) all /\ NoDup all /\ zlen lost <= forgotten ops.
Proof.
  intros ops Hn. destruct (run_world_ok ops no_heap [] [] [] Hn ltac:(constructor) ltac:(constructor) holds_nothing) as (h & cs & xs & lost & E & (P & N & _) & Z).
  exists h, cs, xs, lost. split; [exact E|]. split; [exact P|]. split; [eapply Permutation_NoDup; [exact P|exact N]|]. exact Z.
Qed.
(** All destroyed: nothing is left, unless malloc or realloc failed at one of the places
    of [forgets]; failures elsewhere lose nothing. *)
Theorem C67_all_freed_partial : forall ops h cs xs, Forall sound ops -> run_world no_heap [] [] ops = Some (h, cs, xs) ->
  Forall (fun c => c = None) cs -> Forall (fun x => x = None) xs -> zlen (h_live h) <= forgotten ops /\ (forgotten ops = 0 -> h_live h = []).
Proof.
  intros ops h cs xs Hn E Hd Hd'. destruct (C67_memory_partial ops Hn) as (h' & cs' & xs' & lost & E' & P & _ & Z). rewrite E in E'. injection E' as <- <- <-.
  assert (flat_map of_conn cs = []) as K. { clear -Hd. induction Hd as [|c cs -> _ IH]; [reflexivity|exact IH]. }
  assert (flat_map of_slot xs = []) as K'. { clear -Hd'. induction Hd' as [|c cs -> _ IH]; [reflexivity|exact IH]. }
  rewrite K, K' in P. cbn [app] in P. assert (zlen (h_live h) = zlen lost) as L.
  { apply Permutation_length in P. unfold live_blocks in P. rewrite map_length in P. unfold zlen. lia. }
  split; [lia|]. intros K0. rewrite K0 in Z. destruct (h_live h) as [|y t]; [reflexivity|]. unfold zlen in *. cbn [length] in L. lia.
Qed.
(** Destroying one connection frees exactly what it could reach: its blocks are gone, every
    other block stays. *)
Theorem C67_destroy : forall h m l, fine m -> holds h (of_mem m ++ l) ->
  exists h', mem_destroy h m = Some h' /\ Permutation (live_blocks h') l.
Proof. intros h m l F H. destruct (holds_destroy h m l F H) as (h' & E & H'). exists h'. split; [exact E|apply H']. Qed.

(** A delivery that cannot copy a nonempty consumer tag, exchange or routing key is refused;
    an empty one needs no memory (malloc(0) may return NULL), and then amqp_consume_message
    succeeds exactly when the message can be read. *)
Theorem C67_copies : forall h tag exchange key s,
  let lacks (a : bool * Z) := fst a = true /\ snd a <> 0 in
  (lacks tag \/ lacks exchange \/ lacks key -> forall r h', mem_consume h true tag exchange key s = Some (r, h') -> r = None) /\
  (~ lacks tag -> ~ lacks exchange -> ~ lacks key ->
   forall r h', mem_consume h true tag exchange key s = Some (r, h') ->
   exists h1 r1 h2, mem_read h1 s = Some (r1, h2) /\ option_map n_message r = r1).
Proof.
  intros h tag exchange key s lacks. unfold mem_consume. cbn [negb].
  destruct tag as [f1 n1], exchange as [f2 n2], key as [f3 n3]. subst lacks. cbn [fst snd].
  assert (forall f n h0, exists h1 b, mem_dup f h0 n = (h1, b) /\ (b = None <-> f = true)) as D.
  { intros [] n h0; unfold mem_dup; [|destruct (sys_malloc h0 n)]; do 2 eexists; (split; [reflexivity|]); split; congruence. }
  destruct (D f1 n1 h) as (h1 & t & -> & T). destruct (D f2 n2 h1) as (h2 & x & -> & X). destruct (D f3 n3 h2) as (h3 & k & -> & K). cbv zeta.
  assert (forall f n b, (b = None <-> f = true) -> (dup_failed n b = true <-> f = true /\ n <> 0)) as F.
  { intros f n b B. unfold dup_failed. destruct (Z.eqb_spec n 0) as [E|E]; cbn [negb andb]; [split; [discriminate|intros [_ E']; contradiction]|].
    destruct b; [split; [discriminate|intros [E' _]; apply B in E'; discriminate]|]. split; [intros _; split; [apply B; reflexivity|exact E]|intros _; reflexivity]. }
  pose proof (F f1 n1 t T) as F1. pose proof (F f2 n2 x X) as F2. pose proof (F f3 n3 k K) as F3.
  split.
  - intros L r h' E. assert (dup_failed n1 t || dup_failed n2 x || dup_failed n3 k = true) as G.
    { rewrite !orb_true_iff. rewrite F1, F2, F3. tauto. }
    rewrite G in E. destruct (free_opt h3 k); [|discriminate]. destruct (free_opt _ x); [|discriminate]. destruct (free_opt _ t); [|discriminate]. congruence.
  - intros L1 L2 L3 r h' E. assert (dup_failed n1 t || dup_failed n2 x || dup_failed n3 k = false) as G.
    { rewrite !orb_false_iff. rewrite <- !not_true_iff_false. rewrite F1, F2, F3. tauto. }
    rewrite G in E. destruct (mem_read h3 s) as [[[m|] h4]|] eqn:R; [| |discriminate].
    + injection E as <- <-. exists h3, (Some m), h4. auto.
    + exists h3, None, h4. split; [exact R|]. destruct (free_opt h4 k); [|discriminate]. destruct (free_opt _ x); [|discriminate]. destruct (free_opt _ t); [|discriminate]. injection E as <- <-. reflexivity.
Qed.

(** amqp_new_connection that runs out of memory for the socket buffer forgets the send
    buffer (64 KiB). *)
Theorem C67_new_refuted : exists h, run_world no_heap [] [] [New false false false true] = Some (h, [None], []) /\ map snd (h_live h) = [65536].
Proof. eexists. split; vm_compute; reflexivity. Qed.
(** amqp_read_message that runs out of memory for the body (any size the server announces)
    forgets the memory of the properties it has already copied (4096 bytes and the record
    of the page), and the caller, told that nothing was read, has nothing to destroy. *)
Theorem C67_body_refuted : forall size, size <> 0 ->
  exists h, run_world no_heap [] [] [Read (mkRead true [(false, false, 10)] size true true)] = Some (h, [], [None]) /\ map snd (h_live h) = [8; 4096].
Proof. intros size Hs. eexists. cbn -[Z.eqb]. apply Z.eqb_neq in Hs. rewrite Hs. vm_compute. split; reflexivity. Qed.
(** With a frame_max of 0 (below the documented minimum of 4096, but amqp_login and
    amqp_tune_connection take it, and amqp_login uses it if the server also says 0),
    realloc frees the send buffer, and destroying the connection frees it again. *)
Theorem C67_zero_refuted : run_world no_heap [] [] [New false false false false; Do 0 (MTune false false 0); Destroy 0] = None.
Proof. vm_compute. reflexivity. Qed.

(** ** Non-vacuity *)
Definition a_program : list wop :=
  [New false false false false; New false false false false; Do 0 (MSocket false); Do 1 (MSocket false); Do 0 (MTune false false 131072);
   Do 0 (MAlloc false false false 1 100); Do 0 (MAlloc false false false 17 200); Do 0 (MAlloc true false false 33 200); Do 0 (MAlloc false false false 1 200000);
   Do 1 (MAlloc false false false 1 100); Do 0 (MProps false false 700); Do 0 (MSocket false); Do 0 (MRecycle 1); Destroy 1; Do 0 (MRecycle 17); Do 0 (MAlloc false true false 1 100);
   Read (mkRead true [(false, false, 10); (false, false, 5000)] 300 false true); Read (mkRead true [(true, false, 10)] 300 false true);
   Consume true (false, 5) (false, 0) (false, 9) (mkRead true [(false, false, 10)] 0 true true);
   Consume true (false, 5) (true, 7) (false, 9) (mkRead true [] 5 false true); Consume true (false, 5) (true, 0) (false, 9) (mkRead true [] 5 false false)].
Example C67_example : Forall sound a_program /\ forgotten a_program = 0 /\
  match run_world no_heap [] [] a_program with Some (h, [Some m; None], [Some (Message _); None; Some (Envelope _); None; None]) => length (h_live h) = 22%nat | _ => False end /\
  match run_world no_heap [] [] (a_program ++ [DestroyItem 2; Destroy 0; DestroyItem 0]) with Some (h, cs, xs) => h_live h = [] | _ => False end.
Proof. split; [repeat constructor; discriminate|]. split; [reflexivity|]. split; vm_compute; reflexivity. Qed.

(** the copies of an empty exchange and an empty key fail: still delivered *)
Example C67_copies_example :
  (exists e h', mem_consume no_heap true (false, 5) (true, 0) (true, 0) (mkRead true [] 5 false true) = Some (Some e, h')) /\
  (exists h', mem_consume no_heap true (false, 5) (true, 1) (true, 0) (mkRead true [] 5 false true) = Some (None, h')).
Proof. split; repeat eexists; vm_compute; reflexivity. Qed.

Print Assumptions C67_memory_partial.
Print Assumptions C67_all_freed_partial.
Print Assumptions C67_destroy.
Print Assumptions C67_new_refuted.
Print Assumptions C67_body_refuted.
Print Assumptions C67_zero_refuted.
Print Assumptions C67_copies.
