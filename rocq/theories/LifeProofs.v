(** Ownership of blocks, for a part of the heap. *)
From Coq Require Import ZArith List Bool Lia Permutation.
From Verif Require Import Base BaseFacts Pool PoolSpec Life LifeSpec PermTac.
Import ListNotations.
Local Open Scope Z_scope.

(** the heap consists of the blocks [l] *)
Definition holds (h : heap) (l : list blk) : Prop :=
  Permutation (live_blocks h) l /\ NoDup (live_blocks h) /\ Forall (fun b => (b < h_next h)%nat) (live_blocks h).
Lemma holds_perm h l l' : holds h l -> Permutation l l' -> holds h l'.
Proof. intros (P & H) Q. split; [rewrite P; exact Q|exact H]. Qed.
Lemma holds_malloc h l size h' b : holds h l -> sys_malloc h size = (h', b) -> holds h' (b :: l).
Proof.
  intros (P & N & F) E. unfold sys_malloc in E. injection E as <- <-. unfold holds, live_blocks. cbn.
  split; [apply perm_skip; exact P|]. split.
  - constructor; [|exact N]. intros K. rewrite Forall_forall in F. specialize (F _ K). lia.
  - constructor; [lia|]. eapply Forall_impl; [|exact F]. cbn. lia.
Qed.
Lemma remove_ids b : forall l, In b (map fst l) -> exists l', remove_blk b l = Some l' /\ Permutation (map fst l) (b :: map fst l').
Proof.
  induction l as [|[b' n] l IH]; [intros []|]. intros H. cbn [remove_blk]. destruct (Nat.eqb_spec b b') as [->|D]; [exists l; split; reflexivity|].
  destruct H as [H|H]; [cbn in H; congruence|]. destruct (IH H) as (l' & E & P). rewrite E. eexists. split; [reflexivity|]. cbn. rewrite P. apply perm_swap.
Qed.
Lemma holds_free h b l : holds h (b :: l) -> exists h', sys_free h b = Some h' /\ holds h' l.
Proof.
  intros (P & N & F). destruct (remove_ids b (h_live h)) as (l' & E & Q).
  { apply (Permutation_in _ (Permutation_sym P)). left. reflexivity. }
  unfold sys_free. rewrite E. eexists. split; [reflexivity|]. unfold live_blocks in *. rewrite Q in N. split; [|split].
  - apply (Permutation_cons_inv (a := b)). rewrite <- Q. exact P.
  - inversion N; assumption.
  - cbn. rewrite Forall_forall in *. intros x Hx. apply F. apply (Permutation_in _ (Permutation_sym Q)). right. exact Hx.
Qed.
Lemma holds_free_opt h b l : holds h (opt_list b ++ l) -> exists h', free_opt h b = Some h' /\ holds h' l.
Proof. destruct b as [b|]; cbn; [apply holds_free|]. intros H. eauto. Qed.
Lemma holds_free_all : forall bs h l, holds h (bs ++ l) -> exists h', free_all h bs = Some h' /\ holds h' l.
Proof.
  induction bs as [|b bs IH]; intros h l H; [exists h; auto|]. cbn [free_all]. destruct (holds_free h b (bs ++ l) H) as (h1 & -> & H1). apply IH, H1.
Qed.

(** ** pools *)
Definition bl_fine (x : blocklist) : Prop := bl_array x = None -> bl_blocks x = [].
Definition pool_fine (p : pool) : Prop := bl_fine (p_pages p) /\ bl_fine (p_large p).
Lemma pool_fine_init ps : pool_fine (init_amqp_pool ps).
Proof. split; intro; reflexivity. Qed.
Lemma of_pool_init ps : of_pool (init_amqp_pool ps) = [].
Proof. reflexivity. Qed.
Lemma holds_empty_bl h x l : bl_fine x -> holds h (of_blocklist x ++ l) -> exists h', empty_blocklist h x = Some (h', mkBl None []) /\ holds h' l.
Proof.
  intros Hx H. unfold empty_blocklist, of_blocklist, bl_fine in *. destruct (bl_array x) as [a|].
  - rewrite <- app_assoc in H. destruct (holds_free_all _ _ _ H) as (h1 & -> & H1). destruct (holds_free _ _ _ H1) as (h2 & -> & H2). eauto.
  - rewrite (Hx eq_refl) in H. eauto.
Qed.
Lemma holds_recycle h p l : pool_fine p -> holds h (of_pool p ++ l) ->
  exists h' p', recycle_amqp_pool h p = Some (h', p') /\ pool_fine p' /\ p_pages p' = p_pages p /\ p_large p' = mkBl None [] /\ holds h' (of_pool p' ++ l).
Proof.
  intros [F1 F2] H. destruct (holds_empty_bl h (p_large p) (of_blocklist (p_pages p) ++ l) F2) as (h1 & E & H1).
  { eapply holds_perm; [exact H|]. unfold of_pool. perm. }
  unfold recycle_amqp_pool. rewrite E. do 2 eexists. split; [reflexivity|]. split; [split; [exact F1|intro; reflexivity]|]. split; [reflexivity|]. split; [reflexivity|].
  unfold of_pool. cbn. rewrite app_nil_r. exact H1.
Qed.
Lemma holds_empty h p l : pool_fine p -> holds h (of_pool p ++ l) -> exists h' p', empty_amqp_pool h p = Some (h', p') /\ holds h' l.
Proof.
  intros F H. destruct (holds_recycle h p l F H) as (h1 & p1 & E & F1 & _ & L1 & H1). unfold empty_amqp_pool. rewrite E.
  unfold of_pool in H1. rewrite L1 in H1. cbn in H1. rewrite app_nil_r in H1.
  destruct (holds_empty_bl h1 (p_pages p1) l (proj1 F1) H1) as (h2 & E2 & H2). rewrite E2. eauto.
Qed.
Lemma holds_record norec h x b l : bl_fine x -> holds h (b :: of_blocklist x ++ l) ->
  exists ok h' x', record_pool_block norec h x b = Some (ok, h', x') /\ bl_fine x' /\
    (if ok then holds h' (of_blocklist x' ++ l) else norec = true /\ x' = x /\ holds h' (b :: of_blocklist x ++ l)).
Proof.
  intros Hx H. unfold record_pool_block. destruct (bl_array x) as [a|] eqn:A; destruct norec.
  - do 3 eexists. split; [reflexivity|]. split; [exact Hx|]. auto.
  - destruct (holds_free h a (b :: bl_blocks x ++ l)) as (h1 & E & H1).
    { eapply holds_perm; [exact H|]. unfold of_blocklist. rewrite A. cbn. perm. }
    rewrite E. destruct (sys_malloc h1 _) as [h2 a2] eqn:E2. do 3 eexists. split; [reflexivity|]. split; [discriminate|].
    eapply holds_perm; [eapply holds_malloc; [exact H1|exact E2]|]. unfold of_blocklist. cbn. perm.
  - do 3 eexists. split; [reflexivity|]. split; [exact Hx|]. auto.
  - destruct (sys_malloc h _) as [h2 a2] eqn:E2. do 3 eexists. split; [reflexivity|]. split; [discriminate|].
    eapply holds_perm; [eapply holds_malloc; [exact H|exact E2]|]. unfold of_blocklist. rewrite A. cbn. perm.
Qed.
(** a request: at most one block gets lost, if its recording fails *)
Lemma holds_alloc nomem norec h p amount l : pool_fine p -> holds h (of_pool p ++ l) ->
  exists r h' p' lost, amqp_pool_alloc nomem norec h p amount = Some (r, h', p') /\ pool_fine p' /\ holds h' (of_pool p' ++ lost ++ l) /\
    zlen lost <= (if norec then 1 else 0).
Proof.
  intros F H. assert (0 <= (if norec then 1 else 0)) as Z0 by (destruct norec; lia). unfold amqp_pool_alloc.
  destruct (amount =? 0). { exists None, h, p, []. auto. }
  cbv zeta. destruct (_ <? _).
  - destruct nomem. { exists None, h, p, []. auto. }
    destruct (sys_malloc h _) as [h1 b] eqn:E1. pose proof (holds_malloc _ _ _ _ _ H E1) as H1.
    destruct (holds_record norec h1 (p_large p) b (of_blocklist (p_pages p) ++ l) (proj2 F)) as (ok & h2 & x & E2 & F2 & H2).
    { eapply holds_perm; [exact H1|]. unfold of_pool. perm. }
    rewrite E2. destruct ok.
    + do 2 eexists. eexists. exists []. split; [reflexivity|]. split; [split; [apply F|exact F2]|]. split; [|exact Z0].
      eapply holds_perm; [exact H2|]. unfold of_pool. cbn. perm.
    + destruct H2 as (-> & -> & H2). destruct (holds_free _ _ _ H2) as (h3 & E3 & H3). rewrite E3.
      do 2 eexists. eexists. exists []. split; [reflexivity|]. split; [split; [apply F|exact F2]|]. split; [|exact Z0].
      eapply holds_perm; [exact H3|]. unfold of_pool. cbn. perm.
  - match goal with |- context [match p_alloc_block p with Some _ => _ | None => ?n end] => assert (exists r h' p' lost, n = Some (r, h', p') /\ pool_fine p' /\
      holds h' (of_pool p' ++ lost ++ l) /\ zlen lost <= (if norec then 1 else 0)) as New end.
    { destruct (Nat.leb_spec (length (bl_blocks (p_pages p))) (p_next_page p)).
      - destruct nomem. { do 2 eexists. eexists. exists []. split; [reflexivity|]. split; [exact F|]. split; [exact H|exact Z0]. }
        destruct (sys_malloc h _) as [h1 b] eqn:E1. pose proof (holds_malloc _ _ _ _ _ H E1) as H1.
        destruct (holds_record norec h1 (p_pages p) b (of_blocklist (p_large p) ++ l) (proj1 F)) as (ok & h2 & x & E2 & F2 & H2).
        { eapply holds_perm; [exact H1|]. unfold of_pool. perm. }
        rewrite E2. destruct ok.
        + do 2 eexists. eexists. exists []. split; [reflexivity|]. split; [split; [exact F2|apply F]|]. split; [|exact Z0].
          eapply holds_perm; [exact H2|]. unfold of_pool. cbn. perm.
        + destruct H2 as (-> & -> & H2). do 2 eexists. eexists. exists [b]. split; [reflexivity|]. split; [split; [exact F2|apply F]|]. split; [|change (1 <= 1); lia].
          eapply holds_perm; [exact H2|]. unfold of_pool. cbn. perm.
      - destruct (nth_error _ _) as [b|] eqn:Nt; [|apply nth_error_None in Nt; lia].
        do 2 eexists. eexists. exists []. split; [reflexivity|]. split; [exact F|]. split; [exact H|exact Z0]. }
    destruct (p_alloc_block p) as [b|]; [|exact New]. destruct (_ <=? _); [|exact New].
    do 2 eexists. eexists. exists []. split; [reflexivity|]. split; [exact F|]. split; [exact H|exact Z0].
Qed.

(** ** connections *)
Definition fine (m : cmem) : Prop := Forall (Forall (fun e => pool_fine (ce_pool e))) (m_table m) /\ length (m_table m) = 16%nat /\ pool_fine (m_props m).
Definition entries (t : list (list centry)) : list blk := flat_map (flat_map of_entry) t.
Lemma flat_set_nth : forall (t : list (list centry)) n b, (n < length t)%nat ->
  exists rest, Permutation (entries t) (flat_map of_entry (nth n t []) ++ rest) /\ Permutation (entries (set_nth n b t)) (flat_map of_entry b ++ rest).
Proof.
  induction t as [|x t IH]; intros n b H; [cbn in H; lia|]. destruct n as [|n].
  - exists (entries t). split; reflexivity.
  - cbn in H. destruct (IH n b ltac:(lia)) as (r & P1 & P2). exists (flat_map of_entry x ++ r). unfold entries in *. cbn. rewrite P1, P2. split; perm.
Qed.
Lemma bucket_index ch : (Z.to_nat (ch mod POOL_TABLE_SIZE) < 16)%nat.
Proof. unfold POOL_TABLE_SIZE. pose proof (Z.mod_pos_bound ch 16 ltac:(lia)). lia. Qed.
Lemma Forall_set_nth {A} (P : A -> Prop) : forall l n x, Forall P l -> P x -> Forall P (set_nth n x l).
Proof. induction l as [|y l IH]; intros n x H Hx; [destruct n; constructor|]. inversion H; subst. destruct n; cbn; constructor; auto. Qed.
Lemma length_set_nth {A} : forall (l : list A) n x, length (set_nth n x l) = length l.
Proof. induction l as [|y l IH]; intros n x; [destruct n; reflexivity|]. destruct n; cbn; [reflexivity|]. rewrite IH. reflexivity. Qed.
Lemma nth_set_nth {A} (d : A) : forall l n x, (n < length l)%nat -> nth n (set_nth n x l) d = x.
Proof. induction l as [|y l IH]; intros n x H; [cbn in H; lia|]. destruct n; cbn; [reflexivity|]. apply IH. cbn in H. lia. Qed.
Lemma find_ce_spec ch : forall l before l1 e l2, find_ce ch before l = Some (l1, e, l2) -> before ++ l = l1 ++ e :: l2 /\ ce_channel e = ch.
Proof.
  induction l as [|x l IH]; intros before l1 e l2 H; [discriminate|]. cbn in H. destruct (Z.eqb_spec ch (ce_channel x)) as [->|].
  - injection H as <- <- <-. split; reflexivity.
  - apply IH in H. rewrite <- app_assoc in H. exact H.
Qed.
Lemma fine_bucket m ch : fine m -> Forall (fun e => pool_fine (ce_pool e)) (bucket (m_table m) ch).
Proof.
  intros (F & L & _). unfold bucket. rewrite Forall_forall in F. apply F. apply nth_In. rewrite L. apply bucket_index.
Qed.
Lemma fine_set m ch b : fine m -> Forall (fun e => pool_fine (ce_pool e)) b -> fine (set_table m (set_bucket (m_table m) ch b)).
Proof. intros (F & L & P) Hb. split; [apply Forall_set_nth; assumption|]. split; [cbn; unfold set_bucket; rewrite length_set_nth; exact L|exact P]. Qed.
(** replacing the pool of an entry *)
Lemma focus m ch l1 e l2 : fine m -> find_ce ch [] (bucket (m_table m) ch) = Some (l1, e, l2) ->
  exists rest, Permutation (of_mem m) (of_pool (ce_pool e) ++ rest) /\ pool_fine (ce_pool e) /\
  forall p, pool_fine p -> let m' := set_table m (set_bucket (m_table m) ch (l1 ++ mkCe (ce_channel e) (ce_blk e) p :: l2)) in
    fine m' /\ Permutation (of_mem m') (of_pool p ++ rest).
Proof.
  intros F H. apply find_ce_spec in H. cbn [app] in H. destruct H as [H _]. pose proof (fine_bucket m ch F) as Fb. rewrite H in Fb.
  apply Forall_app in Fb. destruct Fb as [Fb1 Fb2]. inversion Fb2 as [|? ? Fe Fb3]; subst.
  assert (Z.to_nat (ch mod POOL_TABLE_SIZE) < length (m_table m))%nat as Hl by (destruct F as (_ & -> & _); apply bucket_index).
  destruct (flat_set_nth (m_table m) _ [] Hl) as (r & P1 & _). unfold bucket in H. rewrite H in P1.
  exists (m_state m :: opt_list (m_out m) ++ opt_list (m_sock m) ++ opt_list (m_socket m) ++ flat_map of_entry l1 ++ ce_blk e :: flat_map of_entry l2 ++ r ++ of_pool (m_props m)).
  split; [|split; [exact Fe|]].
  - unfold of_mem. unfold entries in P1. rewrite P1. rewrite flat_map_app. cbn [flat_map]. change (of_entry e) with (ce_blk e :: of_pool (ce_pool e)). perm.
  - intros p Hp. split; [apply fine_set; [exact F|]; apply Forall_app; split; [exact Fb1|constructor; assumption]|].
    destruct (flat_set_nth (m_table m) _ (l1 ++ mkCe (ce_channel e) (ce_blk e) p :: l2) Hl) as (r2 & Q1 & Q2). rewrite H in Q1.
    unfold of_mem. cbn [set_table m_state m_out m_sock m_socket m_table m_props]. unfold set_bucket. unfold entries in Q2, Q1, P1. rewrite Q2.
    assert (Permutation r2 r) as Hr. { rewrite Q1 in P1. apply Permutation_app_inv_l in P1. exact P1. }
    rewrite Hr. rewrite flat_map_app. cbn [flat_map]. change (of_entry (mkCe (ce_channel e) (ce_blk e) p)) with (ce_blk e :: of_pool p). perm.
Qed.

Lemma holds_tune clock fails h m fm l : fine m -> fm <> 0 -> holds h (of_mem m ++ l) ->
  exists ok h' m', mem_tune clock fails h m fm = Some (ok, h', m') /\ fine m' /\ holds h' (of_mem m' ++ l).
Proof.
  intros F Hfm H. unfold mem_tune. destruct clock. { do 3 eexists. split; [reflexivity|]. split; [exact F|exact H]. }
  cbn [m_out]. unfold sys_realloc. destruct (m_out m) as [b|] eqn:O.
  - destruct (Z.eqb_spec fm 0); [contradiction|]. destruct fails. { do 3 eexists. split; [reflexivity|]. split; [exact F|]. unfold of_mem in *. cbn. rewrite O in *. exact H. }
    unfold of_mem in H. rewrite O in H.
    destruct (holds_free h b (m_state m :: opt_list (m_sock m) ++ opt_list (m_socket m) ++ flat_map (flat_map of_entry) (m_table m) ++ of_pool (m_props m) ++ l)) as (h1 & E1 & H1).
    { eapply holds_perm; [exact H|]. cbn [opt_list]. perm. }
    rewrite E1. destruct (sys_malloc h1 fm) as [h2 b2] eqn:E2. do 3 eexists. split; [reflexivity|]. split; [exact F|].
    eapply holds_perm; [eapply holds_malloc; [exact H1|exact E2]|]. unfold of_mem. cbn [m_state m_out m_sock m_socket m_table m_props opt_list]. perm.
  - destruct fails. { do 3 eexists. split; [reflexivity|]. split; [exact F|]. unfold of_mem in *. cbn. rewrite O in *. exact H. }
    destruct (sys_malloc h fm) as [h2 b2] eqn:E2. do 3 eexists. split; [reflexivity|]. split; [exact F|].
    eapply holds_perm; [eapply holds_malloc; [exact H|exact E2]|]. unfold of_mem. rewrite O. cbn [m_state m_out m_sock m_socket m_table m_props opt_list]. perm.
Qed.
Lemma holds_channel_pool nomem h m ch l : fine m -> holds h (of_mem m ++ l) ->
  exists ok h' m', mem_channel_pool nomem h m ch = (ok, h', m') /\ fine m' /\ holds h' (of_mem m' ++ l) /\
    (ok = true -> find_ce ch [] (bucket (m_table m') ch) <> None).
Proof.
  intros F H. unfold mem_channel_pool. destruct (find_ce ch [] (bucket (m_table m) ch)) as [x|] eqn:Fd.
  { do 3 eexists. split; [reflexivity|]. split; [exact F|]. split; [exact H|]. intros _. rewrite Fd. discriminate. }
  destruct nomem. { do 3 eexists. split; [reflexivity|]. split; [exact F|]. split; [exact H|]. discriminate. }
  destruct (sys_malloc h 100) as [h2 b2] eqn:E2. do 3 eexists. split; [reflexivity|].
  split; [apply fine_set; [exact F|]; constructor; [apply pool_fine_init|apply fine_bucket, F]|].
  assert (Z.to_nat (ch mod POOL_TABLE_SIZE) < length (m_table m))%nat as Hl by (destruct F as (_ & -> & _); apply bucket_index).
  split.
  - eapply holds_perm; [eapply holds_malloc; [exact H|exact E2]|]. unfold of_mem. cbn [set_table m_state m_out m_sock m_socket m_table m_props].
    set (e := mkCe ch b2 (init_amqp_pool (m_frame_max m))). destruct (flat_set_nth (m_table m) _ (e :: bucket (m_table m) ch) Hl) as (r & P1 & P2).
    unfold entries in *. unfold set_bucket. rewrite P1, P2. cbn [flat_map]. change (of_entry e) with ([b2] : list blk). unfold bucket. perm.
  - intros _. cbn [set_table m_table]. unfold bucket at 1, set_bucket. rewrite nth_set_nth by exact Hl. cbn. rewrite Z.eqb_refl. discriminate.
Qed.
Lemma holds_mem_alloc noentry nomem norec h m ch amount l : fine m -> holds h (of_mem m ++ l) ->
  exists h' m' lost, mem_alloc noentry nomem norec h m ch amount = Some (h', m') /\ fine m' /\ holds h' (of_mem m' ++ lost ++ l) /\ zlen lost <= (if norec then 1 else 0).
Proof.
  intros F H. unfold mem_alloc. destruct (holds_channel_pool noentry h m ch l F H) as (ok & h1 & m1 & E1 & F1 & H1 & Hf). rewrite E1.
  destruct ok. 2:{ exists h1, m1, []. split; [reflexivity|]. split; [exact F1|]. split; [exact H1|]. change (zlen []) with 0. destruct norec; lia. }
  destruct (find_ce ch [] (bucket (m_table m1) ch)) as [[[l1 e] l2]|] eqn:Fd; [|contradiction Hf; reflexivity].
  destruct (focus m1 ch l1 e l2 F1 Fd) as (rest & P1 & Fe & K).
  destruct (holds_alloc nomem norec h1 (ce_pool e) amount (rest ++ l) Fe) as (r & h2 & p2 & lost & E2 & F2 & H2 & Z2).
  { eapply holds_perm; [exact H1|]. rewrite P1. perm. }
  rewrite E2. destruct (K p2 F2) as [K1 K2]. do 2 eexists. exists lost. split; [reflexivity|]. split; [exact K1|]. split; [|exact Z2].
  eapply holds_perm; [exact H2|]. rewrite K2. perm.
Qed.
Lemma holds_mem_recycle h m ch l : fine m -> holds h (of_mem m ++ l) ->
  exists h' m', mem_recycle h m ch = Some (h', m') /\ fine m' /\ holds h' (of_mem m' ++ l).
Proof.
  intros F H. unfold mem_recycle. destruct (find_ce ch [] (bucket (m_table m) ch)) as [[[l1 e] l2]|] eqn:Fd; [|eauto].
  destruct (focus m ch l1 e l2 F Fd) as (rest & P1 & Fe & K).
  destruct (holds_recycle h (ce_pool e) (rest ++ l) Fe) as (h2 & p2 & E2 & F2 & _ & _ & H2).
  { eapply holds_perm; [exact H|]. rewrite P1. perm. }
  rewrite E2. destruct (K p2 F2) as [K1 K2]. do 2 eexists. split; [reflexivity|]. split; [exact K1|]. eapply holds_perm; [exact H2|]. rewrite K2. perm.
Qed.
Lemma holds_mem_props nomem norec h m amount l : fine m -> holds h (of_mem m ++ l) ->
  exists h' m' lost, mem_props nomem norec h m amount = Some (h', m') /\ fine m' /\ holds h' (of_mem m' ++ lost ++ l) /\ zlen lost <= (if norec then 1 else 0).
Proof.
  intros F H. unfold mem_props. set (rest := m_state m :: opt_list (m_out m) ++ opt_list (m_sock m) ++ opt_list (m_socket m) ++ flat_map (flat_map of_entry) (m_table m)).
  destruct (holds_alloc nomem norec h (m_props m) amount (rest ++ l) (proj2 (proj2 F))) as (r & h2 & p2 & lost & E2 & F2 & H2 & Z2).
  { eapply holds_perm; [exact H|]. unfold of_mem, rest. perm. }
  rewrite E2. do 2 eexists. exists lost. split; [reflexivity|]. split; [destruct F as (A & B & _); split; [exact A|split; [exact B|exact F2]]|]. split; [|exact Z2].
  eapply holds_perm; [exact H2|]. unfold of_mem, rest. cbn [m_state m_out m_sock m_socket m_table m_props]. perm.
Qed.
Lemma holds_mem_socket fails h m l : fine m -> holds h (of_mem m ++ l) ->
  exists h' m', mem_socket fails h m = Some (h', m') /\ fine m' /\ holds h' (of_mem m' ++ l).
Proof.
  intros F H. unfold mem_socket. destruct fails; [eauto|]. destruct (sys_malloc h 100) as [h1 b] eqn:E1. pose proof (holds_malloc _ _ _ _ _ H E1) as H1.
  destruct (holds_free_opt h1 (m_socket m) (b :: m_state m :: opt_list (m_out m) ++ opt_list (m_sock m) ++ flat_map (flat_map of_entry) (m_table m) ++ of_pool (m_props m) ++ l)) as (h2 & E2 & H2).
  { eapply holds_perm; [exact H1|]. unfold of_mem. perm. }
  rewrite E2. do 2 eexists. split; [reflexivity|]. split; [exact F|]. eapply holds_perm; [exact H2|]. unfold of_mem. cbn [m_state m_out m_sock m_socket m_table m_props opt_list]. perm.
Qed.
Lemma holds_destroy_bucket : forall b h l, Forall (fun e => pool_fine (ce_pool e)) b -> holds h (flat_map of_entry b ++ l) ->
  exists h', destroy_bucket h b = Some h' /\ holds h' l.
Proof.
  induction b as [|e b IH]; intros h l F H; [exists h; auto|]. inversion F as [|? ? Fa Fb]; subst. cbn [destroy_bucket]. cbn [flat_map] in H. change (of_entry e) with (ce_blk e :: of_pool (ce_pool e)) in H.
  destruct (holds_empty h (ce_pool e) (ce_blk e :: flat_map of_entry b ++ l)) as (h1 & p1 & E1 & H1); [assumption|eapply holds_perm; [exact H|]; perm|].
  rewrite E1. destruct (holds_free _ _ _ H1) as (h2 & E2 & H2). rewrite E2. apply IH; assumption.
Qed.
Lemma holds_destroy_table : forall t h l, Forall (Forall (fun e => pool_fine (ce_pool e))) t -> holds h (flat_map (flat_map of_entry) t ++ l) ->
  exists h', destroy_table h t = Some h' /\ holds h' l.
Proof.
  induction t as [|b t IH]; intros h l F H; [exists h; auto|]. inversion F as [|? ? Fa Fb]; subst. cbn [destroy_table]. cbn [flat_map] in H. rewrite <- app_assoc in H.
  destruct (holds_destroy_bucket b h _ ltac:(assumption) H) as (h1 & E1 & H1). rewrite E1. apply IH; assumption.
Qed.
Lemma holds_destroy h m l : fine m -> holds h (of_mem m ++ l) -> exists h', mem_destroy h m = Some h' /\ holds h' l.
Proof.
  intros (F1 & F2 & F3) H. unfold mem_destroy.
  destruct (holds_destroy_table (m_table m) h (opt_list (m_out m) ++ opt_list (m_sock m) ++ opt_list (m_socket m) ++ of_pool (m_props m) ++ m_state m :: l) F1) as (h1 & E1 & H1).
  { eapply holds_perm; [exact H|]. unfold of_mem. perm. }
  rewrite E1. destruct (holds_free_opt _ _ _ H1) as (h2 & E2 & H2). rewrite E2. destruct (holds_free_opt _ _ _ H2) as (h3 & E3 & H3). rewrite E3.
  destruct (holds_free_opt _ _ _ H3) as (h4 & E4 & H4). rewrite E4. destruct (holds_empty _ _ _ F3 H4) as (h5 & p5 & E5 & H5). rewrite E5. apply holds_free, H5.
Qed.
Lemma holds_new f1 clock f2 f3 h l : holds h l ->
  exists r h' lost, mem_new f1 clock f2 f3 h = Some (r, h') /\ match r with Some m => fine m | None => True end /\ holds h' (of_conn r ++ lost ++ l) /\
    zlen lost <= forgets (New f1 clock f2 f3).
Proof.
  intros H. unfold mem_new. destruct f1. { exists None, h, []. repeat split; try apply H. reflexivity. }
  destruct (sys_malloc h 1000) as [h1 s] eqn:E1. pose proof (holds_malloc _ _ _ _ _ H E1) as H1.
  set (m0 := mkMem s None None None 0 (repeat [] 16) (init_amqp_pool 0)).
  assert (fine m0) as F0. { split; [repeat constructor|]. split; [reflexivity|apply pool_fine_init]. }
  destruct (holds_tune clock f2 h1 m0 65536 l F0 ltac:(lia)) as (ok & h2 & m2 & E2 & F2 & H2). { exact H1. }
  assert (m_sock m2 = None /\ m_socket m2 = None /\ m_table m2 = repeat [] 16 /\ m_props m2 = init_amqp_pool 0 /\ (ok = false -> m_out m2 = None) /\
    (ok = true -> clock = false /\ f2 = false /\ m_out m2 <> None)) as (S1 & S2 & S3 & S4 & S5 & S6).
  { unfold mem_tune in E2. destruct clock; [injection E2 as <- <- <-; repeat split; auto; discriminate|]. cbn [m_out m0 sys_realloc] in E2.
    destruct f2; [injection E2 as <- <- <-; repeat split; auto; discriminate|]. destruct (sys_malloc h1 65536). injection E2 as <- <- <-.
    repeat split; try discriminate. }
  rewrite E2. unfold of_mem in H2. rewrite S1, S2, S3, S4 in H2. cbn in H2. rewrite app_nil_r in H2.
  destruct ok.
  - destruct (S6 eq_refl) as (-> & -> & S7). destruct (m_out m2) as [o|] eqn:O; [|contradiction S7; reflexivity]. cbn in H2. destruct f3.
    + rewrite S1. cbn [free_opt]. destruct (holds_free _ _ _ H2) as (h3 & E3 & H3). rewrite E3. exists None, h3, [o]. split; [reflexivity|]. split; [exact I|]. split; [exact H3|]. reflexivity || (change (1 <= 1); lia).
    + destruct (sys_malloc h2 131072) as [h3 b] eqn:E3. pose proof (holds_malloc _ _ _ _ _ H2 E3) as H3. eexists. exists h3, []. split; [reflexivity|]. split.
      * destruct F2 as (A & B & _). split; [exact A|]. split; [exact B|apply pool_fine_init].
      * split; [|change (0 <= 0); lia]. eapply holds_perm; [exact H3|]. cbn [of_conn]. unfold of_mem. cbn [m_state m_out m_sock m_socket m_table m_props]. rewrite S2, S3. cbn. rewrite perm_swap. apply perm_skip. apply perm_swap.
  - rewrite (S5 eq_refl) in H2. rewrite S1. cbn [free_opt]. cbn in H2. destruct (holds_free _ _ _ H2) as (h3 & E3 & H3). rewrite E3. exists None, h3, []. split; [reflexivity|]. split; [exact I|].
    split; [exact H3|]. change (zlen []) with 0; unfold forgets; destruct clock, f2, f3; lia.
Qed.

(** ** messages *)
Lemma unrecorded_cons nm nr am l : unrecorded ((nm, nr, am) :: l) = (if nr : bool then 1 else 0) + unrecorded l.
Proof. unfold unrecorded. cbn [filter fst snd]. destruct nr; [|lia]. unfold zlen. cbn [length]. lia. Qed.
Lemma unrecorded_nonneg l : 0 <= unrecorded l.
Proof. apply zlen_nonneg. Qed.
Lemma holds_clone : forall s h p l, pool_fine p -> holds h (of_pool p ++ l) ->
  exists ok h' p' lost, mem_clone h p s = Some (ok, h', p') /\ pool_fine p' /\ holds h' (of_pool p' ++ lost ++ l) /\ zlen lost <= unrecorded s.
Proof.
  induction s as [|[[nm nr] am] s IH]; intros h p l F H. { exists true, h, p, []. split; [reflexivity|]. split; [exact F|]. split; [exact H|]. change (0 <= 0). lia. }
  cbn [mem_clone]. rewrite unrecorded_cons. destruct (holds_alloc nm nr h p am l F H) as (r & h1 & p1 & lo & E & F1 & H1 & Z1). rewrite E.
  pose proof (unrecorded_nonneg s) as Z0.
  assert (exists ok h' p' lost, mem_clone h1 p1 s = Some (ok, h', p') /\ pool_fine p' /\ holds h' (of_pool p' ++ lost ++ l) /\ zlen lost <= (if nr then 1 else 0) + unrecorded s) as K.
  { destruct (IH h1 p1 (lo ++ l) F1 H1) as (ok & h2 & p2 & lo2 & E2 & F2 & H2 & Z2). exists ok, h2, p2, (lo2 ++ lo). split; [exact E2|]. split; [exact F2|].
    split; [rewrite <- app_assoc; exact H2|]. rewrite zlen_app. lia. }
  destruct r as [x|]; [exact K|]. destruct (am =? 0); [exact K|]. exists false, h1, p1, lo. split; [reflexivity|]. split; [exact F1|]. split; [exact H1|]. lia.
Qed.
Definition msg_fine (m : message) : Prop := pool_fine (g_pool m).
Lemma holds_error_out3 h p l : pool_fine p -> holds h (of_pool p ++ l) -> exists h', error_out3 h p = Some (None, h') /\ holds h' l.
Proof. intros F H. destruct (holds_empty h p l F H) as (h1 & p1 & E & H1). unfold error_out3. rewrite E. eauto. Qed.
Lemma holds_read h s l : body_read s = true -> holds h l ->
  exists r h' lost, mem_read h s = Some (r, h') /\ match r with Some m => msg_fine m | None => True end /\
    holds h' ((match r with Some m => of_message m | None => [] end) ++ lost ++ l) /\ zlen lost <= unrecorded (rs_clone s).
Proof.
  intros Hb H. pose proof (unrecorded_nonneg (rs_clone s)) as Z0. unfold mem_read. destruct (rs_header s); cbn [negb]. 2:{ exists None, h, []. repeat split; try apply H. exact Z0. }
  destruct (holds_clone (rs_clone s) h (init_amqp_pool 4096) l (pool_fine_init 4096) H) as (ok & h1 & p1 & lo & E & F1 & H1 & Z1). rewrite E. destruct ok.
  2:{ destruct (holds_error_out3 h1 p1 (lo ++ l) F1 H1) as (h2 & E2 & H2). rewrite E2. exists None, h2, lo. split; [reflexivity|]. split; [exact I|]. split; [exact H2|exact Z1]. }
  unfold body_read in Hb. destruct (rs_body s =? 0).
  { eexists. exists h1, lo. split; [reflexivity|]. split; [exact F1|]. split; [|exact Z1]. unfold of_message. cbn. rewrite app_nil_r. exact H1. }
  destruct (rs_nomem s); [discriminate|]. destruct (sys_malloc h1 (rs_body s)) as [h2 b] eqn:E2. pose proof (holds_malloc _ _ _ _ _ H1 E2) as H2. destruct (rs_frames s).
  - eexists. exists h2, lo. split; [reflexivity|]. split; [exact F1|]. split; [|exact Z1]. eapply holds_perm; [exact H2|]. unfold of_message. cbn [g_pool g_body opt_list]. perm.
  - destruct (holds_free _ _ _ H2) as (h3 & E3 & H3). rewrite E3. destruct (holds_error_out3 h3 p1 (lo ++ l) F1 H3) as (h4 & E4 & H4). rewrite E4.
    exists None, h4, lo. split; [reflexivity|]. split; [exact I|]. split; [exact H4|exact Z1].
Qed.
Lemma holds_destroy_message h m l : msg_fine m -> holds h (of_message m ++ l) -> exists h', mem_destroy_message h m = Some h' /\ holds h' l.
Proof.
  intros F H. unfold mem_destroy_message, of_message in *. rewrite <- app_assoc in H. destruct (holds_empty h (g_pool m) _ F H) as (h1 & p1 & E & H1). rewrite E.
  apply holds_free_opt, H1.
Qed.
Definition item_fine (x : item) : Prop := match x with Message m => msg_fine m | Envelope e => msg_fine (n_message e) end.
Lemma holds_destroy_item h x l : item_fine x -> holds h (of_item x ++ l) -> exists h', destroy_item h x = Some h' /\ holds h' l.
Proof.
  intros F H. destruct x as [m|e]; cbn [destroy_item of_item item_fine] in *; [apply holds_destroy_message; assumption|]. unfold mem_destroy_envelope.
  destruct (holds_destroy_message h (n_message e) (opt_list (n_routing_key e) ++ opt_list (n_exchange e) ++ opt_list (n_consumer_tag e) ++ l) F) as (h1 & E1 & H1).
  { eapply holds_perm; [exact H|]. perm. }
  rewrite E1. destruct (holds_free_opt _ _ _ H1) as (h2 & E2 & H2). rewrite E2. destruct (holds_free_opt _ _ _ H2) as (h3 & E3 & H3). rewrite E3. apply holds_free_opt, H3.
Qed.
Lemma holds_dup fails h len l : holds h l -> exists h' b, mem_dup fails h len = (h', b) /\ holds h' (opt_list b ++ l).
Proof.
  intros H. unfold mem_dup. destruct fails; [do 2 eexists; split; [reflexivity|exact H]|]. destruct (sys_malloc h len) as [h1 b] eqn:E. do 2 eexists. split; [reflexivity|].
  exact (holds_malloc _ _ _ _ _ H E).
Qed.
Lemma holds_consume h d t x k s l : body_read s = true -> holds h l ->
  exists r h' lost, mem_consume h d t x k s = Some (r, h') /\ match r with Some e => item_fine (Envelope e) | None => True end /\
    holds h' ((match r with Some e => of_item (Envelope e) | None => [] end) ++ lost ++ l) /\ zlen lost <= unrecorded (rs_clone s).
Proof.
  intros Hb H. pose proof (unrecorded_nonneg (rs_clone s)) as Z0. unfold mem_consume. destruct d; cbn [negb]. 2:{ exists None, h, []. repeat split; try apply H. exact Z0. }
  destruct (holds_dup (fst t) h (snd t) l H) as (h1 & bt & E1 & H1). rewrite E1.
  destruct (holds_dup (fst x) h1 (snd x) _ H1) as (h2 & bx & E2 & H2). rewrite E2.
  destruct (holds_dup (fst k) h2 (snd k) _ H2) as (h3 & bk & E3 & H3). rewrite E3. cbv zeta.
  assert (forall h0 lo, holds h0 (opt_list bk ++ opt_list bx ++ opt_list bt ++ lo) ->
    exists h', (match free_opt h0 bk with None => None | Some h => match free_opt h bx with None => None | Some h => match free_opt h bt with None => None | Some h => Some (@None envelope, h) end end end) = Some (None, h')
    /\ holds h' lo) as Out.
  { intros h0 lo K. destruct (holds_free_opt _ _ _ K) as (h4 & E4 & H4). rewrite E4. destruct (holds_free_opt _ _ _ H4) as (h5 & E5 & H5). rewrite E5.
    destruct (holds_free_opt _ _ _ H5) as (h6 & E6 & H6). rewrite E6. eauto. }
  destruct (_ || _ || _).
  - destruct (Out h3 l H3) as (h4 & E4 & H4). rewrite E4. exists None, h4, []. split; [reflexivity|]. split; [exact I|]. split; [exact H4|exact Z0].
  - destruct (holds_read h3 s _ Hb H3) as (r & h4 & lo & E4 & F4 & H4 & Z4). rewrite E4. destruct r as [m|].
    + eexists. exists h4, lo. split; [reflexivity|]. split; [exact F4|]. split; [|exact Z4]. eapply holds_perm; [exact H4|]. cbn [of_item n_message n_consumer_tag n_exchange n_routing_key]. perm.
    + destruct (Out h4 (lo ++ l)) as (h5 & E5 & H5). { eapply holds_perm; [exact H4|]. perm. }
      rewrite E5. exists None, h5, lo. split; [reflexivity|]. split; [exact I|]. split; [exact H5|exact Z4].
Qed.
