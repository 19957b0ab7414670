From Coq Require Import ZArith List Bool Lia Permutation.
From Verif Require Import Base BaseFacts Pool PoolSpec PermTac.
Import ListNotations.
Local Open Scope Z_scope.

Lemma round8_spec n : 0 <= n <= M64 - 8 -> n <= round8 n /\ round8 n mod 8 = 0 /\ round8 n < n + 8 /\ 0 <= round8 n < M64.
Proof.
  intros H. unfold round8, u64. rewrite Z.mod_small by lia.
  replace (M64 - 8) with (Z.ldiff (Z.ones 64) (Z.ones 3)) by reflexivity.
  assert (E : Z.land (n + 7) (Z.ldiff (Z.ones 64) (Z.ones 3)) = (n + 7) / 8 * 8).
  { rewrite Z.ldiff_land. rewrite Z.land_assoc. rewrite (Z.land_ones (n + 7) 64) by lia. change (2 ^ 64) with M64.
    rewrite (Z.mod_small (n + 7)) by lia. rewrite <- Z.ldiff_land. rewrite Z.ldiff_ones_r by lia.
    rewrite Z.shiftr_div_pow2, Z.shiftl_mul_pow2 by lia. reflexivity. }
  rewrite E. pose proof (Z.div_mod (n + 7) 8 ltac:(lia)). pose proof (Z.mod_pos_bound (n + 7) 8 ltac:(lia)).
  rewrite Z.mod_mul by lia. lia.
Qed.

(** ** the system heap *)
Lemma remove_blk_spec b l : In b (map fst l) -> exists n l', remove_blk b l = Some l' /\ Permutation l ((b, n) :: l').
Proof.
  induction l as [|[b' n] l IH]; cbn [map In]; [intros []|]. intros H. cbn [remove_blk].
  destruct (Nat.eqb_spec b b') as [->|N]; [exists n, l; auto|].
  destruct H as [H|H]; [cbn in H; congruence|]. destruct (IH H) as (m & l' & -> & P).
  exists m, ((b', n) :: l'). split; [reflexivity|]. rewrite P. apply perm_swap.
Qed.
Lemma sys_free_spec h b : In b (map fst (h_live h)) ->
  exists n h', sys_free h b = Some h' /\ h_next h' = h_next h /\ Permutation (h_live h) ((b, n) :: h_live h').
Proof.
  intros H. destruct (remove_blk_spec b _ H) as (n & l' & E & P). unfold sys_free. rewrite E. do 2 eexists. eauto.
Qed.
Lemma perm_cancel (b : blk) n m (l l' : list (blk * Z)) : NoDup (map fst ((b, n) :: l)) ->
  Permutation ((b, n) :: l) ((b, m) :: l') -> Permutation l l'.
Proof.
  intros ND P. assert (n = m).
  { assert (I : In (b, m) ((b, n) :: l)) by (apply (Permutation_in _ (Permutation_sym P)); left; reflexivity).
    destruct I as [I|I]; [congruence|]. exfalso. cbn in ND. inversion ND as [|? ? N1 N2]. apply N1. apply (in_map fst) in I. exact I. }
  subst m. exact (Permutation_cons_inv P).
Qed.
(** freeing one block of a known heap *)
Lemma sys_free_known h b n rest : NoDup (map fst (h_live h)) -> Permutation (h_live h) ((b, n) :: rest) ->
  exists h', sys_free h b = Some h' /\ h_next h' = h_next h /\ Permutation (h_live h') rest /\ NoDup (map fst (h_live h')).
Proof.
  intros ND P. destruct (sys_free_spec h b) as (m & h' & E & N & P').
  { apply (Permutation_in _ (Permutation_sym (Permutation_map fst P))). left. reflexivity. }
  exists h'. split; [auto|]. split; [auto|].
  assert (ND2 : NoDup (map fst ((b, m) :: h_live h'))) by (apply (Permutation_NoDup (Permutation_map fst P')); auto).
  split; [|cbn in ND2; inversion ND2; auto].
  apply (perm_cancel b m n); [auto|]. rewrite <- P'. exact P.
Qed.
Lemma free_all_known : forall l (sz : list (blk * Z)) h rest, map fst sz = l -> NoDup (map fst (h_live h)) ->
  Permutation (h_live h) (sz ++ rest) ->
  exists h', free_all h l = Some h' /\ h_next h' = h_next h /\ Permutation (h_live h') rest /\ NoDup (map fst (h_live h')).
Proof.
  induction l as [|b l IH]; intros sz h rest E ND P.
  - destruct sz; [|discriminate]. exists h. cbn. auto.
  - destruct sz as [|[b' n] sz]; [discriminate|]. cbn in E. injection E as -> E.
    destruct (sys_free_known h b n (sz ++ rest) ND P) as (h1 & F1 & F2 & F3 & F4).
    cbn [free_all]. rewrite F1. destruct (IH sz h1 rest E F4 F3) as (h2 & G1 & G2 & G3 & G4).
    exists h2. rewrite G2. auto.
Qed.

(** ** the invariant *)
Definition arr (x : blocklist) : list (blk * Z) :=
  match bl_array x with Some a => [(a, 8 * zlen (bl_blocks x))] | None => [] end.
Definition bl_ok (x : blocklist) : Prop := bl_array x = None -> bl_blocks x = [].

Definition pages_sized (ps : Z) (l : list blk) : list (blk * Z) := map (fun b => (b, ps)) l.

Record heap_inv (h : heap) (p : pool) (leaked : list blk) (LS : list (blk * Z)) : Prop := {
  hi_perm : Permutation (h_live h) (pages_sized (p_pagesize p) (bl_blocks (p_pages p)) ++ arr (p_pages p) ++
                                    LS ++ arr (p_large p) ++ pages_sized (p_pagesize p) leaked);
  hi_nodup : NoDup (map fst (h_live h));
  hi_next : Forall (fun b => (b < h_next h)%nat) (map fst (h_live h));
  hi_ls : map fst LS = bl_blocks (p_large p);
  hi_ok1 : bl_ok (p_pages p);
  hi_ok2 : bl_ok (p_large p) }.

Definition used_pages (p : pool) (leaked : list blk) : list blk := firstn (p_next_page p) (bl_blocks (p_pages p)) ++ leaked.

Definition handed_ok (p : pool) (leaked : list blk) (LS : list (blk * Z)) (x : handed) : Prop :=
  0 < hd_size x /\ 0 <= hd_off x /\ hd_off x mod 8 = 0 /\
  ((In (hd_blk x) (used_pages p leaked) /\ hd_off x + hd_size x <= p_pagesize p /\
    (p_alloc_block p = Some (hd_blk x) -> hd_off x + hd_size x <= p_alloc_used p)) \/
   (hd_off x = 0 /\ exists sz, In (hd_blk x, sz) LS /\ hd_size x <= sz)).

Record inv (h : heap) (p : pool) (out : list handed) (leaked : list blk) (LS : list (blk * Z)) : Prop := {
  iv_heap : heap_inv h p leaked LS;
  iv_ps : 0 < p_pagesize p < M63;
  iv_used : 0 <= p_alloc_used p <= p_pagesize p /\ p_alloc_used p mod 8 = 0;
  iv_np : (p_next_page p <= length (bl_blocks (p_pages p)))%nat;
  iv_ab : forall b, p_alloc_block p = Some b -> In b (used_pages p leaked);
  iv_out : Forall (handed_ok p leaked LS) out;
  iv_dis : ForallOrdPairs disjoint out }.

Lemma inv_init ps : 0 <= ps < M63 -> inv no_heap (init_amqp_pool ps) [] [] [].
Proof.
  intros H.
  assert (K : 0 < (if ps =? 0 then 4096 else ps) < M63) by (destruct (Z.eqb_spec ps 0); lia).
  constructor; unfold init_amqp_pool, no_heap; cbn [p_pagesize p_alloc_used p_next_page p_pages bl_blocks p_alloc_block h_live].
  - constructor; cbn; try constructor; intro; reflexivity.
  - exact K.
  - split; [lia|reflexivity].
  - cbn. lia.
  - discriminate.
  - constructor.
  - constructor.
Qed.

(** recording a freshly allocated block *)
Lemma record_spec fails h x b : bl_ok x -> NoDup (map fst (h_live h)) -> Forall (fun b => (b < h_next h)%nat) (map fst (h_live h)) ->
  forall rest, Permutation (h_live h) (arr x ++ rest) ->
  exists ok h' x', record_pool_block fails h x b = Some (ok, h', x') /\
    NoDup (map fst (h_live h')) /\ Forall (fun b => (b < h_next h')%nat) (map fst (h_live h')) /\
    Permutation (h_live h') (arr x' ++ rest) /\ bl_ok x' /\
    ((ok = false /\ x' = x /\ h' = h /\ fails = true) \/ (ok = true /\ fails = false /\ bl_blocks x' = bl_blocks x ++ [b])).
Proof.
  intros OK ND NX rest P. unfold record_pool_block. unfold arr in P. destruct (bl_array x) as [a|] eqn:EA.
  - destruct fails.
    { do 3 eexists. split; [reflexivity|]. unfold arr. rewrite EA. auto 10. }
    destruct (sys_free_known h a _ rest ND P) as (h1 & F1 & F2 & F3 & F4). rewrite F1. cbn [sys_malloc].
    do 3 eexists. split; [reflexivity|]. cbn [h_live h_next map fst]. rewrite F2.
    assert (NI : Forall (fun b => (b < h_next h)%nat) (map fst (h_live h1))).
    { apply Forall_forall. intros z Hz. rewrite Forall_forall in NX. apply NX.
      apply (Permutation_in _ (Permutation_sym (Permutation_map fst P))). cbn. right.
      apply (Permutation_in _ (Permutation_map fst F3)). auto. }
    split. { constructor; auto. rewrite Forall_forall in NI. intros K. specialize (NI _ K). lia. }
    split. { constructor; [lia|]. eapply Forall_impl; [|exact NI]. cbn. lia. }
    unfold arr, bl_ok. cbn [bl_array bl_blocks]. split; [|split; [discriminate|right; auto]].
    rewrite zlen_app. change (zlen [b]) with 1. cbn [app]. apply perm_skip. exact F3.
  - destruct fails.
    { do 3 eexists. split; [reflexivity|]. unfold arr. rewrite EA. auto 10. }
    cbn [sys_malloc]. do 3 eexists. split; [reflexivity|]. cbn [h_live h_next map fst].
    split. { constructor; auto. rewrite Forall_forall in NX. intros K. specialize (NX _ K). lia. }
    split. { constructor; [lia|]. eapply Forall_impl; [|exact NX]. cbn. lia. }
    unfold arr, bl_ok. cbn [bl_array bl_blocks]. split; [|split; [discriminate|right; auto]].
    rewrite zlen_app. change (zlen [b]) with 1. cbn [app]. apply perm_skip. exact P.
Qed.

Lemma arr_known h x sz rest : bl_ok x -> map fst sz = bl_blocks x -> NoDup (map fst (h_live h)) ->
  Permutation (h_live h) (sz ++ arr x ++ rest) ->
  exists h', empty_blocklist h x = Some (h', mkBl None []) /\ h_next h' = h_next h /\ Permutation (h_live h') rest /\ NoDup (map fst (h_live h')).
Proof.
  intros OK E ND P. unfold empty_blocklist, arr in *. destruct (bl_array x) as [a|] eqn:EA.
  - destruct (free_all_known _ sz h _ E ND P) as (h1 & F1 & F2 & F3 & F4). rewrite F1.
    destruct (sys_free_known h1 a _ rest F4 F3) as (h2 & G1 & G2 & G3 & G4). rewrite G1.
    exists h2. rewrite G2. auto.
  - rewrite (OK EA) in E. destruct sz; [|discriminate]. exists h. cbn in P. auto.
Qed.

Lemma subset_next h h' : Forall (fun b => (b < h_next h)%nat) (map fst (h_live h)) -> h_next h' = h_next h ->
  incl (map fst (h_live h')) (map fst (h_live h)) -> Forall (fun b => (b < h_next h')%nat) (map fst (h_live h')).
Proof. intros F E I. rewrite E. rewrite Forall_forall in *. auto. Qed.

Lemma map_fst_pages ps l : map fst (pages_sized ps l) = l.
Proof. unfold pages_sized. rewrite map_map. cbn. apply map_id. Qed.

Lemma recycle_inv h p out leaked LS : inv h p out leaked LS ->
  exists h' p', recycle_amqp_pool h p = Some (h', p') /\ inv h' p' [] leaked [] /\ p_pages p' = p_pages p /\ p_pagesize p' = p_pagesize p /\
    Permutation (h_live h') (pages_sized (p_pagesize p) (bl_blocks (p_pages p)) ++ arr (p_pages p) ++ pages_sized (p_pagesize p) leaked).
Proof.
  intros [[HP HN HX HL HO1 HO2] I2 I3 I4 I5 I6 I7].
  set (A := pages_sized (p_pagesize p) (bl_blocks (p_pages p))) in *. set (B := arr (p_pages p)) in *.
  set (D := pages_sized (p_pagesize p) leaked) in *.
  assert (P : Permutation (h_live h) (LS ++ arr (p_large p) ++ (A ++ B ++ D))).
  { rewrite HP. rewrite !app_assoc. apply Permutation_app_tail.
    rewrite <- !app_assoc. rewrite !(app_assoc A B). rewrite (Permutation_app_comm (A ++ B)). rewrite <- !app_assoc. reflexivity. }
  destruct (arr_known h (p_large p) LS _ HO2 HL HN P) as (h' & F1 & F2 & F3 & F4).
  exists h'. eexists. unfold recycle_amqp_pool. rewrite F1. split; [reflexivity|]. split; [|auto].
  constructor; cbn; auto; try (intros; discriminate); try lia; try constructor; auto; cbn.
  - apply (subset_next h); auto. intros z Hz. apply (Permutation_in _ (Permutation_map fst F3)) in Hz.
    apply (Permutation_in _ (Permutation_sym (Permutation_map fst P))). rewrite !map_app in *. rewrite !in_app_iff in *. tauto.
  - intro; reflexivity.
Qed.

Lemma in_used p leaked b : In b (used_pages p leaked) -> In b (bl_blocks (p_pages p)) \/ In b leaked.
Proof. unfold used_pages. rewrite in_app_iff. intros [H|H]; [left|auto]. rewrite <- (firstn_skipn (p_next_page p) (bl_blocks (p_pages p))). apply in_or_app. left. exact H. Qed.

Lemma nodup_pages h p leaked LS : heap_inv h p leaked LS -> NoDup (bl_blocks (p_pages p) ++ map fst LS ++ leaked).
Proof.
  intros [HP HN _ _ _ _]. pose proof (Permutation_NoDup (Permutation_map fst HP) HN) as N.
  rewrite !map_app, !map_fst_pages in N.
  set (A := bl_blocks (p_pages p)) in *. set (B := map fst (arr (p_pages p))) in *. set (C := map fst LS) in *.
  set (D := map fst (arr (p_large p))) in *.
  assert (K : Permutation (A ++ B ++ C ++ D ++ leaked) ((B ++ D) ++ (A ++ C ++ leaked))).
  { rewrite (app_assoc A B). rewrite (Permutation_app_comm A B). rewrite <- !app_assoc. apply Permutation_app_head.
    rewrite (app_assoc A C). rewrite (app_assoc (A ++ C) D). rewrite (Permutation_app_comm (A ++ C) D). rewrite <- !app_assoc. reflexivity. }
  pose proof (Permutation_NoDup K N) as N2. clear -N2. induction (B ++ D) as [|x l IH]; [exact N2|]. inversion N2. auto.
Qed.

Lemma disjoint_new_block out (x : handed) : (forall y, In y out -> hd_blk y <> hd_blk x) -> Forall (disjoint x) out.
Proof. intros H. apply Forall_forall. intros y Hy. left. intros E. apply (H y Hy). auto. Qed.

(** changes of the heap that keep its contents, and of the pool that keep everything *)
Lemma inv_same h p out leaked LS h' p' : inv h p out leaked LS -> Permutation (h_live h') (h_live h) -> NoDup (map fst (h_live h')) ->
  Forall (fun b => (b < h_next h')%nat) (map fst (h_live h')) ->
  p_pagesize p' = p_pagesize p -> p_pages p' = p_pages p -> p_large p' = p_large p -> p_next_page p' = p_next_page p ->
  p_alloc_block p' = p_alloc_block p -> p_alloc_used p' = p_alloc_used p -> inv h' p' out leaked LS.
Proof.
  intros I P N F E1 E2 E3 E4 E5 E6. assert (p' = p) as -> by (destruct p, p'; cbn in *; congruence).
  destruct I as [[HP HN HX HL HO1 HO2] I2 I3 I4 I5 I6 I7]. constructor; auto. constructor; auto. rewrite P. exact HP.
Qed.

(** one allocation *)
Lemma alloc_inv nomem norec h p out leaked LS amount : inv h p out leaked LS -> 0 <= amount <= M64 - 8 ->
  exists r h' p' leaked' LS', amqp_pool_alloc nomem norec h p amount = Some (r, h', p') /\
    p_pagesize p' = p_pagesize p /\
    (norec = false -> leaked' = leaked) /\
    match r with
    | Some (b, o) => inv h' p' (mkHanded b o amount :: out) leaked' LS'
    | None => inv h' p' out leaked' LS'
    end /\
    (amount = 0 -> r = None) /\ (amount <> 0 -> nomem = false -> norec = false -> r <> None).
Proof.
  intros [HH I2 I3 I4 I5 I6 I7] HA. unfold amqp_pool_alloc.
  destruct (Z.eqb_spec amount 0) as [->|NZ].
  { do 5 eexists. split; [reflexivity|]. split; [reflexivity|]. split; [auto|]. split; [constructor; eassumption|]. split; [auto|congruence]. }
  destruct (round8_spec amount HA) as (R1 & R2 & R3 & R4). set (am := round8 amount) in *. cbv zeta.
  destruct HH as [HP HN HX HL HO1 HO2].
  assert (HH : heap_inv h p leaked LS) by (constructor; auto).
  pose proof (nodup_pages h p leaked LS HH) as NDP.
  destruct (Z.ltb_spec (p_pagesize p) am) as [Lg|Sm].
  { (* large block *)
    destruct nomem.
    { do 5 eexists. split; [reflexivity|]. split; [reflexivity|]. split; [auto|]. split; [constructor; eassumption|]. split; [congruence|congruence]. }
    cbn [sys_malloc]. set (b := h_next h). set (h1 := mkHeap (S b) ((b, am) :: h_live h)).
    set (A := pages_sized (p_pagesize p) (bl_blocks (p_pages p))) in *. set (B := arr (p_pages p)) in *.
    set (D := pages_sized (p_pagesize p) leaked) in *.
    assert (ND1 : NoDup (map fst (h_live h1))).
    { cbn. constructor; auto. rewrite Forall_forall in HX. intros K. specialize (HX _ K). unfold b in HX. lia. }
    assert (NX1 : Forall (fun b => (b < h_next h1)%nat) (map fst (h_live h1))).
    { cbn. constructor; [lia|]. eapply Forall_impl; [|exact HX]. cbn. unfold b. lia. }
    assert (P1 : Permutation (h_live h1) (arr (p_large p) ++ ((b, am) :: A ++ B ++ LS ++ D))).
    { cbn [h1 h_live]. rewrite HP. rewrite <- Permutation_middle. apply perm_skip.
      perm. }
    destruct (record_spec norec h1 (p_large p) b HO2 ND1 NX1 _ P1) as (ok & h2 & x2 & E & N2 & X2 & P2 & O2 & CC).
    rewrite E. destruct CC as [(-> & -> & -> & ->)|(-> & -> & BL)].
    - (* recording failed: the block is freed again *)
      assert (P1' : Permutation (h_live h1) ((b, am) :: h_live h)) by reflexivity.
      destruct (sys_free_known h1 b am (h_live h) ND1 P1') as (h3 & F1 & F2 & F3 & F4). rewrite F1.
      exists None, h3. eexists. exists leaked, LS. split; [reflexivity|]. split; [reflexivity|]. split; [intros; reflexivity|].
      split; [|split; congruence].
      apply inv_same with (p := p) (h := h); cbn [p_pagesize p_pages p_large p_next_page p_alloc_block p_alloc_used]; auto; [constructor; auto|].
      + rewrite F2. cbn. rewrite Forall_forall in *. intros z Hz.
        apply (Permutation_in _ (Permutation_map fst F3)) in Hz. specialize (HX _ Hz). unfold b. lia.
    - exists (Some (b, 0)), h2. eexists. exists leaked, (LS ++ [(b, am)]). split; [reflexivity|]. split; [reflexivity|]. split; [auto|].
      split; [|split; congruence].
      assert (FB : ~ In b (map fst (h_live h))) by (rewrite Forall_forall in HX; intros K; specialize (HX _ K); unfold b in HX; lia).
      assert (NB : forall y, In y out -> hd_blk y <> b).
      { intros y Hy Eb. rewrite Forall_forall in I6. destruct (I6 y Hy) as (_ & _ & _ & [(U & _)|(_ & sz & U & _)]).
        - apply FB. apply (Permutation_in _ (Permutation_sym (Permutation_map fst HP))). rewrite !map_app, !in_app_iff.
          unfold A, D. rewrite !map_fst_pages. rewrite <- Eb. apply in_used in U. tauto.
        - apply FB. apply (Permutation_in _ (Permutation_sym (Permutation_map fst HP))). rewrite !map_app, !in_app_iff.
          apply (in_map fst) in U. cbn in U. rewrite Eb in U. tauto. }
      constructor; cbn; auto.
      + constructor; cbn; auto.
        * rewrite P2. rewrite (app_assoc A B). unfold A, B, D.
          rewrite Permutation_app_comm. cbn [app]. rewrite <- app_assoc. 
          set (A' := pages_sized _ _). set (B' := arr _). set (X := arr x2). set (D' := pages_sized _ leaked).
          rewrite <- !app_assoc. rewrite (Permutation_app_comm D' X).
          rewrite (app_assoc A' B'). rewrite (app_assoc A' B'). rewrite (app_assoc (A' ++ B') LS). rewrite (app_assoc (A' ++ B') LS).
          cbn [app]. apply Permutation_middle.
        * rewrite map_app, HL, BL. reflexivity.
      + constructor; [|]; cbn.
        * unfold handed_ok; cbn [hd_size hd_off hd_blk]. split; [lia|]. split; [lia|]. split; [reflexivity|]. right. split; [reflexivity|]. exists am. split; [apply in_or_app; right; left; reflexivity|lia].
        * eapply Forall_impl; [|exact I6]. intros y (Y1 & Y2 & Y3 & [Y4|(Y4 & sz & Y5 & Y6)]); (split; [auto|split; [auto|split; [auto|]]]).
          -- left. exact Y4.
          -- right. split; [auto|]. exists sz. split; [apply in_or_app; auto|auto].
      + constructor; auto. apply disjoint_new_block. exact NB. }
  (* from a page *)
  assert (NEW : exists r h' p' leaked' LS',
    (if (length (bl_blocks (p_pages p)) <=? p_next_page p)%nat
     then if nomem then Some (None, h, mkPool (p_pagesize p) (p_pages p) (p_large p) (p_next_page p) None (p_alloc_used p))
       else let (h0, b) := sys_malloc h (p_pagesize p) in
         match record_pool_block norec h0 (p_pages p) b with
         | None => None
         | Some (false, h, pg) => Some (None, h, mkPool (p_pagesize p) pg (p_large p) (p_next_page p) (Some b) (p_alloc_used p))
         | Some (true, h, pg) => Some (Some (b, 0), h, mkPool (p_pagesize p) pg (p_large p) (length (bl_blocks pg)) (Some b) am)
         end
     else match nth_error (bl_blocks (p_pages p)) (p_next_page p) with
          | None => None
          | Some b => Some (Some (b, 0), h, mkPool (p_pagesize p) (p_pages p) (p_large p) (S (p_next_page p)) (Some b) am)
          end) = Some (r, h', p') /\ p_pagesize p' = p_pagesize p /\ (norec = false -> leaked' = leaked) /\
    match r with
    | Some (b, o) => inv h' p' (mkHanded b o amount :: out) leaked' LS'
    | None => inv h' p' out leaked' LS'
    end /\ (amount = 0 -> r = None) /\ (amount <> 0 -> nomem = false -> norec = false -> r <> None)).
  { destruct (Nat.leb_spec (length (bl_blocks (p_pages p))) (p_next_page p)) as [Hfull|Hmore].
    - destruct nomem.
      { exists None, h. eexists. exists leaked, LS. split; [reflexivity|]. split; [reflexivity|]. split; [auto|]. split; [|split; congruence].
        constructor; cbn [p_pagesize p_alloc_used p_next_page p_pages p_alloc_block]; auto; try discriminate; [|].
        - destruct HH; constructor; auto.
        - eapply Forall_impl; [|exact I6]. intros y (Y1 & Y2 & Y3 & [(Y4 & Y5 & Y6)|Y4]); (split; [auto|split; [auto|split; [auto|]]]).
          + left. split; [auto|]. split; [auto|]. discriminate.
          + right. exact Y4. }
      cbn [sys_malloc]. set (b := h_next h). set (h1 := mkHeap (S b) ((b, p_pagesize p) :: h_live h)).
      set (A := pages_sized (p_pagesize p) (bl_blocks (p_pages p))) in *.
      set (D := pages_sized (p_pagesize p) leaked) in *.
      assert (FB : ~ In b (map fst (h_live h))) by (rewrite Forall_forall in HX; intros K; specialize (HX _ K); unfold b in HX; lia).
      assert (ND1 : NoDup (map fst (h_live h1))) by (cbn; constructor; auto).
      assert (NX1 : Forall (fun b => (b < h_next h1)%nat) (map fst (h_live h1))).
      { cbn. constructor; [lia|]. eapply Forall_impl; [|exact HX]. cbn. unfold b. lia. }
      assert (P1 : Permutation (h_live h1) (arr (p_pages p) ++ ((b, p_pagesize p) :: A ++ LS ++ arr (p_large p) ++ D))).
      { cbn [h1 h_live]. rewrite HP. rewrite <- Permutation_middle. apply perm_skip.
        rewrite !app_assoc. do 3 apply Permutation_app_tail. apply Permutation_app_comm. }
      assert (NBK : forall y, In y out -> hd_blk y <> b).
      { intros y Hy Eb. rewrite Forall_forall in I6. destruct (I6 y Hy) as (_ & _ & _ & [(U & _)|(_ & sz & U & _)]).
        - apply FB. apply (Permutation_in _ (Permutation_sym (Permutation_map fst HP))). rewrite !map_app, !in_app_iff.
          unfold A, D. rewrite !map_fst_pages. rewrite <- Eb. apply in_used in U. tauto.
        - apply FB. apply (Permutation_in _ (Permutation_sym (Permutation_map fst HP))). rewrite !map_app, !in_app_iff.
          apply (in_map fst) in U. cbn in U. rewrite Eb in U. tauto. }
      destruct (record_spec norec h1 (p_pages p) b HO1 ND1 NX1 _ P1) as (ok & h2 & x2 & E & N2 & X2 & P2 & O2 & CC).
      rewrite E. destruct CC as [(-> & -> & -> & ->)|(-> & -> & BL)].
      + exists None, h1. eexists. exists (b :: leaked), LS. split; [reflexivity|]. split; [reflexivity|]. split; [discriminate|]. split; [|split; congruence].
        assert (US : forall z, In z (used_pages p leaked) -> In z (used_pages p (b :: leaked))).
        { intros z. unfold used_pages. rewrite !in_app_iff. cbn [In]. tauto. }
        constructor; cbn [p_pagesize p_alloc_used p_next_page p_pages p_alloc_block]; auto.
        * constructor; cbn [p_pagesize p_pages p_large]; auto.
          rewrite P2. unfold A, D. cbn [pages_sized map]. fold (pages_sized (p_pagesize p) leaked).
          set (A' := pages_sized _ _). set (B' := arr (p_pages p)). set (X := arr (p_large p)). set (D' := pages_sized _ leaked).
          rewrite Permutation_app_comm. cbn [app].
          transitivity ((b, p_pagesize p) :: (A' ++ B' ++ LS ++ X) ++ D').
          { apply perm_skip. rewrite <- !app_assoc. apply Permutation_app_head. rewrite !app_assoc.
            rewrite Permutation_app_comm. rewrite <- !app_assoc. reflexivity. }
          rewrite !(app_assoc). apply Permutation_middle.
        * intros z Ez. injection Ez as <-. unfold used_pages. apply in_or_app. right. left. reflexivity.
        * apply Forall_forall. intros y Hy. pose proof Hy as Hy'. rewrite Forall_forall in I6. destruct (I6 y Hy) as (Y1 & Y2 & Y3 & [(Y4 & Y5 & Y6)|Y4]);
            (split; [auto|split; [auto|split; [auto|]]]); cbn [p_pagesize p_alloc_block p_alloc_used].
          -- left. split; [apply US; exact Y4|]. split; [auto|]. intros K. injection K as K. exfalso. apply (NBK y Hy). auto.
          -- right. exact Y4.
      + exists (Some (b, 0)), h2. eexists. exists leaked, LS. split; [reflexivity|]. split; [reflexivity|]. split; [auto|]. split; [|split; congruence].
        assert (US : forall z, In z (used_pages p leaked) -> In z (bl_blocks x2 ++ leaked)).
        { intros z Hz. apply in_used in Hz. rewrite BL, !in_app_iff. tauto. }
        assert (FA : firstn (length (bl_blocks x2)) (bl_blocks x2) = bl_blocks x2) by apply firstn_all.
        constructor; cbn [p_pagesize p_alloc_used p_next_page p_pages p_alloc_block]; auto.
        * constructor; cbn [p_pagesize p_pages p_large]; auto.
          rewrite P2. rewrite BL. unfold A, D, pages_sized. rewrite map_app. cbn [map]. fold (pages_sized (p_pagesize p) (bl_blocks (p_pages p))).
          fold (pages_sized (p_pagesize p) leaked).
          set (A' := pages_sized _ _). set (X := arr (p_large p)). set (D' := pages_sized _ leaked).
          rewrite <- (Permutation_middle (arr x2)).
          rewrite <- app_assoc. cbn [app]. rewrite <- (Permutation_middle A'). apply perm_skip.
          rewrite (app_assoc (arr x2) A'). rewrite (Permutation_app_comm (arr x2) A'). rewrite <- app_assoc. reflexivity.
        * lia.
        * intros z Ez. injection Ez as <-. unfold used_pages. cbn [p_next_page p_pages]. rewrite FA, BL. apply in_or_app. left. apply in_or_app. right. left. reflexivity.
        * constructor.
          -- split; [cbn; lia|]. split; [cbn; lia|]. split; [reflexivity|]. left. cbn [hd_blk hd_off hd_size p_pagesize p_alloc_block p_alloc_used].
             split; [|split; [lia|intros; lia]]. unfold used_pages. cbn [p_next_page p_pages]. rewrite FA, BL. apply in_or_app. left. apply in_or_app. right. left. reflexivity.
          -- apply Forall_forall. intros y Hy. rewrite Forall_forall in I6. destruct (I6 y Hy) as (Y1 & Y2 & Y3 & [(Y4 & Y5 & Y6)|Y4]);
               (split; [auto|split; [auto|split; [auto|]]]); cbn [p_pagesize p_alloc_block p_alloc_used].
             ++ left. split; [unfold used_pages; cbn [p_next_page p_pages]; rewrite FA; apply US; exact Y4|]. split; [auto|].
                intros K. injection K as K. exfalso. apply (NBK y Hy). auto.
             ++ right. exact Y4.
        * constructor; auto. apply disjoint_new_block. exact NBK.
    - destruct (nth_error (bl_blocks (p_pages p)) (p_next_page p)) as [b|] eqn:NE.
      2:{ apply nth_error_None in NE. lia. }
      exists (Some (b, 0)), h. eexists. exists leaked, LS. split; [reflexivity|]. split; [reflexivity|]. split; [auto|]. split; [|split; congruence].
      destruct (nth_error_split _ _ NE) as (l1 & l2 & EP & EL).
      assert (F1 : firstn (p_next_page p) (bl_blocks (p_pages p)) = l1).
      { rewrite EP, <- EL, firstn_app, Nat.sub_diag, firstn_all, firstn_O, app_nil_r. reflexivity. }
      assert (F2 : firstn (S (p_next_page p)) (bl_blocks (p_pages p)) = l1 ++ [b]).
      { rewrite EP, <- EL. rewrite firstn_app. replace (S (length l1) - length l1)%nat with 1%nat by lia.
        rewrite (firstn_all2 (n := S (length l1)) l1) by lia. reflexivity. }
      assert (NBU : ~ In b (used_pages p leaked) /\ ~ In b (map fst LS)).
      { unfold used_pages. rewrite F1. rewrite EP in NDP. rewrite <- app_assoc in NDP. cbn [app] in NDP. apply NoDup_remove_2 in NDP.
        rewrite !in_app_iff in NDP. rewrite in_app_iff. tauto. }
      assert (NBK : forall y, In y out -> hd_blk y <> b).
      { intros y Hy Eb. rewrite Forall_forall in I6. destruct (I6 y Hy) as (_ & _ & _ & [(U & _)|(_ & sz & U & _)]).
        - rewrite Eb in U. tauto.
        - apply (in_map fst) in U. cbn in U. rewrite Eb in U. tauto. }
      assert (UB : forall z, In z (used_pages p leaked) -> In z (firstn (S (p_next_page p)) (bl_blocks (p_pages p)) ++ leaked)).
      { intros z. unfold used_pages. rewrite F1, F2, !in_app_iff. tauto. }
      constructor; cbn [p_pagesize p_alloc_used p_next_page p_pages p_alloc_block]; auto.
      + destruct HH; constructor; auto.
      + lia.
      + intros z Ez. injection Ez as <-. unfold used_pages. cbn [p_next_page p_pages]. rewrite F2. apply in_or_app. left. apply in_or_app. right. left. reflexivity.
      + constructor.
        * split; [cbn; lia|]. split; [cbn; lia|]. split; [reflexivity|]. left. cbn [hd_blk hd_off hd_size p_pagesize p_alloc_block p_alloc_used].
          split; [|split; [lia|intros; lia]]. unfold used_pages. cbn [p_next_page p_pages]. rewrite F2. apply in_or_app. left. apply in_or_app. right. left. reflexivity.
        * apply Forall_forall. intros y Hy. rewrite Forall_forall in I6. destruct (I6 y Hy) as (Y1 & Y2 & Y3 & [(Y4 & Y5 & Y6)|Y4]);
            (split; [auto|split; [auto|split; [auto|]]]); cbn [p_pagesize p_alloc_block p_alloc_used].
          -- left. split; [apply UB; exact Y4|]. split; [auto|]. intros K. injection K as K. exfalso. apply (NBK y Hy). auto.
          -- right. exact Y4.
      + constructor; auto. apply disjoint_new_block. exact NBK. }
  destruct (p_alloc_block p) as [b|] eqn:AB; [|exact NEW].
  assert (AS : add_size (p_alloc_used p) am = p_alloc_used p + am) by (unfold add_size; apply Z.mod_small; lia).
  rewrite AS. destruct (Z.leb_spec (p_alloc_used p + am) (p_pagesize p)) as [Fit|_]; [|exact NEW]. clear NEW.
  exists (Some (b, p_alloc_used p)), h. eexists. exists leaked, LS. split; [reflexivity|]. split; [reflexivity|]. split; [auto|]. split; [|split; congruence].
  specialize (I5 b eq_refl).
  assert (NL : ~ In b (map fst LS)).
  { intros K. apply in_used in I5. clear -NDP K I5.
    assert (G : NoDup ((bl_blocks (p_pages p) ++ leaked) ++ map fst LS)).
    { eapply Permutation_NoDup; [|exact NDP]. rewrite <- app_assoc. apply Permutation_app_head. apply Permutation_app_comm. }
    assert (J : In b (bl_blocks (p_pages p) ++ leaked)) by (rewrite in_app_iff; tauto).
    apply in_split in J. destruct J as (l1 & l2 & J). rewrite J in G. rewrite <- app_assoc in G. cbn in G.
    apply NoDup_remove_2 in G. apply G. rewrite !in_app_iff. tauto. }
  constructor; cbn [p_pagesize p_alloc_used p_next_page p_pages p_alloc_block]; auto.
  - destruct HH; constructor; auto.
  - split; [lia|]. rewrite Z.add_mod by lia. destruct I3 as [_ ->]. rewrite R2. reflexivity.
  - intros z Ez. injection Ez as <-. exact I5.
  - constructor.
    + split; [cbn; lia|]. split; [cbn; lia|]. split; [exact (proj2 I3)|]. left. cbn [hd_blk hd_off hd_size p_pagesize p_alloc_block p_alloc_used].
      split; [exact I5|]. split; [lia|intros; lia].
    + eapply Forall_impl; [|exact I6]. intros y (Y1 & Y2 & Y3 & [(Y4 & Y5 & Y6)|Y4]);
        (split; [auto|split; [auto|split; [auto|]]]); cbn [p_pagesize p_alloc_block p_alloc_used].
      * left. split; [exact Y4|]. split; [auto|]. intros K. rewrite K in AB. specialize (Y6 AB). lia.
      * right. exact Y4.
  - constructor; auto. apply Forall_forall. intros y Hy. rewrite Forall_forall in I6. destruct (I6 y Hy) as (Y1 & Y2 & Y3 & [(Y4 & Y5 & Y6)|(_ & sz & U & _)]).
    + unfold disjoint. cbn [hd_blk hd_off hd_size]. destruct (Nat.eq_dec b (hd_blk y)) as [->|]; [|auto]. right. right. apply Y6. exact AB.
    + left. cbn. intros ->. apply NL. apply (in_map fst) in U. exact U.
Qed.

Lemma history_inv : forall ops h p out leaked LS, inv h p out leaked LS -> Forall sane ops ->
  exists h' p' out' leaked' LS', history h p out ops = Some (h', p', out') /\ inv h' p' out' leaked' LS' /\
    p_pagesize p' = p_pagesize p /\ (Forall no_failure ops -> leaked' = leaked).
Proof.
  induction ops as [|op ops IH]; intros h p out leaked LS I S.
  - exists h, p, out, leaked, LS. auto.
  - inversion S as [|? ? S1 S2]; subst. destruct op as [nomem norec amount|].
    + destruct (alloc_inv nomem norec h p out leaked LS amount I S1) as (r & h1 & p1 & lk1 & LS1 & E & EP & EL & IV & _ & _).
      cbn [history]. rewrite E. destruct r as [[b o]|];
        destruct (IH _ _ _ _ _ IV S2) as (h' & p' & out' & lk & LS' & H1 & H2 & H3 & H4); exists h', p', out', lk, LS';
        (split; [exact H1|split; [exact H2|split; [congruence|]]]); intros F; inversion F as [|? ? F1 F2]; subst; rewrite H4 by auto; apply EL; apply F1.
    + destruct (recycle_inv h p out leaked LS I) as (h1 & p1 & E & IV & E1 & E2 & _). cbn [history]. rewrite E.
      destruct (IH _ _ _ _ _ IV S2) as (h' & p' & out' & lk & LS' & H1 & H2 & H3 & H4). exists h', p', out', lk, LS'.
      split; [exact H1|]. split; [exact H2|]. split; [congruence|]. intros F. inversion F; subst. auto.
Qed.

Lemma empty_inv h p out leaked LS : inv h p out leaked LS ->
  exists h' p', empty_amqp_pool h p = Some (h', p') /\ Permutation (h_live h') (pages_sized (p_pagesize p) leaked).
Proof.
  intros I. destruct (recycle_inv h p out leaked LS I) as (h1 & p1 & E & IV & E1 & E2 & P). unfold empty_amqp_pool. rewrite E.
  destruct (iv_heap _ _ _ _ _ IV) as [_ HN _ _ HO1 _].
  destruct (arr_known h1 (p_pages p1) (pages_sized (p_pagesize p) (bl_blocks (p_pages p1))) (pages_sized (p_pagesize p) leaked)) as (h2 & F1 & F2 & F3 & F4).
  - exact HO1.
  - apply map_fst_pages.
  - exact HN.
  - rewrite E1 in *. exact P.
  - rewrite F1. do 2 eexists. split; [reflexivity|]. exact F3.
Qed.
