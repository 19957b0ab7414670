(** C52: the command line tools move message bodies unchanged; C59: the auth file *)
From Coq Require Import String ZArith List Bool Lia.
From Verif Require Import Base BaseFacts FramingGen FramingModel Frame Tools.
Import ListNotations.
Local Open Scope list_scope.
Local Open Scope Z_scope.

(** ** read_all *)
Definition is_chunk (r : rd) : bool := match r with RChunk _ => true | _ => false end.
Definition chunks (sched : list rd) : nat := length (filter is_chunk sched).

Lemma write_at pre old bs : zlen bs <= zlen old ->
  write (pre ++ old) (zlen pre) bs = Some (pre ++ bs ++ skipn (length bs) old).
Proof.
  intros L. unfold write, zlen in *. replace (0 <=? Z.of_nat (length pre)) with true by (symmetry; apply Z.leb_le; lia).
  replace (Z.of_nat (length pre) + Z.of_nat (length bs) <=? Z.of_nat (length (pre ++ old))) with true by (symmetry; apply Z.leb_le; rewrite app_length; lia).
  cbn [andb]. rewrite Nat2Z.id. f_equal. rewrite firstn_app, firstn_all, Nat.sub_diag. cbn [firstn]. rewrite app_nil_r. f_equal. f_equal.
  rewrite skipn_app, skipn_all2 by lia. cbn [app]. f_equal. lia.
Qed.

Lemma match_nonempty {A} (d : bytes) (x y : A) : (0 < length d)%nat -> match d with [] => x | _ :: _ => y end = y.
Proof. destruct d; cbn [length]; [lia|reflexivity]. Qed.
Definition read_post (sched : list rd) (input : bytes) (mem : list bool) (buf : option bytes) (all : bytes) (o : outcome (option bytes * Z)) : Prop :=
  match o with
  | Returns (Some b, n) => slice b 0 n = Some all
  | Returns (None, _) => buf = None \/ In false mem
  | Dies => In RFail sched \/ buf = None \/ In false mem
  | Waits => (chunks sched <= length input)%nat
  | Undefined => False
  end.
Lemma read_loop_ok : forall sched input mem buf pre old len space,
  (forall b, buf = Some b -> b = pre ++ old) -> len = zlen pre -> space = zlen pre + zlen old -> (0 < length old)%nat ->
  len + zlen input < 2^62 -> space < 2^63 ->
  read_post sched input mem buf (pre ++ input) (read_loop sched input mem buf len space).
Proof.
  induction sched as [|r sched IH]; intros input mem buf pre old len space B L S O T SP; cbn [read_loop]; [cbn; lia|].
  destruct r as [k| |].
  - cbn beta iota zeta. change (2 ^ 62) with 4611686018427387904 in *. change (2 ^ 63) with 9223372036854775808 in *.
    assert (R : sub_size space len = zlen old).
    { unfold sub_size. rewrite Z.mod_small; unfold zlen in *; lia. }
    rewrite R. replace (Z.to_nat (zlen old)) with (length old) by (unfold zlen; lia).
    set (n := Nat.min (Nat.max 1 k) (length old)).
    assert (N : (0 < n <= length old)%nat) by (subst n; lia).
    remember (firstn n input) as d eqn:D.
    assert (DL : length d = Nat.min n (length input)) by (subst d; apply firstn_length).
    destruct (Nat.eq_dec (length input) 0) as [Z0|Z0].
    + assert (d = []) as -> by (destruct d; [reflexivity|cbn in DL; lia]).
      assert (input = []) as -> by (destruct input; [reflexivity|discriminate Z0]).
      cbn [read_post]. destruct buf as [b|]; [|left; reflexivity]. rewrite (B b eq_refl), L, app_nil_r.
      apply (slice_app' _ [] pre old); reflexivity.
    + assert (D0 : (0 < length d)%nat) by lia.
      rewrite match_nonempty by exact D0.
      assert (DI : d ++ skipn (length d) input = input).
      { destruct (Nat.le_gt_cases n (length input)).
        - rewrite DL, Nat.min_l by lia. subst d. apply firstn_skipn.
        - rewrite DL, Nat.min_r by lia. subst d. rewrite firstn_all2 by lia. rewrite skipn_all, app_nil_r. reflexivity. }
      destruct buf as [b|]; [|right; left; reflexivity].
      pose proof (B b eq_refl) as Bb. subst b. rewrite L. rewrite write_at by (unfold zlen; lia).
      assert (LI : length input = (length d + length (skipn (length d) input))%nat) by (rewrite <- DI at 1; apply app_length).
      assert (AS : add_size (zlen pre) (zlen d) = zlen (pre ++ d)).
      { unfold add_size, zlen in *. rewrite app_length. rewrite Z.mod_small; lia. }
      rewrite AS.
      assert (MONO : forall mem' buf' o, (buf' = None -> In false mem) -> (In false mem' -> In false mem) ->
        read_post sched (skipn (length d) input) mem' buf' ((pre ++ d) ++ skipn (length d) input) o ->
        read_post (RChunk k :: sched) input mem (Some (pre ++ old)) (pre ++ input) o).
      { intros mem' buf' o H1 H2 H. rewrite <- app_assoc, DI in H. destruct o as [[[b'|] n']| | |]; cbn [read_post] in *; try exact H.
        - right. destruct H; auto.
        - destruct H as [H|[H|H]]; [left; right; exact H|right; right; auto|right; right; auto].
        - unfold chunks in *. cbn [filter is_chunk length]. lia. }
      destruct (Z.eqb_spec (zlen (pre ++ d)) space) as [E|E].
      * assert (U : u64 (space * 2) = 2 * space) by (unfold u64; rewrite Z.mod_small; unfold zlen in *; rewrite ?app_length in *; lia).
        rewrite U. destruct (next_alloc mem) as [ok mem'] eqn:NA.
        assert (MI : (ok = false -> In false mem) /\ (In false mem' -> In false mem)).
        { destruct mem as [|m mem]; cbn [next_alloc] in NA; injection NA as <- <-; split; try discriminate; [intros []|intros ->; left; reflexivity|right; assumption]. }
        assert (OL : length old = length d) by (unfold zlen in *; rewrite app_length in *; lia).
        apply (MONO mem' (if ok then Some (resize (pre ++ d ++ skipn (length d) old) (2 * space)) else None)).
        { destruct ok; [discriminate|]. intros _. exact (proj1 MI eq_refl). }
        { exact (proj2 MI). }
        apply (IH _ _ _ (pre ++ d) (repeat x00 (Z.to_nat space))).
        -- intros b' Hb. destruct ok; [|discriminate].
           assert (b' = resize (pre ++ d ++ skipn (length d) old) (2 * space)) as -> by congruence. rewrite skipn_all2 by lia. rewrite app_nil_r.
           unfold resize. rewrite firstn_all2 by (unfold zlen in E; lia). f_equal. f_equal. unfold zlen in E. lia.
        -- reflexivity.
        -- unfold zlen at 2. rewrite repeat_length, E. unfold zlen in *. lia.
        -- rewrite repeat_length. unfold zlen in *. lia.
        -- unfold zlen in *. rewrite app_length in *. lia.
        -- unfold zlen in *. rewrite app_length in *. lia.
      * apply (MONO mem (Some (pre ++ d ++ skipn (length d) old))); [discriminate|auto|].
        apply (IH _ _ _ (pre ++ d) (skipn (length d) old)).
        -- intros b' Hb. injection Hb as <-. rewrite app_assoc. reflexivity.
        -- reflexivity.
        -- unfold zlen in *. rewrite app_length, skipn_length in *. lia.
        -- rewrite skipn_length. unfold zlen in *. rewrite app_length in *. lia.
        -- unfold zlen in *. rewrite app_length in *. lia.
        -- exact SP.
  - specialize (IH input mem buf pre old len space B L S O T SP).
    destruct (read_loop sched input mem buf len space) as [[[b|] n]| | |]; cbn [read_post] in *; try exact IH.
    destruct IH as [H|H]; [left; right; exact H|right; exact H].
  - left. left. reflexivity.
Qed.

(** For every input (below 2^62 bytes, 4 EiB), every schedule of short reads and
    interruptions and every outcome of malloc/realloc: what read_all returns is exactly
    the input; it gives up only if a read() or an allocation fails; and it never waits
    for more than one read() per byte of the input and one for its end.  If an
    allocation fails the bytes may be a null pointer (C52_read_all_refuted). *)
Theorem C52_read_all_partial sched input mem : zlen input < 2^62 ->
  match read_all sched input mem with
  | Returns (Some b, n) => slice b 0 n = Some input
  | Returns (None, _) => In false mem
  | Dies => In RFail sched \/ In false mem
  | Waits => (chunks sched <= length input)%nat
  | Undefined => False
  end.
Proof.
  intros T. unfold read_all. destruct (next_alloc mem) as [ok mem'] eqn:NA.
  assert (MI : (ok = false -> In false mem) /\ (In false mem' -> In false mem)).
  { destruct mem as [|m mem]; cbn [next_alloc] in NA; injection NA as <- <-; split; try discriminate; [intros []|intros ->; left; reflexivity|right; assumption]. }
  pose proof (read_loop_ok sched input mem' (if ok then Some (repeat x00 (Z.to_nat 4096)) else None) [] (repeat x00 (Z.to_nat 4096)) 0 4096) as H.
  specialize (H ltac:(destruct ok; [intros b E; injection E; auto|discriminate]) eq_refl ltac:(unfold zlen; rewrite repeat_length; reflexivity) ltac:(rewrite repeat_length; lia) T ltac:(reflexivity)).
  cbn [app] in H. destruct (read_loop sched input mem' (if ok then Some (repeat x00 (Z.to_nat 4096)) else None) 0 4096) as [[[b|] n]| | |]; cbn [read_post] in H; auto.
  - destruct H as [H|H]; [destruct ok; [discriminate|]; exact (proj1 MI eq_refl)|exact (proj2 MI H)].
  - destruct H as [H|[H|H]]; [left; exact H| |right; exact (proj2 MI H)]. right. destruct ok; [discriminate|]. exact (proj1 MI eq_refl).
Qed.
(** an allocation failure just before the end of the input is not noticed: a null
    pointer with a length of 4096 is returned *)
Theorem C52_read_all_refuted : exists sched input mem,
  read_all sched input mem = Returns (None, 4096) /\ length input = 4096%nat.
Proof. exists [RChunk 4096; RChunk 1], (repeat x61 4096), [true; false]. split; vm_compute; reflexivity. Qed.

(** ** write_all *)
Lemma write_loop_ok : forall sched block off len, 0 <= off -> 0 <= len -> off + len = zlen block -> zlen block < M64 ->
  match write_loop sched block off len with
  | (WDone _, out) => out = skipn (Z.to_nat off) block
  | (WDied, out) => In WFail sched /\ exists rest, out ++ rest = skipn (Z.to_nat off) block
  | (WWaits, out) => exists rest, out ++ rest = skipn (Z.to_nat off) block
  | (WUndefined, _) => False
  end.
Proof.
  induction sched as [|r sched IH]; intros block off len O L E M; cbn [write_loop].
  - destruct (Z.ltb_spec 0 len).
    + exists (skipn (Z.to_nat off) block). reflexivity.
    + rewrite skipn_all2; [reflexivity|]. unfold zlen in E. lia.
  - destruct (Z.ltb_spec 0 len) as [P|P].
    + destruct r as [k|].
      * set (n := Z.min (Z.of_nat k) len). assert (N : 0 <= n <= len) by (subst n; lia).
        rewrite slice_Some by lia. set (d := firstn (Z.to_nat n) (skipn (Z.to_nat off) block)).
        assert (DL : zlen d = n).
        { subst d. unfold zlen in *. rewrite firstn_length, skipn_length. lia. }
        rewrite DL. replace (sub_size len n) with (len - n) by (unfold sub_size; rewrite Z.mod_small; lia).
        specialize (IH block (off + n) (len - n) ltac:(lia) ltac:(lia) ltac:(lia) M).
        assert (SPL : skipn (Z.to_nat off) block = d ++ skipn (Z.to_nat (off + n)) block).
        { subst d. rewrite <- (firstn_skipn (Z.to_nat n) (skipn (Z.to_nat off) block)) at 1. f_equal. rewrite skipn_skipn'. f_equal. lia. }
        destruct (write_loop sched block (off + n) (len - n)) as [[rest| | |] out]; rewrite ?SPL.
        -- rewrite IH. reflexivity.
        -- destruct IH as (F & rest & IH). split; [right; exact F|]. exists rest. rewrite <- app_assoc, IH. reflexivity.
        -- destruct IH as (rest & IH). exists rest. rewrite <- app_assoc, IH. reflexivity.
        -- exact IH.
      * split; [left; reflexivity|]. exists (skipn (Z.to_nat off) block). reflexivity.
    + rewrite skipn_all2; [reflexivity|]. unfold zlen in E. lia.
Qed.
(** For every schedule of short writes: write_all returns only when exactly its argument
    has been written; otherwise a prefix has been written and write() failed, or the
    schedule has ended.  Missing: an interrupted write() is not repeated
    (C52_write_all_refuted). *)
Theorem C52_write_all_partial sched data : zlen data < M64 ->
  match write_all sched data with
  | (WDone _, out) => out = data
  | (WDied, out) => In WFail sched /\ exists rest, out ++ rest = data
  | (WWaits, out) => exists rest, out ++ rest = data
  | (WUndefined, _) => False
  end.
Proof.
  intros M. unfold write_all. pose proof (write_loop_ok sched data 0 (zlen data) ltac:(lia) ltac:(unfold zlen; lia) ltac:(lia) M) as H.
  destruct (write_loop sched data 0 (zlen data)) as [[rest| | |] out]; exact H.
Qed.
(** one write() that moves at least one byte per byte of the argument is enough *)
Theorem C52_write_all_terminates sched data : zlen data < M64 -> (length data <= length sched)%nat ->
  (forall w, In w sched -> exists k, w = WChunk (S k)) ->
  exists rest, write_all sched data = (WDone rest, data).
Proof.
  intros M L C.
  assert (K : forall sched off len, 0 <= off -> 0 <= len -> off + len = zlen data -> len <= zlen sched ->
    (forall w, In w sched -> exists k, w = WChunk (S k)) -> exists rest out, write_loop sched data off len = (WDone rest, out)).
  { clear sched L C. induction sched as [|r sched IH]; intros off len O L E S C; cbn [write_loop].
    - replace (0 <? len) with false by (symmetry; apply Z.ltb_ge; unfold zlen in S; cbn in S; lia). eauto.
    - destruct (Z.ltb_spec 0 len) as [P|P]; [|eauto]. destruct (C r (or_introl eq_refl)) as (k & ->).
      set (n := Z.min (Z.of_nat (Datatypes.S k)) len). assert (N : 1 <= n <= len) by (subst n; lia).
      rewrite slice_Some by lia.
      assert (DL : zlen (firstn (Z.to_nat n) (skipn (Z.to_nat off) data)) = n).
      { unfold zlen in *. rewrite firstn_length, skipn_length. lia. }
      rewrite DL. replace (sub_size len n) with (len - n) by (unfold sub_size; rewrite Z.mod_small; lia).
      destruct (IH (off + n) (len - n)) as (rest & out & ->); try lia; eauto.
      { unfold zlen in *. cbn [length] in S. lia. }
      intros w W. apply C. right. exact W. }
  destruct (K sched 0 (zlen data) ltac:(lia) ltac:(unfold zlen; lia) ltac:(lia) ltac:(unfold zlen; lia) C) as (rest & out & E).
  pose proof (C52_write_all_partial sched data M) as H. unfold write_all in *. rewrite E in H. rewrite E, H. eauto.
Qed.
(** an interruption ends the program although nothing is wrong *)
Theorem C52_write_all_refuted : exists sched data, write_all sched data = (WDied, [x61]) /\ length data = 2%nat.
Proof. exists [WChunk 1; WFail], [x61; x62]. split; reflexivity. Qed.

(** ** copy_body *)
(** the body fragments of the frames *)
Fixpoint fragments (frames : list (Z * frame)) : bytes :=
  match frames with
  | [] => []
  | (_, f) :: frames => match f_pay f with PBody b => b ++ fragments frames | _ => fragments frames end
  end.
Definition good_body (rf : Z * frame) : Prop := 0 <= fst rf /\ f_type (snd rf) = AMQP_FRAME_BODY.
(** amqp_simple_wait_frame delivers frames whose payload has the form their type says
    (see C17) and which fit in memory *)
Definition delivered (rf : Z * frame) : Prop := 0 <= fst rf ->
  match f_pay (snd rf) with
  | PBody b => f_type (snd rf) <> AMQP_FRAME_HEADER /\ zlen b < M64
  | PHeader _ size _ _ => f_type (snd rf) <> AMQP_FRAME_BODY /\ 0 <= size < M64
  | _ => f_type (snd rf) <> AMQP_FRAME_BODY /\ f_type (snd rf) <> AMQP_FRAME_HEADER
  end.
Lemma copy_loop_ok : forall frames sched remaining, Forall delivered frames -> 0 <= remaining < M64 ->
  match copy_loop frames sched remaining with
  | (Returns rest, out) => exists used, frames = used ++ rest /\ Forall good_body used /\ out = fragments used /\ zlen out mod M64 = remaining
  | (Undefined, _) => False
  | (_, out) => exists used tail more, frames = used ++ tail /\ out ++ more = fragments used
  end.
Proof.
  induction frames as [|[res f] frames IH]; intros sched remaining D R; cbn [copy_loop].
  - destruct (Z.eqb_spec remaining 0) as [->|]; [exists []; repeat split; constructor|]. exists [], [], []. split; reflexivity.
  - destruct (Z.eqb_spec remaining 0) as [->|NZ]; [exists []; repeat split; constructor|].
    inversion D as [|? ? D1 D2]; subst. unfold delivered in D1. cbn [fst snd] in D1.
    destruct (Z.ltb_spec res 0) as [L|L]; [exists [], ((res, f) :: frames), []; split; reflexivity|].
    destruct (Z.eqb_spec (f_type f) AMQP_FRAME_BODY) as [T|T]; cbn [negb]; [|exists [], ((res, f) :: frames), []; split; reflexivity].
    specialize (D1 L). destruct (f_pay f) as [|id m|cl sz pr raw|b|h l mj mn] eqn:P; try (destruct D1; contradiction).
    pose proof (C52_write_all_partial sched b (proj2 D1)) as W. destruct (write_all sched b) as [[sched'| | |] out].
    + subst out. assert (SB : 0 <= sub_size remaining (zlen b) < M64) by (apply Z.mod_pos_bound; reflexivity).
      specialize (IH sched' _ D2 SB). destruct (copy_loop frames sched' (sub_size remaining (zlen b))) as [o out'].
      destruct o as [rest| | |].
      * destruct IH as (used & -> & G & -> & M). exists ((res, f) :: used). split; [reflexivity|]. split; [constructor; [split; assumption|exact G]|].
        cbn [fragments]. rewrite P. split; [reflexivity|]. unfold sub_size in M. rewrite zlen_app, Z.add_mod, M by discriminate.
        rewrite Zplus_mod_idemp_r, Zplus_mod_idemp_l. replace (zlen b + (remaining - zlen b)) with remaining by lia. apply Z.mod_small. exact R.
      * destruct IH as (used & tail & more & -> & E). exists ((res, f) :: used), tail, more. split; [reflexivity|]. cbn [fragments]. rewrite P, <- app_assoc, E. reflexivity.
      * destruct IH as (used & tail & more & -> & E). exists ((res, f) :: used), tail, more. split; [reflexivity|]. cbn [fragments]. rewrite P, <- app_assoc, E. reflexivity.
      * exact IH.
    + destruct W as (_ & rest & E). exists [(res, f)], frames, rest. split; [reflexivity|]. cbn [fragments]. rewrite P, app_nil_r. exact E.
    + destruct W as (rest & E). exists [(res, f)], frames, rest. split; [reflexivity|]. cbn [fragments]. rewrite P, app_nil_r. exact E.
    + exact W.
Qed.
(** For every sequence of frames and every schedule of short writes: if copy_body
    returns, the first frame was a content header, the frames after it that were
    consumed are body frames, and what was written is exactly their contents in order;
    it has the announced size (modulo 2^64).  Otherwise what was written is a prefix of
    the body frames' contents. *)
Theorem C52_copy_body_partial frames sched : Forall delivered frames ->
  match copy_body frames sched with
  | (Returns rest, out) => exists res h used class size props raw, frames = (res, h) :: used ++ rest /\ 0 <= res /\
      f_type h = AMQP_FRAME_HEADER /\ f_pay h = PHeader class size props raw /\
      Forall good_body used /\ out = fragments used /\ zlen out mod M64 = size
  | (Undefined, _) => False
  | (_, out) => exists used tail more, tl frames = used ++ tail /\ out ++ more = fragments used
  end.
Proof.
  intros D. destruct frames as [|[res h] frames]; cbn [copy_body]; [exists [], [], []; split; reflexivity|].
  inversion D as [|? ? D1 D2]; subst. unfold delivered in D1. cbn [fst snd tl] in *.
  destruct (Z.ltb_spec res 0) as [L|L]; [exists [], frames, []; split; reflexivity|].
  destruct (Z.eqb_spec (f_type h) AMQP_FRAME_HEADER) as [T|T]; cbn [negb]; [|exists [], frames, []; split; reflexivity].
  specialize (D1 L). destruct (f_pay h) as [|id m|cl sz pr raw|b|hh l mj mn] eqn:P; try (destruct D1; contradiction).
  destruct D1 as [_ S]. replace (u64 sz) with sz by (unfold u64; rewrite Z.mod_small; lia).
  pose proof (copy_loop_ok frames sched sz D2 S) as H. destruct (copy_loop frames sched sz) as [[rest| | |] out]; try exact H.
  destruct H as (used & -> & G & -> & M). exists res, h, used, cl, sz, pr, raw. auto 10.
Qed.
(** a server that sends more than it announced: the remaining size wraps around, more
    than the announced bytes are written and the tool goes on waiting for frames *)
Theorem C52_copy_body_refuted : exists frames sched,
  Forall delivered frames /\ copy_body frames sched = (Waits, [x61; x62]) /\
  exists class props raw rest, match frames with (_, h) :: rest' => f_pay h = PHeader class 1 props raw /\ rest' = rest | [] => False end.
Proof.
  pose (h := mkFrame AMQP_FRAME_HEADER 1 (PHeader 60 1 (mkProps 0 []) []) 0).
  pose (b := mkFrame AMQP_FRAME_BODY 1 (PBody [x61; x62]) 0).
  exists [(0, h); (0, b)], [WChunk 2]. split; [|split; [reflexivity|]].
  - repeat constructor; cbn; try discriminate.
  - eexists _, _, _, _. split; reflexivity.
Qed.

(** ** C59: the auth file *)
(** what a line of the file may hold: no newline, no NUL, short enough for the line
    (with its prefix and its newline) to be read at once *)
Definition token_ok (prefix v : bytes) : Prop :=
  ~ In newline v /\ ~ In x00 v /\ Z.of_nat (length prefix) + Z.of_nat (length v) + 1 < MAXAUTHTOKENLEN.
(** a file with these credentials: "username:" u newline "password:" p newline *)
Definition auth_file (u p file : bytes) : Prop :=
  file = list_byte_of_string "username:" ++ u ++ [newline] ++ list_byte_of_string "password:" ++ p ++ [newline] /\
  token_ok username_prefix u /\ token_ok password_prefix p.

Lemma byte_eqb_eq a b : Byte.eqb a b = true -> a = b.
Proof. apply Byte.byte_dec_bl. Qed.
Lemma take_line_ok n : forall file l r, take_line n file = (l, r) ->
  file = l ++ r /\ (length l <= n)%nat /\ (forall a b, l = a ++ newline :: b -> b = []) /\ (In newline l \/ length l = n \/ r = []).
Proof.
  induction n as [|n IH]; intros file l r H; cbn [take_line] in H.
  - destruct file as [|c0 file]; injection H as <- <-; (split; [reflexivity|split; [cbn; lia|split; [|auto]]]); intros a b E; destruct a; discriminate.
  - destruct file as [|c file]; [injection H as <- <-; (split; [reflexivity|split; [cbn; lia|split; [|auto]]]); intros a b E; destruct a; discriminate|].
    destruct (Byte.eqb c newline) eqn:Ec.
    + injection H as <- <-. split; [reflexivity|]. split; [cbn; lia|]. split; [|left; left; apply byte_eqb_eq; exact Ec]. intros a b E. destruct a as [|x a]; [injection E as _ <-; reflexivity|].
      injection E as _ E. destruct a; discriminate.
    + destruct (take_line n file) as [l0 r0] eqn:T. injection H as <- <-. destruct (IH _ _ _ T) as (A & B & C & D).
      split; [rewrite A; reflexivity|]. split; [cbn [length]; lia|]. split; [|cbn [In length]; destruct D as [D|[D|D]]; auto]. intros a b E. destruct a as [|x a].
      * injection E as -> _. cbn in Ec. discriminate Ec.
      * injection E as _ E. exact (C a b E).
Qed.
Lemma starts_with_ok prefix : forall token, starts_with token prefix = true -> exists t, token = prefix ++ t.
Proof.
  induction prefix as [|p prefix IH]; intros token H; [exists token; reflexivity|].
  destruct token as [|t token]; [discriminate|]. cbn [starts_with] in H. apply andb_true_iff in H. destruct H as [H1 H2].
  destruct (IH _ H2) as (x & ->). apply byte_eqb_eq in H1. subst. exists x. reflexivity.
Qed.
Lemma upto_nul_ok l : exists t, l = upto_nul l ++ t /\ ~ In x00 (upto_nul l).
Proof.
  induction l as [|c l (t & E & N)]; [exists []; split; [reflexivity|intros []]|]. cbn [upto_nul].
  destruct (Byte.eqb c x00) eqn:C; [exists (c :: l); split; [reflexivity|intros []]|].
  exists t. split; [cbn [app]; rewrite <- E; reflexivity|]. intros [H|H]; [subst c; discriminate C|contradiction].
Qed.
Lemma auth_line_sound prefix file v rest : auth_line prefix file = Returns (v, rest) ->
  file = prefix ++ v ++ [newline] ++ rest /\ token_ok prefix v.
Proof.
  unfold auth_line, fgets. destruct file as [|c0 file0]; [discriminate|]. remember (c0 :: file0) as file. clear Heqfile c0 file0.
  destruct (take_line (Z.to_nat (MAXAUTHTOKENLEN - 1)) file) as [token r] eqn:T.
  destruct (take_line_ok _ _ _ _ T) as (E & L & U & _). clear T. intros H.
  destruct (starts_with token prefix) eqn:S; cbn [negb] in H; [|discriminate].
  destruct (starts_with_ok _ _ S) as (t & ->). clear S.
  rewrite skipn_app, skipn_all, Nat.sub_diag in H. cbn [skipn app] in H.
  destruct (upto_nul_ok t) as (t' & Et & N0). remember (upto_nul t) as value. clear Heqvalue.
  destruct (rev value) as [|c rv] eqn:RV; [discriminate|].
  destruct (Byte.eqb c newline) eqn:C; cbn [negb] in H; [|discriminate]. apply byte_eqb_eq in C. subst c.
  injection H as <- <-.
  assert (V : value = rev rv ++ [newline]) by (rewrite <- (rev_involutive value), RV; reflexivity).
  assert (t' = []) as ->. { apply (U (prefix ++ rev rv)). rewrite Et, V, <- !app_assoc. reflexivity. }
  rewrite app_nil_r in Et. subst t value. split.
  - rewrite E, <- !app_assoc. reflexivity.
  - split; [|split].
    + intros I. apply in_split in I. destruct I as (a & b & I). specialize (U (prefix ++ a) (b ++ [newline])).
      rewrite I, <- !app_assoc in U. specialize (U eq_refl). destruct b; discriminate U.
    + intros I. apply N0. apply in_or_app. left. exact I.
    + rewrite !app_length in L. cbn [length] in L. unfold MAXAUTHTOKENLEN in *. lia.
Qed.
Lemma take_line_full : forall (l r : bytes) n, (length l < n)%nat -> ~ In newline l -> take_line n (l ++ newline :: r) = (l ++ [newline], r).
Proof.
  induction l as [|c l IH]; intros r n L I; destruct n as [|n]; cbn [length] in L; try lia; cbn [app take_line].
  - reflexivity.
  - destruct (Byte.eqb c newline) eqn:C; [apply byte_eqb_eq in C; subst c; destruct I; left; reflexivity|].
    rewrite IH; [reflexivity|lia|]. intros X. apply I. right. exact X.
Qed.
Lemma starts_with_app prefix t : starts_with (prefix ++ t) prefix = true.
Proof. induction prefix as [|p prefix IH]; [destruct t; reflexivity|]. cbn [app starts_with]. rewrite IH, andb_true_r. apply Byte.byte_dec_lb. reflexivity. Qed.
Lemma upto_nul_id l : ~ In x00 l -> upto_nul l = l.
Proof.
  induction l as [|c l IH]; intros I; [reflexivity|]. cbn [upto_nul]. destruct (Byte.eqb c x00) eqn:C.
  - apply byte_eqb_eq in C. subst c. destruct I. left. reflexivity.
  - rewrite IH; [reflexivity|]. intros X. apply I. right. exact X.
Qed.
Lemma auth_line_complete prefix v rest : ~ In newline prefix -> token_ok prefix v ->
  auth_line prefix (prefix ++ v ++ [newline] ++ rest) = Returns (v, rest).
Proof.
  intros P (N & Z0 & L). unfold auth_line, fgets. unfold MAXAUTHTOKENLEN in *.
  replace (prefix ++ v ++ [newline] ++ rest) with ((prefix ++ v) ++ newline :: rest) by (rewrite <- app_assoc; reflexivity).
  destruct ((prefix ++ v) ++ newline :: rest) as [|c0 f0] eqn:E; [destruct (prefix ++ v); discriminate E|]. rewrite <- E. clear E c0 f0.
  rewrite take_line_full; [|rewrite app_length; lia|intros X; apply in_app_or in X; destruct X; contradiction].
  rewrite <- app_assoc, starts_with_app. cbn [negb]. rewrite skipn_app, skipn_all, Nat.sub_diag. cbn [skipn app].
  rewrite upto_nul_id; [|intros X; apply in_app_or in X; destruct X as [X|[X|[]]]; [contradiction|discriminate X]].
  rewrite rev_app_distr. cbn [rev app]. change (Byte.eqb newline newline) with true. cbn [negb]. rewrite rev_involutive. reflexivity.
Qed.

(** For every file: read_authfile returns credentials exactly if the file consists of
    these credentials in the documented form, and then exactly these. *)
Theorem C59_authfile_exact file u p : read_authfile file = Returns (u, p) <-> auth_file u p file.
Proof.
  split.
  - unfold read_authfile. destruct (auth_line username_prefix file) as [[u' f1]| | |] eqn:A; try discriminate.
    destruct (auth_line password_prefix f1) as [[p' f2]| | |] eqn:B; try discriminate. destruct f2; [|discriminate].
    intros H. injection H as <- <-. destruct (auth_line_sound _ _ _ _ A) as [E1 T1]. destruct (auth_line_sound _ _ _ _ B) as [E2 T2].
    split; [|split; assumption]. rewrite E1, E2. reflexivity.
  - intros (E & T1 & T2). unfold read_authfile. rewrite E.
    assert (P1 : ~ In newline username_prefix) by (vm_compute; intuition discriminate).
    assert (P2 : ~ In newline password_prefix) by (vm_compute; intuition discriminate).
    change (list_byte_of_string "username:") with username_prefix. change (list_byte_of_string "password:") with password_prefix.
    rewrite (auth_line_complete _ _ _ P1 T1).
    pose proof (auth_line_complete _ p [] P2 T2) as X. rewrite app_nil_r in X.
    cbv beta iota. rewrite X. reflexivity.
Qed.
(** Any other file ends the program, except that a value that is empty and not ended by
    a newline makes the tool read (and compare) the byte before the value's memory. *)
Theorem C59_authfile_refuted : read_authfile (list_byte_of_string "username:") = Undefined /\
  read_authfile (list_byte_of_string "username:guest" ++ [newline] ++ list_byte_of_string "password:") = Undefined.
Proof. split; vm_compute; reflexivity. Qed.
(** what is needed for that *)
Theorem C59_undefined_partial file : read_authfile file = Undefined ->
  (exists rest, (rest = [] \/ exists r, rest = x00 :: r) /\
     (file = username_prefix ++ rest \/ exists u, file = username_prefix ++ u ++ [newline] ++ password_prefix ++ rest)).
Proof.
  assert (P1 : ~ In newline username_prefix) by (vm_compute; intuition discriminate).
  assert (P2 : ~ In newline password_prefix) by (vm_compute; intuition discriminate).
  assert (K : forall prefix f, ~ In newline prefix -> (length prefix < 127)%nat -> auth_line prefix f = Undefined -> exists rest, (rest = [] \/ exists r, rest = x00 :: r) /\ f = prefix ++ rest).
  { intros prefix f PN PL. unfold auth_line, fgets. destruct f as [|c0 f0]; [discriminate|]. remember (c0 :: f0) as f. clear Heqf c0 f0.
    destruct (take_line (Z.to_nat (MAXAUTHTOKENLEN - 1)) f) as [token r] eqn:T.
    intros H. destruct (starts_with token prefix) eqn:S; cbn [negb] in H; [|discriminate].
    destruct (starts_with_ok _ _ S) as (t & ->). rewrite skipn_app, skipn_all, Nat.sub_diag in H. cbn [skipn app] in H.
    destruct (rev (upto_nul t)) eqn:RV; [|destruct (negb _); discriminate].
    assert (V : upto_nul t = []) by (rewrite <- (rev_involutive (upto_nul t)), RV; reflexivity).
    destruct (take_line_ok _ _ _ _ T) as (E & L & U & D). exists (t ++ r). split; [|rewrite E, <- app_assoc; reflexivity].
    destruct t as [|c t].
    - cbn [app]. destruct D as [D|[D|D]]; [rewrite app_nil_r in D; contradiction| |left; exact D].
      rewrite app_nil_r in D. change (Z.to_nat (MAXAUTHTOKENLEN - 1)) with 127%nat in D. lia.
    - cbn [upto_nul] in V. destruct (Byte.eqb c x00) eqn:C; [|discriminate]. apply byte_eqb_eq in C. subst c. right. exists (t ++ r). reflexivity. }
  unfold read_authfile. destruct (auth_line username_prefix file) as [[u f1]| | |] eqn:A; try discriminate.
  - destruct (auth_line password_prefix f1) as [[p f2]| | |] eqn:B; try discriminate; [destruct f2; discriminate|].
    intros _. destruct (K _ _ P2 ltac:(cbn; lia) B) as (rest & R & ->). destruct (auth_line_sound _ _ _ _ A) as [E _].
    exists rest. split; [exact R|]. right. exists u. exact E.
  - intros _. destruct (K _ _ P1 ltac:(cbn; lia) A) as (rest & R & ->). exists rest. split; [exact R|]. left. reflexivity.
Qed.

(** ** Concrete cases *)
Example C52_case_read : match read_all [RChunk 1000; RIntr; RChunk 5000; RChunk 5000; RChunk 5000; RChunk 1] (repeat x61 5000) [] with
  | Returns (Some b, n) => n = 5000 /\ zlen b = 8192 | _ => False end.
Proof. vm_compute. split; reflexivity. Qed.
Example C52_case_write : write_all [WChunk 2; WChunk 0; WChunk 9; WFail] [x61; x62; x63] = (WDone [WFail], [x61; x62; x63]).
Proof. reflexivity. Qed.
Example C52_case_copy :
  let h := mkFrame AMQP_FRAME_HEADER 1 (PHeader 60 3 (mkProps 0 []) []) 0 in
  let b x := mkFrame AMQP_FRAME_BODY 1 (PBody x) 0 in
  let frames := [(0, h); (0, b [x61; x62]); (0, b [x63]); (0, h)] in
  Forall delivered frames /\ copy_body frames [WChunk 1; WChunk 1; WChunk 1] = (Returns [(0, h)], [x61; x62; x63]).
Proof. split; [repeat constructor; cbn; try discriminate|reflexivity]. Qed.
Example C59_case : auth_file (list_byte_of_string "guest") [] (list_byte_of_string "username:guest" ++ [newline] ++ list_byte_of_string "password:" ++ [newline]).
Proof. apply C59_authfile_exact. vm_compute. reflexivity. Qed.

Print Assumptions C52_read_all_partial.
Print Assumptions C52_write_all_partial.
Print Assumptions C52_write_all_terminates.
Print Assumptions C52_copy_body_partial.
Print Assumptions C59_authfile_exact.
