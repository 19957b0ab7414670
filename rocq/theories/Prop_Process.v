(** C90: the commands of amqp-consume and their file descriptors. *)
From Coq Require Import String ZArith List Bool Lia.
From Verif Require Import Base BaseFacts FramingGen Frame Tools ToolSpec ToolConsume Process Prop_ToolConsume.
Import ListNotations.
Local Open Scope list_scope.
Local Open Scope Z_scope.

(** ** Vocabulary *)
(** the kernel gives pipe() two different descriptors that are not in use *)
Definition pipe_ok (t : table) (r : run) : Prop :=
  forall p0 p1, r_pipe r = Some (p0, p1) -> p0 <> p1 /\ t p0 = None /\ t p1 = None.
(** what a child has because its parent has [t] *)
Definition inherited (t : table) (fd : Z) : option entry :=
  match t fd with Some e => if e_cloexec e then None else Some e | None => None end.
(** The [n]th command is started: its standard input is the new pipe, its other
    descriptors are those that the tool had before (but for close-on-exec).  The tool
    has the descriptors from before, and one more, which it writes to: the other end of
    the pipe. *)
Definition started_well (t : table) (n : nat) (child tool : table) (infd : Z) : Prop :=
  child 0 = Some (mkEntry (PipeRead n) false) /\ (forall fd, fd <> 0 -> child fd = inherited t fd) /\
  t infd = None /\ tool infd = Some (mkEntry (PipeWrite n) false) /\ (forall fd, fd <> infd -> tool fd = t fd).
(** One command after the other; when the tool waits for the end of one it has the same
    descriptors as before it started it. *)
Inductive in_turn (t : table) : nat -> list happening -> Prop :=
| in_turn_none n : in_turn t n []
| in_turn_unfinished n child tool infd : started_well t n child tool infd -> in_turn t n [Started child tool infd]
| in_turn_one n child tool infd tool' hs : started_well t n child tool infd -> (forall fd, tool' fd = t fd) -> in_turn t (S n) hs ->
    in_turn t n (Started child tool infd :: Awaiting tool' :: hs).
(** how a process ends, and the status that waitpid reports (Linux) *)
Inductive end_of_process := Exited (code : Z) | Killed (signal : Z) (core : bool).
Definition possible (e : end_of_process) : Prop := match e with Exited c => 0 <= c <= 255 | Killed s _ => 1 <= s <= 126 end.
Definition wait_status (e : end_of_process) : Z := match e with Exited c => c * 256 | Killed s core => s + (if core then 128 else 0) end.
Definition status_ok (r : run) : Prop := forall st, r_waitpid r = Some st -> exists e, possible e /\ st = wait_status e.

(** ** Proofs *)
Lemma set_same fd e t : set fd e t fd = e.
Proof. unfold set. rewrite Z.eqb_refl. reflexivity. Qed.
Lemma set_other fd e t x : x <> fd -> set fd e t x = t x.
Proof. intros H. unfold set. destruct (Z.eqb_spec x fd); [contradiction|reflexivity]. Qed.
Definition same (t t' : table) : Prop := forall fd, t' fd = t fd.
(** [t]: the tool's table at the beginning, [t']: now *)
Lemma pipeline_ok t n t' r : same t t' -> t 0 <> None -> pipe_ok t r ->
  match pipeline n t' r with
  | (Returns (infd, t1), hs) => exists child, hs = [Started child t1 infd] /\ started_well t n child t1 infd
  | (Dies, hs) => hs = [] \/ exists child t1 infd, hs = [Started child t1 infd] /\ started_well t n child t1 infd
  | _ => False
  end.
Proof.
  intros HS H0 HP. unfold pipeline. destruct (r_pipe r) as [[p0 p1]|] eqn:HR; [|left; reflexivity].
  destruct (HP p0 p1 HR) as (Hne & F0 & F1). assert (p0 <> 0) as N0 by (intros ->; contradiction). assert (p1 <> 0) as N1 by (intros ->; contradiction).
  destruct (r_init r =? 0); cbn [negb]; [|left; reflexivity]. destruct (r_adddup2 r =? 0); cbn [negb]; [|left; reflexivity].
  destruct (r_addclose0 r =? 0); cbn [negb]; [|left; reflexivity]. destruct (r_addclose1 r =? 0); cbn [negb]; [|left; reflexivity].
  cbn [app do_actions]. rewrite (set_other p1 _ _ p0) by exact Hne. rewrite set_same. cbn [e_description].
  destruct (r_spawnp r) as [e|pid]; [left; reflexivity|].
  set (tt2 := set p1 (Some (mkEntry (PipeWrite n) false)) (set p0 (Some (mkEntry (PipeRead n) false)) t')).
  assert (started_well t n (exec (set p1 None (set p0 None (set 0 (Some (mkEntry (PipeRead n) false)) tt2)))) (set p0 None tt2) p1) as W.
  { split; [|split; [|split; [|split]]].
    - unfold exec. rewrite (set_other p1) by auto. rewrite (set_other p0) by auto. rewrite set_same. reflexivity.
    - intros fd Hfd. unfold exec, inherited. destruct (Z.eq_dec fd p1) as [->|D1]; [rewrite set_same, F1; reflexivity|]. rewrite (set_other p1) by exact D1.
      destruct (Z.eq_dec fd p0) as [->|D0]; [rewrite set_same, F0; reflexivity|]. rewrite (set_other p0) by exact D0. rewrite (set_other 0) by exact Hfd.
      unfold tt2. rewrite (set_other p1) by exact D1. rewrite (set_other p0) by exact D0. rewrite HS. reflexivity.
    - exact F1.
    - rewrite (set_other p0) by auto. unfold tt2. rewrite set_same. reflexivity.
    - intros fd Hfd. destruct (Z.eq_dec fd p0) as [->|D0]; [rewrite set_same, F0; reflexivity|]. rewrite (set_other p0) by exact D0. unfold tt2.
      rewrite (set_other p1) by exact Hfd. rewrite (set_other p0) by exact D0. apply HS. }
  destruct (r_destroy r =? 0); cbn [negb]; [|right; eauto]. destruct (r_close_read r); cbn [negb]; [|right; eauto]. eauto.
Qed.
Lemma finish_ok t n child t1 infd r : started_well t n child t1 infd ->
  match finish_pipeline infd t1 r with
  | (Returns (ok, t2), hs) => hs = [Awaiting t2] /\ same t t2
  | (Dies, hs) => hs = [] \/ exists t2, hs = [Awaiting t2] /\ same t t2
  | _ => False
  end.
Proof.
  intros (_ & _ & F & _ & W). unfold finish_pipeline. destruct (r_close_write r); cbn [negb]; [|left; reflexivity].
  assert (same t (set infd None t1)) as HS. { intros fd. destruct (Z.eq_dec fd infd) as [->|D]; [rewrite set_same, F; reflexivity|]. rewrite set_other by exact D. apply W, D. }
  destruct (r_waitpid r); [auto|right; eauto].
Qed.
Lemma loop_in_turn t no_ack count : t 0 <> None -> forall fuel i n t' frames runs acks, same t t' -> Forall (pipe_ok t) runs ->
  in_turn t n (snd (consume_loop fuel no_ack count i n t' frames runs acks)).
Proof.
  intros H0. induction fuel as [|fuel IH]; intros i n t' frames runs acks HS HP; cbn [consume_loop]; [constructor|].
  destruct (negb ((count <? 0) || (i <? count))); [constructor|]. destruct frames as [|[res f] frames]; [constructor|]. destruct (res <? 0); [constructor|].
  assert (forall n t' frames runs acks, same t t' -> Forall (pipe_ok t) runs ->
    in_turn t n (snd (if i =? INT_MAX then (Undefined, [], []) else consume_loop fuel no_ack count (i + 1) n t' frames runs acks))) as Hnext.
  { intros. destruct (i =? INT_MAX); [constructor|]. apply IH; assumption. }
  destruct (delivery f) as [[tag|]|]; [|constructor|apply Hnext; assumption]. destruct runs as [|r runs]; [constructor|]. inversion HP as [|? ? P1 P2]; subst.
  pose proof (pipeline_ok t n t' r HS H0 P1) as K. destruct (pipeline n t' r) as [[[infd t1]| | |] hs]; try contradiction.
  2:{ cbn [snd]. destruct K as [->|(c & w & i0 & -> & W)]; constructor. exact W. }
  destruct K as (child & -> & W).
  destruct (copy_body frames (r_writes r)) as [[rest| | |] out]; try (cbn [snd]; constructor; exact W).
  pose proof (finish_ok t n child t1 infd r W) as K. destruct (finish_pipeline infd t1 r) as [[[ok t2]| | |] hs']; try contradiction.
  - destruct K as [-> HS']. assert (forall hs, in_turn t (S n) hs -> in_turn t n (([Started child t1 infd] ++ [Awaiting t2]) ++ hs)) as Hone by (intros hs H; cbn [app]; constructor; assumption).
    destruct (ok && negb no_ack).
    + destruct acks as [|a acks]; [cbn [snd]; rewrite <- (app_nil_r (_ ++ _)); apply Hone; constructor|].
      destruct (a <? 0); [cbn [snd]; rewrite <- (app_nil_r (_ ++ _)); apply Hone; constructor|]. unfold and_then. cbn [snd]. apply Hone, Hnext; assumption.
    + unfold and_then. cbn [snd]. apply Hone, Hnext; assumption.
  - cbn [snd]. destruct K as [->|(t2 & -> & HS')]; [rewrite app_nil_r; constructor; exact W|]. cbn [app]. constructor; [exact W|exact HS'|constructor].
Qed.

(** ** C90 *)
(** The descriptors: for every table [t] of the tool, every sequence of frames and of
    results of the system calls.  Descriptor 0 is in use: amqp-consume opens its
    connection first. *)
Theorem C90_descriptors :
  forall (no_ack : bool) (count : Z) (t : table) (frames : list (Z * frame)) (runs : list run) (acks : list Z),
    t 0 <> None -> Forall (pipe_ok t) runs ->
    in_turn t 0 (snd (Process.do_consume no_ack count t frames runs acks)).
Proof. intros. apply loop_in_turn; [assumption|intros fd; reflexivity|assumption]. Qed.
(** End of file: no command ever has a descriptor that a pipe can be written to, nor the
    reading end of another command's pipe; and when the tool waits for a command nobody
    can write to its pipe any more. *)
Theorem C90_end_of_file :
  forall (no_ack : bool) (count : Z) (t : table) (frames : list (Z * frame)) (runs : list run) (acks : list Z),
    t 0 <> None -> Forall (pipe_ok t) runs ->
    (forall fd e k, t fd = Some e -> e_description e <> PipeRead k /\ e_description e <> PipeWrite k) ->
    let hs := snd (Process.do_consume no_ack count t frames runs acks) in
    (forall child tool infd, In (Started child tool infd) hs ->
       (forall fd e k, child fd = Some e -> e_description e <> PipeWrite k) /\
       (forall fd e k, child fd = Some e -> e_description e = PipeRead k -> fd = 0)) /\
    (forall tool, In (Awaiting tool) hs -> forall fd e k, tool fd = Some e -> e_description e <> PipeWrite k).
Proof.
  intros no_ack count t frames runs acks H0 HP HF. cbv zeta. pose proof (C90_descriptors no_ack count t frames runs acks H0 HP) as H.
  assert (forall n child tool infd, started_well t n child tool infd ->
       (forall fd e k, child fd = Some e -> e_description e <> PipeWrite k) /\ (forall fd e k, child fd = Some e -> e_description e = PipeRead k -> fd = 0)) as HW.
  { intros n child tool infd (W1 & W2 & _).
    assert (forall fd e, fd <> 0 -> child fd = Some e -> t fd = Some e) as HI.
    { intros fd e Hfd He. rewrite W2 in He by exact Hfd. unfold inherited in He. destruct (t fd) as [e'|]; [|discriminate]. destruct (e_cloexec e'); [discriminate|]. exact He. }
    split; intros fd e k He.
    - destruct (Z.eq_dec fd 0) as [->|D]; [rewrite W1 in He; injection He as <-; discriminate|]. apply (HF fd e k (HI fd e D He)).
    - intros Hd. destruct (Z.eq_dec fd 0) as [|D]; [assumption|]. destruct (HF fd e k (HI fd e D He)) as [K _]. contradiction. }
  induction H as [n|n child tool infd W|n child tool infd tool' hs W S' _ IH].
  - split; [intros ? ? ? []|intros ? []].
  - split; [|intros ? [K|[]]; discriminate]. intros c w i0 [K|[]]. injection K as <- <- <-. apply (HW n _ _ _ W).
  - destruct IH as [I1 I2]. split.
    + intros c w i0 [K|[K|K]]; [injection K as <- <- <-; apply (HW n _ _ _ W)|discriminate|apply (I1 _ _ _ K)].
    + intros w [K|[K|K]] fd e k He; [discriminate| |apply (I2 _ K fd e k He)]. injection K as ->. rewrite S' in He. apply (HF fd e k He).
Qed.
(** The connection is close-on-exec (amqp_socket.c:372-377): no command has it. *)
Theorem C90_connection_not_inherited :
  forall (no_ack : bool) (count : Z) (t : table) (frames : list (Z * frame)) (runs : list run) (acks : list Z) (socket : nat),
    t 0 <> None -> Forall (pipe_ok t) runs -> (forall fd e, t fd = Some e -> e_description e = Other socket -> e_cloexec e = true) ->
    forall child tool infd, In (Started child tool infd) (snd (Process.do_consume no_ack count t frames runs acks)) ->
    forall fd e, child fd = Some e -> e_description e <> Other socket.
Proof.
  intros no_ack count t frames runs acks socket H0 HP HC child tool infd HI fd e He. pose proof (C90_descriptors no_ack count t frames runs acks H0 HP) as H.
  assert (exists n, started_well t n child tool infd) as (n & W1 & W2 & _).
  { induction H as [n|n c w i0 W|n c w i0 tool' hs W S' _ IH]; [destruct HI| |]; (destruct HI as [K|HI]; [injection K as <- <- <-; eauto|]); [destruct HI|]. destruct HI as [K|HI]; [discriminate|auto]. }
  destruct (Z.eq_dec fd 0) as [->|D]; [rewrite W1 in He; injection He as <-; discriminate|]. rewrite W2 in He by exact D. unfold inherited in He.
  destruct (t fd) as [e'|] eqn:Ht; [|discriminate]. destruct (e_cloexec e') eqn:Hc; [discriminate|]. injection He as ->. intros Hd. rewrite (HC fd e Ht Hd) in Hc. discriminate.
Qed.
(** finish_pipeline is true for the exit status 0, and for nothing else. *)
Lemma exited_status (c : Z) : 0 <= c <= 255 -> WIFEXITED (c * 256) = true /\ WEXITSTATUS (c * 256) = c.
Proof.
  intros H. unfold WIFEXITED, WEXITSTATUS. split.
  - apply Z.eqb_eq. change 127 with (Z.ones 7). rewrite Z.land_ones by lia. change (2 ^ 7) with 128. rewrite <- (Z.mod_unique_pos (c * 256) 128 (2 * c) 0); lia.
  - rewrite Z.shiftr_land, Z.shiftr_div_pow2 by lia. change (2 ^ 8) with 256. change (Z.shiftr 65280 8) with (Z.ones 8). rewrite Z.div_mul by lia.
    rewrite Z.land_ones by lia. apply Z.mod_small. change (2 ^ 8) with 256. lia.
Qed.
Lemma killed_status (s : Z) (core : bool) : 1 <= s <= 126 -> WIFEXITED (s + (if core then 128 else 0)) = false.
Proof.
  intros H. unfold WIFEXITED. apply Z.eqb_neq. change 127 with (Z.ones 7). rewrite Z.land_ones by lia. change (2 ^ 7) with 128.
  destruct core; [rewrite <- (Z.mod_unique_pos (s + 128) 128 1 s) by lia; lia|rewrite Z.mod_small by lia; lia].
Qed.
Theorem C90_exit_status :
  forall (infd : Z) (t : table) (r : run) (e : end_of_process),
    possible e -> r_close_write r = true -> r_waitpid r = Some (wait_status e) ->
    exists ok t' hs, Process.finish_pipeline infd t r = (Returns (ok, t'), hs) /\ (ok = true <-> e = Exited 0).
Proof.
  intros infd t r e He Hc Hw. unfold Process.finish_pipeline. rewrite Hc, Hw. cbn [negb]. eexists _, _, _. split; [reflexivity|].
  destruct e as [c|s core]; cbn [possible wait_status] in *.
  - destruct (exited_status c He) as [-> ->]. cbn [andb]. rewrite Z.eqb_eq. split; [intros ->; reflexivity|congruence].
  - rewrite killed_status by exact He. cbn [andb]. split; discriminate.
Qed.
(** The programs of C63 and C85 see the commands through three things: *)
Definition spawned (r : run) : bool :=
  match r_pipe r, r_spawnp r with
  | Some _, inr _ => (r_init r =? 0) && (r_adddup2 r =? 0) && (r_addclose0 r =? 0) && (r_addclose1 r =? 0) && (r_destroy r =? 0) && r_close_read r
  | _, _ => false
  end.
Definition exit_of (st : Z) : Z := if WIFEXITED st then WEXITSTATUS st else -1.
Definition command_of (r : run) : command :=
  mkCommand (spawned r) (r_writes r) (if r_close_write r then match r_waitpid r with Some st => Some (exit_of st) | None => None end else None).
Lemma pipeline_spawned t n t' r : same t t' -> pipe_ok t r -> (match fst (pipeline n t' r) with Returns _ => true | _ => false end) = spawned r.
Proof.
  intros HS HP. unfold pipeline, spawned. destruct (r_pipe r) as [[p0 p1]|] eqn:HR; [|reflexivity]. destruct (HP p0 p1 HR) as (Hne & _ & _).
  destruct (r_init r =? 0); cbn [negb andb]; [|destruct (r_spawnp r); reflexivity]. destruct (r_adddup2 r =? 0); cbn [negb andb]; [|destruct (r_spawnp r); reflexivity].
  destruct (r_addclose0 r =? 0); cbn [negb andb]; [|destruct (r_spawnp r); reflexivity]. destruct (r_addclose1 r =? 0); cbn [negb andb]; [|destruct (r_spawnp r); reflexivity].
  cbn [app do_actions]. rewrite (set_other p1 _ _ p0) by exact Hne. rewrite set_same.
  destruct (r_spawnp r); [reflexivity|]. destruct (r_destroy r =? 0); cbn [negb andb]; [|reflexivity]. destruct (r_close_read r); reflexivity.
Qed.
Lemma finish_exit infd t1 r :
  match ToolConsume.finish_pipeline (command_of r) with
  | Returns ok => exists t2, fst (finish_pipeline infd t1 r) = Returns (ok, t2)
  | Dies => fst (finish_pipeline infd t1 r) = Dies
  | _ => False
  end.
Proof.
  unfold ToolConsume.finish_pipeline, finish_pipeline, command_of. cbn [c_exit]. destruct (r_close_write r); cbn [negb]; [|reflexivity].
  destruct (r_waitpid r) as [st|]; [|reflexivity]. cbn [fst]. eexists. unfold exit_of. destruct (WIFEXITED st); reflexivity.
Qed.
Lemma loop_refines t no_ack count : t 0 <> None -> forall fuel i n t' frames runs acks, same t t' -> Forall (pipe_ok t) runs ->
  fst (consume_loop fuel no_ack count i n t' frames runs acks) = ToolConsume.consume_loop fuel no_ack count i frames (map command_of runs) acks.
Proof.
  intros H0. induction fuel as [|fuel IH]; intros i n t' frames runs acks HS HP; cbn [consume_loop ToolConsume.consume_loop]; [reflexivity|].
  destruct (negb ((count <? 0) || (i <? count))); [reflexivity|]. destruct frames as [|[res f] frames]; [reflexivity|]. destruct (res <? 0); [reflexivity|].
  assert (forall n t' frames runs acks, same t t' -> Forall (pipe_ok t) runs ->
    fst (if i =? INT_MAX then (Undefined, [], []) else consume_loop fuel no_ack count (i + 1) n t' frames runs acks) =
    (if i =? INT_MAX then (Undefined, []) else ToolConsume.consume_loop fuel no_ack count (i + 1) frames (map command_of runs) acks)) as Hnext.
  { intros. destruct (i =? INT_MAX); [reflexivity|]. apply IH; assumption. }
  destruct (delivery f) as [[tag|]|]; [|reflexivity|apply Hnext; assumption]. destruct runs as [|r runs]; [reflexivity|]. inversion HP as [|? ? P1 P2]; subst. cbn [map].
  pose proof (pipeline_ok t n t' r HS H0 P1) as K. pose proof (pipeline_spawned t n t' r HS P1) as KS.
  change (c_spawned (command_of r)) with (spawned r). change (c_writes (command_of r)) with (r_writes r).
  destruct (pipeline n t' r) as [[[infd t1]| | |] hs]; try contradiction; cbn [fst] in KS; rewrite <- KS; cbn [negb]; [|reflexivity].
  destruct K as (child & -> & W). destruct (copy_body frames (r_writes r)) as [[rest| | |] out]; try reflexivity.
  pose proof (finish_ok t n child t1 infd r W) as K. pose proof (finish_exit infd t1 r) as KF.
  destruct (ToolConsume.finish_pipeline (command_of r)) as [ok| | |]; try contradiction.
  - destruct KF as (t2 & KF). destruct (finish_pipeline infd t1 r) as [fin hs']. cbn [fst] in KF. subst fin. destruct K as [_ HS'].
    destruct (ok && negb no_ack).
    + destruct acks as [|a acks]; [reflexivity|]. destruct (a <? 0); [reflexivity|]. unfold and_then. cbn [fst]. rewrite <- (Hnext (S n) t2) by assumption.
      destruct (if i =? INT_MAX then _ else _) as [[]]; reflexivity.
    + unfold and_then. cbn [fst]. rewrite <- (Hnext (S n) t2) by assumption. destruct (if i =? INT_MAX then _ else _) as [[]]; reflexivity.
  - destruct (finish_pipeline infd t1 r) as [fin hs']. cbn [fst] in KF. subst fin. reflexivity.
Qed.
Theorem C90_commands :
  forall (no_ack : bool) (count : Z) (t : table) (frames : list (Z * frame)) (runs : list run) (acks : list Z),
    t 0 <> None -> Forall (pipe_ok t) runs ->
    fst (Process.do_consume no_ack count t frames runs acks) = ToolConsume.do_consume no_ack count frames (map command_of runs) acks.
Proof. intros. apply (loop_refines t); [assumption|intros fd; reflexivity|assumption]. Qed.
(** An acknowledged message was given to a command that then exited with status 0. *)
Theorem C90_acknowledged_after_exit_0 :
  forall (no_ack : bool) (count : Z) (t : table) (frames : list (Z * frame)) (runs : list run) (acks : list Z) (a b : list act) (tag : Z),
    Forall sound frames -> zlen frames <= INT_MAX -> zlen (bodies frames) < M64 -> t 0 <> None -> Forall (pipe_ok t) runs -> Forall status_ok runs ->
    snd (fst (Process.do_consume no_ack count t frames runs acks)) = a ++ Acked tag :: b ->
    exists a' body before rf cont after r, a = a' ++ [Ran body true] /\ frames = before ++ rf :: cont ++ after /\ is_delivery (snd rf) tag /\ content cont body /\
      In r runs /\ r_waitpid r = Some (wait_status (Exited 0)).
Proof.
  intros no_ack count t frames runs acks a b tag S I B H0 HP HW E. rewrite (C90_commands no_ack count t frames runs acks H0 HP) in E.
  destruct (C63_acknowledged_only_after_success no_ack count frames (map command_of runs) acks a b tag S I B E) as (_ & a' & body & before & rf & cont & after & p & E1 & E2 & E3 & E4 & Hin & Hx).
  apply in_map_iff in Hin. destruct Hin as (r & <- & Hin). exists a', body, before, rf, cont, after, r. repeat (split; [assumption|]).
  unfold command_of in Hx. cbn [c_exit] in Hx. destruct (r_close_write r); [|discriminate]. destruct (r_waitpid r) as [st|] eqn:Hst; [|discriminate]. injection Hx as Hx.
  destruct (proj1 (Forall_forall _ _) HW r Hin st Hst) as (e & He & ->). f_equal. unfold exit_of in Hx. destruct e as [c|s core]; cbn [possible wait_status] in *.
  - destruct (exited_status c He) as [E5 E6]. rewrite E5, E6 in Hx. subst c. reflexivity.
  - rewrite killed_status in Hx by exact He. discriminate.
Qed.
(** Why descriptor 0 has to be in use: otherwise pipe() may give it, and the command has
    no standard input. *)
Theorem C90_without_descriptor_0 :
  exists (t : table) (r : run), t 0 = None /\ pipe_ok t r /\
    match pipeline 0 t r with
    | (Returns _, [Started child _ _]) => child 0 = None
    | _ => False
    end.
Proof.
  exists (fun _ => None), (mkRun (Some (0, 1)) 0 0 0 0 (inr 77) 0 true [] true (Some 0)). split; [reflexivity|]. split; [|reflexivity].
  intros p0 p1 H. injection H as <- <-. split; [discriminate|split; reflexivity].
Qed.

(** Two messages; the first command is killed, the second exits with 0. *)
Definition example_table : table := fun fd => if (0 <=? fd) && (fd <? 3) then Some (mkEntry (Other (Z.to_nat fd)) false) else if fd =? 3 then Some (mkEntry (Other 3) true) else None.
Definition example_runs : list run :=
  [mkRun (Some (4, 5)) 0 0 0 0 (inr 77) 0 true [WChunk 9] true (Some 9); mkRun (Some (4, 5)) 0 0 0 0 (inr 78) 0 true [WChunk 9] true (Some 0)].
Example C90_case :
  let frames := [(0, some_delivery); (0, some_header 2); (0, some_body); (0, some_delivery); (0, some_header 2); (0, some_body)] in
  let o := Process.do_consume false 2 example_table frames example_runs [0] in
  example_table 0 <> None /\ Forall (pipe_ok example_table) example_runs /\ Forall status_ok example_runs /\ Forall sound frames /\
  fst o = (Returns tt, [Ran [x61; x62] false; Ran [x61; x62] true; Acked 7]) /\
  map (fun h => match h with Started c _ _ => map c [0; 1; 2; 3; 4; 5] | Awaiting w => map w [0; 1; 2; 3; 4; 5] end) (snd o) =
    let e d := Some (mkEntry d false) in
    [[e (PipeRead 0); e (Other 1); e (Other 2); None; None; None]; [e (Other 0); e (Other 1); e (Other 2); Some (mkEntry (Other 3) true); None; None];
     [e (PipeRead 1); e (Other 1); e (Other 2); None; None; None]; [e (Other 0); e (Other 1); e (Other 2); Some (mkEntry (Other 3) true); None; None]].
Proof.
  cbv zeta. split; [discriminate|]. split; [|split; [|split; [|split; vm_compute; reflexivity]]].
  - repeat (apply Forall_cons; [intros p0 p1 H; injection H as <- <-; split; [discriminate|split; reflexivity]|]). constructor.
  - apply Forall_cons; [intros st H; injection H as <-; exists (Killed 9 false); split; [cbn; lia|reflexivity]|]. apply Forall_cons; [|constructor].
    intros st H; injection H as <-; exists (Exited 0); split; [cbn; lia|reflexivity].
  - repeat constructor; cbn; intros; try discriminate; eexists _, _; (split; [reflexivity|]); intros K; try discriminate K; eexists; reflexivity.
Qed.

Print Assumptions C90_descriptors.
Print Assumptions C90_end_of_file.
Print Assumptions C90_connection_not_inherited.
Print Assumptions C90_exit_status.
Print Assumptions C90_commands.
Print Assumptions C90_acknowledged_after_exit_0.
Print Assumptions C90_without_descriptor_0.
