(** Proof infrastructure for the connection layer. *)
From Coq Require Import String ZArith List Bool Lia.
From Verif Require Import Base BaseFacts Codec TableModel TableSpec FramingStmt FramingGen FramingModel MethodSpec
  Frame FrameSpec Time Net NetSpec.
Import ListNotations.
Local Open Scope Z_scope.

(** ** Weakest preconditions *)
Definition wp {A} (m : M A) (c : conn) (ev : list event)
    (Q : A -> conn -> list event -> list obs -> Prop) (S : stop -> conn -> list obs -> Prop) : Prop :=
  match m c ev with
  | Done a c ev l => Q a c ev l
  | Halt s c l => S s c l
  end.

Lemma wp_bind {A B} (m : M A) (k : A -> M B) c ev Q S :
  wp m c ev (fun a c1 ev1 l1 => wp (k a) c1 ev1 (fun b c2 ev2 l2 => Q b c2 ev2 (l1 ++ l2)) (fun s c2 l2 => S s c2 (l1 ++ l2))) S ->
  wp (bind m k) c ev Q S.
Proof.
  unfold wp, bind. destruct (m c ev) as [a c1 ev1 l1|s c1 l1]; auto.
  destruct (k a c1 ev1); auto.
Qed.
Lemma wp_conseq {A} (m : M A) c ev (Q Q' : A -> conn -> list event -> list obs -> Prop) (S S' : stop -> conn -> list obs -> Prop) :
  wp m c ev Q S -> (forall a c' ev' l, Q a c' ev' l -> Q' a c' ev' l) -> (forall s c' l, S s c' l -> S' s c' l) ->
  wp m c ev Q' S'.
Proof. unfold wp. destruct (m c ev); auto. Qed.
Lemma wp_ret {A} (a : A) c ev (Q : A -> conn -> list event -> list obs -> Prop) S : Q a c ev [] -> wp (ret a) c ev Q S.
Proof. auto. Qed.
Lemma wp_get c ev (Q : conn -> conn -> list event -> list obs -> Prop) S : Q c c ev [] -> wp get c ev Q S.
Proof. auto. Qed.
Lemma wp_upd f c ev (Q : unit -> conn -> list event -> list obs -> Prop) S : Q tt (f c) ev [] -> wp (upd f) c ev Q S.
Proof. auto. Qed.
Lemma wp_note o c ev (Q : unit -> conn -> list event -> list obs -> Prop) S : Q tt c ev [o] -> wp (note o) c ev Q S.
Proof. auto. Qed.
Lemma wp_halt {A} s c ev (Q : A -> conn -> list event -> list obs -> Prop) (S : stop -> conn -> list obs -> Prop) : S s c [] -> wp (halt s) c ev Q S.
Proof. auto. Qed.
Lemma wp_get_bind {B} (k : conn -> M B) c ev Q S : wp (k c) c ev Q S -> wp (bind get k) c ev Q S.
Proof. intros H. apply wp_bind, wp_get. eapply wp_conseq; [exact H|auto|auto]. Qed.
Lemma wp_ret_bind {A B} (a : A) (k : A -> M B) c ev Q S : wp (k a) c ev Q S -> wp (bind (ret a) k) c ev Q S.
Proof. intros H. apply wp_bind, wp_ret. eapply wp_conseq; [exact H|auto|auto]. Qed.
Lemma wp_upd_bind {B} f (k : unit -> M B) c ev Q S : wp (k tt) (f c) ev Q S -> wp (bind (upd f) k) c ev Q S.
Proof. intros H. apply wp_bind, wp_upd. eapply wp_conseq; [exact H|auto|auto]. Qed.
Lemma wp_split {A} (m : M A) c ev Q1 Q2 S1 S2 : wp m c ev Q1 S1 -> wp m c ev Q2 S2 ->
  wp m c ev (fun a c' ev' l => Q1 a c' ev' l /\ Q2 a c' ev' l) (fun s c' l => S1 s c' l /\ S2 s c' l).
Proof. unfold wp. destruct (m c ev); auto. Qed.

(** symbolic execution of the control structure *)
Ltac wstep :=
  match goal with
  | |- wp (bind get _) _ _ _ _ => apply wp_get_bind; cbv beta
  | |- wp (bind (ret _) _) _ _ _ _ => apply wp_ret_bind; cbv beta
  | |- wp (bind (upd _) _) _ _ _ _ => apply wp_upd_bind; cbv beta
  | |- wp (bind (bind _ _) _) _ _ _ _ => apply wp_bind
  | |- wp (ret _) _ _ _ _ => apply wp_ret
  | |- wp get _ _ _ _ => apply wp_get
  | |- wp (upd _) _ _ _ _ => apply wp_upd
  | |- wp (note _) _ _ _ _ => apply wp_note
  | |- wp (halt _) _ _ _ _ => apply wp_halt
  | |- wp (if ?b then _ else _) _ _ _ _ => let H := fresh "H" in destruct b eqn:H
  | |- wp (bind (if ?b then _ else _) _) _ _ _ _ => let H := fresh "H" in destruct b eqn:H
  | |- wp (let '(_, _) := ?p in _) _ _ _ _ => destruct p
  | |- wp (let _ := _ in _) _ _ _ _ => cbv zeta
  end.

(** ** Relations between the states before and after, closed under sequencing *)
Record comp (R : conn -> conn -> list obs -> Prop) : Prop := mkComp {
  comp_refl : forall c, R c c [];
  comp_trans : forall c c1 c2 l1 l2, R c c1 l1 -> R c1 c2 l2 -> R c c2 (l1 ++ l2) }.
Definition sat_at {A} (R : conn -> conn -> list obs -> Prop) (m : M A) (c : conn) : Prop :=
  forall ev, wp m c ev (fun _ c' _ l => R c c' l) (fun _ c' l => R c c' l).
Definition sat {A} (R : conn -> conn -> list obs -> Prop) (m : M A) : Prop := forall c, sat_at R m c.

Section Sat.
Context (R : conn -> conn -> list obs -> Prop) (HR : comp R).
Lemma sat_ret {A} (a : A) c : sat_at R (ret a) c.
Proof. intros ev. apply wp_ret, (comp_refl R HR). Qed.
Lemma sat_halt {A} s c : sat_at R (halt (A := A) s) c.
Proof. intros ev. apply wp_halt, (comp_refl R HR). Qed.
Lemma sat_bind {A B} (m : M A) (k : A -> M B) c :
  sat_at R m c -> (forall a c', sat_at R (k a) c') -> sat_at R (bind m k) c.
Proof.
  intros Hm Hk ev. apply wp_bind. eapply wp_conseq; [apply Hm|intros a c1 ev1 l1 H1|auto].
  eapply wp_conseq; [apply Hk|intros b c2 ev2 l2 H; exact (comp_trans R HR _ _ _ _ _ H1 H)|intros s c2 l2 H; exact (comp_trans R HR _ _ _ _ _ H1 H)].
Qed.
Lemma sat_get_bind {B} (k : conn -> M B) c : sat_at R (k c) c -> sat_at R (bind get k) c.
Proof. intros H ev. apply wp_get_bind, H. Qed.
Lemma sat_upd f c : R c (f c) [] -> sat_at R (upd f) c.
Proof. intros H ev. apply wp_upd, H. Qed.
Lemma sat_note o c : R c c [o] -> sat_at R (note o) c.
Proof. intros H ev. apply wp_note, H. Qed.
(** a step whose effect on the state is known *)
Lemma sat_wp {A} (m : M A) c (Q : A -> conn -> list obs -> Prop) :
  (forall ev, wp m c ev (fun a c' _ l => R c c' l /\ Q a c' l) (fun _ c' l => R c c' l)) -> sat_at R m c.
Proof. intros H ev. eapply wp_conseq; [apply H|intros a c' ev' l [H1 _]; exact H1|auto]. Qed.
Lemma sat_bind_wp {A B} (m : M A) (k : A -> M B) c (Q : A -> conn -> Prop) :
  (forall ev, wp m c ev (fun a c' _ l => R c c' l /\ Q a c') (fun _ c' l => R c c' l)) ->
  (forall a c', Q a c' -> sat_at R (k a) c') -> sat_at R (bind m k) c.
Proof.
  intros Hm Hk ev. apply wp_bind. eapply wp_conseq; [apply Hm|intros a c1 ev1 l1 [H1 H2]|auto].
  eapply wp_conseq; [apply Hk; exact H2|intros b c2 ev2 l2 H; exact (comp_trans R HR _ _ _ _ _ H1 H)|intros s c2 l2 H; exact (comp_trans R HR _ _ _ _ _ H1 H)].
Qed.
End Sat.

(** ** Reading off *)
Lemma out_bytes_app a b : out_bytes (a ++ b) = out_bytes a ++ out_bytes b.
Proof. apply flat_map_app. Qed.
Lemma in_bytes_app a b : in_bytes (a ++ b) = in_bytes a ++ in_bytes b.
Proof. apply flat_map_app. Qed.
Lemma frames_app a b : frames (a ++ b) = frames a ++ frames b.
Proof. apply flat_map_app. Qed.
Lemma no_bad_app a b : no_bad (a ++ b) <-> no_bad a /\ no_bad b.
Proof. apply Forall_app. Qed.
Lemma no_lost_app a b : no_lost (a ++ b) <-> no_lost a /\ no_lost b.
Proof. apply Forall_app. Qed.
Lemma no_oom_obs_app a b : no_oom_obs (a ++ b) <-> no_oom_obs a /\ no_oom_obs b.
Proof. apply Forall_app. Qed.
Lemma no_input_app a b : no_input (a ++ b) <-> no_input a /\ no_input b.
Proof. apply Forall_app. Qed.
Lemma no_output_app a b : no_output (a ++ b) <-> no_output a /\ no_output b.
Proof. apply Forall_app. Qed.
Lemma no_hb_app a b : no_hb (a ++ b) = no_hb a ++ no_hb b.
Proof. apply filter_app. Qed.
Lemma no_input_in l : no_input l -> in_bytes l = [] /\ frames l = [] /\ no_bad l /\ no_lost l.
Proof.
  induction 1 as [|o l Ho Hl (I1 & I2 & I3 & I4)]; [repeat split; constructor|].
  destruct o; try contradiction; cbn; repeat split; auto; constructor; auto.
Qed.
Lemma no_output_out l : no_output l -> out_bytes l = [].
Proof. induction 1 as [|o l Ho Hl IH]; [reflexivity|]. destruct o; try contradiction; exact IH. Qed.
Lemma prefix_refl {A} (a : list A) : prefix a a.
Proof. exists []. symmetry; apply app_nil_r. Qed.
Lemma prefix_nil {A} (a : list A) : prefix [] a.
Proof. exists a. reflexivity. Qed.
Lemma prefix_app {A} (x a b : list A) : prefix a b -> prefix (x ++ a) (x ++ b).
Proof. intros [r ->]. exists r. apply app_assoc. Qed.
Lemma prefix_app_r {A} (a b c : list A) : prefix a b -> prefix a (b ++ c).
Proof. intros [r ->]. exists (r ++ c). symmetry; apply app_assoc. Qed.
Lemma prefix_trans {A} (a b c : list A) : prefix a b -> prefix b c -> prefix a c.
Proof. intros [r ->] [r' ->]. exists (r ++ r'). symmetry; apply app_assoc. Qed.

(** ** Exact effects of the small functions: the connection does not change and
    nothing is read. *)
Definition quiet (l : list obs) : Prop :=
  Forall (fun o => match o with OClock _ | OPoll _ _ _ => True | _ => False end) l.
Lemma quiet_app a b : quiet (a ++ b) <-> quiet a /\ quiet b.
Proof. apply Forall_app. Qed.
Lemma quiet_input l : quiet l -> no_input l.
Proof. unfold quiet, no_input. apply Forall_impl. intros o; destruct o; auto. Qed.
Lemma quiet_output l : quiet l -> no_output l.
Proof. unfold quiet, no_output. apply Forall_impl. intros o; destruct o; auto. Qed.
Lemma quiet_nil : quiet [].
Proof. constructor. Qed.

Definition silent {A} (m : M A) : Prop :=
  forall c ev, wp m c ev (fun _ c' _ l => c' = c /\ quiet l) (fun s c' l => c' = c /\ quiet l /\ s <> UB /\ s <> Abort).
Lemma silent_ret {A} (a : A) : silent (ret a).
Proof. intros c ev. apply wp_ret. split; [reflexivity|constructor]. Qed.
Lemma silent_clock : silent sys_clock.
Proof.
  intros c ev. unfold wp, sys_clock. destruct ev as [|[] ev]; (split; [reflexivity|]);
    try (split; [constructor|split; discriminate]). repeat constructor.
Qed.
Lemma silent_poll w ms : silent (sys_poll w ms).
Proof.
  intros c ev. unfold wp, sys_poll. destruct ev as [|[ | | |[]| | | ] ev]; try destruct (ms <? 0); (split; [reflexivity|]);
    try (split; [constructor|split; discriminate]); repeat constructor.
Qed.
Lemma silent_fuel {A} : silent (halt (A := A) Fuel).
Proof. intros c ev. apply wp_halt. split; [reflexivity|]. split; [constructor|split; discriminate]. Qed.
Lemma silent_bind {A B} (m : M A) (k : A -> M B) : silent m -> (forall a, silent (k a)) -> silent (bind m k).
Proof.
  intros Hm Hk c ev. apply wp_bind. eapply wp_conseq; [apply Hm| |auto].
  intros a c1 ev1 l1 [-> H1]. eapply wp_conseq; [apply Hk| |].
  - intros b c2 ev2 l2 [-> H2]. split; [reflexivity|]. apply quiet_app; auto.
  - intros s c2 l2 (-> & H2 & H3). split; [reflexivity|]. split; [apply quiet_app; auto|exact H3].
Qed.
Lemma silent_get_bind {B} (k : conn -> M B) : (forall c, silent (k c)) -> silent (bind get k).
Proof. intros H c ev. apply wp_get_bind, H. Qed.

Lemma silent_time_from_now t : silent (time_from_now t).
Proof.
  unfold time_from_now. destruct t; [|apply silent_ret]. destruct (_ || _); [apply silent_ret|].
  apply silent_bind; [apply silent_clock|intros; apply silent_ret].
Qed.
Lemma silent_time_s t : silent (time_s_from_now t).
Proof.
  unfold time_s_from_now. destruct (_ <=? _); [apply silent_ret|].
  apply silent_bind; [apply silent_clock|intros; apply silent_ret].
Qed.
Lemma silent_time_ms t : silent (time_ms_until t).
Proof.
  unfold time_ms_until. destruct (_ || _); [apply silent_ret|].
  apply silent_bind; [apply silent_clock|intros; apply silent_ret].
Qed.
Lemma silent_time_tv t : silent (time_tv_until t).
Proof.
  unfold time_tv_until. destruct (_ || _); [apply silent_ret|].
  apply silent_bind; [apply silent_clock|intros; apply silent_ret].
Qed.
Lemma silent_time_past t : silent (time_has_past t).
Proof.
  unfold time_has_past. destruct (_ =? _); [apply silent_ret|].
  apply silent_bind; [apply silent_clock|intros; apply silent_ret].
Qed.
Lemma silent_amqp_poll fuel : forall w d, silent (amqp_poll fuel w d).
Proof.
  induction fuel as [|fuel IH]; intros w d; cbn [amqp_poll]; [apply silent_fuel|].
  apply silent_bind; [apply silent_time_ms|intros ms]. destruct (_ <? _); [apply silent_ret|].
  apply silent_bind; [apply silent_poll|intros []]; try apply silent_ret. apply IH.
Qed.
Lemma silent_do_poll N r d : silent (do_poll N r d).
Proof.
  apply silent_get_bind. intros c. repeat (match goal with |- silent (if ?b then _ else _) => destruct b end);
    try apply silent_ret; apply silent_amqp_poll.
Qed.

(** ** Steps that touch neither the input side nor the queue, and read nothing *)
Definition same (c c' : conn) : Prop := c_in c' = c_in c /\ c_sbuf c' = c_sbuf c /\ c_queue c' = c_queue c /\ c_hb c' = c_hb c /\ c_chmax c' = c_chmax c.
Lemma same_refl c : same c c.
Proof. repeat split. Qed.
Lemma same_trans a b c : same a b -> same b c -> same a c.
Proof. unfold same. intros (?&?&?&?&?) (?&?&?&?&?). repeat split; congruence. Qed.
Definition neutral (c c' : conn) (l : list obs) : Prop := same c c' /\ no_input l.
Lemma no_input_nil : no_input [].
Proof. constructor. Qed.
Lemma comp_neutral : comp neutral.
Proof.
  split; [intros; split; [apply same_refl|constructor]|].
  intros c c1 c2 l1 l2 [S1 I1] [S2 I2]. split; [eapply same_trans; eauto|apply no_input_app; auto].
Qed.

Lemma silent_wp {A} (m : M A) c ev (Q : A -> conn -> list event -> list obs -> Prop) (S : stop -> conn -> list obs -> Prop) :
  silent m -> (forall a ev' l, quiet l -> Q a c ev' l) -> (forall s l, quiet l -> s <> UB -> s <> Abort -> S s c l) -> wp m c ev Q S.
Proof.
  intros H HQ HS. eapply wp_conseq; [apply H| |].
  - intros a c' ev' l [-> Hl]. auto.
  - intros s c' l (-> & Hl & H1 & H2). auto.
Qed.

(** the observations of sending *)
Definition sendlog (l : list obs) : Prop :=
  Forall (fun o => match o with OClock _ | OPoll _ _ _ | OSend _ _ => True | _ => False end) l.
Lemma sendlog_app a b : sendlog (a ++ b) <-> sendlog a /\ sendlog b.
Proof. apply Forall_app. Qed.
Lemma sendlog_input l : sendlog l -> no_input l.
Proof. unfold sendlog, no_input. apply Forall_impl. intros o; destruct o; auto. Qed.
Lemma sendlog_oom l : sendlog l -> no_oom_obs l.
Proof. unfold sendlog, no_oom_obs. apply Forall_impl. intros o; destruct o; auto; contradiction. Qed.
Lemma quiet_sendlog l : quiet l -> sendlog l.
Proof. unfold sendlog, quiet. apply Forall_impl. intros o; destruct o; auto. Qed.

(** what a send that accepts nothing reports *)
Definition failed_send (r : Z) : Prop :=
  r = NEEDWRITE \/ r = AMQP_STATUS_SOCKET_ERROR \/ r = NEEDREAD \/ r = AMQP_STATUS_CONNECTION_CLOSED \/ r = AMQP_STATUS_SSL_ERROR.
Lemma failed_send_neg r : failed_send r -> r < 0 /\ r <> AMQP_STATUS_TIMEOUT /\ r <> AMQP_STATUS_HEARTBEAT_TIMEOUT /\ r <> AMQP_STATUS_SOCKET_CLOSED.
Proof. intros [->|[->|[->|[->| ->]]]]; repeat split; discriminate. Qed.
(** sending: the connection does not change, only a prefix of the bytes goes out *)
Lemma tcp_send_ok fuel more buf c : forall ev,
  wp (tcp_send_loop fuel more buf) c ev
    (fun r c' _ l => c' = c /\ sendlog l /\
       ((0 <= r <= zlen buf /\ out_bytes l = firstn (Z.to_nat r) buf) \/
        (failed_send r /\ out_bytes l = [])))
    (fun s c' l => c' = c /\ sendlog l /\ out_bytes l = [] /\ s <> UB /\ s <> Abort).
Proof.
  induction fuel as [|fuel IH]; intros ev; cbn [tcp_send_loop].
  - apply wp_halt. repeat split; try constructor; discriminate.
  - apply wp_bind. unfold wp at 1, sys_send. unfold failed_send in *. destruct ev as [|[now|[n| | | | | |]|r|r|ok|ok|oom] ev];
      try (split; [reflexivity|split; [constructor|split; [reflexivity|split; discriminate]]]).
    + apply wp_ret. rewrite app_nil_r. split; [reflexivity|]. split; [repeat constructor|].
      pose proof (zlen_nonneg buf). left. split; [lia|]. cbn. apply app_nil_r.
    + apply IH.
    + apply wp_ret. split; [reflexivity|]. split; [constructor|]. right. auto.
    + apply wp_ret. split; [reflexivity|]. split; [constructor|]. right. auto.
    + apply wp_ret. split; [reflexivity|]. split; [repeat constructor|]. right. auto.
    + apply wp_ret. split; [reflexivity|]. split; [constructor|]. right. auto 6.
    + apply wp_ret. split; [reflexivity|]. split; [constructor|]. right. auto 7.
Qed.

Lemma socket_send_ok N more buf c ev :
  wp (amqp_socket_send N more buf) c ev
    (fun r c' _ l => c' = c /\ sendlog l /\
       ((0 <= r <= zlen buf /\ out_bytes l = firstn (Z.to_nat r) buf) \/
        ((failed_send r \/ r = AMQP_STATUS_SOCKET_CLOSED) /\ out_bytes l = [])))
    (fun s c' l => c' = c /\ sendlog l /\ out_bytes l = [] /\ s <> UB /\ s <> Abort).
Proof.
  unfold amqp_socket_send. wstep. destruct (_ =? _).
  - apply wp_ret. split; [reflexivity|]. split; [constructor|]. right. auto.
  - eapply wp_conseq; [apply tcp_send_ok|intros r c' _ l (-> & H1 & [H2|[H3 H2]]); auto 8|auto].
Qed.

Lemma time_first_infinite t : 0 <= t <= UINT64_MAX -> amqp_time_first amqp_time_infinite t = t.
Proof. unfold amqp_time_first, amqp_time_infinite. intros H. destruct (Z.ltb_spec UINT64_MAX t); lia. Qed.
