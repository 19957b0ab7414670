(** With a clock that does not go back, deadlines stay near, and sending a heartbeat never
    reports an unexpected frame (for C72). *)
From Coq Require Import String ZArith List Bool Lia.
From Verif Require Import Base BaseFacts Codec TableModel TableSpec TableOps FramingStmt FramingGen FramingModel MethodSpec
  Frame FrameSpec Time Sasl Net NetApi NetSpec NetFacts NetSend NetRecv NetWalk NetAcct NetOrder NetWait NetTyped NetWell NetSpeak DecStatus CalmSpec SpeakSpec.
Import ListNotations.
Local Open Scope Z_scope.

Fixpoint last_reading (T : Z) (l : list obs) : Z :=
  match l with
  | [] => T
  | OClock now :: l => last_reading (if now =? 0 then T else now) l
  | _ :: l => last_reading T l
  end.
Notation near := on_time.

Lemma steady_app l : forall T l', steady T (l ++ l') -> steady T l /\ steady (last_reading T l) l'.
Proof.
  induction l as [|o l IH]; intros T l' H; [split; [exact I|exact H]|]. destruct o; cbn [app steady last_reading] in *; try (apply IH; exact H).
  destruct H as [H1 H2]. apply IH in H2. destruct H2. auto.
Qed.
Lemma last_reading_app l : forall T l', last_reading T (l ++ l') = last_reading (last_reading T l) l'.
Proof. induction l as [|o l IH]; intros T l'; [reflexivity|]. destruct o; cbn [app last_reading]; apply IH. Qed.
Lemma last_later l : forall T, 0 <= T < M63 -> steady T l -> T <= last_reading T l < M63.
Proof.
  induction l as [|o l IH]; intros T HT H; [cbn; lia|]. destruct o; cbn [steady last_reading] in *; try (apply IH; assumption).
  destruct H as [H1 H2]. destruct (Z.eqb_spec now 0); [apply IH; assumption|]. destruct H1 as [H1|H1]; [contradiction|].
  specialize (IH now ltac:(lia) H2). lia.
Qed.
Lemma modest_later T T' d : T <= T' -> modest_deadline T d -> modest_deadline T' d.
Proof. unfold modest_deadline. intros H [K|K]; [left; exact K|right; lia]. Qed.
Lemma near_later T l c : near T c -> steady T l -> near (last_reading T l) c.
Proof.
  intros (H1 & H2 & H3 & H4) Hs. pose proof (last_later l T H1 Hs). split; [lia|]. split; [exact H2|]. split; [|exact H4]. eapply modest_later; [|exact H3]. lia.
Qed.
Lemma near_fields T c c' : c_hb c' = c_hb c -> c_next_recv c' = c_next_recv c -> zlen (c_sbuf c') <= zlen (c_sbuf c) -> near T c -> near T c'.
Proof. intros H1 H2 H3 (K1 & K2 & K3 & K4). unfold on_time. rewrite H1, H2. repeat (split; [assumption|]). lia. Qed.

Notation R := (NR near steady last_reading).
Lemma near_comp : comp R.
Proof.
  split; [intros c T Hn Hs; exact Hn|]. intros c c1 c2 l1 l2 H1 H2 T Hn Hs. apply steady_app in Hs. destruct Hs as [S1 S2]. rewrite last_reading_app.
  apply H2; [apply H1|]; assumption.
Qed.
Section Near.
Context (N : nat) (E : nat -> aenv).
(** ** A statement about results *)
Definition knows {A} (Pre : Z -> Prop) (P : A -> Z -> Prop) (m : M A) (c : conn) : Prop := forall ev,
  wp m c ev (fun a c' _ l => forall T, Pre T -> near T c -> steady T l -> near (last_reading T l) c' /\ P a (last_reading T l)) (fun _ _ _ => True).
Lemma knows_bind {A B} Pre (P : A -> Z -> Prop) (Q : B -> Z -> Prop) m k c : knows Pre P m c -> (forall a c', knows (P a) Q (k a) c') -> knows Pre Q (bind m k) c.
Proof.
  intros H1 H2 ev. apply wp_bind. eapply wp_conseq; [apply H1| |auto]; cbv beta. intros a c1 ev1 l1 A1. eapply wp_conseq; [apply (H2 a c1)| |auto]; cbv beta.
  intros b c2 ev2 l2 B1 T Hp Hn Hs. apply steady_app in Hs. destruct Hs as [S1 S2]. rewrite last_reading_app. destruct (A1 T Hp Hn S1) as [K1 K2]. apply B1; assumption.
Qed.
Lemma knows_ret {A} (Pre : Z -> Prop) (P : A -> Z -> Prop) a c : (forall T, Pre T -> P a T) -> knows Pre P (ret a) c.
Proof. intros H ev. apply wp_ret. intros T Hp Hn _. cbn [last_reading]. auto. Qed.
Lemma knows_halt {A} (Pre : Z -> Prop) (P : A -> Z -> Prop) s c : knows Pre P (halt s) c.
Proof. intros ev. apply wp_halt. exact I. Qed.
Lemma knows_get {A} (Pre : Z -> Prop) (P : A -> Z -> Prop) k c : knows Pre P (k c) c -> knows Pre P (bind get k) c.
Proof. intros H ev. apply wp_get_bind, H. Qed.
Lemma knows_near {A} (Pre : Z -> Prop) (P : A -> Z -> Prop) m c :
  knows (fun T => Pre T /\ near T c) P m c -> knows Pre P m c.
Proof. intros H ev. eapply wp_conseq; [apply H| |auto]; cbv beta. intros a c' ev' l K T Hp Hn Hs. apply K; auto. Qed.
Lemma knows_conseq {A} (Pre Pre' : Z -> Prop) (P P' : A -> Z -> Prop) m c : knows Pre P m c -> (forall T, Pre' T -> Pre T) -> (forall a T, P a T -> P' a T) -> knows Pre' P' m c.
Proof. intros H H1 H2 ev. eapply wp_conseq; [apply H| |auto]; cbv beta. intros a c' ev' l K T Hp Hn Hs. destruct (K T); auto. Qed.
Lemma knows_quiet {A} (P : A -> Prop) m c : (forall ev, wp m c ev (fun a c' _ l => P a /\ c' = c) (fun _ _ _ => True)) -> knows (fun _ => True) (fun a _ => P a) m c.
Proof. intros H ev. eapply wp_conseq; [apply H| |auto]; cbv beta. intros a c' ev' l [H1 ->] T _ Hn Hs. split; [apply near_later; assumption|exact H1]. Qed.

Definition low (r : Z) : Prop := r <> AMQP_STATUS_UNEXPECTED_STATE /\ r <> AMQP_STATUS_WRONG_METHOD.
Lemma knows_clock (Pre : Z -> Prop) c : (forall T T', T <= T' -> Pre T -> Pre T') -> knows Pre (fun now T => Pre T /\ (now = 0 \/ now = T)) sys_clock c.
Proof.
  intros Hm ev. unfold wp, sys_clock. destruct ev as [|[] ev]; auto. intros T Hp Hn Hs. split; [apply near_later; assumption|].
  cbn [last_reading steady] in *. destruct Hs as [Hs _]. destruct (Z.eqb_spec (u64 now) 0) as [->|Hz]; [auto|]. split; [|right; reflexivity].
  eapply Hm; [|exact Hp]. destruct Hs; [contradiction|lia].
Qed.
Lemma knows_ms d c : knows (fun T => modest_deadline T d /\ 0 <= T < M63) (fun ms T => (modest_deadline T d /\ 0 <= T < M63) /\ (ms < -1 -> ms = AMQP_STATUS_TIMER_FAILURE)) (time_ms_until d) c.
Proof.
  unfold time_ms_until. destruct (Z.eqb_spec UINT64_MAX d) as [<-|H1].
  - apply knows_ret. intros T HT. split; [exact HT|]. unfold amqp_time_ms_until. rewrite Z.eqb_refl. lia.
  - cbn [orb]. destruct (Z.eqb_spec 0 d) as [<-|H2].
    + apply knows_ret. intros T HT. split; [exact HT|]. unfold amqp_time_ms_until. destruct (Z.eqb_spec UINT64_MAX 0); [discriminate|]. cbn. lia.
    + intros ev. unfold bind at 1, wp, sys_clock. destruct ev as [|[] ev]; auto. cbn [ret app]. unfold ret. cbn [app]. intros T [Hm HT] Hn Hs.
      split; [apply near_later; assumption|]. cbn [last_reading steady] in *. destruct Hs as [Hs _]. unfold amqp_time_ms_until.
      destruct (Z.eqb_spec UINT64_MAX d); [contradiction|]. destruct (Z.eqb_spec 0 d); [contradiction|].
      destruct (Z.eqb_spec (u64 now) 0) as [Hz|Hz]; [split; [auto|reflexivity]|]. destruct Hs as [Hs|Hs]; [contradiction|].
      assert (modest_deadline (u64 now) d) as Hm' by (eapply modest_later; [|exact Hm]; lia).
      split; [split; [exact Hm'|lia]|]. destruct (Z.leb_spec d (u64 now)); [lia|]. destruct Hm' as [Hm'|Hm']; [exfalso; apply H1; rewrite Hm'; reflexivity|].
      unfold u64 at 1. rewrite Z.mod_small by lia. unfold AMQP_NS_PER_MS. intros K. exfalso. revert K. unfold signed.
      assert (0 <= (d - u64 now) / 1000000 < M31). { split; [apply Z.div_pos; lia|]. apply Z.div_lt_upper_bound; lia. }
      rewrite Z.mod_small by lia. destruct (Z.ltb_spec ((d - u64 now) / 1000000) (M32 / 2)); [lia|]. change (M32 / 2) with M31 in *. lia.
Qed.
Definition keepd (d : Z) (T : Z) : Prop := modest_deadline T d /\ 0 <= T < M63.
Lemma keepd_mono d T T' : T <= T' < M63 -> keepd d T -> keepd d T'.
Proof. intros H [H1 H2]. split; [eapply modest_later; [|exact H1]; lia|lia]. Qed.
Lemma knows_poll fuel : forall w d c, knows (keepd d) (fun r T => keepd d T /\ low r) (amqp_poll fuel w d) c.
Proof.
  induction fuel as [|fuel IH]; intros w d c; cbn [amqp_poll]; [apply knows_halt|]. eapply knows_bind; [apply knows_ms|]. intros ms c1. cbv beta.
  destruct (Z.ltb_spec ms (-1)) as [L|L].
  - apply knows_ret. intros T [HT K]. split; [exact HT|]. rewrite (K L). split; discriminate.
  - eapply (knows_bind _ (fun _ T => keepd d T)).
    + intros ev. unfold wp, sys_poll. destruct ev as [|[| | |r| | |] ev]; auto; destruct r; try (destruct (_ <? _); auto); intros T [HT _] Hn Hs; split; [apply near_later; assumption|cbn; exact HT|..]; try (apply near_later; assumption); exact HT.
    + intros r c2. destruct r; [apply knows_ret; intros T HT; split; [exact HT|split; discriminate]| |apply IH|]; apply knows_ret; intros T HT; split; try exact HT; split; discriminate.
Qed.

Definition idle_sys {A} (m : M A) : Prop := forall c ev, wp m c ev (fun _ c' _ l => c' = c /\ forall T, last_reading T l = T) (fun _ _ _ => True).
Lemma knows_idle {A} Pre (m : M A) c : idle_sys m -> knows Pre (fun _ T => Pre T) m c.
Proof. intros H ev. eapply wp_conseq; [apply H| |auto]; cbv beta. intros a c' ev' l [-> Hl] T Hp Hn _. rewrite Hl. auto. Qed.
Lemma knows_send_loop fuel : forall Pre more buf c, knows Pre (fun r T => Pre T /\ low r) (tcp_send_loop fuel more buf) c.
Proof.
  induction fuel as [|fuel IH]; intros Pre more buf c; cbn [tcp_send_loop]; [apply knows_halt|].
  eapply (knows_bind _ (fun r T => Pre T /\ match r with SOk n => 0 <= n | _ => True end)).
  - intros ev. unfold wp, sys_send. destruct ev as [|[|r| | | | |] ev]; auto. destruct r; try (intros T Hp Hn Hs; cbn [last_reading]; split; [apply near_later with (l := []); auto|auto]).
    split; [exact Hp|lia].
  - intros r c1. destruct r as [n| | | | | |]; try (apply knows_ret; intros T HT; split; [apply HT|split; discriminate]).
    + apply knows_ret. intros T [HT Hn]. split; [exact HT|]. unfold low, AMQP_STATUS_UNEXPECTED_STATE, AMQP_STATUS_WRONG_METHOD. lia.
    + eapply knows_conseq; [apply (IH Pre)|intros T HT; apply HT|auto].
Qed.
Lemma knows_socket_send Pre more buf c : knows Pre (fun r T => Pre T /\ low r) (amqp_socket_send N more buf) c.
Proof.
  unfold amqp_socket_send. apply knows_get. destruct (_ =? _); [apply knows_ret; intros T HT; split; [exact HT|split; discriminate]|apply knows_send_loop].
Qed.
Lemma knows_do_poll r d c : low r -> knows (keepd d) (fun r T => keepd d T /\ low r) (do_poll N r d) c.
Proof.
  intros Hr. unfold do_poll. apply knows_get. destruct (_ =? _); [apply knows_ret; intros T HT; split; [exact HT|split; discriminate]|].
  destruct (_ =? _); [apply knows_poll|]. destruct (_ =? _); [apply knows_poll|]. apply knows_ret. auto.
Qed.
Lemma knows_pure {A} (Pre : Z -> Prop) (Q : Prop) (P : A -> Z -> Prop) m c : (Q -> knows Pre P m c) -> knows (fun T => Pre T /\ Q) P m c.
Proof.
  intros H ev. destruct (m c ev) as [a c' ev' l|s c' l] eqn:Em; unfold wp; rewrite Em; [|exact I]. intros T [Hp Hq] Hn Hs.
  specialize (H Hq ev). unfold wp in H. rewrite Em in H. apply H; assumption.
Qed.
Lemma low_pos r : 0 <= r -> low r.
Proof. unfold low, AMQP_STATUS_UNEXPECTED_STATE, AMQP_STATUS_WRONG_METHOD. lia. Qed.
Lemma knows_try_send_loop fuel : forall len left d more c, zlen left <= len -> knows (keepd d) (fun r T => keepd d T /\ low r) (try_send_loop N fuel len left d more) c.
Proof.
  induction fuel as [|fuel IH]; intros len left d more c Hl; cbn [try_send_loop]; [apply knows_halt|].
  eapply knows_bind; [apply knows_socket_send|]. intros r c1. apply knows_pure. intros Hr. destruct (_ <? _).
  - cbv zeta. pose proof (zlen_skipn_le (Z.to_nat r) left). destruct (_ =? _); [apply knows_ret; intros T HT; split; [exact HT|apply low_pos; pose proof (zlen_nonneg left); lia]|]. apply IH. lia.
  - eapply knows_bind; [apply knows_do_poll, Hr|]. intros r2 c2. apply knows_pure. intros Hr2. destruct (_ =? _); [apply IH, Hl|].
    destruct (_ =? _); apply knows_ret; intros T HT; split; try exact HT; [apply low_pos; lia|exact Hr2].
Qed.
Lemma knows_try_send buf d more c : knows (keepd d) (fun r T => keepd d T /\ low r) (amqp_try_send N buf d more) c.
Proof. apply knows_try_send_loop. lia. Qed.
Lemma knows_s_from_now s c : 0 <= s <= 131070 -> knows (fun _ => True) (fun p T => low (fst p) /\ forall d, snd p = Some d -> modest_deadline T d) (time_s_from_now s) c.
Proof.
  intros Hs. unfold time_s_from_now. destruct (Z.leb_spec s 0).
  - apply knows_ret. intros T _. unfold amqp_time_s_from_now. destruct (Z.leb_spec s 0); [|lia]. split; [split; discriminate|]. intros d K. injection K as <-. left. reflexivity.
  - intros ev. unfold bind at 1, wp, sys_clock. destruct ev as [|[] ev]; auto. unfold ret. cbn [app]. intros T _ Hn Hst. split; [apply near_later; assumption|].
    cbn [last_reading steady] in *. destruct Hst as [Hst _]. destruct Hn as [HT _]. unfold amqp_time_s_from_now. destruct (Z.leb_spec s 0); [lia|].
    destruct (Z.eqb_spec (u64 now) 0) as [Hz|Hz]; [split; [split; discriminate|discriminate]|]. destruct Hst as [Hst|Hst]; [contradiction|].
    cbv zeta. unfold AMQP_NS_PER_S. assert (u64 (u64 s * 1000000000) = s * 1000000000) as Hu.
    { unfold u64. rewrite (Z.mod_small s) by lia. apply Z.mod_small. lia. }
    rewrite Hu. assert (u64 (u64 now + s * 1000000000) = u64 now + s * 1000000000) as -> by (unfold u64 at 1; apply Z.mod_small; lia).
    destruct (_ || _); (split; [split; discriminate|]); intros d K; injection K as <-; right; lia.
Qed.
Lemma knows_fact {A} Pre (Q : Prop) (P : A -> Z -> Prop) m c : (forall T, near T c -> Q) -> (Q -> knows Pre P m c) -> knows Pre P m c.
Proof.
  intros HQ H ev. destruct (m c ev) as [a c' ev' l|s c' l] eqn:Em; unfold wp; rewrite Em; [|exact I]. intros T Hp Hn Hs.
  specialize (H (HQ T Hn) ev). unfold wp in H. rewrite Em in H. apply H; assumption.
Qed.
Lemma knows_true {A} Pre (P : A -> Z -> Prop) m c : knows (fun _ => True) P m c -> knows Pre P m c.
Proof. intros H ev. eapply wp_conseq; [apply H| |auto]; cbv beta. intros a c2 ev2 l K T _ Hn Hs. apply K; auto. Qed.
Lemma knows_set_next_recv d c : knows (fun T => modest_deadline T d) (fun _ _ => True) (upd (fun c => set_next_recv c d)) c.
Proof. intros ev. apply wp_upd. intros T Hm (H1 & H2 & H3 & H4) _. split; [|exact I]. cbn [last_reading]. split; [exact H1|]. split; [exact H2|]. split; [exact Hm|exact H4]. Qed.
Lemma knows_next_recv c : knows (fun _ => True) (fun r _ => low r) update_next_recv c.
Proof.
  apply (knows_fact _ (0 <= c_hb c <= 65535)); [intros T (_ & H & _); exact H|]. intros Hh. unfold update_next_recv. apply knows_get.
  assert (amqp_heartbeat_recv c = 2 * c_hb c) as ->.
  { unfold amqp_heartbeat_recv, signed. rewrite Z.mod_small by lia. destruct (Z.ltb_spec (2 * c_hb c) (M32 / 2)); [reflexivity|]. change (M32 / 2) with M31 in *. lia. }
  eapply knows_bind; [apply knows_s_from_now; lia|]. intros [r t] c1. cbn [fst snd]. destruct t as [t|].
  - eapply (knows_bind _ (fun _ _ => low r)).
    + eapply knows_conseq with (Pre := fun T => modest_deadline T t /\ low r) (P := fun _ _ => low r).
      * apply knows_pure. intros Hl. eapply knows_conseq; [apply knows_set_next_recv|cbv beta; auto|cbv beta; auto].
      * intros T [H1 H2]. auto.
      * cbv beta; auto.
    + intros. apply knows_ret. auto.
  - eapply (knows_bind _ (fun _ _ => low r)).
    + intros ev. apply wp_upd. intros T [H1 _] Hn _. auto.
    + intros. apply knows_ret. auto.
Qed.
Lemma knows_next_send c : knows (fun _ => True) (fun r _ => low r) update_next_send c.
Proof.
  apply (knows_fact _ (0 <= c_hb c <= 65535)); [intros T (_ & H & _); exact H|]. intros Hh. unfold update_next_send. apply knows_get. unfold amqp_heartbeat_send.
  eapply knows_bind; [apply knows_s_from_now; lia|]. intros [r t] c1. cbn [fst snd].
  eapply (knows_bind _ (fun _ _ => low r)).
  - intros ev. apply wp_upd. intros T [H1 _] Hn _. split; [|exact H1]. eapply near_fields; [| | |exact Hn]; destruct t; try reflexivity; apply Z.le_refl.
  - intros. apply knows_ret. auto.
Qed.
Lemma knows_recv_loop fuel : forall Pre len c, 0 <= len -> knows Pre (fun p T => Pre T /\ (low (fst p) /\ zlen (snd p) <= len)) (tcp_recv_loop fuel len) c.
Proof.
  induction fuel as [|fuel IH]; intros Pre len c Hl; cbn [tcp_recv_loop]; [apply knows_halt|].
  eapply (knows_bind _ (fun r T => Pre T /\ match r with ROk bs => zlen bs <= len | _ => True end)).
  - intros ev. unfold wp, sys_recv. destruct ev as [|[| |r| | | |] ev]; auto. destruct r as [bs| | | | |]; try (intros T Hp Hn Hs; cbn [last_reading]; split; [apply near_later with (l := []); auto|auto]).
    split; [exact Hp|]. unfold zlen. rewrite firstn_length. lia.
  - intros r c1. destruct r as [bs| | | | |]; try (apply knows_ret; intros T HT; split; [apply HT|split; [split; discriminate|exact Hl]]).
    + destruct bs as [|b bs]; apply knows_ret; intros T [HT Hn]; (split; [exact HT|]); (split; [|exact Hn]); [split; discriminate|apply low_pos, zlen_nonneg].
    + eapply knows_conseq; [apply (IH Pre len c1 Hl)|intros T HT; apply HT|auto].
Qed.
Lemma knows_socket_recv Pre len c : 0 <= len -> knows Pre (fun p T => Pre T /\ (low (fst p) /\ zlen (snd p) <= len)) (amqp_socket_recv N len) c.
Proof.
  intros Hl. unfold amqp_socket_recv. apply knows_get. destruct (_ =? _); [apply knows_ret; intros T HT; split; [exact HT|split; [split; discriminate|exact Hl]]|apply knows_recv_loop, Hl].
Qed.
Lemma knows_store bs c : zlen bs < M31 -> knows (fun _ => True) (fun _ _ => True) (store_received bs) c.
Proof.
  intros Hb. unfold store_received. apply knows_get. eapply (knows_bind _ (fun _ _ => True)).
  - destruct (c_sbuf c); [apply knows_ret; auto|]. intros ev. apply wp_note. intros T _ Hn _. cbn [last_reading]. auto.
  - intros [] c1 ev. apply wp_upd. intros T _ (H1 & H2 & H3 & H4) _. split; [|exact I]. cbn [last_reading]. split; [exact H1|]. split; [exact H2|]. split; [exact H3|exact Hb].
Qed.
Lemma knows_recv fuel : forall d c, knows (keepd d) (fun r _ => low r) (recv_with_timeout N fuel d) c.
Proof.
  induction fuel as [|fuel IH]; intros d c; cbn [recv_with_timeout]; [apply knows_halt|].
  eapply knows_bind; [apply knows_socket_recv; unfold SOCK_BUFFER_SIZE; lia|]. intros [r bs] c1. cbn [fst snd]. apply knows_pure. intros [Hr Hb]. destruct (_ <? _).
  - apply knows_get. destruct (_ =? _); [apply knows_ret; intros; split; discriminate|]. destruct (_ || _); [|apply knows_ret; auto].
    eapply knows_bind; [apply knows_poll|]. intros r2 c2. apply knows_pure. intros Hr2. destruct (_ =? _); [apply IH|apply knows_ret; auto].
  - eapply (knows_bind _ (fun _ _ => True)); [apply knows_true, knows_store; unfold SOCK_BUFFER_SIZE in Hb; lia|]. intros _ c2. apply knows_next_recv.
Qed.
Lemma knows_consume c : knows (fun _ => True) (fun p _ => low (fst p)) (consume_one_frame E) c.
Proof.
  intros ev. unfold wp, consume_one_frame. destruct (amqp_handle_input E (c_in c) (c_sbuf c)) as [res f s| |] eqn:Eh; auto.
  destruct (Z.ltb_spec res 0).
  - intros T _ Hn _. cbn [last_reading]. split; [eapply near_fields; [| | |exact Hn]; try reflexivity; apply Z.le_refl|]. cbn [fst].
    destruct Hn as (_ & _ & _ & Hb). pose proof (handle_input_status _ _ _ _ _ _ Hb Eh H) as K. destruct K as [-> | [-> | [-> | ->]]]; split; discriminate.
  - intros T _ Hn _. split; [|split; discriminate]. destruct (_ =? _); cbn [last_reading]; (eapply near_fields; [| | |exact Hn]; try reflexivity; apply zlen_skipn_le).
Qed.
Lemma knows_link f c : knows (fun _ => True) (fun _ _ => True) (create_link f) c.
Proof.
  unfold create_link. eapply (knows_bind _ (fun _ _ => True)).
  - intros ev. unfold wp, sys_alloc. destruct ev as [|[] ev]; auto.
  - intros ok c1. apply knows_get, knows_ret. auto.
Qed.
Lemma knows_append e c : knows (fun _ => True) (fun _ _ => True) (append_entry e) c.
Proof. intros ev. apply wp_upd. intros T _ Hn _. cbn [last_reading]. split; [|exact I]. eapply near_fields; [| | |exact Hn]; try reflexivity; apply Z.le_refl. Qed.
Lemma knows_drain fuel : forall c, knows (fun _ => True) (fun r _ => low r) (try_recv_drain E fuel) c.
Proof.
  induction fuel as [|fuel IH]; intros c; cbn [try_recv_drain]; [apply knows_halt|]. apply knows_get. destruct (negb _); [apply knows_ret; intros; split; discriminate|].
  eapply knows_bind; [apply knows_consume|]. intros [r f] c1. cbn [fst]. destruct (negb (r =? _)); [apply knows_ret; auto|]. destruct (negb _).
  - eapply knows_bind; [apply knows_true, knows_link|]. intros [e|] c2; [|apply knows_ret; intros; split; discriminate].
    eapply knows_bind; [apply knows_append|]. intros u c3. apply IH.
  - apply knows_true, IH.
Qed.
Lemma knows_from_now c : knows (fun _ => True) (fun p T => match snd p with Some d => keepd d T | None => True end /\ low (fst p)) (time_from_now (Some (mkTv 0 0))) c.
Proof.
  unfold time_from_now. cbn [tv_sec tv_usec Z.ltb Z.compare orb]. intros ev. unfold bind at 1, wp, sys_clock. destruct ev as [|[] ev]; auto. unfold ret. cbn [app]. intros T _ Hn Hst.
  split; [apply near_later; assumption|]. cbn [last_reading steady] in *. destruct Hst as [Hst _]. destruct Hn as [HT _]. unfold amqp_time_from_now. cbn [tv_sec tv_usec Z.ltb Z.compare orb].
  destruct (Z.eqb_spec (u64 now) 0) as [Hz|Hz]; [split; [exact I|split; discriminate]|]. destruct Hst as [Hst|Hst]; [contradiction|].
  cbv zeta. change (u64 (u64 (u64 0 * AMQP_NS_PER_S) + u64 (u64 0 * AMQP_NS_PER_US))) with 0. rewrite Z.add_0_r.
  assert (u64 (u64 now) = u64 now) as -> by (unfold u64 at 1; apply Z.mod_small; lia).
  destruct (_ || _); cbn [fst snd]; (split; [split; [right; lia|lia]|split; discriminate]).
Qed.
Lemma knows_try_recv c : knows (fun _ => True) (fun r _ => low r) (amqp_try_recv N E) c.
Proof.
  unfold amqp_try_recv. eapply knows_bind; [apply knows_drain|]. intros r c1. cbv beta.
  destruct (negb _); [apply knows_ret; auto|]. eapply knows_bind; [apply knows_true, knows_from_now|]. intros [r2 d] c2. cbn [fst snd]. destruct d as [d|]; [|apply knows_ret; intros T [_ H]; exact H].
  destruct (_ =? _); [|apply knows_ret; intros T [_ H]; exact H]. apply knows_pure. intros _. apply knows_recv.
Qed.
Lemma knows_send_frame_loop fuel : forall enc more c, knows (fun _ => True) (fun r _ => low r) (send_frame_loop N E fuel enc more amqp_time_infinite) c.
Proof.
  induction fuel as [|fuel IH]; intros enc more c; cbn [send_frame_loop]; [apply knows_halt|]. apply knows_get. cbv zeta.
  apply knows_near. assert (amqp_time_first amqp_time_infinite (c_next_recv c) = c_next_recv c \/ amqp_time_first amqp_time_infinite (c_next_recv c) = amqp_time_infinite) as Hd.
  { unfold amqp_time_first. destruct (_ <? _); auto. }
  set (d := amqp_time_first _ _) in *. eapply (knows_bind _ (fun r T => keepd d T /\ low r)).
  - eapply knows_conseq; [apply knows_try_send| |auto]. intros T [_ (H1 & H2 & H3 & H4)]. split; [|exact H1]. destruct Hd as [-> | ->]; [exact H3|left; reflexivity].
  - intros r c1. apply knows_pure. intros Hr. destruct (_ <? _); [apply knows_ret; auto|]. destruct (negb _); [|apply knows_true, knows_next_send].
    destruct (amqp_time_equal _ _); [apply knows_ret; intros; split; discriminate|]. eapply knows_bind; [apply knows_true, knows_try_recv|].
    intros r2 c2. destruct (_ =? _); [apply knows_ret; intros; split; discriminate|]. destruct (negb _); [apply knows_ret; auto|]. apply knows_true, IH.
Qed.
Lemma knows_beat c : knows (fun _ => True) (fun r _ => low r) (amqp_send_frame N E heartbeat_frame) c.
Proof.
  unfold amqp_send_frame, amqp_send_frame_inner. apply knows_get. destruct (amqp_frame_to_bytes heartbeat_frame (c_outbuf c)) as [r buf enc|] eqn:Ef; [|apply knows_halt].
  apply heartbeat_bytes in Ef. destruct Ef as [-> ->].
  eapply (knows_bind _ (fun _ _ => True)).
  - intros ev. apply wp_upd. intros T _ Hn _. cbn [last_reading]. split; [|exact I]. eapply near_fields; [| | |exact Hn]; try reflexivity; apply Z.le_refl.
  - intros _ c1. change (AMQP_STATUS_OK =? AMQP_STATUS_OK) with true. cbn [negb]. cbv iota. apply knows_send_frame_loop.
Qed.
Lemma beat_status c ev : wp (amqp_send_frame N E heartbeat_frame) c ev (fun r _ _ l => forall T, near T c -> steady T l -> any_end r -> r = AMQP_STATUS_OK) (fun _ _ _ => True).
Proof.
  eapply wp_conseq; [apply (wp_split _ _ _ _ _ _ _ (send_frame_ok N E heartbeat_frame false amqp_time_infinite c ev ltac:(cbv; discriminate)) (knows_beat c ev))| |auto]; cbv beta.
  intros r c2 ev2 l [(st & buf & enc & c1 & Hf & -> & _ & Hs) Hk] T Hn Hst Hx.
  apply heartbeat_bytes in Hf. destruct Hf as [-> ->]. destruct Hs as [(H & _)|(_ & Hs)]; [contradiction|].
  destruct (Hk T I Hn Hst) as [_ [L1 L2]]. destruct Hx as [[Hx|Hx]|[Hx|Hx]]; try contradiction; [exact Hx|].
  exfalso. pose proof (sf_timeout _ _ _ _ _ _ Hs Hx) as K. apply K. reflexivity.
Qed.
End Near.
