(** A send that fails has not sent everything, unless the clock failed (for C74). *)
From Coq Require Import String ZArith List Bool Lia.
From Verif Require Import Base BaseFacts Codec TableModel TableSpec TableOps FramingStmt FramingGen FramingModel MethodSpec
  Frame FrameSpec Time Sasl Net NetApi NetSpec NetFacts NetSend NetRecv NetWalk NetAcct NetOrder.
Import ListNotations.
Local Open Scope Z_scope.

Lemma short_try_send_loop N fuel : forall len left d more c ev, 0 < zlen left -> 0 <= len ->
  wp (try_send_loop N fuel len left d more) c ev (fun r _ _ l => r < 0 -> zlen (out_bytes l) < zlen left) (fun _ _ _ => True).
Proof.
  induction fuel as [|fuel IH]; intros len left d more c ev Hl Hlen; cbn [try_send_loop]; [apply wp_halt; exact I|].
  apply wp_bind. eapply wp_conseq; [apply socket_send_ok| |auto]; cbv beta. intros r c' ev1 l (-> & Hi & Hr).
  destruct (Z.ltb_spec 0 r).
  - destruct Hr as [[Hr Ho]|[Hr _]]; [|exfalso; destruct Hr as [Hr| ->]; [apply failed_send_neg in Hr; lia|discriminate]].
    cbv zeta. destruct (Z.eqb_spec (zlen (skipn (Z.to_nat r) left)) 0) as [Hz|Hz].
    + apply wp_ret. rewrite app_nil_r. cbn [app]. intros K. exfalso. lia.
    + assert (zlen (skipn (Z.to_nat r) left) = zlen left - r) as Hs by (rewrite zlen_skipn; lia).
      assert (zlen (firstn (Z.to_nat r) left) = r) as Hfr by (rewrite zlen_firstn; lia).
      eapply wp_conseq; [apply IH; [pose proof (zlen_nonneg (skipn (Z.to_nat r) left)); lia|exact Hlen]| |auto]. cbv beta. intros r2 c2 ev2 l2 K Hn. specialize (K Hn). rewrite out_bytes_app, zlen_app, Ho. lia.
  - assert (out_bytes l = []) as Ho. { destruct Hr as [[Hr Ho]|[_ Ho]]; [|exact Ho]. assert (r = 0) as -> by lia. exact Ho. }
    assert (r <= 0) as Hr0 by lia.
    apply wp_bind. eapply wp_conseq; [apply do_poll_res; exact Hr0| |auto]; cbv beta. intros r2 c2 ev2 l2 (-> & Hq & Hr2 & _).
    pose proof (no_output_out _ (quiet_output _ Hq)) as Ho2.
    destruct (r2 =? AMQP_STATUS_OK); [|destruct (r2 =? AMQP_STATUS_TIMEOUT)].
    + eapply wp_conseq; [apply IH; assumption| |auto]. cbv beta. intros r3 c3 ev3 l3 K Hn. specialize (K Hn). rewrite !out_bytes_app, Ho, Ho2. exact K.
    + apply wp_ret. rewrite !out_bytes_app, Ho, Ho2. intros _. exact Hl.
    + apply wp_ret. rewrite !out_bytes_app, Ho, Ho2. intros _. exact Hl.
Qed.


(** no clock reading near 2^64 ns (584 years) *)
Definition sane (l : list obs) : Prop := Forall (fun o => match o with OClock now => now < M63 | _ => True end) l.
Lemma sane_app a b : sane (a ++ b) <-> sane a /\ sane b.
Proof. apply Forall_app. Qed.
Section Short.
Context (N : nat) (E : nat -> aenv).
Lemma short_next_send c ev : wp update_next_send c ev
  (fun r _ _ l => c_hb c <= 65535 -> sane l -> r = AMQP_STATUS_OK \/ r = AMQP_STATUS_TIMER_FAILURE) (fun _ _ _ => True).
Proof.
  unfold update_next_send. wstep. unfold amqp_heartbeat_send, time_s_from_now. destruct (Z.leb_spec (c_hb c) 0).
  - apply wp_ret_bind. unfold amqp_time_s_from_now. destruct (Z.leb_spec (c_hb c) 0); [|lia]. apply wp_upd_bind, wp_ret. auto.
  - apply wp_bind. apply wp_bind. unfold wp, sys_clock. destruct ev as [|[] ev]; auto. unfold ret. cbn [app].
    unfold amqp_time_s_from_now. destruct (Z.leb_spec (c_hb c) 0); [lia|]. destruct (Z.eqb_spec (u64 now) 0).
    + cbn. auto.
    + unfold bind, upd. cbn [app]. destruct (_ || _) eqn:Hb; cbn; auto. intros Hh Hs. exfalso. inversion Hs; subst. cbv zeta in Hb. unfold AMQP_NS_PER_S in Hb.
      assert (0 <= u64 now < M64) as H64 by (unfold u64; apply Z.mod_pos_bound; reflexivity). set (nw := u64 now) in *. clearbody nw.
      assert (u64 (u64 (c_hb c) * 1000000000) = c_hb c * 1000000000) as Hu. { unfold u64. rewrite (Z.mod_small (c_hb c)) by lia. apply Z.mod_small. lia. }
      rewrite Hu in Hb. assert (u64 (nw + c_hb c * 1000000000) = nw + c_hb c * 1000000000) as Hv by (unfold u64; apply Z.mod_small; lia).
      rewrite Hv in Hb. apply orb_prop in Hb. destruct Hb as [Hb|Hb]; apply Z.ltb_lt in Hb; lia.
Qed.
Definition shorter (c : conn) (enc : bytes) (r : Z) (l : list obs) : Prop :=
  c_hb c <= 65535 -> sane l -> r <> AMQP_STATUS_OK -> r <> AMQP_STATUS_TIMER_FAILURE -> zlen (out_bytes l) < zlen enc.
Lemma short_send_loop fuel : forall enc more d c ev, 0 < zlen enc ->
  wp (send_frame_loop N E fuel enc more d) c ev (fun r c' _ l => shorter c enc r l) (fun _ _ _ => True).
Proof.
  induction fuel as [|fuel IH]; intros enc more d c ev He; cbn [send_frame_loop]; [apply wp_halt; exact I|].
  wstep. cbv zeta. apply wp_bind. set (nt := amqp_time_first d (c_next_recv c)).
  eapply wp_conseq; [apply (wp_split _ _ _ _ _ _ _ (try_send_ok N enc nt more c ev) (short_try_send_loop N N (zlen enc) enc nt more c ev He ltac:(lia)))| |auto]; cbv beta.
  intros r c1 ev1 l1 [(-> & Hsl & Hpre & Hnt & Hcnt) Hsh]. destruct (Z.ltb_spec r 0) as [L|L].
  { apply wp_ret. rewrite app_nil_r. intros _ _ _ _. apply Hsh, L. }
  specialize (Hcnt L). destruct Hcnt as [Hcnt _]. assert (r = zlen (out_bytes l1)) as Hr by lia.
  destruct (Z.eqb_spec (zlen enc) r) as [Heq|Hne]; cbn [negb].
  - eapply wp_conseq; [apply short_next_send| |auto]; cbv beta. intros r2 c2 ev2 l2 K Hh Hs N1 N2. apply sane_app in Hs. destruct (K Hh (proj2 Hs)); contradiction.
  - assert (zlen (out_bytes l1) <= zlen enc) as Hle by (destruct Hpre as [x Hx]; rewrite Hx, zlen_app; pose proof (zlen_nonneg x); lia). destruct (amqp_time_equal _ _).
    { apply wp_ret. rewrite app_nil_r. intros _ _ _ _. lia. }
    apply wp_bind. eapply wp_conseq; [apply try_recv_ok| |auto]; cbv beta.
    intros r2 c2 ev2 l2 (_ & _ & _ & _ & Hno & Hk & _). pose proof (no_output_out _ Hno) as Ho2.
    destruct (r2 =? AMQP_STATUS_TIMEOUT). { apply wp_ret. intros _ _ _ _. rewrite !out_bytes_app, Ho2, !app_nil_r. lia. }
    destruct (negb _). { apply wp_ret. intros _ _ _ _. rewrite !out_bytes_app, Ho2, !app_nil_r. lia. }
    assert (zlen (skipn (Z.to_nat r) enc) = zlen enc - r) as Hz by (rewrite zlen_skipn; lia).
    eapply wp_conseq; [apply IH; lia| |auto]; cbv beta. intros r3 c3 ev3 l3 K Hh Hs N1 N2.
    apply sane_app in Hs. destruct Hs as [_ Hs]. apply sane_app in Hs. destruct Hs as [_ Hs]. destruct Hk as (_ & _ & Hk & _). rewrite <- Hk in Hh.
    specialize (K Hh Hs N1 N2). rewrite !out_bytes_app, Ho2, zlen_app. cbn [app]. lia.
Qed.
Lemma short_send_frame f more d c ev :
  wp (amqp_send_frame_inner N E f more d) c ev
    (fun r c' _ l => forall buf enc, amqp_frame_to_bytes f (c_outbuf c) = FRet AMQP_STATUS_OK buf enc -> 0 < zlen enc -> shorter c enc r l) (fun _ _ _ => True).
Proof.
  unfold amqp_send_frame_inner. wstep. destruct (amqp_frame_to_bytes f (c_outbuf c)) as [st buf enc|] eqn:Hf; [|apply wp_halt; exact I].
  wstep. destruct (Z.eqb_spec st AMQP_STATUS_OK) as [->|Hst]; cbn [negb].
  - destruct (Z.ltb_spec 0 (zlen enc)).
    + eapply wp_conseq; [apply short_send_loop; assumption| |auto]; cbv beta. intros r c' ev' l K b e H1 _. injection H1 as <- <-. exact K.
    + unfold wp. cbv beta. destruct (send_frame_loop _ _ _ _ _ _ _ _); [|exact I]. intros b e H1 H2. injection H1 as <- <-. lia.
  - apply wp_ret. intros b e H1. injection H1 as K _ _. contradiction.
Qed.
End Short.
