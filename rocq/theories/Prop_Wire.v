(** C72: the bytes a session puts on the wire are exactly the frames asked for. *)
From Coq Require Import String ZArith List Bool Lia.
From Verif Require Import Base BaseFacts Codec TableModel TableSpec TableOps FramingStmt FramingGen FramingModel MethodSpec
  Frame FrameSpec Time Sasl Net NetApi NetSpec NetFacts NetWalk NetOrder NetWait NetRoom NetWell NetSpeak NetNear NetNearAll NetWire CallSpec
  Prop_Frame Prop_Calls Prop_Safe Prop_Publish CalmSpec SpeakSpec.
Import ListNotations.
Local Open Scope Z_scope.

(** ** Proof *)
Lemma plain_beat N E c ev : wp (amqp_send_frame N E heartbeat_frame) c ev (fun r _ _ l => Z -> True -> True -> plain_end r -> r = AMQP_STATUS_OK) (fun _ _ _ => True).
Proof.
  eapply wp_conseq; [apply (send_frame_ok N E heartbeat_frame false amqp_time_infinite c ev ltac:(cbv; discriminate))| |auto]; cbv beta.
  intros r c2 ev2 l (st & buf & enc & c1 & Hf & -> & _ & Hs) _ _ _ Hx.
  apply heartbeat_bytes in Hf. destruct Hf as [-> ->]. destruct Hs as [(H & _)|(_ & Hs)]; [contradiction|].
  destruct Hx as [Hx|Hx]; [exact Hx|]. exfalso. pose proof (sf_timeout _ _ _ _ _ _ Hs Hx) as K. apply K. reflexivity.
Qed.
Lemma always_sat {A} (m : M A) c : sat_at (NR (fun _ _ => True) (fun _ _ => True) (fun T _ => T)) m c.
Proof. intros ev. unfold wp. destruct (m c ev); intros T _ _; exact I. Qed.

Section Both.
Context (N : nat) (E : nat -> aenv) (near : Z -> conn -> Prop) (since : Z -> list obs -> Prop) (last : Z -> list obs -> Z) (X : Z -> Prop).
Hypothesis window_app : forall T a b, since T (a ++ b) -> since T a /\ since (last T a) b.
Hypothesis last_app : forall T a b, last T (a ++ b) = last (last T a) b.
Hypothesis near_later : forall T l c, near T c -> since T l -> near (last T l) c.
Hypothesis near_fields : forall T c c', c_hb c' = c_hb c -> c_next_recv c' = c_next_recv c -> zlen (c_sbuf c') <= zlen (c_sbuf c) -> near T c -> near T c'.
Hypothesis near_recv : forall t c, sat_at (NR near since last) (recv_with_timeout N N t) c.
Hypothesis near_beat : forall c, sat_at (NR near since last) (amqp_send_frame N E heartbeat_frame) c.
Hypothesis beat_status : forall c ev, wp (amqp_send_frame N E heartbeat_frame) c ev (fun r _ _ l => forall T, near T c -> since T l -> X r -> r = AMQP_STATUS_OK) (fun _ _ _ => True).
Hypothesis near_exec : forall a c, keeps_limits a -> sat_at (NR near since last) (exec N E a) c.
Lemma both calls a c c1 ev ev1 told l1 : Forall keeps_limits calls -> Forall arguments_ok calls -> keeps_limits a -> arguments_ok a ->
  roomy c -> zlen (c_outbuf c) < M31 -> exec_told N E calls c ev = Done told c1 ev1 l1 ->
  exists Fs F, Forall2 (asks (frame_max c) (zlen (c_outbuf c))) calls Fs /\ asks (frame_max c) (zlen (c_outbuf c)) a F /\
    forall T, near T c -> since T l1 -> all_in_step X Fs calls told ->
    sent (concat Fs) (out_bytes l1) /\
    match exec N E a c1 ev1 with
    | Done o c2 _ l2 => part (concat Fs ++ F) (out_bytes l1 ++ out_bytes l2) /\
        (since (last T l1) l2 -> in_step X F a (o, c_recent c2) -> sent (concat Fs ++ F) (out_bytes l1 ++ out_bytes l2))
    | Halt _ _ l2 => part (concat Fs ++ F) (out_bytes l1 ++ out_bytes l2)
    end.
Proof.
  intros Hk Ha Hka Haa Hr Hb Hrun.
  destruct (tells_all N E near since last X window_app last_app near_later near_fields near_recv near_beat beat_status near_exec calls c Hk Ha Hr Hb _ _ _ _ _ Hrun) as (Fs & G1 & [R1 R2] & G2).
  destruct (tells_exec N E near since last X window_app last_app near_later near_fields near_recv near_beat beat_status a c1 Hka Haa) as (F & HF & HT).
  { unfold roomy in *. rewrite R1, R2. exact Hr. } { lia. }
  rewrite R1, R2 in HF. exists Fs, F. split; [exact G1|]. split; [exact HF|]. intros T Hn Hs HI. destruct (G2 T Hn Hs) as [Hn1 K]. specialize (K HI). split; [exact K|].
  specialize (HT ev1). unfold wp in HT. destruct (exec N E a c1 ev1) as [o c2 ev2 l2|s c2 l2].
  - destruct HT as [T1 T2]. split; [apply part_after; assumption|]. intros W HX. apply sent_app; [exact K|]. eapply T2; eassumption.
  - apply part_after; assumption.
Qed.
End Both.

(** ** Theorems *)
(** The calls of a program have returned and each of them was in step: success, an answer
    of the server, a wait that came to an end with a frame or because the time was up, or a
    frame that could not be sent and was refused.  Then the peer has been given exactly the
    frames that the calls ask for, whole and in order, with nothing but whole heartbeat
    frames between them.  If the program makes one more call, whatever becomes of it (it
    fails, it does not return, the program ends within it), the bytes on the wire are a
    beginning of these frames and those the call asks for. *)
Theorem C72_wire :
  forall (N : nat) (E : nat -> aenv) (calls : list api) (a : api) (c c1 : conn) (ev ev1 : list event) (told : list (outcome_t * rpc_reply_t)) (l1 : list obs),
    Forall keeps_limits (a :: calls) -> Forall arguments_ok (a :: calls) -> roomy c -> zlen (c_outbuf c) < M31 ->
    exec_told N E calls c ev = Done told c1 ev1 l1 ->
    exists Fs F, Forall2 (asks (frame_max c) (zlen (c_outbuf c))) (calls ++ [a]) (Fs ++ [F]) /\
      (all_in_step plain_end Fs calls told ->
       sent (concat Fs) (out_bytes l1) /\
       match exec N E a c1 ev1 with
       | Done o c2 _ l2 => part (concat Fs ++ F) (out_bytes (l1 ++ l2)) /\
           (in_step plain_end F a (o, c_recent c2) -> sent (concat Fs ++ F) (out_bytes (l1 ++ l2)))
       | Halt _ _ l2 => part (concat Fs ++ F) (out_bytes (l1 ++ l2))
       end).
Proof.
  intros N E calls a c c1 ev ev1 told l1 Hk Ha Hr Hb Hrun.
  destruct (both N E (fun _ _ => True) (fun _ _ => True) (fun T _ => T) plain_end (fun _ _ _ _ => conj I I) (fun _ _ _ => eq_refl) (fun _ _ _ _ _ => I) (fun _ _ _ _ _ _ _ => I)
    (fun t c => always_sat _ c) (fun c => always_sat _ c) (plain_beat N E) (fun a c _ => always_sat _ c) calls a c c1 ev ev1 told l1
    (Forall_inv_tail Hk) (Forall_inv_tail Ha) (Forall_inv Hk) (Forall_inv Ha) Hr Hb Hrun) as (Fs & F & H1 & H2 & H3).
  exists Fs, F. split; [apply Forall2_app; [exact H1|constructor; [exact H2|constructor]]|]. intros HI. destruct (H3 0 I I HI) as [K1 K2]. split; [exact K1|].
  destruct (exec N E a c1 ev1); rewrite out_bytes_app; [|exact K2]. destruct K2 as [K2 K3]. split; [exact K2|]. auto.
Qed.

(** The same if also waits may have ended with a frame that was not expected
    (AMQP_STATUS_UNEXPECTED_STATE, AMQP_STATUS_WRONG_METHOD), if the clock does not go
    back. *)
Theorem C72_wire_unexpected :
  forall (N : nat) (E : nat -> aenv) (calls : list api) (a : api) (c c1 : conn) (ev ev1 : list event) (told : list (outcome_t * rpc_reply_t)) (l1 : list obs) (T : Z),
    Forall keeps_limits (a :: calls) -> Forall arguments_ok (a :: calls) -> roomy c -> zlen (c_outbuf c) < M31 ->
    on_time T c ->
    exec_told N E calls c ev = Done told c1 ev1 l1 ->
    exists Fs F, Forall2 (asks (frame_max c) (zlen (c_outbuf c))) (calls ++ [a]) (Fs ++ [F]) /\
      (steady T l1 -> all_in_step any_end Fs calls told ->
       sent (concat Fs) (out_bytes l1) /\
       match exec N E a c1 ev1 with
       | Done o c2 _ l2 => part (concat Fs ++ F) (out_bytes (l1 ++ l2)) /\
           (steady T (l1 ++ l2) -> in_step any_end F a (o, c_recent c2) -> sent (concat Fs ++ F) (out_bytes (l1 ++ l2)))
       | Halt _ _ l2 => part (concat Fs ++ F) (out_bytes (l1 ++ l2))
       end).
Proof.
  intros N E calls a c c1 ev ev1 told l1 T Hk Ha Hr Hb Hot Hrun.
  destruct (both N E on_time steady last_reading any_end (fun T a b => steady_app a T b) (fun T a b => last_reading_app a T b) near_later near_fields
    (nr_recv N E N) (nr_send_frame' N E heartbeat_frame) (beat_status N E) (nr_exec N E) calls a c c1 ev ev1 told l1
    (Forall_inv_tail Hk) (Forall_inv_tail Ha) (Forall_inv Hk) (Forall_inv Ha) Hr Hb Hrun) as (Fs & F & H1 & H2 & H3).
  exists Fs, F. split; [apply Forall2_app; [exact H1|constructor; [exact H2|constructor]]|]. intros Hs HI. destruct (H3 T Hot Hs HI) as [K1 K2]. split; [exact K1|].
  destruct (exec N E a c1 ev1); rewrite out_bytes_app; [|exact K2]. destruct K2 as [K2 K3]. split; [exact K2|]. intros Hs2. apply steady_app in Hs2. apply K3, Hs2.
Qed.

(** The statuses matter: after a failed write a call may leave a part of its frame behind,
    and the bytes of the next call continue it. *)
Definition ack_7 : aframe := AMethod 60 80 [("delivery_tag", Longlong); ("multiple", Bit)]%string [("delivery_tag", VInt 7); ("multiple", VBool 0)]%string.
Example C72_not_after_failure :
  match exec_told 10 plain_env [Ack 1 7 0; Ack 1 7 0] small_conn [EvSend (SOk 5); EvSend SErr; EvSend (SOk 99)] with
  | Done told _ _ l => map fst told = [OutStatus AMQP_STATUS_SOCKET_ERROR; OutStatus AMQP_STATUS_OK] /\ out_bytes l = firstn 5 (ser_frame 1 ack_7) ++ ser_frame 1 ack_7
  | Halt _ _ _ => False
  end.
Proof. vm_compute. split; reflexivity. Qed.

(** Waiting for a second sends a heartbeat and ends with a timeout; then an acknowledgement
    and a message in pieces of 32 bytes; between the parts of the message nothing else. *)
Definition with_hb (c : conn) (hb : Z) : conn :=
  mkC (c_in c) (c_fd c) (c_outbuf c) (c_sbuf c) (c_queue c) (c_next_send c) (c_next_recv c) (c_chmax c) hb (c_to c) (c_recent c) (c_sprops c) (c_cprops c).
Definition beating_conn : conn := set_next_recv (set_next_send (with_hb small_conn 10) 5000000000) 30000000000.
Definition beating_calls : list api := [WaitFrame (Some (mkTv 1 0)); Ack 1 7 0].
Definition beating_last : api := Publish 1 [x65] [x6b] 1 0 (Some a_props) body_70.
Definition beating_events : list event :=
  [EvClock 6000000000; EvClock 6000000000; EvSend (SOk 3); EvSend (SOk 99); EvClock 6000000000; EvRecv RAgain; EvClock 6000000000; EvPoll PTimeout;
   EvSend (SOk 99); EvClock 7000000000;
   EvClock 8000000000; EvSend (SOk 99); EvClock 8000000000; EvSend (SOk 99); EvClock 8000000000; EvSend (SOk 99); EvClock 8000000000; EvSend (SOk 99); EvClock 8000000000; EvSend (SOk 99); EvClock 8000000000].
Example C72_case :
  Forall keeps_limits (beating_last :: beating_calls) /\ Forall arguments_ok (beating_last :: beating_calls) /\ roomy beating_conn /\
  on_time 1000000000 beating_conn /\
  match exec_told 100 plain_env beating_calls beating_conn beating_events with
  | Done told c1 ev1 l1 =>
      steady 1000000000 l1 /\ all_in_step plain_end [[]; [ser_frame 1 ack_7]] beating_calls told /\
      out_bytes l1 = heartbeat_wire ++ ser_frame 1 ack_7 /\
      match exec 100 plain_env beating_last c1 ev1 with
      | Done o _ [] l2 => o = OutStatus AMQP_STATUS_OK /\ zlen (out_bytes l2) = 136 /\ steady 1000000000 (l1 ++ l2)
      | _ => False
      end
  | Halt _ _ _ => False
  end.
Proof.
  split; [repeat constructor|]. split.
  { constructor; [|constructor; [exact I|constructor; [cbn; lia|constructor]]]. destruct C40_case as [H _]. exact H. }
  split; [destruct C40_case as (_ & H & _); exact H|].
  split; [unfold on_time; split; [lia|]; split; [cbn; lia|]; split; [right; cbn; lia|vm_compute; reflexivity]|].
  vm_compute. intuition (try congruence).
Qed.

Print Assumptions C72_wire.
Print Assumptions C72_wire_unexpected.
