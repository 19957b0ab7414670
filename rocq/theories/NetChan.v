(** Waiting for the next frame of a channel. *)
From Coq Require Import String ZArith List Bool Lia.
From Verif Require Import Base BaseFacts Codec TableModel TableSpec TableOps FramingStmt FramingGen FramingModel MethodSpec
  Frame FrameSpec Time Sasl Net NetApi NetSpec NetFacts NetSend NetRecv NetWalk NetAcct NetOrder NetWait NetOff NetCalls EncStatus NetRpc NetOffAll.
Import ListNotations.
Local Open Scope Z_scope.

Lemma find_split g ch q : forallb (entry_alive g) q = true ->
  match find_on_channel g ch q with
  | Some (Some (f, q')) => exists before n, q = before ++ (f, n) :: q' /\ Forall (fun h => f_chan h <> ch) (map fst before) /\ f_chan f = ch
  | Some None => Forall (fun h => f_chan h <> ch) (map fst q)
  | None => False
  end.
Proof.
  induction q as [|e q IH]; intros H; cbn; [constructor|]. cbn in H. apply andb_true_iff in H. destruct H as [-> H]. cbn [negb].
  unfold on_channel at 1. destruct (Z.eqb_spec ch (f_chan (fst e))) as [->|Hn].
  - exists [], (snd e). split; [destruct e; reflexivity|]. split; [constructor|reflexivity].
  - specialize (IH H). destruct (find_on_channel g ch q) as [[[f q']|]|].
    + destruct IH as (b & n & -> & H1 & H2). exists (e :: b), n. split; [reflexivity|]. split; [constructor; [congruence|exact H1]|exact H2].
    + constructor; [congruence|exact IH].
    + exact IH.
Qed.

Section Chan.
Context (N : nat) (E : nat -> aenv).
(** either a pending frame of the channel (the ones before it are gone), or the
    first one received, the others being queued *)
Definition on_chan (ch r : Z) (f : frame) (c c' : conn) (l : list obs) : Prop :=
  (exists before n after, c_queue c = before ++ (f, n) :: after /\ Forall (fun h => f_chan h <> ch) (map fst before) /\ f_chan f = ch /\
     r = AMQP_STATUS_OK /\ c' = set_queue c after /\ l = []) \/
  (Forall (fun h => f_chan h <> ch) (queued c) /\ r <= 0 /\ gathered (fun g => ch =? f_chan g) (okf r f) c c' l).
Lemma on_channel_ok ch c ev : qalive c ->
  wp (amqp_simple_wait_frame_on_channel N E ch) c ev
    (fun p c' _ l => on_chan ch (fst p) (snd p) c c' l)
    (fun s c' l => beats (out_bytes l)).
Proof.
  intros Hq. unfold amqp_simple_wait_frame_on_channel. wstep. pose proof (find_split (gens c) ch (c_queue c) Hq) as Hs.
  destruct (find_on_channel _ _ _) as [[[f q]|]|]; [| |contradiction].
  - destruct Hs as (b & n & H1 & H2 & H3). wstep. apply wp_ret. left. exists b, n, q. cbn [fst snd app]. auto 10.
  - eapply wp_conseq; [apply on_channel_loop_ok| |]; cbv beta; [|auto]. intros p c' _ l [H1 H2]. right. auto.
Qed.
End Chan.
