(** C51: opening a TCP connection; C58: socket objects own their descriptor (TCP) *)
From Coq Require Import ZArith List Bool Lia Strings.Byte.
From Verif Require Import Base Time Os ConnectSpec OsFacts OsAcct.
Import ListNotations.
Local Open Scope Z_scope.
Local Open Scope os_scope.

(** For every host, port and deadline and every outcome of every system call, the calls
    made and the value returned are those of ConnectSpec.opens: the addresses the name
    resolves to are tried in order; the descriptor of the first one that accepts is
    returned; an address that times out ends the search with AMQP_STATUS_TIMEOUT; if
    all addresses reject, the status of the last one is returned; each descriptor of a
    rejected address is closed. *)
Theorem C51_tries_in_order N host port deadline ans :
  match amqp_open_socket_inner N host port deadline ans with
  | ODone r _ l => opens host port deadline l r
  | OHalt s _ => s <> OUB
  end.
Proof. exact (open_inner_ok N host port deadline ans). Qed.

(** the same for amqp_open_socket (no deadline) and amqp_open_socket_noblock (the
    deadline is computed first; a bad timeout or a failing clock ends the call) *)
Theorem C51_open_socket N host port ans :
  match amqp_open_socket N host port ans with
  | ODone r _ l => opens host port amqp_time_infinite l r
  | OHalt s _ => s <> OUB
  end.
Proof. exact (open_inner_ok N host port amqp_time_infinite ans). Qed.

Lemma noblock_ok N host port timeout :
  owp (amqp_open_socket_noblock N host port timeout) (fun r l =>
    (r < 0 /\ untimely timeout l) \/
    exists deadline l0 l1, l = l0 ++ l1 /\ due timeout l0 deadline /\ opens host port deadline l1 r).
Proof.
  unfold amqp_open_socket_noblock. apply owp_bind. eapply owp_conseq; [apply owp_and; [apply time_from_now_ok|apply time_from_now_due]|].
  intros [st d] l ((A & B & C & D) & F & G). cbn [fst snd] in *. destruct d as [d|].
  - destruct (Z.eqb_spec st AMQP_STATUS_OK) as [E|E]; cbn [negb].
    + eapply owp_conseq; [apply open_inner_ok|]. intros r l1 O. right. exists d, l, l1. destruct (F E) as (d' & X & Y). inversion X; subst. auto.
    + apply owp_ret. rewrite app_nil_r. left. auto.
  - apply owp_ret. rewrite app_nil_r. left. auto.
Qed.
Theorem C51_open_socket_noblock N host port timeout ans :
  match amqp_open_socket_noblock N host port timeout ans with
  | ODone r _ l =>
      (r < 0 /\ untimely timeout l) \/
      exists deadline l0 l1, l = l0 ++ l1 /\ due timeout l0 deadline /\ opens host port deadline l1 r
  | OHalt s _ => s <> OUB
  end.
Proof. exact (noblock_ok N host port timeout ans). Qed.

(** Consequences, for a resolver that keeps POSIX' promise: every descriptor that was
    created has been closed, in order, except the one returned; and a non-negative
    result is a descriptor connected to one of the addresses. *)
Theorem C51_no_leak N host port deadline ans :
  match amqp_open_socket_inner N host port deadline ans with
  | ODone r _ l => resolver_ok l -> opened l = closed l ++ (if 0 <=? r then [r] else [])
  | OHalt _ _ => True
  end.
Proof.
  pose proof (C51_tries_in_order N host port deadline ans) as H.
  destruct (amqp_open_socket_inner N host port deadline ans) as [r rest l|s l]; [|exact I].
  intros R. exact (proj1 (opens_balance _ _ _ _ _ H R)).
Qed.
Theorem C51_connected N host port deadline ans :
  match amqp_open_socket_inner N host port deadline ans with
  | ODone r _ l => resolver_ok l -> r < 0 \/
      exists res addrs a l1 l2, In (Resolve host port, res) l /\ addresses res = Some addrs /\ In a addrs /\
        l = l1 ++ l2 /\ accepts a deadline l2 r
  | OHalt _ _ => True
  end.
Proof.
  pose proof (C51_tries_in_order N host port deadline ans) as H.
  destruct (amqp_open_socket_inner N host port deadline ans) as [r rest l|s l]; [|exact I].
  intros R. destruct H as [a A|a addrs l r A NE T|a A].
  - left. reflexivity.
  - destruct (tries_result _ _ _ _ T) as [[L _]|(x & I & l1 & l2 & E & X)]; [left; exact L|].
    right. exists a, addrs, x, ((Resolve host port, a) :: l1), l2. subst l. repeat split; try assumption. left. reflexivity.
  - destruct (R host port a (or_introl eq_refl) A).
Qed.

(** ** TCP socket objects: any number of amqp_socket_open and amqp_socket_close *)
Inductive tcp_op := TcpOpen (host : bytes) (port : Z) (timeout : option timeval) | TcpClose.
Definition tcp_exec (N : nat) (fd : Z) (op : tcp_op) : Io (Z * Z) :=
  match op with
  | TcpOpen host port timeout => amqp_tcp_socket_open N fd host port timeout
  | TcpClose => amqp_tcp_socket_close fd
  end.
Fixpoint tcp_execs (N : nat) (fd : Z) (ops : list tcp_op) : Io Z :=
  match ops with
  | [] => oret fd
  | op :: ops => p <- tcp_exec N fd op;; tcp_execs N (snd p) ops
  end.
Definition held (fd : Z) : list Z := if fd =? -1 then [] else [fd].

Lemma resolver_ok_app l l' : resolver_ok (l ++ l') -> resolver_ok l /\ resolver_ok l'.
Proof. intros H. split; intros h p a I; apply (H h p a); apply in_or_app; auto. Qed.
Lemma closes_ok_app l l' : closes_ok (l ++ l') -> closes_ok l /\ closes_ok l'.
Proof. intros H. split; intros fd a I; apply (H fd a); apply in_or_app; auto. Qed.

Lemma due_clock timeout l d : due timeout l d -> l = [] \/ exists a, l = [(Clock, a)].
Proof. destruct timeout as [tv|]; cbn [due]; [intros (a & -> & _); eauto|intros [-> _]; auto]. Qed.
(** the descriptors before [op] and those it creates are those after it and those it
    closes *)
Lemma tcp_exec_ok N fd op : (fd = -1 \/ 0 <= fd) ->
  owp (tcp_exec N fd op) (fun p l => (snd p = -1 \/ 0 <= snd p) /\
    (resolver_ok l -> closes_ok l -> held fd ++ opened l = closed l ++ held (snd p) /\ ssl_balance l = 0 /\ cert_balance l = 0)).
Proof.
  intros V. destruct op as [host port timeout|]; cbn [tcp_exec].
  - unfold amqp_tcp_socket_open. destruct (Z.eqb_spec fd (-1)) as [E|E]; cbn [negb].
    + apply owp_bind. eapply owp_conseq; [apply noblock_ok|]. intros r l H.
      assert (K : resolver_ok l -> balance l (if 0 <=? r then [r] else []) 0 0).
      { intros R. destruct H as [[L X]|(d & l0 & l1 & -> & X & O)].
        - replace (0 <=? r) with false by (symmetry; apply Z.leb_gt; exact L). destruct X as [[->|(a & ->)] _]; apply plains_balance; reflexivity.
        - apply resolver_ok_app in R. apply balance_app0; [apply due_clock in X; destruct X as [->|(a & ->)]; apply plains_balance; reflexivity|].
          eapply opens_balance; [exact O|apply R]. }
      subst fd. destruct (Z.ltb_spec r 0) as [L|L]; apply owp_ret; rewrite app_nil_r; cbn [snd]; (split; [auto; fail|]); intros R C; destruct (K R) as (K1 & K2 & K3).
      * replace (0 <=? r) with false in K1 by (symmetry; apply Z.leb_gt; exact L). auto.
      * replace (0 <=? r) with true in K1 by (symmetry; apply Z.leb_le; exact L). unfold held. cbn [Z.eqb].
        replace (r =? -1) with false by (symmetry; apply Z.eqb_neq; lia). auto.
    + apply owp_ret. cbn [snd]. split; [exact V|]. intros _ _. cbn [opened closed]. rewrite app_nil_r. auto.
  - unfold amqp_tcp_socket_close. destruct (Z.eqb_spec fd (-1)) as [E|E].
    + apply owp_ret. cbn [snd]. split; [exact V|]. intros _ _. cbn [opened closed]. rewrite app_nil_r. auto.
    + apply owp_ask_bind. intros a. destruct (Z.eqb_spec (result a) 0) as [A|A]; cbn [negb]; apply owp_ret; cbn [snd]; (split; [auto; fail|]); intros R C.
      * unfold held. destruct (fd =? -1) eqn:F; [apply Z.eqb_eq in F; contradiction|]. auto.
      * destruct A. apply (C fd a). left. reflexivity.
Qed.
(** As long as every close() succeeds: after any sequence of opens and closes, every
    descriptor created has been closed exactly once, except the one the socket holds *)
Theorem C58_tcp_socket_partial N ops ans :
  match tcp_execs N (-1) ops ans with
  | ODone fd _ l => resolver_ok l -> closes_ok l -> opened l = closed l ++ held fd
  | OHalt s _ => s <> OUB
  end.
Proof.
  assert (K : forall ops fd, (fd = -1 \/ 0 <= fd) ->
    owp (tcp_execs N fd ops) (fun fd' l => resolver_ok l -> closes_ok l -> held fd ++ opened l = closed l ++ held fd')).
  { clear. induction ops as [|op ops IH]; intros fd V; cbn [tcp_execs].
    - apply owp_ret. intros _ _. cbn [opened closed]. rewrite app_nil_r. reflexivity.
    - apply owp_bind. intros ans. pose proof (tcp_exec_ok N fd op V ans) as H.
      destruct (tcp_exec N fd op ans) as [[st fd1] rest l|s l]; [|exact H]. cbn [snd] in *.
      destruct H as [D H]. eapply owp_conseq; [apply IH; exact D|]. intros fd2 l2 X R C.
      apply resolver_ok_app in R. apply closes_ok_app in C. destruct R as [R1 R2], C as [C1 C2].
      destruct (H R1 C1) as (E & _). specialize (X R2 C2).
      rewrite opened_app, closed_app, app_assoc, E, <- !app_assoc, X. reflexivity. }
  exact (K ops (-1) (or_introl eq_refl) ans).
Qed.

(** deleting the socket closes what it holds *)
Theorem C58_tcp_socket_delete_partial N ops ans :
  match (fd <- tcp_execs N (-1) ops;; amqp_tcp_socket_delete fd) ans with
  | ODone _ _ l => resolver_ok l -> closes_ok l -> opened l = closed l
  | OHalt s _ => s <> OUB
  end.
Proof.
  assert (K : owp (fd <- tcp_execs N (-1) ops;; amqp_tcp_socket_delete fd) (fun _ l => resolver_ok l -> closes_ok l -> opened l = closed l)).
  { apply owp_bind. eapply owp_conseq; [intros a; exact (C58_tcp_socket_partial N ops a)|]. intros fd l H.
    unfold amqp_tcp_socket_delete, amqp_tcp_socket_close. apply owp_bind. unfold held in H. destruct (fd =? -1) eqn:F.
    - apply owp_ret. apply owp_ret. cbn [app]. rewrite !app_nil_r. intros R C. rewrite (H R C), app_nil_r. reflexivity.
    - apply owp_ask_bind. intros a. cbn beta. destruct (negb (result a =? 0)); apply owp_ret; apply owp_ret; cbn [app];
      intros R C; apply resolver_ok_app in R; apply closes_ok_app in C; rewrite opened_app, closed_app; cbn; rewrite app_nil_r;
      apply H; [apply R|apply C|apply R|apply C]. }
  exact (K ans).
Qed.

(** Missing: a close() that fails.  The socket then still refers to its descriptor,
    which Linux has released all the same, and the next close or the delete closes that
    number again, which may by then be somebody else's descriptor. *)
Theorem C58_tcp_socket_refuted : exists N ops ans,
  match tcp_execs N (-1) ops ans with
  | ODone fd _ l => resolver_ok l /\ opened l = [5] /\ closed l = [5; 5]
  | OHalt _ _ => False
  end.
Proof.
  pose (ok := mkAns 0 0 None).
  exists 1%nat, [TcpOpen [x68; x31] 5672 None; TcpClose; TcpClose],
    [mkAns 0 0 (Some [1]); mkAns 5 0 None; ok; ok; ok; ok; ok; ok; ok; mkAns (-1) 5 None; ok].
  vm_compute. repeat split; try reflexivity.
  intros h p a [H|H]; [inversion H; discriminate|]. exfalso. repeat (destruct H as [H|H]; [discriminate H|]). exact H.
Qed.

(** ** Concrete cases *)
Definition ok := mkAns 0 0 None.
(** three addresses: no socket for the first, the second refuses after EINPROGRESS and an
    interrupted poll(), the third accepts *)
Example C51_case :
  match amqp_open_socket_noblock 3 [x68; x31] 5672 (Some (mkTv 1 0))
    ([mkAns 1000000000 0 None; mkAns 0 0 (Some [11; 12; 13]);
      mkAns (-1) 24 None;
      mkAns 5 0 None; ok; ok; ok; ok; ok; ok; mkAns (-1) EINPROGRESS None;
      mkAns 1100000000 0 None; mkAns (-1) EINTR None; mkAns 1200000000 0 None; mkAns 1 0 None; mkAns 111 0 None; ok;
      mkAns 5 0 None; ok; ok; ok; ok; ok; ok; ok]) with
  | ODone r _ l => r = 5 /\ opened l = [5; 5] /\ closed l = [5] /\
      In (Poll 5 true 900, mkAns (-1) EINTR None) l /\ In (Poll 5 true 800, mkAns 1 0 None) l
  | OHalt _ _ => False
  end.
Proof. vm_compute. repeat split; auto 20. Qed.
(** a timeout ends the search although another address is left *)
Example C51_case_timeout :
  match amqp_open_socket_noblock 3 [x68; x31] 5672 (Some (mkTv 1 0))
    ([mkAns 1000000000 0 None; mkAns 0 0 (Some [11; 12]);
      mkAns 5 0 None; ok; ok; ok; ok; ok; ok; mkAns (-1) EINPROGRESS None;
      mkAns 1100000000 0 None; ok; ok]) with
  | ODone r rest l => r = AMQP_STATUS_TIMEOUT /\ rest = [] /\ opened l = [5] /\ closed l = [5]
  | OHalt _ _ => False
  end.
Proof. vm_compute. repeat split. Qed.
(** what resolver_ok rules out: a name without addresses yields descriptor 0 *)
Example C51_no_address :
  match amqp_open_socket 3 [x68; x31] 5672 [mkAns 0 0 (Some [])] with
  | ODone r _ l => r = 0 /\ opened l = []
  | OHalt _ _ => False
  end.
Proof. vm_compute. repeat split. Qed.

Print Assumptions C51_tries_in_order.
Print Assumptions C51_open_socket.
Print Assumptions C51_open_socket_noblock.
Print Assumptions C51_no_leak.
Print Assumptions C51_connected.
Print Assumptions C58_tcp_socket_partial.
Print Assumptions C58_tcp_socket_delete_partial.
Print Assumptions C58_tcp_socket_refuted.
