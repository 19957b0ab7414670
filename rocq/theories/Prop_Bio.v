(** C86: signals, interruptions and blocking at the level of the system calls. *)
From Coq Require Import String ZArith List Bool Lia.
From Verif Require Import Base Time Os Net Bio.
Import ListNotations.
Local Open Scope list_scope.
Local Open Scope Z_scope.

(** ** No signal *)
(** send() on a connection that the peer has broken raises SIGPIPE, which ends a process
    that does not expect it, unless MSG_NOSIGNAL is given (send(2)) *)
Definition raises_sigpipe (e : io_entry) : Prop :=
  match e with (Send _ _ nosignal _, a) => nosignal = false /\ io_result a = -1 /\ io_errno a = EPIPE | _ => False end.
(** the descriptor of a call *)
Definition call_fd (e : io_entry) : Z := match fst e with Send fd _ _ _ | Recv fd _ _ => fd end.
Definition op_fd (o : socket_op) : Z := match o with TcpSend fd _ _ | TcpRecv fd _ => fd | SslSend _ _ b _ | SslRecv _ _ b _ | Talk _ b => b_fd b end.
Definition quiet (fd : Z) (e : io_entry) : Prop := ~ raises_sigpipe e /\ call_fd e = fd.
Lemma io_log_with {A} l (r : io A) : io_log (with_log l r) = l ++ io_log r. Proof. destruct r; reflexivity. Qed.
Lemma io_log_map {A B} (f : A -> B) r : io_log (io_map f r) = io_log r. Proof. destruct r; reflexivity. Qed.
Lemma quiet_send fd data more a : quiet fd (Send fd data true more, a). Proof. split; [intros [H _]; discriminate H|reflexivity]. Qed.
Lemma quiet_recv fd len b a : quiet fd (Recv fd len b, a). Proof. split; [intros []|reflexivity]. Qed.
Lemma send_quiet fuel fd more buf : forall ans, Forall (quiet fd) (io_log (tcp_send_tries fuel fd more buf ans)).
Proof.
  induction fuel as [|fuel IH]; intros [|a ans]; cbn [tcp_send_tries io_log]; try constructor.
  destruct (io_result a <? 0); [destruct (io_errno a =? EINTR); [|destruct (io_errno a =? EAGAIN)]|]; rewrite ?io_log_with; cbn [io_log app]; constructor; auto using quiet_send.
Qed.
Lemma recv_quiet fuel fd len : forall ans, Forall (quiet fd) (io_log (tcp_recv_tries fuel fd len ans)).
Proof.
  induction fuel as [|fuel IH]; intros [|a ans]; cbn [tcp_recv_tries io_log]; try constructor.
  destruct (io_result a <? 0); [destruct (io_errno a =? EINTR); [|destruct (io_errno a =? EAGAIN)]|destruct (io_result a =? 0)]; rewrite ?io_log_with; cbn [io_log app]; constructor; auto using quiet_recv.
Qed.
Lemma tls_quiet {A} (p : tls A) : forall b ans, Forall (quiet (b_fd b)) (io_log (tls_run p b ans)).
Proof.
  induction p as [a|data k IH|len k IH]; intros b ans; cbn [tls_run io_log]; [constructor| |]; (destruct ans as [|a ans]; [constructor|]); cbn [bio_write bio_read]; rewrite io_log_with; cbn [app]; constructor; auto using quiet_send, quiet_recv.
  - apply (IH _ _ (mkBio (b_fd b) false ((io_result a <=? 0) && bio_should_retry a))).
  - apply (IH _ _ _ (mkBio (b_fd b) ((io_result a <=? 0) && bio_should_retry a) false)).
Qed.
(** Whatever is sent or received on a socket, plain or TLS, handshake and shutdown
    included, whatever OpenSSL does with its BIO and however the system answers: no call
    raises SIGPIPE, and every call is on the socket's own descriptor *)
Theorem C86_no_signal :
  forall (fuel : nat) (o : socket_op) (ans : list io_answer) (e : io_entry),
    In e (io_log (socket_run fuel o ans)) -> ~ raises_sigpipe e /\ call_fd e = op_fd o.
Proof.
  intros fuel o ans e. cut (Forall (quiet (op_fd o)) (io_log (socket_run fuel o ans))); [rewrite Forall_forall; intros H He; exact (H e He)|].
  destruct o; cbn [socket_run op_fd]; rewrite io_log_map; unfold tcp_send, tcp_recv, ssl_send, ssl_recv.
  - destruct (fd =? -1); [constructor|apply send_quiet].
  - destruct (fd =? -1); [constructor|apply recv_quiet].
  - destruct (fd =? -1); [constructor|]. destruct (INT_MAX <? zlen buf); [constructor|]. rewrite io_log_map. apply tls_quiet.
  - destruct (fd =? -1); [constructor|]. destruct (INT_MAX <? len); [constructor|]. rewrite io_log_map. apply tls_quiet.
  - apply tls_quiet.
Qed.

(** ** Plain sockets *)
(** the kernel has interrupted the call before anything happened *)
Definition was_interrupted (a : io_answer) : Prop := io_result a < 0 /\ io_errno a = EINTR.
(** what a system call means for the caller *)
Definition send_means (a : io_answer) (r : Z) : Prop :=
  (0 <= io_result a /\ r = io_result a) \/
  (io_result a < 0 /\ io_errno a <> EINTR /\ r = if io_errno a =? EAGAIN then NEEDWRITE else AMQP_STATUS_SOCKET_ERROR).
Definition recv_means (a : io_answer) (r : Z) (bs : bytes) : Prop :=
  (0 < io_result a /\ r = io_result a /\ bs = io_data a) \/
  (io_result a = 0 /\ r = AMQP_STATUS_CONNECTION_CLOSED /\ bs = []) \/
  (io_result a < 0 /\ io_errno a <> EINTR /\ bs = [] /\ r = if io_errno a =? EAGAIN then NEEDREAD else AMQP_STATUS_SOCKET_ERROR).
(** the events of Net.v *)
Definition send_event (a : io_answer) : event :=
  EvSend (if io_result a <? 0 then if io_errno a =? EINTR then SIntr else if io_errno a =? EAGAIN then SAgain else SErr else SOk (io_result a)).
Definition recv_event (a : io_answer) : event :=
  EvRecv (if io_result a <? 0 then if io_errno a =? EINTR then RIntr else if io_errno a =? EAGAIN then RAgain else RErr else ROk (io_data a)).
(** send() accepts at most what it is given; recv() stores as many bytes as it says, at
    most those asked for *)
Definition possible (e : io_entry) : Prop :=
  match e with
  | (Send _ data _ _, a) => io_result a <= zlen data
  | (Recv _ len _, a) => 0 <= io_result a -> zlen (io_data a) = io_result a /\ io_result a <= len
  end.
Lemma send_tries fuel fd more buf : forall ans r rest l, tcp_send_tries fuel fd more buf ans = IoDone r rest l ->
  exists tries a, ans = tries ++ a :: rest /\ l = map (pair (Send fd buf true more)) (tries ++ [a]) /\ Forall was_interrupted tries /\ send_means a r /\
    forall c ev, io_result a <= zlen buf ->
      Net.tcp_send_loop fuel more buf c (map send_event (tries ++ [a]) ++ ev) = Done r c ev (if io_result a <? 0 then [] else [OSend more (firstn (Z.to_nat r) buf)]).
Proof.
  induction fuel as [|fuel IH]; intros [|a ans] r rest l H; cbn [tcp_send_tries] in H; try discriminate.
  destruct (io_result a <? 0) eqn:Hn.
  - apply Z.ltb_lt in Hn. destruct (io_errno a =? EINTR) eqn:Hi.
    + destruct (tcp_send_tries fuel fd more buf ans) as [r' rest' l'|l'] eqn:HT; cbn [with_log] in H; [injection H as <- <- <-|discriminate]. destruct (IH _ _ _ _ HT) as (t & b & -> & -> & H1 & H2 & H3).
      exists (a :: t), b. split; [reflexivity|]. split; [reflexivity|]. split; [constructor; [split; [exact Hn|apply Z.eqb_eq, Hi]|exact H1]|]. split; [exact H2|]. intros c ev Hp. cbn [app map Net.tcp_send_loop]. unfold bind at 1, sys_send, send_event at 1. replace (io_result a <? 0) with true by (symmetry; apply Z.ltb_lt, Hn). rewrite Hi. cbv iota beta.
      rewrite (H3 c ev Hp). cbn. reflexivity.
    + apply Z.eqb_neq in Hi. exists [], a. destruct (io_errno a =? EAGAIN) eqn:Hg; injection H as <- <- <-; (split; [reflexivity|]); (split; [reflexivity|]); (split; [constructor|]); (split; [right; rewrite Hg; auto|]); intros c ev Hp; cbn [app map Net.tcp_send_loop]; unfold bind at 1, sys_send, send_event;
        replace (io_result a <? 0) with true by (symmetry; apply Z.ltb_lt, Hn); rewrite (proj2 (Z.eqb_neq _ _) Hi), Hg; reflexivity.
  - apply Z.ltb_ge in Hn. injection H as <- <- <-. exists [], a. split; [reflexivity|]. split; [reflexivity|]. split; [constructor|]. split; [left; auto|]. intros c ev Hp. cbn [app map Net.tcp_send_loop]. unfold bind at 1, sys_send, send_event. rewrite (proj2 (Z.ltb_ge _ _) Hn). cbv iota beta.
    rewrite Z.min_l, Z.max_r by lia. reflexivity.
Qed.
(** A plain socket's send: the same call, with MSG_NOSIGNAL, again and again while a
    signal interrupts it, and nothing else; the result is that of the last call, which is
    not an interruption.  And Net.v says the same of the corresponding events. *)
Theorem C86_tcp_send :
  forall (fuel : nat) (fd : Z) (more : bool) (buf : bytes) (ans : list io_answer) (r : Z) (rest : list io_answer) (l : list io_entry),
    fd <> -1 -> tcp_send fuel fd more buf ans = IoDone r rest l ->
    exists tries a, ans = tries ++ a :: rest /\ l = map (pair (Send fd buf true more)) (tries ++ [a]) /\
      Forall was_interrupted tries /\ send_means a r /\
      forall c ev, c_fd c = fd -> io_result a <= zlen buf ->
        Net.amqp_socket_send fuel more buf c (map send_event (tries ++ [a]) ++ ev) = Done r c ev (if io_result a <? 0 then [] else [OSend more (firstn (Z.to_nat r) buf)]).
Proof.
  intros fuel fd more buf ans r rest l Hfd H. unfold tcp_send in H. rewrite (proj2 (Z.eqb_neq _ _) Hfd) in H. destruct (send_tries _ _ _ _ _ _ _ _ H) as (t & a & -> & -> & H1 & H2 & H3).
  exists t, a. do 4 (split; [solve [auto]|]). intros c ev Hc Hp. unfold Net.amqp_socket_send, bind, get. rewrite Hc, (proj2 (Z.eqb_neq _ _) Hfd), (H3 c ev Hp). reflexivity.
Qed.
Lemma recv_tries fuel fd len : forall ans r bs rest l, tcp_recv_tries fuel fd len ans = IoDone (r, bs) rest l ->
  exists tries a, ans = tries ++ a :: rest /\ l = map (pair (Recv fd len false)) (tries ++ [a]) /\ Forall was_interrupted tries /\ recv_means a r bs /\
    forall c ev, possible (Recv fd len false, a) ->
      Net.tcp_recv_loop fuel len c (map recv_event (tries ++ [a]) ++ ev) = Done (r, bs) c ev (if io_result a <? 0 then [] else [ORecv bs]).
Proof.
  induction fuel as [|fuel IH]; intros [|a ans] r bs rest l H; cbn [tcp_recv_tries] in H; try discriminate.
  destruct (io_result a <? 0) eqn:Hn.
  - apply Z.ltb_lt in Hn. destruct (io_errno a =? EINTR) eqn:Hi.
    + destruct (tcp_recv_tries fuel fd len ans) as [[r' bs'] rest' l'|l'] eqn:HT; cbn [with_log] in H; [injection H as <- <- <- <-|discriminate]. destruct (IH _ _ _ _ _ HT) as (t & b & -> & -> & H1 & H2 & H3).
      exists (a :: t), b. split; [reflexivity|]. split; [reflexivity|]. split; [constructor; [split; [exact Hn|apply Z.eqb_eq, Hi]|exact H1]|]. split; [exact H2|]. intros c ev Hp. cbn [app map Net.tcp_recv_loop]. unfold bind at 1, sys_recv, recv_event at 1. replace (io_result a <? 0) with true by (symmetry; apply Z.ltb_lt, Hn). rewrite Hi. cbv iota beta.
      rewrite (H3 c ev Hp). cbn. reflexivity.
    + apply Z.eqb_neq in Hi. exists [], a. destruct (io_errno a =? EAGAIN) eqn:Hg; injection H as <- <- <- <-; (split; [reflexivity|]); (split; [reflexivity|]); (split; [constructor|]); (split; [right; right; rewrite Hg; auto|]); intros c ev Hp; cbn [app map Net.tcp_recv_loop]; unfold bind at 1, sys_recv, recv_event;
        replace (io_result a <? 0) with true by (symmetry; apply Z.ltb_lt, Hn); rewrite (proj2 (Z.eqb_neq _ _) Hi), Hg; reflexivity.
  - apply Z.ltb_ge in Hn. exists [], a. destruct (io_result a =? 0) eqn:H0.
    + apply Z.eqb_eq in H0. injection H as <- <- <- <-. split; [reflexivity|]. split; [reflexivity|]. split; [constructor|]. split; [right; left; auto|]. intros c ev Hp. cbn [possible] in Hp. destruct (Hp Hn) as [P1 P2]. cbn [app map Net.tcp_recv_loop]. unfold bind at 1, sys_recv, recv_event. rewrite (proj2 (Z.ltb_ge _ _) Hn). cbv iota beta.
      destruct (io_data a) as [|x d]; [|unfold zlen in P1; cbn [length] in P1; lia]. rewrite firstn_nil. reflexivity.
    + apply Z.eqb_neq in H0. injection H as <- <- <- <-. split; [reflexivity|]. split; [reflexivity|]. split; [constructor|]. split; [left; split; [lia|auto]|]. intros c ev Hp. cbn [possible] in Hp. destruct (Hp Hn) as [P1 P2]. cbn [app map Net.tcp_recv_loop]. unfold bind at 1, sys_recv, recv_event. rewrite (proj2 (Z.ltb_ge _ _) Hn). cbv iota beta.
      rewrite firstn_all2 by (unfold zlen in P1; lia). destruct (io_data a) as [|x d] eqn:Hd; [unfold zlen in P1; cbn [length] in P1; lia|]. rewrite <- Hd in *. rewrite P1. reflexivity.
Qed.
Theorem C86_tcp_recv :
  forall (fuel : nat) (fd len : Z) (ans : list io_answer) (r : Z) (bs : bytes) (rest : list io_answer) (l : list io_entry),
    fd <> -1 -> tcp_recv fuel fd len ans = IoDone (r, bs) rest l ->
    exists tries a, ans = tries ++ a :: rest /\ l = map (pair (Recv fd len false)) (tries ++ [a]) /\
      Forall was_interrupted tries /\ recv_means a r bs /\
      forall c ev, c_fd c = fd -> possible (Recv fd len false, a) ->
        Net.amqp_socket_recv fuel len c (map recv_event (tries ++ [a]) ++ ev) = Done (r, bs) c ev (if io_result a <? 0 then [] else [ORecv bs]).
Proof.
  intros fuel fd len ans r bs rest l Hfd H. unfold tcp_recv in H. rewrite (proj2 (Z.eqb_neq _ _) Hfd) in H. destruct (recv_tries _ _ _ _ _ _ _ _ H) as (t & a & -> & -> & H1 & H2 & H3).
  exists t, a. do 4 (split; [solve [auto]|]). intros c ev Hc Hp. unfold Net.amqp_socket_recv, bind, get. rewrite Hc, (proj2 (Z.eqb_neq _ _) Hfd), (H3 c ev Hp). reflexivity.
Qed.
(** a call waits only for the system, or goes on after an interruption: it does not end
    while it has not got an answer of another kind *)
Theorem C86_tcp_waits :
  forall (fuel : nat) (fd : Z) (more : bool) (buf : bytes) (len : Z) (ans : list io_answer),
    (length ans < fuel)%nat ->
    (forall l, tcp_send fuel fd more buf ans = IoWaits l -> fd <> -1 /\ Forall was_interrupted ans /\ l = map (pair (Send fd buf true more)) ans) /\
    (forall l, tcp_recv fuel fd len ans = IoWaits l -> fd <> -1 /\ Forall was_interrupted ans /\ l = map (pair (Recv fd len false)) ans).
Proof.
  intros fuel fd more buf len ans Hf. unfold tcp_send, tcp_recv. destruct (fd =? -1) eqn:Hfd; [split; discriminate|]. apply Z.eqb_neq in Hfd. split; intros l H; (split; [exact Hfd|]); revert ans Hf l H; induction fuel as [|fuel IH]; intros ans Hf l H; try lia; destruct ans as [|a ans]; cbn [tcp_send_tries tcp_recv_tries length] in *.
  1, 3: injection H as <-; auto.
  - destruct (io_result a <? 0) eqn:Hn; [|discriminate]. destruct (io_errno a =? EINTR) eqn:Hi; [|destruct (io_errno a =? EAGAIN); discriminate].
    destruct (tcp_send_tries fuel fd more buf ans) as [? ? ?|l'] eqn:HT; cbn [with_log] in H; [discriminate|injection H as <-]. destruct (IH ans ltac:(lia) l' HT) as [H1 ->]. split; [constructor; [split; [apply Z.ltb_lt, Hn|apply Z.eqb_eq, Hi]|exact H1]|reflexivity].
  - destruct (io_result a <? 0) eqn:Hn; [|destruct (io_result a =? 0); discriminate]. destruct (io_errno a =? EINTR) eqn:Hi; [|destruct (io_errno a =? EAGAIN); discriminate].
    destruct (tcp_recv_tries fuel fd len ans) as [? ? ?|l'] eqn:HT; cbn [with_log] in H; [discriminate|injection H as <-]. destruct (IH ans ltac:(lia) l' HT) as [H1 ->]. split; [constructor; [split; [apply Z.ltb_lt, Hn|apply Z.eqb_eq, Hi]|exact H1]|reflexivity].
Qed.

(** ** TLS *)
(** a failure after which OpenSSL is to try again: the call would block, was interrupted,
    or the connection is not (fully) set up yet *)
Definition transient (a : io_answer) : Prop :=
  io_result a = -1 /\ In (io_errno a) [EAGAIN; EINTR; EINPROGRESS; EALREADY; ENOTCONN; EPROTO].
Lemma retry_transient a : (io_result a <=? 0) && bio_should_retry a = true <-> transient a.
Proof.
  unfold bio_should_retry, transient. rewrite !Bool.andb_true_iff, !Bool.orb_true_iff, !Z.eqb_eq, Z.leb_le. cbn [In]. split; [intros (H0 & H1 & H2); split; [exact H1|]; intuition auto|intros (H1 & H2); split; [lia|]; split; [exact H1|]; intuition auto].
Qed.
(** Whatever OpenSSL does: after every use of the BIO exactly the flag of that use says
    whether it may be tried again; a flag never survives a later use.  (The empty use leaves
    the flags.) *)
Theorem C86_retry_flags :
  forall (A : Type) (p : tls A) (b : bio) (ans : list io_answer) (x : A) (b' : bio) (rest : list io_answer) (l : list io_entry),
    tls_run p b ans = IoDone (x, b') rest l ->
    b_fd b' = b_fd b /\ ans = map snd l ++ rest /\
    ((l = [] /\ b' = b) \/
     exists before c a, l = before ++ [(c, a)] /\
       match c with
       | Send _ _ _ _ => b_retry_read b' = false /\ (b_retry_write b' = true <-> transient a)
       | Recv _ _ _ => b_retry_write b' = false /\ (b_retry_read b' = true <-> transient a)
       end).
Proof.
  intros A p. induction p as [y|data k IH|len k IH]; intros b ans x b' rest l H; cbn [tls_run] in H.
  - injection H as <- <- <- <-. auto.
  - destruct ans as [|a ans]; [discriminate|]. cbn [bio_write] in H. destruct (tls_run _ _ ans) as [[x1 b1] rest1 l1|l1] eqn:HT; cbn [with_log] in H; [injection H as <- <- <- <-|discriminate]. destruct (IH _ _ _ _ _ _ _ _ HT) as (H1 & H2 & H3). cbn [b_fd] in H1.
    split; [exact H1|]. split; [cbn [app map snd]; congruence|]. right. destruct H3 as [[-> ->]|(bf & c & a' & -> & H3)].
    + exists [], (Send (b_fd b) data true false), a. split; [reflexivity|]. cbn [b_retry_read b_retry_write]. split; [reflexivity|apply retry_transient].
    + exists ((Send (b_fd b) data true false, a) :: bf), c, a'. auto.
  - destruct ans as [|a ans]; [discriminate|]. cbn [bio_read] in H. destruct (tls_run _ _ ans) as [[x1 b1] rest1 l1|l1] eqn:HT; cbn [with_log] in H; [injection H as <- <- <- <-|discriminate]. destruct (IH _ _ _ _ _ _ _ _ _ HT) as (H1 & H2 & H3). cbn [b_fd] in H1.
    split; [exact H1|]. split; [cbn [app map snd]; congruence|]. right. destruct H3 as [[-> ->]|(bf & c & a' & -> & H3)].
    + exists [], (Recv (b_fd b) len true), a. split; [reflexivity|]. cbn [b_retry_read b_retry_write]. split; [reflexivity|apply retry_transient].
    + exists ((Recv (b_fd b) len true, a) :: bf), c, a'. auto.
Qed.
(** what SSL_get_error means for the caller *)
Definition tls_means (error r : Z) : Prop :=
  (error = SSL_ERROR_WANT_READ /\ r = NEEDREAD) \/ (error = SSL_ERROR_WANT_WRITE /\ r = NEEDWRITE) \/ (error = SSL_ERROR_ZERO_RETURN /\ r = AMQP_STATUS_CONNECTION_CLOSED) \/
  (~ In error [SSL_ERROR_WANT_READ; SSL_ERROR_WANT_WRITE; SSL_ERROR_ZERO_RETURN] /\ r = AMQP_STATUS_SSL_ERROR).
Lemma ssl_status_means e : tls_means e (ssl_status e).
Proof.
  unfold tls_means, ssl_status. destruct (Z.eqb_spec e SSL_ERROR_WANT_READ) as [H1|H1]; [auto|]. destruct (Z.eqb_spec e SSL_ERROR_WANT_WRITE) as [H2|H2]; [auto|]. destruct (Z.eqb_spec e SSL_ERROR_ZERO_RETURN) as [H3|H3]; [auto 6|]. right; right; right. split; [|reflexivity]. cbn [In]. intuition.
Qed.
Lemma io_map_done {A B} (f : A -> B) r y rest l : io_map f r = IoDone y rest l -> exists x, r = IoDone x rest l /\ y = f x.
Proof. destruct r as [x rest' l'|l']; [intros H; injection H as <- <- <-; eauto|discriminate]. Qed.
(** A TLS socket's send: SSL_write is called once; what it returns is the result if it has
    accepted something, otherwise SSL_get_error decides.  And Net.v says the same of one
    event. *)
Theorem C86_tls_send :
  forall (ssl_write : bytes -> tls (Z * Z)) (fd : Z) (b : bio) (buf : bytes) (ans : list io_answer) (r : Z) (b' : bio) (rest : list io_answer) (l : list io_entry),
    fd <> -1 -> zlen buf <= INT_MAX -> ssl_send ssl_write fd b buf ans = IoDone (r, b') rest l ->
    exists w error, tls_run (ssl_write buf) b ans = IoDone (w, error, b') rest l /\
      ((0 < w /\ r = w) \/ (w <= 0 /\ tls_means error r)) /\
      (w <= zlen buf -> exists e, forall fuel c ev more, c_fd c = fd ->
         exists l', Net.amqp_socket_send (S fuel) more buf c (EvSend e :: ev) = Done r c ev l' /\ (0 < w -> l' = [OSend more (firstn (Z.to_nat w) buf)])).
Proof.
  intros sw fd b buf ans r b' rest l Hfd Hl H. unfold ssl_send in H. rewrite (proj2 (Z.eqb_neq _ _) Hfd), (proj2 (Z.ltb_ge _ _) Hl) in H. apply io_map_done in H as ([[w e] bx] & H & HE). injection HE as -> <-.
  exists w, e. split; [exact H|]. destruct (Z.leb_spec w 0) as [Hw|Hw].
  - split; [right; split; [exact Hw|apply ssl_status_means]|]. intros _. destruct (ssl_status_means e) as [(_ & ->)|[(_ & ->)|[(_ & ->)|(_ & ->)]]]; [exists SWantRead|exists SAgain|exists SEof|exists STls]; intros fuel c ev more Hc; eexists; (split; [unfold Net.amqp_socket_send, bind, get; rewrite Hc, (proj2 (Z.eqb_neq _ _) Hfd); reflexivity|lia]).
  - split; [left; auto|]. intros Hb. exists (SOk w). intros fuel c ev more Hc. exists [OSend more (firstn (Z.to_nat w) buf)]. split; [|auto]. unfold Net.amqp_socket_send, bind, get. rewrite Hc, (proj2 (Z.eqb_neq _ _) Hfd). cbn [Net.tcp_send_loop]. unfold bind, sys_send. rewrite Z.min_l, Z.max_r by lia. reflexivity.
Qed.
(** More than INT_MAX bytes, and closed sockets, are refused before OpenSSL is called. *)
Theorem C86_tls_refused :
  forall (ssl_write : bytes -> tls (Z * Z)) (ssl_read : Z -> tls (Z * Z * bytes)) (fd len : Z) (b : bio) (buf : bytes) (ans : list io_answer),
    (zlen buf > 2147483647 -> ssl_send ssl_write fd b buf ans = IoDone (if fd =? -1 then AMQP_STATUS_SOCKET_CLOSED else AMQP_STATUS_INVALID_PARAMETER, b) ans []) /\
    (len > 2147483647 -> ssl_recv ssl_read fd b len ans = IoDone (if fd =? -1 then AMQP_STATUS_SOCKET_CLOSED else AMQP_STATUS_INVALID_PARAMETER, [], b) ans []).
Proof.
  intros sw sr fd len b buf ans. unfold ssl_send, ssl_recv. destruct (fd =? -1); [auto|]. split; intros H.
  - destruct (Z.ltb_spec INT_MAX (zlen buf)) as [_|L]; [reflexivity|]. change INT_MAX with 2147483647 in L. lia.
  - destruct (Z.ltb_spec INT_MAX len) as [_|L]; [reflexivity|]. change INT_MAX with 2147483647 in L. lia.
Qed.
Theorem C86_tls_recv :
  forall (ssl_read : Z -> tls (Z * Z * bytes)) (fd : Z) (b : bio) (len : Z) (ans : list io_answer) (r : Z) (bs : bytes) (b' : bio) (rest : list io_answer) (l : list io_entry),
    fd <> -1 -> len <= INT_MAX -> ssl_recv ssl_read fd b len ans = IoDone (r, bs, b') rest l ->
    exists n error got, tls_run (ssl_read len) b ans = IoDone (n, error, got, b') rest l /\
      ((0 < n /\ r = n /\ bs = got) \/ (n <= 0 /\ bs = [] /\ tls_means error r)) /\
      (n <= len -> (0 < n -> zlen got = n) -> exists e, forall fuel c ev, c_fd c = fd ->
         exists l', Net.amqp_socket_recv (S fuel) len c (EvRecv e :: ev) = Done (r, bs) c ev l' /\ (0 < n -> l' = [ORecv bs])).
Proof.
  intros sr fd b len ans r bs b' rest l Hfd Hl H. unfold ssl_recv in H. rewrite (proj2 (Z.eqb_neq _ _) Hfd), (proj2 (Z.ltb_ge _ _) Hl) in H. apply io_map_done in H as ([[[n e] got] bx] & H & HE). exists n, e, got.
  destruct (Z.leb_spec n 0) as [Hw|Hw]; injection HE as -> -> <-.
  - split; [exact H|]. split; [right; split; [exact Hw|]; split; [reflexivity|apply ssl_status_means]|]. intros _ _. destruct (ssl_status_means e) as [(_ & ->)|[(_ & ->)|[(_ & ->)|(_ & ->)]]]; [exists RAgain|exists RWantWrite|exists (ROk [])|exists RTls]; intros fuel c ev Hc; eexists; (split; [unfold Net.amqp_socket_recv, bind, get; rewrite Hc, (proj2 (Z.eqb_neq _ _) Hfd); cbn [Net.tcp_recv_loop]; unfold bind, sys_recv; rewrite ?firstn_nil; reflexivity|lia]).
  - split; [exact H|]. split; [left; auto|]. intros Hb Hg. specialize (Hg Hw). exists (ROk got). intros fuel c ev Hc. exists [ORecv got]. split; [|auto]. unfold Net.amqp_socket_recv, bind, get. rewrite Hc, (proj2 (Z.eqb_neq _ _) Hfd). cbn [Net.tcp_recv_loop]. unfold bind, sys_recv. rewrite firstn_all2 by (unfold zlen in Hg; lia).
    destruct got as [|x got]; [unfold zlen in Hg; cbn [length] in Hg; lia|]. cbv iota beta. rewrite Hg. reflexivity.
Qed.
(** a closed socket: no call is made *)
Theorem C86_closed :
  forall (fuel : nat) (more : bool) (buf : bytes) (len : Z) (w : bytes -> tls (Z * Z)) (rd : Z -> tls (Z * Z * bytes)) (b : bio) (ans : list io_answer),
    tcp_send fuel (-1) more buf ans = IoDone AMQP_STATUS_SOCKET_CLOSED ans [] /\ tcp_recv fuel (-1) len ans = IoDone (AMQP_STATUS_SOCKET_CLOSED, []) ans [] /\
    ssl_send w (-1) b buf ans = IoDone (AMQP_STATUS_SOCKET_CLOSED, b) ans [] /\ ssl_recv rd (-1) b len ans = IoDone (AMQP_STATUS_SOCKET_CLOSED, [], b) ans [].
Proof. repeat split. Qed.
Print Assumptions C86_no_signal.
Print Assumptions C86_tcp_send.
Print Assumptions C86_tcp_recv.
Print Assumptions C86_tcp_waits.
Print Assumptions C86_retry_flags.
Print Assumptions C86_tls_send.
Print Assumptions C86_tls_recv.
Print Assumptions C86_closed.

(** ** Cases *)
Definition failing (e : Z) : io_answer := mkIo (-1) e [].
(** two interruptions, then part of the data is accepted; a broken pipe *)
Example C86_tcp_case :
  tcp_send 9 5 false [x00; x01; x02] [failing EINTR; failing EINTR; mkIo 2 0 []; failing EAGAIN] =
    IoDone 2 [failing EAGAIN] (map (pair (Send 5 [x00; x01; x02] true false)) [failing EINTR; failing EINTR; mkIo 2 0 []]) /\
  tcp_send 9 5 true [x00] [failing EPIPE] = IoDone AMQP_STATUS_SOCKET_ERROR [] [(Send 5 [x00] true true, failing EPIPE)].
Proof. split; reflexivity. Qed.
(** an SSL_write that writes a record, reads one (a key update: would block) and returns
    SSL_ERROR_WANT_READ; then one whose record is interrupted by a signal *)
Definition updating (buf : bytes) : tls (Z * Z) :=
  TlsWrite (x17 :: buf) (fun r retry => if r <? 0 then TlsDone (-1, if retry then SSL_ERROR_WANT_WRITE else 5)
    else TlsRead 5 (fun r _ retry => TlsDone (if r <? 0 then (-1, if retry then SSL_ERROR_WANT_READ else 5) else (zlen buf, 0)))).
Example C86_tls_case :
  (exists l, ssl_send updating 5 (mkBio 5 false false) [x00] [mkIo 2 0 []; failing EAGAIN] = IoDone (NEEDREAD, mkBio 5 true false) [] l) /\
  (exists l, ssl_send updating 5 (mkBio 5 true false) [x00] [failing EINTR] = IoDone (NEEDWRITE, mkBio 5 false true) [] l) /\
  (exists l, ssl_send updating 5 (mkBio 5 false false) [x00] [failing EPIPE] = IoDone (AMQP_STATUS_SSL_ERROR, mkBio 5 false false) [] l) /\
  (exists l, ssl_send updating 5 (mkBio 5 false false) [x00] [mkIo 2 0 []; mkIo 1 0 [x00]] = IoDone (1, mkBio 5 false false) [] l).
Proof. repeat split; eexists; reflexivity. Qed.
Print Assumptions C86_tls_refused.
