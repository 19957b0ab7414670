(** * C79: a connection owns its sockets. *)
From Coq Require Import ZArith List Bool Lia Permutation.
From Verif Require Import Base Time Os ConnectSpec OsFacts OsAcct Prop_Connect Prop_Tls Sockets.
Import ListNotations.
Local Open Scope Z_scope.
Local Open Scope os_scope.

(** ** Specification *)
(** TLS contexts made and not freed *)
Definition ctx_balance : list entry -> Z := count (fun e =>
  match e with
  | (CtxNew, a) => if result a =? 0 then 0 else 1
  | (CtxFree, _) => -1
  | _ => 0
  end).
(** the descriptors that the application handed over, and those that the library was told
    to forget: amqp_tcp_socket_set_sockfd on a socket that is open (which tcp_socket.h
    forbids).  [befores]: the socket before each operation *)
Fixpoint given (ops : list op) (befores : list slot) : list Z :=
  match ops, befores with
  | SetFd fd :: ops, _ :: bs => fd :: given ops bs
  | Assign fd :: ops, Some (Tcp _) :: bs => fd :: given ops bs
  | _ :: ops, _ :: bs => given ops bs
  | _, _ => []
  end.
Fixpoint forgotten (ops : list op) (befores : list slot) : list Z :=
  match ops, befores with
  | Assign fd :: ops, Some (Tcp old) :: bs => held old ++ forgotten ops bs
  | _ :: ops, _ :: bs => forgotten ops bs
  | _, _ => []
  end.
(** descriptors are not negative, timeouts not negative and at most 30 years *)
Definition sane (o : op) : Prop :=
  match o with
  | SetFd fd | Assign fd => 0 <= fd
  | Connect_ _ _ timeout => sane_timeout timeout
  | _ => True
  end.

(** ** Proofs *)
Definition inv (s : slot) : Prop :=
  match s with None => True | Some (Tcp fd) => fd = -1 \/ 0 <= fd | Some (Tls t) => tls_inv t /\ s_ctx t = true end.
Definition ssls (s : slot) : Z := match s with Some (Tls t) => alive t | _ => 0 end.
Definition ctxs (s : slot) : Z := match s with Some (Tls _) => 1 | _ => 0 end.
Definition acc (s s' : slot) (gv lst : list Z) (l : list entry) : Prop :=
  Permutation (held (amqp_get_sockfd s) ++ opened l ++ gv) (closed l ++ held (amqp_get_sockfd s') ++ lst) /\
  ssls s + ssl_balance l = ssls s' /\ cert_balance l = 0 /\ ctxs s + ctx_balance l = ctxs s'.
Lemma ctx_app l l' : ctx_balance (l ++ l') = ctx_balance l + ctx_balance l'.
Proof. apply count_app. Qed.
Lemma perm_mid {A} (a b c d e f g h i j : list A) :
  Permutation (a ++ b ++ c) (d ++ e ++ f) -> Permutation (e ++ g ++ h) (i ++ j) ->
  Permutation (a ++ (b ++ g) ++ c ++ h) ((d ++ i) ++ j ++ f).
Proof.
  intros H1 H2. transitivity ((a ++ b ++ c) ++ g ++ h).
  { rewrite <- !app_assoc. apply Permutation_app_head, Permutation_app_head. rewrite !app_assoc. apply Permutation_app_tail, Permutation_app_comm. }
  rewrite H1. rewrite <- !app_assoc. apply Permutation_app_head. transitivity ((e ++ g ++ h) ++ f).
  { rewrite <- !app_assoc. apply Permutation_app_head. rewrite (app_assoc g h f). apply Permutation_app_comm. }
  rewrite H2, <- app_assoc. reflexivity.
Qed.
Lemma acc_app s1 s2 s3 g1 g2 f1 f2 l1 l2 : acc s1 s2 g1 f1 l1 -> acc s2 s3 g2 f2 l2 -> acc s1 s3 (g1 ++ g2) (f1 ++ f2) (l1 ++ l2).
Proof.
  intros (A & B & C & D) (A' & B' & C' & D'). unfold acc, ssl_balance, cert_balance in *. rewrite opened_app, closed_app, ctx_app, !count_app.
  split; [|split; [|split]; lia]. pose proof (perm_mid _ _ _ _ _ _ _ _ _ _ A A') as H. rewrite H. apply Permutation_app_head. rewrite <- app_assoc. apply Permutation_app_head, Permutation_app_comm.
Qed.
Lemma acc_plain s l : plains l -> ctx_balance l = 0 -> acc s s [] [] l.
Proof. intros P C. destruct (plain_opened l P) as (A & B & D & E). unfold acc. rewrite A, B, D, E, C, !app_nil_r. split; [reflexivity|]. lia. Qed.

Lemma runs_ret {A} (a : A) (Q : A -> list entry -> Prop) : Q a [] -> runs (oret a) Q.
Proof. intros H ans _. exact H. Qed.
Lemma runs_bind {A B} (m : Io A) (k : A -> Io B) (Q : B -> list entry -> Prop) :
  runs m (fun a l => runs (k a) (fun b l' => Q b (l ++ l'))) -> runs (obind m k) Q.
Proof.
  intros H ans. specialize (H ans). unfold obind. destruct (m ans) as [a r l|s l]; [|exact H].
  destruct (k a r) as [b r' l'|s' l'] eqn:E; intros G; apply good_app in G; destruct G as [G1 G2]; specialize (H G1 r); rewrite E in H; exact (H G2).
Qed.
Lemma runs_ask_bind {B} (c : call) (k : answer -> Io B) (Q : B -> list entry -> Prop) :
  (forall a, runs (k a) (fun b l => Q b ((c, a) :: l))) -> runs (obind (ask c) k) Q.
Proof. intros H. apply runs_bind. intros ans. unfold ask. destruct ans as [|a ans]; [discriminate|]. intros _. exact (H a). Qed.
Lemma runs_halt {A} s (Q : A -> list entry -> Prop) : s <> OUB -> runs (ohalt s) Q.
Proof. intros H ans _. exact H. Qed.
Lemma runs_conseq {A} (m : Io A) (P Q : A -> list entry -> Prop) : runs m P -> (forall a l, P a l -> Q a l) -> runs m Q.
Proof. intros H I ans. specialize (H ans). destruct (m ans); auto. Qed.
Lemma runs_owp {A} (m : Io A) (Q : A -> list entry -> Prop) : owp m (fun a l => good l -> Q a l) -> runs m Q.
Proof. intros H ans. specialize (H ans). destruct (m ans); auto. Qed.
Lemma runs_and {A} (m : Io A) (P Q : A -> list entry -> Prop) : runs m P -> (forall ans, match m ans with ODone a _ l => Q a l | _ => True end) -> runs m (fun a l => P a l /\ Q a l).
Proof. intros H I ans. specialize (H ans). specialize (I ans). destruct (m ans); auto. Qed.

(** opening and closing do nothing to the context *)
Definition no_ctx (e : entry) : bool := match fst e with CtxNew | CtxFree => false | _ => true end.
Lemma no_ctx_balance l : forallb no_ctx l = true -> ctx_balance l = 0.
Proof. unfold ctx_balance. induction l as [|[c a] l IH]; [reflexivity|]. cbn [forallb]. rewrite andb_true_iff. intros [H K]. cbn [count fold_right]. unfold count in IH. rewrite (IH K). destruct c; cbn in *; try reflexivity; discriminate. Qed.
Definition cpost {A} (m : Io A) (Q : A -> Prop) : Prop := forall ans, match m ans with ODone a _ l => Q a /\ forallb no_ctx l = true | _ => True end.
Lemma cpost_ret {A} (a : A) (Q : A -> Prop) : Q a -> cpost (oret a) Q.
Proof. intros H ans. cbn. auto. Qed.
Lemma cpost_halt {A} s (Q : A -> Prop) : cpost (ohalt s) Q.
Proof. intros ans. exact I. Qed.
Lemma cpost_bind {A B} (m : Io A) (k : A -> Io B) (P : A -> Prop) (Q : B -> Prop) : cpost m P -> (forall a, P a -> cpost (k a) Q) -> cpost (obind m k) Q.
Proof.
  intros H K ans. specialize (H ans). unfold obind. destruct (m ans) as [a r l|]; [|exact I]. destruct H as [H1 H2]. specialize (K a H1 r).
  destruct (k a r) as [b r' l'|]; [|exact I]. destruct K as [K1 K2]. split; [exact K1|]. rewrite forallb_app, H2, K2. reflexivity.
Qed.
Lemma cpost_ask c (Q : answer -> Prop) : no_ctx (c, mkAns 0 0 None) = true -> (forall a, Q a) -> cpost (ask c) Q.
Proof. intros H K ans. unfold ask. destruct ans; [exact I|]. split; [apply K|]. cbn. unfold no_ctx in *. cbn in *. rewrite H. reflexivity. Qed.
Lemma cpost_any {A} (m : Io A) P : cpost m P -> cpost m (fun _ => True).
Proof. intros H ans. specialize (H ans). destruct (m ans); tauto. Qed.
Create HintDb ctx.
Ltac cgo := repeat match goal with
  | |- cpost (obind _ _) _ => eapply cpost_bind
  | |- cpost (oret _) _ => apply cpost_ret
  | |- cpost (ohalt _) _ => apply cpost_halt
  | |- cpost (ask _) (fun _ => True) => apply cpost_ask; [reflexivity|trivial]
  | |- cpost (ask _) _ => apply (cpost_ask _ (fun _ => True)); [reflexivity|trivial]
  | |- forall _, _ => intros ?
  | |- cpost (if ?b then _ else _) _ => destruct b
  | |- cpost (match ?x with _ => _ end) _ => destruct x
  | |- True => exact I
  end; auto with ctx.
Notation anyc m := (cpost m (fun _ => True)).
Lemma c_clock t : anyc (o_time_from_now t).
Proof. unfold o_time_from_now. cgo. Qed.
Lemma c_until t : anyc (o_time_ms_until t).
Proof. unfold o_time_ms_until. cgo. Qed.
Lemma c_poll N fd w d : anyc (o_poll N fd w d).
Proof. induction N as [|n IH]; cbn [o_poll]; [apply cpost_halt|]. eapply cpost_bind; [apply c_until|]. intros ms _. destruct (ms <? -1); [apply cpost_ret; exact I|]. cgo. Qed.
Lemma c_configure fd ss : anyc (configure fd ss).
Proof. induction ss as [|s ss IH]; cbn [configure]; cgo. Qed.
Lemma c_connect N a d : anyc (connect_socket N a d).
Proof.
  unfold connect_socket. eapply cpost_bind; [apply (cpost_ask _ (fun _ => True)); [reflexivity|trivial]|]. intros s _. cbv zeta. set (fd := if result s <? 0 then -1 else result s). destruct (fd =? -1); [apply cpost_ret; exact I|].
  eapply cpost_bind; [apply c_configure|]. intros ok _. destruct (negb ok); [cgo|]. eapply cpost_bind; [apply (cpost_ask _ (fun _ => True)); [reflexivity|trivial]|]. intros k _.
  destruct (result k =? 0); [cgo|]. destruct (negb (err k =? EINPROGRESS)); [cgo|]. eapply cpost_bind; [apply c_poll|]. intros st _. cgo.
Qed.
Lemma c_tries N addrs d : forall fd e, anyc (try_addresses N addrs d fd e).
Proof. induction addrs as [|a addrs IH]; intros fd e; cbn [try_addresses]; [apply cpost_ret; exact I|]. eapply cpost_bind; [apply c_connect|]. intros s _. cgo. Qed.
Lemma c_open_inner N h p d : anyc (amqp_open_socket_inner N h p d).
Proof. unfold amqp_open_socket_inner. eapply cpost_bind; [apply (cpost_ask _ (fun _ => True)); [reflexivity|trivial]|]. intros a _. destruct (addresses a); [|apply cpost_ret; exact I]. eapply cpost_bind; [apply c_tries|]. intros x _. destruct x. cgo. Qed.
Lemma c_noblock N h p t : anyc (amqp_open_socket_noblock N h p t).
Proof. unfold amqp_open_socket_noblock. eapply cpost_bind; [apply c_clock|]. intros [st d] _. destruct d; [destruct (negb _)|]; try (apply cpost_ret; exact I). apply c_open_inner. Qed.
Lemma c_tcp_open N fd h p t : anyc (amqp_tcp_socket_open N fd h p t).
Proof. unfold amqp_tcp_socket_open. destruct (negb _); [apply cpost_ret; exact I|]. eapply cpost_bind; [apply c_noblock|]. intros r _. cgo. Qed.
Lemma c_tcp_close fd : anyc (amqp_tcp_socket_close fd).
Proof. unfold amqp_tcp_socket_close. cgo. Qed.
Definition same (s s' : ssl_socket) : Prop := s_ctx s' = s_ctx s.
Lemma c_shutdown s : anyc (ssl_shutdown s).
Proof. unfold ssl_shutdown. cgo. Qed.
Lemma c_free s : cpost (ssl_free s) (same s).
Proof. unfold ssl_free. destruct (s_ssl s); [|apply cpost_ret; reflexivity]. eapply cpost_bind; [apply (cpost_ask _ (fun _ => True)); [reflexivity|trivial]|]. intros a _. apply cpost_ret. reflexivity. Qed.
Lemma c_out1 s st : cpost (error_out1 s st) (fun p => same s (snd p)).
Proof. unfold error_out1. eapply cpost_bind; [apply c_free|]. intros s' H. apply cpost_ret. exact H. Qed.
Lemma c_out2 s st : cpost (error_out2 s st) (fun p => same s (snd p)).
Proof. unfold error_out2. eapply cpost_bind; [apply (cpost_ask _ (fun _ => True)); [reflexivity|trivial]|]. intros a _. exact (c_out1 (set_sfd s (-1)) st). Qed.
Lemma c_out3 s st : cpost (error_out3 s st) (fun p => same s (snd p)).
Proof. unfold error_out3. eapply cpost_bind; [apply c_shutdown|]. intros a _. apply c_out2. Qed.
Lemma c_out4 s st : cpost (error_out4 s st) (fun p => same s (snd p)).
Proof. unfold error_out4. eapply cpost_bind; [apply (cpost_ask _ (fun _ => True)); [reflexivity|trivial]|]. intros a _. apply c_out3. Qed.
Lemma c_success s b : cpost (open_success s b) (fun p => same s (snd p)).
Proof. unfold open_success. destruct b; [eapply cpost_bind; [apply (cpost_ask _ (fun _ => True)); [reflexivity|trivial]|]; intros a _|]; apply cpost_ret; reflexivity. Qed.
Ltac cask := eapply cpost_bind; [apply (cpost_ask _ (fun _ => True)); [reflexivity|trivial]|]; intros ? _.
Lemma c_hostname s h b : cpost (check_hostname s h b) (fun p => same s (snd p)).
Proof. unfold check_hostname. destruct (s_verify_hostname s); [|apply c_success]. destruct (negb b); [apply c_out3|]. cask. destruct (negb _); [apply c_out4|apply c_success]. Qed.
Lemma c_peer s h : cpost (check_peer s h) (fun p => same s (snd p)).
Proof. unfold check_peer. cask. cbv zeta. destruct (s_verify_peer s); [|apply c_hostname]. destruct (negb (negb _)); [apply c_out3|]. cask. destruct (negb _); [apply c_out4|apply c_hostname]. Qed.
Lemma c_handshake N fuel fd d : anyc (handshake N fuel fd d).
Proof.
  induction fuel as [|n IH]; cbn [handshake]; [apply cpost_halt|]. cask. destruct (result _ =? 1); [apply cpost_ret; exact I|].
  eapply (cpost_bind _ _ (fun _ => True)); [destruct (err _ =? _); [apply c_poll|]; destruct (err _ =? _); [apply c_poll|apply cpost_ret; exact I]|]. intros st _. destruct (st =? _); [apply IH|apply cpost_ret; exact I].
Qed.
Lemma c_tls_open N s h p t : cpost (amqp_ssl_socket_open N s h p t) (fun x => same s (snd x)).
Proof.
  unfold amqp_ssl_socket_open. destruct (negb _); [apply cpost_ret; reflexivity|]. cask. destruct (result _ =? 0); [apply cpost_ret; reflexivity|]. cbv zeta.
  eapply cpost_bind; [apply c_clock|]. intros [st [d|]] _; [|apply cpost_ret; reflexivity]. destruct (negb _); [apply cpost_ret; reflexivity|].
  eapply cpost_bind; [apply c_open_inner|]. intros fd _. destruct (fd <? 0); [exact (c_out1 (set_sfd (set_ssl s true) (-1)) fd)|].
  cask. destruct (result _ =? 0); [exact (c_out2 (set_sfd (set_ssl s true) fd) _)|]. cask. destruct (result _ =? 0); [exact (c_out2 (set_sfd (set_ssl s true) fd) _)|].
  eapply cpost_bind; [apply c_handshake|]. intros h0 _. destruct (negb _); [exact (c_out2 (set_sfd (set_ssl s true) fd) _)|exact (c_peer (set_sfd (set_ssl s true) fd) h)].
Qed.
Lemma c_tls_close s f : cpost (amqp_ssl_socket_close s f) (fun x => same s (snd x)).
Proof.
  unfold amqp_ssl_socket_close. destruct (s_fd s =? -1); [apply cpost_ret; reflexivity|]. eapply (cpost_bind _ _ (fun _ => True)); [destruct f; [apply cpost_ret; exact I|apply c_shutdown]|]. intros _ _.
  eapply cpost_bind; [apply c_free|]. intros s' H. cask. destruct (negb _); apply cpost_ret; exact H.
Qed.

(** each operation *)
Lemma runs_c {A} (m : Io A) P (Q : A -> Prop) : runs m P -> cpost m Q -> runs m (fun a l => P a l /\ Q a /\ ctx_balance l = 0).
Proof. intros H K. apply runs_and; [exact H|]. intros ans. specialize (K ans). destruct (m ans); [|exact I]. destruct K as [K1 K2]. split; [exact K1|apply no_ctx_balance, K2]. Qed.
Lemma tcp_acc N fd (m : tcp_op) : fd = -1 \/ 0 <= fd ->
  runs (tcp_exec N fd m) (fun p l => inv (Some (Tcp (snd p))) /\ acc (Some (Tcp fd)) (Some (Tcp (snd p))) [] [] l).
Proof.
  intros V. eapply runs_conseq; [apply (runs_c _ (fun p l => (snd p = -1 \/ 0 <= snd p) /\ held fd ++ opened l = closed l ++ held (snd p) /\ ssl_balance l = 0 /\ cert_balance l = 0) (fun _ => True))|].
  - apply runs_owp. eapply owp_conseq; [apply tcp_exec_ok, V|]. intros p l [H1 H2] (R & C & _). split; [exact H1|]. apply H2; assumption.
  - destruct m; cbn [tcp_exec]; [apply c_tcp_open|apply c_tcp_close].
  - intros p l ((H1 & H2 & H3 & H4) & _ & H5). split; [exact H1|]. unfold acc. cbn [amqp_get_sockfd ssls ctxs]. rewrite !app_nil_r, H2, H3, H4, H5. split; [reflexivity|]. lia.
Qed.
Lemma tls_acc N s (o : tls_op) : tls_inv s -> s_ctx s = true -> sane_op o ->
  runs (tls_exec N s o) (fun p l => inv (Some (Tls (snd p))) /\ acc (Some (Tls s)) (Some (Tls (snd p))) [] [] l).
Proof.
  intros V HC S. eapply runs_conseq; [apply (runs_c _ (fun p l => tls_inv (snd p) /\ accounted s (snd p) l) (fun p => same s (snd p)))|].
  - apply runs_owp. apply tls_exec_ok; assumption.
  - destruct o; cbn [tls_exec]; [apply c_tls_open|apply c_tls_close| |]; apply cpost_ret; reflexivity.
  - intros p l ((H1 & H2 & H3 & H4) & H5 & H6). split; [split; [exact H1|rewrite H5; exact HC]|]. unfold acc. cbn [amqp_get_sockfd ssls ctxs]. rewrite !app_nil_r, H2, H4, H6. split; [reflexivity|]. lia.
Qed.
(** deleting *)
Lemma tcp_close_acc fd : fd = -1 \/ 0 <= fd -> runs (amqp_tcp_socket_close fd) (fun p l => acc (Some (Tcp fd)) None [] [] l).
Proof.
  intros V. unfold amqp_tcp_socket_close. destruct (Z.eqb_spec fd (-1)) as [->|E].
  - apply runs_ret. unfold acc. cbn. repeat split; reflexivity.
  - apply runs_owp. apply owp_ask_bind. intros a. destruct (Z.eqb_spec (result a) 0) as [A|A]; cbn [negb]; apply owp_ret; intros (_ & C & _).
    + unfold acc. cbn. unfold held. replace (fd =? -1) with false by (symmetry; apply Z.eqb_neq; exact E). cbn. repeat split; reflexivity.
    + destruct A. apply (C fd a). left. reflexivity.
Qed.
Lemma tls_delete_acc t : tls_inv t -> s_ctx t = true -> runs (amqp_ssl_socket_delete t) (fun _ l => acc (Some (Tls t)) None [] [] l).
Proof.
  intros V HC. unfold amqp_ssl_socket_delete. apply runs_bind. eapply runs_conseq; [apply (runs_c _ (fun p l => tls_inv (snd p) /\ accounted t (snd p) l /\ s_fd (snd p) = -1) (fun p => same t (snd p)))|].
  - apply runs_owp. apply tls_close_ok, V.
  - apply c_tls_close.
  - intros p l ((H1 & (H2 & H3 & H4) & H5) & H6 & H7). unfold same in H6. rewrite H6, HC. apply runs_ask_bind. intros a. apply runs_ret.
    unfold acc, ssl_balance, cert_balance in *. rewrite opened_app, closed_app, ctx_app, !count_app. cbn [amqp_get_sockfd ssls ctxs opened closed]. unfold alive in H3 at 2. rewrite H5 in *. cbn [held Z.eqb Pos.eqb count fold_right] in *. rewrite !app_nil_r in *. rewrite H2.
    split; [reflexivity|]. change (ctx_balance [(CtxFree, a)]) with (-1). lia.
Qed.
Lemma delete_acc s : inv s -> runs (amqp_socket_delete s) (fun _ l => acc s None [] [] l).
Proof.
  intros V. destruct s as [[fd|t]|]; cbn [amqp_socket_delete].
  - unfold amqp_tcp_socket_delete. apply runs_bind. eapply runs_conseq; [apply (tcp_close_acc fd V)|]. intros p l H. apply runs_ret. rewrite app_nil_r. exact H.
  - apply tls_delete_acc; apply V.
  - apply runs_ret. unfold acc. cbn. repeat split; reflexivity.
Qed.
Lemma acc_calloc l a s s' g f : acc s s' g f l -> acc s s' g f ((Calloc, a) :: l).
Proof. unfold acc, ssl_balance, cert_balance, ctx_balance. cbn [opened closed count fold_right]. unfold count. rewrite !Z.add_0_l. auto. Qed.
Lemma acc_versions l a s s' g f : acc s s' g f l -> acc s s' g f ((CtxVersions, a) :: l).
Proof. unfold acc, ssl_balance, cert_balance, ctx_balance. cbn [opened closed count fold_right]. unfold count. rewrite !Z.add_0_l. auto. Qed.
Lemma acc_nil s : acc s s [] [] [].
Proof. apply acc_plain; reflexivity. Qed.
Lemma tcp_new_acc s : inv s -> runs (amqp_tcp_socket_new s) (fun p l => (p = (false, s) \/ p = (true, Some (Tcp (-1)))) /\ acc s (snd p) [] [] l).
Proof.
  intros V. unfold amqp_tcp_socket_new. apply runs_ask_bind. intros a. destruct (result a =? 0).
  - apply runs_ret. split; [auto|]. apply acc_calloc, acc_nil.
  - unfold amqp_set_socket. do 2 apply runs_bind. eapply runs_conseq; [apply delete_acc, V|]. intros u l H. do 2 apply runs_ret. cbn [snd]. split; [auto|]. rewrite !app_nil_r. apply acc_calloc.
    revert H. unfold acc. cbn. auto.
Qed.
(** a context that is made and freed *)
Lemma half_made s (b : bool) : runs (amqp_ssl_socket_delete (mkSsl (-1) false b true true)) (fun _ l => if b then forall a, result a <> 0 -> acc s s [] [] ((CtxNew, a) :: l) else acc s s [] [] l).
Proof.
  unfold amqp_ssl_socket_delete, amqp_ssl_socket_close. cbn [s_fd Z.eqb Pos.eqb]. apply runs_bind, runs_ret. cbn [snd s_ctx]. destruct b.
  - apply runs_ask_bind. intros a. apply runs_ret. intros a0 Ha. cbn [app]. unfold acc, ssl_balance, cert_balance, ctx_balance. cbn. apply Z.eqb_neq in Ha. rewrite Ha. rewrite !app_nil_r. split; [reflexivity|]. lia.
  - apply runs_ret. apply acc_nil.
Qed.
Lemma tls_new_acc s : inv s -> runs (amqp_ssl_socket_new s) (fun p l => inv (snd p) /\ acc s (snd p) [] [] l).
Proof.
  intros V. unfold amqp_ssl_socket_new. apply runs_ask_bind. intros a1. destruct (result a1 =? 0).
  { apply runs_ret. split; [exact V|]. apply acc_calloc, acc_nil. }
  apply runs_ask_bind. intros a2. destruct (result a2 =? 0).
  { apply runs_bind. eapply runs_conseq; [apply (half_made s false)|]. cbv beta iota. intros u l H. apply runs_ret. split; [exact V|]. rewrite app_nil_r. do 2 apply acc_calloc. exact H. }
  apply runs_ask_bind. intros a3. destruct (Z.eqb_spec (result a3) 0) as [E3|E3].
  { apply runs_bind. eapply runs_conseq; [apply (half_made s false)|]. cbv beta iota. intros u l H. apply runs_ret. split; [exact V|]. rewrite app_nil_r. do 2 apply acc_calloc.
    revert H. unfold acc, ssl_balance, cert_balance, ctx_balance. cbn [opened closed count fold_right]. unfold count. rewrite E3. cbn [Z.eqb]. rewrite !Z.add_0_l. auto. }
  apply runs_ask_bind. intros a4. destruct (result a4 =? 0).
  { apply runs_bind. eapply runs_conseq; [apply (half_made s true)|]. cbv beta iota. intros u l H. apply runs_ret. split; [exact V|]. rewrite app_nil_r. do 2 apply acc_calloc. specialize (H a3 E3).
    revert H. unfold acc, ssl_balance, cert_balance, ctx_balance. cbn [opened closed count fold_right]. unfold count. rewrite !Z.add_0_l. auto. }
  unfold amqp_set_socket. do 2 apply runs_bind. eapply runs_conseq; [apply delete_acc, V|]. intros u l H. do 2 apply runs_ret. cbn [snd]. split; [split; [left; split; reflexivity|reflexivity]|].
  rewrite !app_nil_r. do 2 apply acc_calloc. apply Z.eqb_neq in E3. revert H. unfold acc, ssl_balance, cert_balance, ctx_balance. cbn [opened closed count fold_right amqp_get_sockfd ssls ctxs new_ssl_socket s_fd]. unfold count, alive. cbn [s_fd Z.eqb Pos.eqb new_ssl_socket]. rewrite E3, !Z.add_0_l.
  cbn [held Z.eqb Pos.eqb]. intros (A & B & C & D). split; [exact A|]. lia.
Qed.
Definition given1 (o : op) (s : slot) : list Z := match o, s with SetFd fd, _ => [fd] | Assign fd, Some (Tcp _) => [fd] | _, _ => [] end.
Definition lost1 (o : op) (s : slot) : list Z := match o, s with Assign _, Some (Tcp old) => held old | _, _ => [] end.
Lemma held_pos fd : 0 <= fd -> held fd = [fd].
Proof. intros H. unfold held. replace (fd =? -1) with false by (symmetry; apply Z.eqb_neq; lia). reflexivity. Qed.
Lemma step_acc N s o : inv s -> sane o -> runs (step N s o) (fun s' l => inv s' /\ acc s s' (given1 o s) (lost1 o s) l).
Proof.
  intros V S. destruct o as [| |fd|fd|h p t|f|vp vh]; cbn [step].
  - apply runs_bind. eapply runs_conseq; [apply tcp_new_acc, V|]. intros p l [H1 H2]. apply runs_ret. rewrite app_nil_r. split; [destruct H1 as [-> | ->]; [exact V|left; reflexivity]|]. destruct s as [[|]|]; exact H2.
  - apply runs_bind. eapply runs_conseq; [apply tls_new_acc, V|]. intros p l [H1 H2]. apply runs_ret. rewrite app_nil_r. split; [exact H1|]. destruct s as [[|]|]; exact H2.
  - unfold amqp_set_sockfd. apply runs_bind. eapply runs_conseq; [apply tcp_new_acc, V|]. intros p l [[-> | ->] H2]; [apply runs_halt; discriminate|]. cbn [amqp_tcp_socket_set_sockfd]. apply runs_ret. rewrite app_nil_r.
    split; [right; exact S|]. replace (given1 (SetFd fd) s) with [fd] by (destruct s as [[|]|]; reflexivity). replace (lost1 (SetFd fd) s) with (@nil Z) by (destruct s as [[|]|]; reflexivity).
    revert H2. unfold acc. cbn [snd amqp_get_sockfd ssls ctxs]. rewrite (held_pos fd S), !app_nil_r. cbn [held Z.eqb Pos.eqb]. intros (A & B). split; [|exact B]. rewrite app_assoc, A. reflexivity.
  - destruct s as [[old|t]|]; cbn [on_socket amqp_tcp_socket_set_sockfd].
    + apply runs_ret. split; [right; exact S|]. unfold acc. cbn [amqp_get_sockfd ssls ctxs given1 lost1 opened closed app]. rewrite (held_pos fd S). split; [apply Permutation_app_comm|]. cbn. lia.
    + apply runs_halt. discriminate.
    + apply runs_ret. split; [exact I|apply acc_nil].
  - destruct s as [[old|x]|]; cbn [on_socket amqp_socket_open_noblock given1 lost1].
    + do 2 apply runs_bind. eapply runs_conseq; [apply (tcp_acc N old (TcpOpen h p t) V)|]. intros q l H. do 2 apply runs_ret. rewrite !app_nil_r. exact H.
    + do 2 apply runs_bind. eapply runs_conseq; [apply (tls_acc N x (TlsOpen h p t)); [apply V|apply V|exact S]|]. intros q l H. do 2 apply runs_ret. rewrite !app_nil_r. exact H.
    + apply runs_ret. split; [exact I|apply acc_nil].
  - destruct s as [[old|x]|]; cbn [on_socket amqp_socket_close given1 lost1].
    + apply runs_bind. eapply runs_conseq; [apply (tcp_acc N old TcpClose V)|]. intros q l H. apply runs_ret. rewrite app_nil_r. exact H.
    + apply runs_bind. eapply runs_conseq; [apply (tls_acc N x (TlsClose f)); [apply V|apply V|exact I]|]. intros q l H. apply runs_ret. rewrite app_nil_r. exact H.
    + apply runs_ret. split; [exact I|apply acc_nil].
  - destruct s as [[old|x]|]; cbn [on_socket given1 lost1].
    + apply runs_halt. discriminate.
    + apply runs_ret. split; [exact V|]. unfold acc, alive. cbn. rewrite !app_nil_r. split; [reflexivity|]. unfold alive. cbn. lia.
    + apply runs_ret. split; [exact I|apply acc_nil].
Qed.
Lemma steps_acc N : forall ops s, inv s -> Forall sane ops ->
  runs (steps N s ops) (fun p l => inv (fst p) /\ acc s (fst p) (given ops (snd p)) (forgotten ops (snd p)) l).
Proof.
  induction ops as [|o ops IH]; intros s V F; cbn [steps].
  - apply runs_ret. split; [exact V|apply acc_nil].
  - inversion F as [|? ? F1 F2]; subst. apply runs_bind. eapply runs_conseq; [apply step_acc; assumption|]. intros s1 l1 [V1 A1].
    apply runs_bind. eapply runs_conseq; [apply IH; assumption|]. intros [s2 bs] l2 [V2 A2]. cbn [fst snd] in *. apply runs_ret. rewrite app_nil_r. split; [exact V2|]. cbn [fst snd].
    replace (given (o :: ops) (s :: bs)) with (given1 o s ++ given ops bs) by (destruct o, s as [[|]|]; reflexivity).
    replace (forgotten (o :: ops) (s :: bs)) with (lost1 o s ++ forgotten ops bs) by (destruct o, s as [[|]|]; reflexivity).
    eapply acc_app; eassumption.
Qed.

(** ** Theorems *)
(** Any operations on the socket of a new connection, in a system that behaves: no
    undefined behaviour; the descriptors opened and those handed over are those closed,
    the one the connection holds, and those the application made it forget; TLS objects
    exist only for the socket the connection holds. *)
Theorem C79_one_socket :
  forall (N : nat) (ops : list op) (ans : list answer), Forall sane ops ->
    match steps N None ops ans with
    | ODone (s, befores) _ l => good l ->
        Permutation (opened l ++ given ops befores) (closed l ++ held (amqp_get_sockfd s) ++ forgotten ops befores) /\
        cert_balance l = 0 /\
        ssl_balance l = (match s with Some (Tls _) => if amqp_get_sockfd s =? -1 then 0 else 1 | _ => 0 end) /\
        ctx_balance l = (match s with Some (Tls _) => 1 | _ => 0 end)
    | OHalt h l => good l -> h <> OUB
    end.
Proof.
  intros N ops ans F. pose proof (steps_acc N ops None I F ans) as H. destruct (steps N None ops ans) as [[s bs] r l|h l]; [|exact H]. intros G.
  destruct (H G) as (_ & A & B & C & D). cbn in A, B, D. split; [exact A|]. split; [exact C|]. split; [rewrite B|rewrite D]; destruct s as [[|]|]; reflexivity.
Qed.
(** After amqp_destroy_connection nothing is left: every descriptor opened or handed over
    (and not forgotten) has been closed exactly once, all TLS objects have been freed. *)
Theorem C79_destroyed :
  forall (N : nat) (ops : list op) (ans : list answer), Forall sane ops ->
    match (p <- steps N None ops;; amqp_destroy_connection (fst p);; oret (snd p)) ans with
    | ODone befores _ l => good l ->
        Permutation (opened l ++ given ops befores) (closed l ++ forgotten ops befores) /\
        cert_balance l = 0 /\ ssl_balance l = 0 /\ ctx_balance l = 0
    | OHalt h l => good l -> h <> OUB
    end.
Proof.
  intros N ops ans F.
  assert (runs (p <- steps N None ops;; amqp_destroy_connection (fst p);; oret (snd p))
    (fun bs l => Permutation (opened l ++ given ops bs) (closed l ++ forgotten ops bs) /\ cert_balance l = 0 /\ ssl_balance l = 0 /\ ctx_balance l = 0)) as H; [|exact (H ans)].
  apply runs_bind. eapply runs_conseq; [apply (steps_acc N ops None I F)|]. intros [s bs] l [V A]. cbn [fst snd] in *. unfold amqp_destroy_connection.
  apply runs_bind. eapply runs_conseq; [apply delete_acc, V|]. intros u l' A'. apply runs_ret. rewrite app_nil_r. pose proof (acc_app _ _ _ _ _ _ _ _ _ A A') as (B1 & B2 & B3 & B4).
  cbn in B1, B2, B4. rewrite !app_nil_r in B1. auto.
Qed.

(** ** Cases *)
Definition ok : answer := mkAns 0 0 None.
Definition one : answer := mkAns 1 0 None.
(** a TCP socket is opened, replaced by a TLS socket that is opened, replaced by a
    descriptor of the application; then the connection is destroyed *)
Definition answers : list answer :=
  [one; mkAns 0 0 (Some [1]); mkAns 5 0 None; ok; ok; ok; ok; ok; ok; ok;
   one; one; one; one; ok;
   one; mkAns 0 0 (Some [1]); mkAns 6 0 None; ok; ok; ok; ok; ok; ok; ok; one; one; one; one; ok; one; one;
   one; ok; ok; ok; ok; ok].
Example C79_case :
  match (p <- steps 1 None [NewTcp; Connect_ [x68] 5672 None; NewTls; Verify true true; Connect_ [x68] 5671 None; SetFd 9];; amqp_destroy_connection (fst p);; oret (snd p)) answers with
  | ODone befores _ l => opened l = [5; 6] /\ closed l = [5; 6; 9] /\ zlen (filter (fun e => match fst e with CtxFree | SslFree => true | _ => false end) l) = 2
  | OHalt _ _ => False
  end.
Proof. vm_compute. repeat split. Qed.
(** out of memory: the old socket stays, and stays open *)
Example C79_no_memory :
  match steps 1 None [SetFd 9; NewTls; NewTcp] [one; one; one; ok; ok] with
  | ODone (s, _) _ l => s = Some (Tcp 9) /\ closed l = []
  | OHalt _ _ => False
  end.
Proof. vm_compute. auto. Qed.
(** amqp_tcp_socket_set_sockfd on an open socket: the old descriptor is forgotten *)
Example C79_forgotten :
  match (p <- steps 1 None [SetFd 9; Assign 10];; amqp_destroy_connection (fst p);; oret (snd p)) [one; ok] with
  | ODone befores _ l => closed l = [10] /\ forgotten [SetFd 9; Assign 10] befores = [9]
  | OHalt _ _ => False
  end.
Proof. vm_compute. auto. Qed.

Print Assumptions C79_one_socket.
Print Assumptions C79_destroyed.
