(** Descriptors, TLS objects and certificates are all given back *)
From Coq Require Import ZArith List Bool Lia.
From Verif Require Import Base Time Os ConnectSpec OsFacts.
Import ListNotations.
Local Open Scope Z_scope.
Local Open Scope os_scope.

Lemma opened_app l l' : opened (l ++ l') = opened l ++ opened l'.
Proof.
  induction l as [|[c a] l IH]; [reflexivity|]. cbn [app opened].
  destruct c; try exact IH. destruct (0 <=? result a); rewrite IH; reflexivity.
Qed.
Lemma closed_app l l' : closed (l ++ l') = closed l ++ closed l'.
Proof. induction l as [|[c a] l IH]; [reflexivity|]. cbn [app closed]. destruct c; try exact IH. rewrite IH; reflexivity. Qed.
Lemma count_app f l l' : count f (l ++ l') = count f l + count f l'.
Proof. unfold count. induction l as [|e l IH]; cbn [app fold_right]; [lia|]. rewrite IH. lia. Qed.

(** calls that neither create nor destroy anything *)
Definition plain (e : entry) : bool :=
  match fst e with Socket _ | Close _ | SslNew | SslFree | PeerCert | CertFree => false | _ => true end.
Lemma plain_opened l : forallb plain l = true -> opened l = [] /\ closed l = [] /\ ssl_balance l = 0 /\ cert_balance l = 0.
Proof.
  induction l as [|[c a] l IH]; intros H; [repeat split; reflexivity|].
  cbn [forallb] in H. apply andb_true_iff in H. destruct H as [H1 H2]. destruct (IH H2) as (A & B & C & D).
  unfold ssl_balance, cert_balance, count in *.
  destruct c; try discriminate H1; cbn [opened closed fold_right]; rewrite ?A, ?B, ?C, ?D; repeat split; reflexivity.
Qed.
Definition plains (l : list entry) : Prop := forallb plain l = true.
Lemma plains_app l l' : plains l -> plains l' -> plains (l ++ l').
Proof. unfold plains. intros A B. rewrite forallb_app, A, B. reflexivity. Qed.
Lemma plains_cons e l : plain e = true -> plains l -> plains (e :: l).
Proof. unfold plains. intros A B. cbn [forallb]. rewrite A, B. reflexivity. Qed.
Lemma plains_nil : plains [].
Proof. reflexivity. Qed.
Global Hint Resolve plains_app plains_cons plains_nil : plains.

Lemma patience_plains d l ms : patience d l ms -> plains l.
Proof. intros [(A & B & C)|[(A & B & C)|(a & B & C)]]; subst; reflexivity. Qed.
Lemma waits_plains fd w d l r : waits fd w d l r -> plains l.
Proof.
  induction 1; try (match goal with H : patience _ _ _ |- _ => apply patience_plains in H end); auto with plains.
Qed.
Lemma configured_plains fd todo l : configured fd todo l -> plains l.
Proof. induction 1 as [|s e todo l (a & -> & R) F IH]; auto with plains. Qed.
Lemma stuck_plains fd address d l r : stuck fd address d l r -> plains l.
Proof.
  destruct 1; repeat match goal with
    | H : configured _ _ _ |- _ => apply configured_plains in H
    | H : waits _ _ _ _ _ |- _ => apply waits_plains in H end; auto 8 with plains.
Qed.

(** what a log leaves behind *)
Definition balance (l : list entry) (fds : list Z) (ssl cert : Z) : Prop :=
  opened l = closed l ++ fds /\ ssl_balance l = ssl /\ cert_balance l = cert.
Lemma plains_balance l : plains l -> balance l [] 0 0.
Proof. intros H. destruct (plain_opened l H) as (A & B & C & D). split; [rewrite A, B; reflexivity|]. split; assumption. Qed.
Lemma accepts_balance address d l fd : accepts address d l fd -> balance l [fd] 0 0.
Proof.
  intros H. assert (X : exists s l', l = (Socket address, s) :: l' /\ result s = fd /\ 0 <= fd /\ plains l').
  { destruct H; eexists _, _; (split; [reflexivity|]); repeat match goal with
    | H : configured _ _ _ |- _ => apply configured_plains in H
    | H : waits _ _ _ _ _ |- _ => apply waits_plains in H end; auto 8 with plains. }
  destruct X as (s & l' & -> & R & L & P). destruct (plain_opened l' P) as (A & B & C & D).
  unfold balance, ssl_balance, cert_balance, count in *. cbn [opened closed fold_right]. rewrite A, B, C, D, R.
  replace (0 <=? fd) with true by (symmetry; apply Z.leb_le; exact L). repeat split; reflexivity.
Qed.
Lemma rejects_balance address d l r : rejects address d l r -> balance l [] 0 0.
Proof.
  destruct 1 as [s L|s fd l r c E L S].
  - unfold balance. cbn. replace (0 <=? result s) with false by (symmetry; apply Z.leb_gt; exact L). repeat split; reflexivity.
  - apply stuck_plains in S. destruct (plain_opened l S) as (A & B & C & D).
    unfold balance, ssl_balance, cert_balance in *. cbn [opened closed]. rewrite opened_app, closed_app, A, B, E.
    replace (0 <=? fd) with true by (symmetry; apply Z.leb_le; exact L).
    split; [reflexivity|]. split.
    + change (0 + ssl_balance (l ++ [(Close fd, c)]) = 0). unfold ssl_balance. rewrite count_app, C. reflexivity.
    + change (0 + cert_balance (l ++ [(Close fd, c)]) = 0). unfold cert_balance. rewrite count_app, D. reflexivity.
Qed.
Lemma balance_app l l' fds ssl cert ssl' cert' : balance l [] ssl cert -> balance l' fds ssl' cert' -> balance (l ++ l') fds (ssl + ssl') (cert + cert').
Proof.
  intros (A & B & C) (A' & B' & C'). split; [|split].
  - rewrite opened_app, closed_app, A, A', app_nil_r, app_assoc. reflexivity.
  - unfold ssl_balance in *. rewrite count_app, B, B'. reflexivity.
  - unfold cert_balance in *. rewrite count_app, C, C'. reflexivity.
Qed.
Lemma balance_app0 l l' fds : balance l [] 0 0 -> balance l' fds 0 0 -> balance (l ++ l') fds 0 0.
Proof. apply balance_app. Qed.
(** descriptors that stay open to the right of some calls *)
Lemma balance_plains_r l fds ssl cert l' : balance l fds ssl cert -> plains l' -> balance (l ++ l') fds ssl cert.
Proof.
  intros (A & B & C) P. destruct (plain_opened l' P) as (A' & B' & C' & D').
  unfold balance, ssl_balance, cert_balance in *. rewrite opened_app, closed_app, !count_app, A', B', C', D', A, B, C, !app_nil_r.
  split; [reflexivity|]. split; lia.
Qed.
Lemma balance_close l fd ssl cert c : balance l [fd] ssl cert -> balance (l ++ [(Close fd, c)]) [] ssl cert.
Proof.
  intros (A & B & C). unfold balance, ssl_balance, cert_balance in *. rewrite opened_app, closed_app, !count_app, A, B, C.
  cbn. rewrite !app_nil_r. split; [reflexivity|]. split; lia.
Qed.
Lemma balance_sslfree l fds ssl cert a : balance l fds ssl cert -> balance (l ++ [(SslFree, a)]) fds (ssl - 1) cert.
Proof.
  intros (A & B & C). unfold balance, ssl_balance, cert_balance in *. rewrite opened_app, closed_app, !count_app, A, B, C.
  cbn. rewrite !app_nil_r. split; [reflexivity|]. split; lia.
Qed.
Lemma balance_certfree l fds ssl cert a : balance l fds ssl cert -> balance (l ++ [(CertFree, a)]) fds ssl (cert - 1).
Proof.
  intros (A & B & C). unfold balance, ssl_balance, cert_balance in *. rewrite opened_app, closed_app, !count_app, A, B, C.
  cbn. rewrite !app_nil_r. split; [reflexivity|]. split; lia.
Qed.
Lemma balance_cert l fds ssl cert a : balance l fds ssl cert -> balance (l ++ [(PeerCert, a)]) fds ssl (cert + (if result a =? 0 then 0 else 1)).
Proof.
  intros (A & B & C). unfold balance, ssl_balance, cert_balance in *. rewrite opened_app, closed_app, !count_app, A, B, C.
  cbn. rewrite !app_nil_r. split; [reflexivity|]. split; lia.
Qed.
Lemma tries_balance d addrs l r : tries d addrs l r -> balance l (if 0 <=? r then [r] else []) 0 0.
Proof.
  induction 1 as [a addrs l fd H|a addrs l H|a l r H L|a addrs l r l' r' H D NE T IH].
  - pose proof (accepts_fd _ _ _ _ H) as P. replace (0 <=? fd) with true by (symmetry; apply Z.leb_le; exact P). eapply accepts_balance; exact H.
  - cbn. eapply rejects_balance; exact H.
  - replace (0 <=? r) with false by (symmetry; apply Z.leb_gt; exact L). eapply rejects_balance; exact H.
  - apply balance_app0; [eapply rejects_balance; exact H|exact IH].
Qed.
Lemma opens_balance host port d l r : opens host port d l r -> resolver_ok l -> balance l (if 0 <=? r then [r] else []) 0 0.
Proof.
  destruct 1 as [a A|a addrs l r A NE T|a A]; intros R.
  - cbn. unfold balance. cbn. repeat split; reflexivity.
  - apply (balance_app0 [(Resolve host port, a)]); [apply plains_balance; reflexivity|]. eapply tries_balance; exact T.
  - destruct (R host port a (or_introl eq_refl) A).
Qed.
Lemma tries_result d addrs l r : tries d addrs l r -> (r < 0 /\ r <> -1) \/ exists a, In a addrs /\ exists l1 l2, l = l1 ++ l2 /\ accepts a d l2 r.
Proof.
  induction 1 as [a addrs l fd H|a addrs l H|a l r H L|a addrs l r l' r' H D NE T IH].
  - right. exists a. split; [left; reflexivity|]. exists [], l. split; [reflexivity|exact H].
  - left. split; reflexivity || discriminate.
  - left. split; [exact L|]. eapply rejects_not_m1; exact H.
  - destruct IH as [IH|(x & I & l1 & l2 & E & A)]; [left; exact IH|]. right. exists x. split; [right; exact I|].
    exists (l ++ l1), l2. split; [rewrite E, app_assoc; reflexivity|exact A].
Qed.
