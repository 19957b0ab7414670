(** amqp_parse_url computes the string-level parser. *)
From Coq Require Import String ZArith List Bool Lia.
From Verif Require Import Base BaseFacts Pool Url UrlProofs.
Import ListNotations.
Local Open Scope list_scope.
Local Open Scope Z_scope.

(** the string a member of amqp_connection_info points to, in memory [P] *)
Definition ptr_is (P : bytes) (c : cptr) (s : bytes) : Prop :=
  match c with Const x => x = s | At p => exists dec, holds P p dec /\ s = cut dec end.
Lemma ptr_ext P c s Q : ptr_is P c s -> ptr_is (P ++ Q) c s.
Proof. destruct c; cbn; [auto|]. intros (dec & H & E). exists dec. split; [apply holds_ext; exact H|exact E]. Qed.

Section P.
Context (cm : Z) (ox : bool) (fuel : nat) (n : nat) (tail : bytes) (HF : (n < fuel)%nat).
Let fd := find_delim cm ox fuel.

(** the result of the rest of the function *)
Definition good (r : ures) (o : option info) : Prop :=
  exists st ci P0, r = Some (st, ci, (P0 ++ [x00]) ++ tail) /\ length P0 = n /\
    match o with
    | Some i => st = AMQP_STATUS_OK /\ ptr_is (P0 ++ [x00]) (ci_user ci) (in_user i) /\ ptr_is (P0 ++ [x00]) (ci_password ci) (in_password i) /\
                ptr_is (P0 ++ [x00]) (ci_host ci) (in_host i) /\ ptr_is (P0 ++ [x00]) (ci_vhost ci) (in_vhost i) /\ ci_port ci = in_port i /\ ci_ssl ci = in_ssl i
    | None => st = AMQP_STATUS_BAD_URL
    end.

(** memory after a successful find_delim *)
Inductive mstate : bytes -> nat -> byte -> bytes -> bytes -> Prop :=
| MA P r d : d <> x00 -> d <> x25 -> nonul r -> (length P + length r = n)%nat -> mstate (P ++ r ++ x00 :: tail) (length P) d P r
| MB P0 : length P0 = n -> mstate ((P0 ++ [x00]) ++ tail) (length (P0 ++ [x00])) x00 (P0 ++ [x00]) [].

Lemma mstate_mem m url d P r : mstate m url d P r -> (exists Q, m = P ++ Q) /\ (exists P0, m = (P0 ++ [x00]) ++ tail /\ length P0 = n).
Proof.
  intros [? ? ? H1 H2 H3 H4|? H]; split; eauto.
  exists (P0 ++ r0). split; [rewrite <- !app_assoc; reflexivity|]. rewrite app_length. exact H4.
Qed.
Lemma good_bad m url d P r ci o : mstate m url d P r -> o = None -> good (bad ci m) o.
Proof. intros H ->. destruct (mstate_mem _ _ _ _ _ H) as (_ & P0 & -> & L). exists AMQP_STATUS_BAD_URL, ci, P0. auto. Qed.

(** memory after a refused find_delim *)
Definition mbad (m : bytes) : Prop := exists P0, m = (P0 ++ [x00]) ++ tail /\ length P0 = n.
Lemma good_mbad m ci : mbad m -> good (bad ci m) None.
Proof. intros (P0 & -> & L). exists AMQP_STATUS_BAD_URL, ci, P0. auto. Qed.

Lemma mbad_rd m p : mbad m -> (p <= n)%nat -> exists c, rd m p = Some c.
Proof.
  intros (P0 & -> & L) H. unfold rd. destruct (nth_error ((P0 ++ [x00]) ++ tail) p) eqn:E; [eauto|].
  apply nth_error_None in E. rewrite !app_length in E. cbn in E. lia.
Qed.
Lemma mbad_cstr m p : mbad m -> (p <= n)%nat -> exists s, cstr m p = Some s.
Proof.
  intros (P0 & -> & L) H.
  assert (E : (P0 ++ [x00]) ++ tail = firstn p P0 ++ skipn p P0 ++ x00 :: tail) by (rewrite (app_assoc (firstn p P0)), firstn_skipn, <- app_assoc; reflexivity).
  rewrite E. assert (LP : length (firstn p P0) = p) by (rewrite firstn_length; lia). pose proof (cstr_app (firstn p P0) (skipn p P0) tail) as C. rewrite LP in C. eauto.
Qed.

(** calling find_delim *)
Lemma fd_stage P r colon : nonul r -> (length P + length r = n)%nat ->
  match scan cm ox colon r with
  | None => exists m, fd (P ++ r ++ x00 :: tail) (length P) (length P) colon = Some (m, x25, None) /\ mbad m
  | Some (dec, d, r') => exists m url P', fd (P ++ r ++ x00 :: tail) (length P) (length P) colon = Some (m, d, Some url) /\ mstate m url d P' r' /\
      (exists Q, P' = P ++ Q) /\ holds P' (length P) dec
  end.
Proof.
  intros NN L. pose proof (fd_call cm ox fuel P r tail colon NN ltac:(lia)) as H. cbv zeta in H. fold fd in H.
  destruct (scan cm ox colon r) as [[[dec d] r']|].
  - destruct H as [(N1 & N2 & N3 & Q & F & HO & LQ)|(-> & -> & Q & F & HO & LQ)].
    + do 3 eexists. split; [exact F|]. split; [apply MA; auto; rewrite app_length; lia|]. split; [eauto|exact HO].
    + assert (EQ : P ++ Q ++ [x00] = (P ++ Q) ++ [x00]) by (rewrite <- app_assoc; reflexivity). rewrite EQ in *.
      do 3 eexists. split; [exact F|]. split; [apply MB; rewrite app_length; lia|]. split; [|exact HO]. exists (Q ++ [x00]). auto.
  - destruct H as (X & F & LX). eexists. split; [exact F|]. exists (P ++ X). split; [rewrite <- !app_assoc; reflexivity|]. rewrite app_length. lia.
Qed.

(** with the delimiter '%' every stage refuses *)
Lemma tail_bad m url port ci : mbad m -> (forall p, port = Some p -> (p <= n)%nat) -> good (url_tail fd m url x25 port ci) None.
Proof.
  intros M HP. unfold url_tail. change (Byte.eqb x25 x2f) with false. change (Byte.eqb x25 x00) with false. cbv iota.
  destruct port as [p|]; [|apply good_mbad; exact M]. destruct (mbad_cstr m p M (HP p eq_refl)) as (s & ->).
  destruct (strtol10 s) as [v u]. destruct (_ || _ || _ || _); apply good_mbad; exact M.
Qed.
Lemma port_bad m url port ci : mbad m -> (forall p, port = Some p -> (p <= n)%nat) -> good (url_port fd m url x25 port ci) None.
Proof. intros M HP. unfold url_port. change (Byte.eqb x25 x3a) with false. cbv iota. apply tail_bad; auto. Qed.
Lemma host_bad m url host start port ci : mbad m -> (host <= n)%nat -> (forall p, port = Some p -> (p <= n)%nat) -> good (url_host fd m url x25 host start port ci) None.
Proof.
  intros M HH HP. unfold url_host. change (Byte.eqb x25 x5b) with false. cbv iota. destruct (mbad_rd m host M HH) as (c & ->). apply port_bad; auto.
Qed.
Lemma user_bad m url host start port ci : mbad m -> (host <= n)%nat -> (forall p, port = Some p -> (p <= n)%nat) -> good (url_user fd m url x25 host start port ci) None.
Proof. intros M HH HP. unfold url_user. change (Byte.eqb x25 x40) with false. cbv iota. apply host_bad; auto. Qed.

Definition port_is (P : bytes) (port : option nat) (s : option bytes) : Prop :=
  match port, s with Some p, Some s => holds P p s | None, None => True | _, _ => False end.
Record ci_is (P : bytes) (ci : connection_info) (user pw host : bytes) (dport : Z) (ssl : bool) : Prop := {
  cu : ptr_is P (ci_user ci) user; cp : ptr_is P (ci_password ci) pw; ch : ptr_is P (ci_host ci) host;
  cv : ci_vhost ci = Const slash; cpo : ci_port ci = dport; cs : ci_ssl ci = ssl }.
Lemma ci_ext P ci user pw host dport ssl Q : ci_is P ci user pw host dport ssl -> ci_is (P ++ Q) ci user pw host dport ssl.
Proof. intros [H1 H2 H3 H4 H5 H6]. constructor; auto; apply ptr_ext; auto. Qed.
Lemma port_ext P port s Q : port_is P port s -> port_is (P ++ Q) port s.
Proof. destruct port, s; cbn; auto. apply holds_ext. Qed.

Lemma mstate_cstr m url d P r p s : mstate m url d P r -> holds P p s -> cstr m p = Some (cut s).
Proof. intros M H. destruct (mstate_mem _ _ _ _ _ M) as ((Q & ->) & _). apply holds_cstr. exact H. Qed.
Lemma mstate_rd m url d P r p s : mstate m url d P r -> holds P p s -> exists c, rd m p = Some c /\ Byte.eqb c x00 = match cut s with [] => true | _ => false end.
Proof. intros M H. destruct (mstate_mem _ _ _ _ _ M) as ((Q & ->) & _). apply holds_rd. exact H. Qed.
Lemma mstate_le m url d P r : mstate m url d P r -> (length P <= S n)%nat.
Proof. intros [? ? ? H1 H2 H3 H4|? H]; [lia|]. rewrite app_length. cbn. lia. Qed.
Lemma holds_le m url d P r p s : mstate m url d P r -> holds P p s -> (p <= n)%nat.
Proof. intros M H. pose proof (mstate_le _ _ _ _ _ M). apply holds_lt in H. lia. Qed.

Lemma tail_ok m url d P r port ps ci user pw host dport ssl : mstate m url d P r -> port_is P port ps -> ci_is P ci user pw host dport ssl ->
  good (url_tail fd m url d port ci) (parse_tail cm ox dport ssl user pw host ps d r).
Proof.
  intros M HP CI. unfold url_tail, parse_tail.
  assert (K : (exists v, match ps with Some s => parse_port s | None => Some dport end = None /\
                match port with None => Some (inr ci) | Some p => match cstr m p with None => None | Some s =>
                  let (portnum, used) := strtol10 s in
                  if (used =? 0) || negb (used =? zlen s) || (portnum <? 0) || (65535 <? portnum) then Some (inl ci)
                  else Some (inr (mkCI (ci_user ci) (ci_password ci) (ci_host ci) (ci_vhost ci) portnum (ci_ssl ci))) end end = Some (inl v)) \/
              (exists v ci', match ps with Some s => parse_port s | None => Some dport end = Some v /\
                match port with None => Some (inr ci) | Some p => match cstr m p with None => None | Some s =>
                  let (portnum, used) := strtol10 s in
                  if (used =? 0) || negb (used =? zlen s) || (portnum <? 0) || (65535 <? portnum) then Some (inl ci)
                  else Some (inr (mkCI (ci_user ci) (ci_password ci) (ci_host ci) (ci_vhost ci) portnum (ci_ssl ci))) end end = Some (inr ci') /\
                ci_is P ci' user pw host v ssl)).
  { destruct port as [p|], ps as [s|]; cbn in HP; try contradiction.
    - rewrite (mstate_cstr _ _ _ _ _ _ _ M HP). unfold parse_port. destruct (strtol10 (cut s)) as [v u].
      destruct (_ || _ || _ || _); [left; eauto|]. right. do 2 eexists. split; [reflexivity|]. split; [reflexivity|].
      destruct CI as [H1 H2 H3 H4 H5 H6]. constructor; auto.
    - right. do 2 eexists. split; [reflexivity|]. split; [reflexivity|]. exact CI. }
  destruct K as [(v & -> & ->)|(v & ci' & -> & -> & CI')].
  { cbn [opt_bind]. eapply good_bad; [exact M|reflexivity]. }
  clear CI. rename CI' into CI. cbn [opt_bind]. destruct (byte_eqb_spec d x2f) as [->|ND].
  - inversion M as [P' r' d' N1 N2 N3 L E1 E2 E3 E4 E5|]; subst.
    pose proof (fd_stage P r true N3 L) as H. destruct (scan cm ox true r) as [[[dec d2] r2]|]; cbn [opt_bind].
    + destruct H as (m2 & url2 & P2 & F & M2 & (Q & ->) & HO). rewrite F. destruct (byte_eqb_spec d2 x00) as [->|N0]; cbn [negb].
      * inversion M2 as [? ? ? N|P0 L0 E1 E2 E3 E4]; [congruence|]. subst.
        exists AMQP_STATUS_OK. eexists. exists P0. split; [reflexivity|]. split; [exact L0|]. split; [reflexivity|].
        destruct (ci_ext _ _ _ _ _ _ _ Q CI) as [H1 H2 H3 H4 H5 H6]. rewrite E4. cbn. repeat split; auto. exists dec. auto.
      * eapply good_bad; [exact M2|reflexivity].
    + destruct H as (m2 & F & MB2). rewrite F. apply good_mbad. exact MB2.
  - destruct (byte_eqb_spec d x00) as [->|N0]; [|eapply good_bad; [exact M|reflexivity]].
    inversion M as [? ? ? N|P0 L0 E1 E2 E3 E4]; [congruence|]. subst.
    exists AMQP_STATUS_OK, ci', P0. destruct CI as [H1 H2 H3 H4 H5 H6]. cbn. rewrite H4. repeat split; auto. 
Qed.

Lemma port_ok m url d P r port ps ci user pw host dport ssl : mstate m url d P r -> port_is P port ps -> ci_is P ci user pw host dport ssl ->
  good (url_port fd m url d port ci) (parse_port_delim cm ox dport ssl user pw host ps d r).
Proof.
  intros M HP CI. unfold url_port, parse_port_delim. destruct (byte_eqb_spec d x3a) as [->|ND]; [|eapply tail_ok; eauto].
  inversion M as [P' r' d' N1 N2 N3 L E1 E2 E3 E4 E5|]; subst.
  pose proof (fd_stage P r true N3 L) as H. destruct (scan cm ox true r) as [[[dec d2] r2]|]; cbn [opt_bind].
  - destruct H as (m2 & url2 & P2 & F & M2 & (Q & ->) & HO). rewrite F. cbn [p_].
    eapply tail_ok; [exact M2|exact HO|]. apply ci_ext. exact CI.
  - destruct H as (m2 & F & MB2). rewrite F. apply tail_bad; [exact MB2|]. intros p K. injection K as <-. lia.
Qed.

Lemma host_ok m url d P r hp sp port h ps ci user pw dport ssl : mstate m url d P r -> holds P hp h -> port_is P port ps ->
  (match port with Some _ => hp <> sp | None => hp = sp end) -> ci_is P ci user pw localhost dport ssl ->
  good (url_host fd m url d hp sp port ci) (parse_host cm ox dport ssl user pw h ps d r).
Proof.
  intros M HH HP HS CI. unfold url_host, parse_host. destruct (mstate_rd _ _ _ _ _ _ _ M HH) as (c & RC & EC). rewrite RC, EC.
  destruct (byte_eqb_spec d x5b) as [->|ND].
  - destruct port as [p|], ps as [s|]; cbn in HP; try contradiction.
    { rewrite (proj2 (Nat.eqb_neq hp sp)) by exact HS. cbn [negb orb]. eapply good_bad; [exact M|]. reflexivity. }
    subst sp. rewrite Nat.eqb_refl. cbn [negb orb]. destruct (cut h); cbn [negb]; [|eapply good_bad; [exact M|reflexivity]].
    inversion M as [P' r' d' N1 N2 N3 L E1 E2 E3 E4 E5|]; subst.
    pose proof (fd_stage P r false N3 L) as H. destruct (scan cm ox false r) as [[[dec d2] r2]|]; cbn [opt_bind].
    2:{ destruct H as (m2 & F & MB2). rewrite F. apply good_mbad. exact MB2. }
    destruct H as (m2 & url2 & P2 & F & M2 & (Q & ->) & HO). rewrite F. cbn [p_]. clear F.
    destruct (byte_eqb_spec d2 x5d) as [->|N0]; cbn [negb]; [|eapply good_bad; [exact M2|reflexivity]].
    set (P2 := P ++ Q) in *. assert (CI2 : ci_is P2 (mkCI (ci_user ci) (ci_password ci) (At (length P)) (ci_vhost ci) (ci_port ci) (ci_ssl ci)) user pw (cut dec) dport ssl).
    { destruct (ci_ext _ _ _ _ _ _ _ Q CI) as [H1 H2 H3 H4 H5 H6]. constructor; auto. cbn. exists dec. auto. }
    inversion M2 as [P' r' d' N1' N2' N3' L' E1 E2 E3 E4 E5|]; subst.
    pose proof (fd_stage P2 r2 true N3' L') as H. destruct (scan cm ox true r2) as [[[j d3] r3]|]; cbn [opt_bind].
    + destruct H as (m3 & url3 & P3 & F & M3 & (Q3 & ->) & HO3). rewrite F. clear F. cbn [p_].
      destruct (mstate_rd _ _ _ _ _ _ _ M3 HO3) as (c3 & RC3 & EC3). rewrite RC3, EC3.
      destruct (cut j); cbn [negb]; [|eapply good_bad; [exact M3|reflexivity]].
      eapply port_ok; [exact M3|exact I|apply ci_ext; exact CI2].
    + destruct H as (m3 & F & MB2). rewrite F. destruct (mbad_rd m3 (length P2) MB2 ltac:(lia)) as (c3 & ->).
      destruct (negb (Byte.eqb c3 x00)); [apply good_mbad; exact MB2|]. apply port_bad; [exact MB2|discriminate].
  - eapply port_ok; [exact M|exact HP|]. destruct (cut h) as [|c0 h0] eqn:CH; cbn [negb]; [exact CI|].
    destruct CI as [H1 H2 H3 H4 H5 H6]. constructor; auto. cbn. exists h. auto.
Qed.

Lemma user_ok m url d P r hp sp port h ps ci dport ssl : mstate m url d P r -> holds P hp h -> port_is P port ps ->
  (match port with Some _ => hp <> sp | None => hp = sp end) -> ci_is P ci guest guest localhost dport ssl ->
  ci_password ci = Const guest ->
  good (url_user fd m url d hp sp port ci) (parse_user cm ox dport ssl h ps d r).
Proof.
  intros M HH HP HS CI CP. unfold url_user, parse_user. destruct (byte_eqb_spec d x40) as [->|ND]; [|eapply host_ok; eauto].
  inversion M as [P' r' d' N1 N2 N3 L E1 E2 E3 E4 E5|]; subst.
  pose proof (fd_stage P r true N3 L) as H. destruct (scan cm ox true r) as [[[dec d2] r2]|]; cbn [opt_bind].
  - destruct H as (m2 & url2 & P2 & F & M2 & (Q & ->) & HO). rewrite F. cbn [p_].
    eapply host_ok; [exact M2|exact HO|exact I|reflexivity|].
    destruct (ci_ext _ _ _ _ _ _ _ Q CI) as [H1 H2 H3 H4 H5 H6]. constructor; auto; cbn.
    + exists h. split; [apply holds_ext; exact HH|reflexivity].
    + destruct port as [p|], ps as [s|]; cbn in HP; try contradiction.
      * exists s. split; [apply holds_ext; exact HP|reflexivity].
      * rewrite CP. reflexivity.
  - destruct H as (m2 & F & MB2). rewrite F. apply host_bad; [exact MB2|cbn; lia|discriminate].
Qed.

Lemma body_ok P r ci dport ssl : nonul r -> (length P + length r = n)%nat -> ci_is P ci guest guest localhost dport ssl -> ci_password ci = Const guest ->
  good (url_body fd (P ++ r ++ x00 :: tail) (length P) ci) (parse_body cm ox dport ssl r).
Proof.
  intros NN L CI CP. unfold url_body, parse_body. pose proof (fd_stage P r true NN L) as H. destruct (scan cm ox true r) as [[[h d] r2]|]; cbn [opt_bind].
  2:{ destruct H as (m2 & F & MB2). rewrite F. change (Byte.eqb x25 x3a) with false. cbv iota. apply user_bad; [exact MB2|lia|discriminate]. }
  destruct H as (m2 & url2 & P2 & F & M2 & (Q & ->) & HO). rewrite F. clear F. cbn [p_].
  destruct (byte_eqb_spec d x3a) as [->|ND].
  2:{ eapply user_ok; [exact M2|exact HO|exact I|reflexivity|apply ci_ext; exact CI|exact CP]. }
  pose proof (holds_lt _ _ _ HO) as LT. inversion M2 as [P' r' d' N1' N2' N3' L' E1 E2 E3 E4 E5|]; subst.
  set (P2 := P ++ Q) in *. pose proof (fd_stage P2 r2 true N3' L') as H. destruct (scan cm ox true r2) as [[[ps d3] r3]|]; cbn [opt_bind].
  - destruct H as (m3 & url3 & P3 & F & M3 & (Q3 & ->) & HO3). rewrite F. cbn [p_].
    eapply user_ok; [exact M3|apply holds_ext; exact HO|exact HO3|lia|unfold P2; rewrite <- app_assoc; apply ci_ext; exact CI|exact CP].
  - destruct H as (m3 & F & MB2). rewrite F. apply user_bad; [exact MB2|lia|]. intros p K. injection K as <-. lia.
Qed.
End P.

Lemma starts_with_spec t s : starts_with t s = true -> exists r, s = t ++ r.
Proof.
  revert s. induction t as [|x t IH]; intros s H; [exists s; auto|]. destruct s as [|y s]; [discriminate|].
  cbn in H. apply andb_true_iff in H. destruct H as [H1 H2]. destruct (byte_eqb_spec x y) as [->|]; [|discriminate].
  destruct (IH s H2) as (r & ->). exists r. auto.
Qed.
Lemma starts_with_app t r : starts_with t (t ++ r) = true.
Proof. induction t as [|x t IH]; cbn; [reflexivity|]. destruct (byte_eqb_spec x x); [exact IH|congruence]. Qed.

Lemma parse_url_ok cm ox s tail : nonul s -> good (length s) tail (amqp_parse_url cm ox (s ++ x00 :: tail)) (parse cm ox s).
Proof.
  intros NN. unfold amqp_parse_url, parse.
  assert (CS : cstr (s ++ x00 :: tail) 0 = Some s).
  { pose proof (cstr_app [] s tail) as H. cbn [app length] in H. rewrite H, cut_nonul by exact NN. reflexivity. }
  rewrite CS. set (fuel := S (length (s ++ x00 :: tail))).
  assert (LF : (length s < fuel)%nat) by (unfold fuel; rewrite app_length; cbn; lia).
  destruct (starts_with (list_byte_of_string "amqp://") s) eqn:S1.
  { destruct (starts_with_spec _ _ S1) as (r & ->).
    change (skipn 7 (list_byte_of_string "amqp://" ++ r)) with r.
    change 7%nat with (length (list_byte_of_string "amqp://")). rewrite <- app_assoc. apply nonul_app in NN.
    apply (body_ok cm ox fuel _ tail LF); [tauto|rewrite app_length; reflexivity|constructor; reflexivity|reflexivity]. }
  destruct (starts_with (list_byte_of_string "amqps://") s) eqn:S2.
  { destruct (starts_with_spec _ _ S2) as (r & ->).
    change (skipn 8 (list_byte_of_string "amqps://" ++ r)) with r.
    change 8%nat with (length (list_byte_of_string "amqps://")). rewrite <- app_assoc. apply nonul_app in NN.
    apply (body_ok cm ox fuel _ tail LF); [tauto|rewrite app_length; reflexivity|constructor; reflexivity|reflexivity]. }
  exists AMQP_STATUS_BAD_URL, amqp_default_connection_info, s. split; [rewrite <- app_assoc; reflexivity|]. auto.
Qed.
