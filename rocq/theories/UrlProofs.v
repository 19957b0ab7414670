(** Proofs about amqp_parse_url: from memory to strings. *)
From Coq Require Import String ZArith List Bool Lia.
From Verif Require Import Base BaseFacts Pool Url.
Import ListNotations.
Local Open Scope list_scope.
Local Open Scope Z_scope.

Lemma byte_eqb_spec a b : Bool.reflect (a = b) (Byte.eqb a b).
Proof. destruct (Byte.eqb a b) eqn:E; constructor; [apply Byte.byte_dec_bl; exact E|]. intros H. rewrite (Byte.byte_dec_lb H) in E. discriminate. Qed.
Lemma eqb_false a b : a <> b -> Byte.eqb a b = false.
Proof. destruct (byte_eqb_spec a b); congruence. Qed.

Definition nonul (s : bytes) : Prop := ~ In x00 s.
Lemma nonul_cons c s : nonul (c :: s) <-> c <> x00 /\ nonul s.
Proof. unfold nonul. cbn. intuition congruence. Qed.
Lemma nonul_app a b : nonul (a ++ b) <-> nonul a /\ nonul b.
Proof. unfold nonul. rewrite in_app_iff. tauto. Qed.

(** the part of a string before its first NUL *)
Fixpoint cut (s : bytes) : bytes :=
  match s with [] => [] | c :: s => if Byte.eqb c x00 then [] else c :: cut s end.
Lemma cut_nonul s : nonul s -> cut s = s.
Proof.
  induction s as [|c s IH]; [reflexivity|]. rewrite nonul_cons. intros [H1 H2]. cbn. rewrite (eqb_false c x00) by exact H1. f_equal. auto.
Qed.
Lemma to_nul_app s t : to_nul (s ++ x00 :: t) = Some (cut s).
Proof.
  induction s as [|c s IH]; [reflexivity|]. cbn. destruct (Byte.eqb c x00); [reflexivity|]. rewrite IH. reflexivity.
Qed.
Lemma skipn_app_length {A} (a b : list A) : skipn (length a) (a ++ b) = b.
Proof. induction a; cbn; auto. Qed.
Lemma cstr_app a s t : cstr (a ++ s ++ x00 :: t) (length a) = Some (cut s).
Proof. unfold cstr. rewrite skipn_app_length. apply to_nul_app. Qed.
Lemma rd_app a c t : rd (a ++ c :: t) (length a) = Some c.
Proof. unfold rd. rewrite nth_error_app2, Nat.sub_diag by lia. reflexivity. Qed.
Lemma wr_app a c b t : wr (a ++ c :: t) (length a) b = Some (a ++ b :: t).
Proof.
  unfold wr. replace (Nat.ltb _ _) with true. 2:{ symmetry. apply Nat.ltb_lt. rewrite app_length. cbn. lia. }
  f_equal. induction a as [|x a IH]; cbn; [reflexivity|]. f_equal. exact IH.
Qed.

Lemma res_eq (m m' : bytes) (d : byte) (n n' : nat) : m = m' -> n = n' -> Some (m, d, Some n) = Some (m', d, Some n').
Proof. congruence. Qed.

Section U.
Context (cm : Z) (ox : bool).

(** ** scanning, on strings *)
Definition escape (r : bytes) : option byte :=
  match sscanf_2x ox r with
  | Some (v, chars) => if negb (chars =? 2) || (cm <? v) then None else Some (byte_of_Z v)
  | None => None
  end.

(** a component: its decoded text, the delimiter (NUL at the end), the rest *)
Fixpoint scan (colon : bool) (s : bytes) : option (bytes * byte * bytes) :=
  match s with
  | [] => Some ([], x00, [])
  | c :: r =>
    if is_delim colon c then Some ([], c, r)
    else if Byte.eqb c x25 then
      match escape r with
      | None => None
      | Some b =>
        match r with
        | _ :: _ :: r' => match scan colon r' with Some (dec, d, r') => Some (b :: dec, d, r') | None => None end
        | _ => None
        end
      end
    else match scan colon r with Some (dec, d, r') => Some (c :: dec, d, r') | None => None end
  end.

Lemma skip_spaces_spec s k s' : skip_spaces s = (k, s') -> exists w, s = w ++ s' /\ k = zlen w.
Proof.
  revert k s'. induction s as [|c s IH]; cbn; intros k s' E.
  - injection E as <- <-. exists []. auto.
  - destruct (is_space c).
    + destruct (skip_spaces s) as [k0 r0] eqn:E0. injection E as <- <-. destruct (IH _ _ eq_refl) as (w & -> & ->).
      exists (c :: w). split; [reflexivity|]. rewrite zlen_cons. lia.
    + injection E as <- <-. exists []. auto.
Qed.

(** an accepted escape has at least two characters *)
Lemma sscanf_len s v chars : sscanf_2x ox s = Some (v, chars) -> chars <= zlen s.
Proof.
  unfold sscanf_2x. destruct (skip_spaces s) as [k s'] eqn:E. destruct (skip_spaces_spec _ _ _ E) as (w & -> & ->).
  rewrite zlen_app. destruct s' as [|c r]; [discriminate|]. rewrite zlen_cons. pose proof (zlen_nonneg r).
  destruct (is_sign c).
  - destruct r as [|d r]; [discriminate|]. rewrite zlen_cons. pose proof (zlen_nonneg r). destruct (hexval d); [|discriminate]. intros K. injection K as <- <-. lia.
  - destruct (hexval c) as [w0|]; [|discriminate]. destruct r as [|d r].
    + intros K. injection K as <- <-. lia.
    + rewrite zlen_cons. pose proof (zlen_nonneg r). destruct (hexval d).
      * intros K. injection K as <- <-. lia.
      * destruct (Byte.eqb c x30 && _); [destruct ox; [|discriminate]|]; intros K; injection K as <- <-; lia.
Qed.
Lemma escape_two r b : escape r = Some b -> exists c d r', r = c :: d :: r'.
Proof.
  unfold escape. destruct (sscanf_2x ox r) as [[v chars]|] eqn:E; [|discriminate]. apply sscanf_len in E.
  destruct (Z.eqb_spec chars 2) as [->|]; [|discriminate]. intros _.
  destruct r as [|c [|d r]]; [change (zlen (@nil byte)) with 0 in E; lia| |eauto]. rewrite zlen_cons in E. change (zlen (@nil byte)) with 0 in E. lia.
Qed.

Lemma is_delim_x00 colon : is_delim colon x00 = true.
Proof. unfold is_delim. cbn. destruct colon; reflexivity. Qed.
Lemma is_delim_not_pct colon c : is_delim colon c = true -> c <> x25.
Proof. intros H ->. destruct colon; discriminate. Qed.

Lemma shift_mid (mid : bytes) c : exists y mid2, mid ++ [c] = y :: mid2 /\ length mid2 = length mid.
Proof. destruct mid as [|y mid]; [exists c, []; auto|]. exists y, (mid ++ [c]). split; [reflexivity|]. rewrite app_length. cbn. lia. Qed.

Lemma fd_spec : forall fuel s pre mid tail colon, nonul s -> (length s < fuel)%nat ->
  let r := find_delim cm ox fuel (pre ++ mid ++ s ++ x00 :: tail) (length pre + length mid) (length pre) colon in
  match scan colon s with
  | None => exists X, r = Some (pre ++ X ++ x00 :: tail, x25, None) /\ length X = (length mid + length s)%nat
  | Some (dec, d, rest) =>
    (d <> x00 /\ nonul rest /\ d <> x25 /\
     exists gap, r = Some (pre ++ dec ++ x00 :: gap ++ rest ++ x00 :: tail, d, Some (length pre + length dec + 1 + length gap)%nat) /\
       (length dec + 1 + length gap + length rest = length mid + length s)%nat) \/
    (d = x00 /\ rest = [] /\ exists g, r = Some (pre ++ dec ++ g ++ x00 :: tail, x00, Some (length pre + length mid + length s + 1)%nat) /\
       (length dec + length g = length mid + length s)%nat /\ (g = [] \/ exists g', g = x00 :: g'))
  end.
Proof.
  induction fuel as [|fuel IH]; intros s pre mid tail colon NN LF r; [lia|]. subst r.
  destruct s as [|c s].
  - cbn [scan]. right. split; [reflexivity|]. split; [reflexivity|]. cbn [find_delim app length].
    rewrite app_assoc, <- app_length, rd_app. rewrite is_delim_x00. rewrite <- app_assoc.
    destruct (shift_mid mid x00) as (y & m2 & E & L).
    replace (mid ++ x00 :: tail) with ((mid ++ [x00]) ++ tail) by (rewrite <- app_assoc; reflexivity).
    rewrite E. cbn [app]. rewrite wr_app.
    (* what follows the terminator *)
    destruct mid as [|z mid].
    + cbn in E. injection E as <- <-. exists []. split; [|split; [reflexivity|auto]]. cbn [app length]. apply res_eq; [reflexivity|cbn; lia].
    + cbn in E. injection E as <- <-. exists (x00 :: mid). split; [|split; [cbn; lia|right; eauto]].
      cbn [app length]. rewrite <- app_assoc. cbn [app]. apply res_eq; [reflexivity|rewrite app_length; cbn; lia].
  - apply nonul_cons in NN. destruct NN as [NC NS]. cbn [length] in LF.
    cbn [scan find_delim].
    assert (MEM : pre ++ mid ++ (c :: s) ++ x00 :: tail = (pre ++ mid) ++ c :: s ++ x00 :: tail) by (rewrite <- app_assoc; reflexivity).
    rewrite MEM, <- app_length, rd_app. rewrite app_length.
    destruct (shift_mid mid c) as (y & m2 & E & L).
    assert (MEM2 : (pre ++ mid) ++ c :: s ++ x00 :: tail = pre ++ y :: m2 ++ s ++ x00 :: tail).
    { rewrite <- app_assoc. f_equal. change (y :: m2 ++ s ++ x00 :: tail) with ((y :: m2) ++ s ++ x00 :: tail). rewrite <- E, <- app_assoc. reflexivity. }
    destruct (is_delim colon c) eqn:DL.
    { left. split; [exact NC|]. split; [exact NS|]. split; [exact (is_delim_not_pct _ _ DL)|]. rewrite MEM2, wr_app.
      exists m2. cbn [app length]. split; [|lia]. apply res_eq; [reflexivity|lia]. }
    destruct (byte_eqb_spec c x25) as [->|NP].
    + (* percent *)
      assert (CS : cstr ((pre ++ mid) ++ x25 :: s ++ x00 :: tail) (S (length pre + length mid)) = Some s).
      { replace ((pre ++ mid) ++ x25 :: s ++ x00 :: tail) with ((pre ++ mid ++ [x25]) ++ s ++ x00 :: tail) by (rewrite <- !app_assoc; reflexivity).
        replace (S (length pre + length mid)) with (length (pre ++ mid ++ [x25])) by (rewrite !app_length; cbn; lia).
        rewrite cstr_app, cut_nonul by exact NS. reflexivity. }
      rewrite CS. destruct (escape s) as [b|] eqn:ES.
      2:{ exists (mid ++ x25 :: s). split; [|rewrite app_length; reflexivity]. rewrite <- !app_assoc. cbn [app].
          unfold escape in ES. destruct (sscanf_2x ox s) as [[v chars]|]; [|reflexivity]. destruct (negb (chars =? 2) || (cm <? v)); [reflexivity|discriminate]. }
      destruct (escape_two _ _ ES) as (e1 & e2 & s' & ->).
      unfold escape in ES. destruct (sscanf_2x ox (e1 :: e2 :: s')) as [[v chars]|]; [|discriminate].
      destruct (negb (chars =? 2) || (cm <? v)); [discriminate|]. injection ES as <-. rewrite MEM2, wr_app.
      apply nonul_cons in NS. destruct NS as [_ NS]. apply nonul_cons in NS. destruct NS as [_ NS].
      set (b := byte_of_Z v).
      specialize (IH s' (pre ++ [b]) (m2 ++ [e1; e2]) tail colon NS ltac:(cbn [length] in LF; lia)). cbv zeta in IH.
      assert (A1 : (pre ++ [b]) ++ (m2 ++ [e1; e2]) ++ s' ++ x00 :: tail = pre ++ b :: m2 ++ (e1 :: e2 :: s') ++ x00 :: tail) by (rewrite <- !app_assoc; reflexivity).
      assert (A2 : (length (pre ++ [b]) + length (m2 ++ [e1; e2]) = S (S (S (length pre + length mid))))%nat) by (rewrite !app_length; cbn; lia).
      assert (A3 : length (pre ++ [b]) = S (length pre)) by (rewrite app_length; cbn; lia).
      rewrite A1, A2, A3 in IH. destruct (scan colon s') as [[[dec d] rest]|].
      * destruct IH as [(N1 & N2 & N3 & gap & F & G)|(-> & -> & g & F & G & H)].
        -- left. split; [exact N1|]. split; [exact N2|]. split; [exact N3|]. exists gap. rewrite F. rewrite <- !app_assoc. cbn [app length].
           rewrite app_length in G. cbn [length] in G. split; [|lia]. apply res_eq; [reflexivity|lia].
        -- right. split; [reflexivity|]. split; [reflexivity|]. exists g. rewrite F. rewrite <- !app_assoc. cbn [app length].
           rewrite app_length in *. cbn [length] in *. split; [|split; [lia|exact H]]. apply res_eq; [reflexivity|lia].
      * destruct IH as (X & F & G). exists (b :: X). rewrite F. rewrite <- !app_assoc. cbn [app length]. rewrite app_length in G. cbn [length] in *. split; [reflexivity|lia].
    + rewrite MEM2, wr_app.
      specialize (IH s (pre ++ [c]) m2 tail colon NS ltac:(lia)). cbv zeta in IH.
      assert (A1 : (pre ++ [c]) ++ m2 ++ s ++ x00 :: tail = pre ++ c :: m2 ++ s ++ x00 :: tail) by (rewrite <- !app_assoc; reflexivity).
      assert (A2 : (length (pre ++ [c]) + length m2 = S (length pre + length mid))%nat) by (rewrite !app_length; cbn; lia).
      assert (A3 : length (pre ++ [c]) = S (length pre)) by (rewrite app_length; cbn; lia).
      rewrite A1, A2, A3 in IH. destruct (scan colon s) as [[[dec d] rest]|].
      * destruct IH as [(N1 & N2 & N3 & gap & F & G)|(-> & -> & g & F & G & H)].
        -- left. split; [exact N1|]. split; [exact N2|]. split; [exact N3|]. exists gap. rewrite F. rewrite <- !app_assoc. cbn [app length].
           split; [|lia]. apply res_eq; [reflexivity|lia].
        -- right. split; [reflexivity|]. split; [reflexivity|]. exists g. rewrite F. rewrite <- !app_assoc. cbn [app length].
           split; [|split; [lia|exact H]]. apply res_eq; [reflexivity|lia].
      * destruct IH as (X & F & G). exists (c :: X). rewrite F. rewrite <- !app_assoc. cbn [app length]. split; [reflexivity|lia].
Qed.

(** [P] holds the string [dec] at offset [p] *)
Definition holds (P : bytes) (p : nat) (dec : bytes) : Prop := exists a b, P = a ++ dec ++ x00 :: b /\ length a = p.
Lemma holds_ext P p dec Q : holds P p dec -> holds (P ++ Q) p dec.
Proof. intros (a & b & -> & L). exists a, (b ++ Q). split; [|exact L]. rewrite <- !app_assoc. reflexivity. Qed.
Lemma holds_cstr P p dec Q : holds P p dec -> cstr (P ++ Q) p = Some (cut dec).
Proof. intros H. apply (holds_ext _ _ _ Q) in H. destruct H as (a & b & -> & <-). apply cstr_app. Qed.
Lemma holds_rd P p dec Q : holds P p dec -> exists c, rd (P ++ Q) p = Some c /\ Byte.eqb c x00 = match cut dec with [] => true | _ => false end.
Proof.
  intros H. apply (holds_ext _ _ _ Q) in H. destruct H as (a & b & -> & <-). destruct dec as [|c dec]; cbn [app].
  - exists x00. rewrite rd_app. auto.
  - exists c. rewrite rd_app. split; [reflexivity|]. cbn. destruct (Byte.eqb c x00); reflexivity.
Qed.
Lemma holds_lt P p dec : holds P p dec -> (p < length P)%nat.
Proof. intros (a & b & -> & <-). rewrite !app_length. cbn. lia. Qed.

(** one call of find_delim at the end of the part [P] already done *)
Lemma fd_call fuel P s tail colon : nonul s -> (length s < fuel)%nat ->
  let r := find_delim cm ox fuel (P ++ s ++ x00 :: tail) (length P) (length P) colon in
  match scan colon s with
  | None => exists X, r = Some ((P ++ X) ++ x00 :: tail, x25, None) /\ length X = length s
  | Some (dec, d, rest) =>
    (d <> x00 /\ d <> x25 /\ nonul rest /\ exists Q, r = Some ((P ++ Q) ++ rest ++ x00 :: tail, d, Some (length (P ++ Q))) /\ holds (P ++ Q) (length P) dec /\
       (length Q + length rest = length s)%nat) \/
    (d = x00 /\ rest = [] /\ exists Q, r = Some ((P ++ Q ++ [x00]) ++ tail, x00, Some (length (P ++ Q ++ [x00]))) /\ holds (P ++ Q ++ [x00]) (length P) dec /\ length Q = length s)
  end.
Proof.
  intros NN LF r. subst r. pose proof (fd_spec fuel s P [] tail colon NN LF) as H. cbv zeta in H. cbn [app length] in H. rewrite Nat.add_0_r in H.
  destruct (scan colon s) as [[[dec d] rest]|].
  - destruct H as [(N1 & N2 & N3 & gap & F & G)|(-> & -> & g & F & G & H)].
    + left. split; [exact N1|]. split; [exact N3|]. split; [exact N2|]. exists (dec ++ x00 :: gap). rewrite F. rewrite !app_length. cbn [length].
      rewrite <- !app_assoc. cbn [app]. split; [|split; [|lia]].
      * apply res_eq; [reflexivity|lia].
      * exists P, gap. auto.
    + right. split; [reflexivity|]. split; [reflexivity|]. exists (dec ++ g). rewrite F. rewrite !app_length. cbn [length]. rewrite <- !app_assoc. cbn [app].
      split; [apply res_eq; [reflexivity|lia]|]. split; [|lia]. destruct H as [->|(g' & ->)].
      * exists P, []. rewrite app_nil_l. auto.
      * exists P, (g' ++ [x00]). auto.
  - destruct H as (X & F & G). exists X. rewrite F. rewrite <- app_assoc. split; [reflexivity|lia].
Qed.

(** ** the parser, on strings *)
Record info := mkInfo { in_user : bytes; in_password : bytes; in_host : bytes; in_vhost : bytes; in_port : Z; in_ssl : bool }.

Definition opt_bind {A B} (x : option A) (f : A -> option B) : option B := match x with Some a => f a | None => None end.

(** port, then vhost *)
Definition parse_port (s : bytes) : option Z :=
  let (portnum, used) := strtol10 (cut s) in
  if (used =? 0) || negb (used =? zlen (cut s)) || (portnum <? 0) || (65535 <? portnum) then None else Some portnum.

Definition parse_tail (dport : Z) (ssl : bool) (user pw host : bytes) (port : option bytes) (delim : byte) (r : bytes) : option info :=
  opt_bind (match port with Some s => parse_port s | None => Some dport end) (fun p =>
  if Byte.eqb delim x2f then
    opt_bind (scan true r) (fun x => let '(v, d, _) := x in
      if Byte.eqb d x00 then Some (mkInfo user pw host (cut v) p ssl) else None)
  else if Byte.eqb delim x00 then Some (mkInfo user pw host slash p ssl) else None).

Definition parse_port_delim (dport : Z) (ssl : bool) (user pw host : bytes) (port : option bytes) (delim : byte) (r : bytes) : option info :=
  if Byte.eqb delim x3a then
    opt_bind (scan true r) (fun x => let '(ps, d, r) := x in parse_tail dport ssl user pw host (Some ps) d r)
  else parse_tail dport ssl user pw host port delim r.

Definition parse_host (dport : Z) (ssl : bool) (user pw h : bytes) (port : option bytes) (delim : byte) (r : bytes) : option info :=
  if Byte.eqb delim x5b then
    match port, cut h with
    | None, [] =>
      opt_bind (scan false r) (fun x => let '(h, d, r) := x in
      if Byte.eqb d x5d then
        opt_bind (scan true r) (fun x => let '(j, d, r) := x in
        match cut j with [] => parse_port_delim dport ssl user pw (cut h) None d r | _ => None end)
      else None)
    | _, _ => None
    end
  else parse_port_delim dport ssl user pw (match cut h with [] => localhost | s => s end) port delim r.

Definition parse_user (dport : Z) (ssl : bool) (h : bytes) (port : option bytes) (delim : byte) (r : bytes) : option info :=
  if Byte.eqb delim x40 then
    opt_bind (scan true r) (fun x => let '(h2, d, r) := x in
    parse_host dport ssl (cut h) (match port with Some p => cut p | None => guest end) h2 None d r)
  else parse_host dport ssl guest guest h port delim r.

Definition parse_body (dport : Z) (ssl : bool) (s : bytes) : option info :=
  opt_bind (scan true s) (fun x => let '(h, d, r) := x in
  if Byte.eqb d x3a then opt_bind (scan true r) (fun x => let '(p, d, r) := x in parse_user dport ssl h (Some p) d r)
  else parse_user dport ssl h None d r).

Definition parse (s : bytes) : option info :=
  if starts_with (list_byte_of_string "amqp://") s then parse_body 5672 false (skipn 7 s)
  else if starts_with (list_byte_of_string "amqps://") s then parse_body 5671 true (skipn 8 s)
  else None.
End U.
