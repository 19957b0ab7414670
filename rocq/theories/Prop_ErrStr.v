(** C32 *)
From Coq Require Import String ZArith List Bool Lia.
From Verif Require Import Base ErrStr.
Import ListNotations.
Local Open Scope string_scope.
Local Open Scope Z_scope.

(** The status codes of include/rabbitmq-c/amqp.h:604-675 by number, with the text
    meant for each. *)
Definition documented : list (Z * string) := [
  (AMQP_STATUS_OK, "operation completed successfully");
  (AMQP_STATUS_NO_MEMORY, "could not allocate memory");
  (AMQP_STATUS_BAD_AMQP_DATA, "invalid AMQP data");
  (AMQP_STATUS_UNKNOWN_CLASS, "unknown AMQP class id");
  (AMQP_STATUS_UNKNOWN_METHOD, "unknown AMQP method id");
  (AMQP_STATUS_HOSTNAME_RESOLUTION_FAILED, "hostname lookup failed");
  (AMQP_STATUS_INCOMPATIBLE_AMQP_VERSION, "incompatible AMQP version");
  (AMQP_STATUS_CONNECTION_CLOSED, "connection closed unexpectedly");
  (AMQP_STATUS_BAD_URL, "could not parse AMQP URL");
  (AMQP_STATUS_SOCKET_ERROR, "a socket error occurred");
  (AMQP_STATUS_INVALID_PARAMETER, "invalid parameter");
  (AMQP_STATUS_TABLE_TOO_BIG, "table too large for buffer");
  (AMQP_STATUS_WRONG_METHOD, "unexpected method received");
  (AMQP_STATUS_TIMEOUT, "request timed out");
  (AMQP_STATUS_TIMER_FAILURE, "system timer has failed");
  (AMQP_STATUS_HEARTBEAT_TIMEOUT, "heartbeat timeout, connection closed");
  (AMQP_STATUS_UNEXPECTED_STATE, "unexpected protocol state");
  (AMQP_STATUS_SOCKET_CLOSED, "socket is closed");
  (AMQP_STATUS_SOCKET_INUSE, "socket already open");
  (AMQP_STATUS_BROKER_UNSUPPORTED_SASL_METHOD, "unsupported sasl method requested");
  (AMQP_STATUS_UNSUPPORTED, "parameter value is unsupported");
  (AMQP_STATUS_TCP_ERROR, "a socket error occurred");
  (AMQP_STATUS_TCP_SOCKETLIB_INIT_ERROR, "socket library initialization failed");
  (AMQP_STATUS_SSL_ERROR, "a SSL error occurred");
  (AMQP_STATUS_SSL_HOSTNAME_VERIFY_FAILED, "SSL hostname verification failed");
  (AMQP_STATUS_SSL_PEER_VERIFY_FAILED, "SSL peer cert verification failed");
  (AMQP_STATUS_SSL_CONNECTION_FAILED, "SSL handshake failed");
  (AMQP_STATUS_SSL_SET_ENGINE_FAILED, "SSL setting engine failed");
  (AMQP_STATUS_SSL_UNIMPLEMENTED, "SSL API is not implemented")].

Definition lookup (code : Z) : option string :=
  match find (fun p => (fst p - code) mod 65536 =? 0) documented with Some p => Some (snd p) | None => None end.

Definition parts (m : Z) : option string :=
  let category := m / 256 in
  let error := m mod 256 in
  if category =? EC_base then
    if error <? zlen base_error_strings then index base_error_strings error else Some unknown_error_string
  else if category =? EC_tcp then
    if error <? zlen tcp_error_strings then index tcp_error_strings error else Some unknown_error_string
  else if category =? EC_ssl then
    if error <? zlen ssl_error_strings then index ssl_error_strings error else Some unknown_error_string
  else Some unknown_error_string.

Lemma string2_parts code : code <> - M31 -> amqp_error_string2 code = parts ((- code) mod 65536).
Proof.
  intros H. unfold amqp_error_string2, parts. destruct (Z.eqb_spec code (- M31)); [contradiction|].
  assert (E1 : Z.land (- code) ERROR_MASK = (- code) mod 256) by (apply (Z.land_ones (- code) 8); lia).
  assert (E2 : Z.shiftr (Z.land (- code) ERROR_CATEGORY_MASK) 8 = ((- code) mod 65536) / 256).
  { rewrite Z.shiftr_land. change (Z.shiftr ERROR_CATEGORY_MASK 8) with (Z.ones 8). rewrite Z.land_ones by lia.
    rewrite Z.shiftr_div_pow2 by lia. change (2 ^ 8) with 256. change 65536 with (256 * 256).
    rewrite Z.rem_mul_r by lia. rewrite (Z.mul_comm 256 (_ mod 256)). rewrite Z.div_add by lia.
    rewrite (Z.div_small ((- code) mod 256)) by (apply Z.mod_pos_bound; lia). reflexivity. }
  rewrite E1, E2. replace ((- code) mod 65536 mod 256) with ((- code) mod 256); [reflexivity|].
  change 65536 with (256 * 256). rewrite Z.rem_mul_r by lia. rewrite (Z.mul_comm 256 (_ mod 256)), Z.mod_add by lia.
  symmetry. apply Z.mod_mod. lia.
Qed.

Definition expect (m : Z) : option string :=
  match find (fun p => (fst p + m) mod 65536 =? 0) documented with Some p => Some (snd p) | None => Some "(unknown error)" end.

Lemma parts_expect_small : forall m, 0 <= m < 768 -> parts m = expect m.
Proof.
  assert (A : forallb (fun n => let m := Z.of_nat n in match parts m, expect m with Some a, Some b => String.eqb a b | _, _ => false end) (seq 0 768) = true)
    by (vm_compute; reflexivity).
  intros m H. rewrite forallb_forall in A. specialize (A (Z.to_nat m)). cbv zeta in A. rewrite Z2Nat.id in A by lia.
  assert (I : In (Z.to_nat m) (seq 0 768)) by (apply in_seq; lia).
  specialize (A I). destruct (parts m), (expect m); try discriminate. apply String.eqb_eq in A. congruence.
Qed.
Lemma find_none {A} (f : A -> bool) l : (forall x, In x l -> f x = false) -> find f l = None.
Proof. intros H. induction l as [|a l IH]; [reflexivity|]. cbn. rewrite (H a) by (left; reflexivity). apply IH. intros. apply H. right. auto. Qed.
Lemma parts_expect : forall m, 0 <= m < 65536 -> parts m = expect m.
Proof.
  intros m H. destruct (Z_lt_ge_dec m 768); [apply parts_expect_small; lia|].
  assert (C : 3 <= m / 256) by (apply Z.div_le_lower_bound; lia).
  unfold parts, EC_base, EC_tcp, EC_ssl.
  destruct (Z.eqb_spec (m / 256) 0); [lia|]. destruct (Z.eqb_spec (m / 256) 1); [lia|]. destruct (Z.eqb_spec (m / 256) 2); [lia|].
  unfold expect. rewrite find_none; [reflexivity|]. intros p Hp.
  assert (A : forallb (fun p => (-768 <? fst p) && (fst p <=? 0)) documented = true) by (vm_compute; reflexivity).
  rewrite forallb_forall in A. specialize (A p Hp). apply andb_true_iff in A. destruct A as [A1 A2].
  apply Z.ltb_lt in A1. apply Z.leb_le in A2. rewrite Z.mod_small by lia. destruct (Z.eqb_spec (fst p + m) 0); [lia|reflexivity].
Qed.

Lemma find_ext {A} (f g : A -> bool) l : (forall x, f x = g x) -> find f l = find g l.
Proof. intros H. induction l as [|a l IH]; [reflexivity|]. cbn. rewrite H, IH. reflexivity. Qed.

(** For every int but INT_MIN: a string; the documented one when the code is a
    status code (or an alias of one modulo 2^16), otherwise "(unknown error)". *)
Theorem C32_every_code_partial :
  forall code, - M31 < code < M31 ->
    amqp_error_string2 code = Some (match lookup code with Some msg => msg | None => "(unknown error)" end).
Proof.
  intros code H. rewrite string2_parts by lia. rewrite parts_expect by (apply Z.mod_pos_bound; lia).
  unfold expect, lookup.
  rewrite (find_ext (fun p => (fst p + (- code) mod 65536) mod 65536 =? 0) (fun p => (fst p - code) mod 65536 =? 0)).
  2:{ intros p. rewrite Z.add_mod_idemp_r by lia. reflexivity. }
  destruct (find _ documented); reflexivity.
Qed.

(** Every status code has its own text. *)
Theorem C32_documented_statuses :
  forall st msg, In (st, msg) documented -> amqp_error_string2 st = Some msg /\
    amqp_error_string false st = Some (Some msg) /\ amqp_error_string false (- st) = Some (Some msg).
Proof.
  intros st msg H.
  assert (A : forallb (fun p => match amqp_error_string2 (fst p), amqp_error_string false (fst p), amqp_error_string false (- fst p) with
     | Some a, Some (Some b), Some (Some c) => String.eqb a (snd p) && String.eqb b (snd p) && String.eqb c (snd p) | _, _, _ => false end) documented = true)
    by (vm_compute; reflexivity).
  rewrite forallb_forall in A. specialize (A _ H). cbn [fst snd] in A.
  destruct (amqp_error_string2 st), (amqp_error_string false st) as [[|]|], (amqp_error_string false (- st)) as [[|]|]; try discriminate.
  apply andb_true_iff in A. destruct A as [A A3]. apply andb_true_iff in A. destruct A as [A1 A2].
  apply String.eqb_eq in A1, A2, A3. subst. auto.
Qed.

(** INT_MIN is the exception: -code overflows. *)
Theorem C32_int_min_refuted : amqp_error_string2 (- M31) = None /\ amqp_error_string false (- M31) = None.
Proof. split; reflexivity. Qed.

Example C32_case : amqp_error_string2 (-21) = Some "(unknown error)" /\ amqp_error_string2 (-0x0205) = Some "SSL API is not implemented" /\
  amqp_error_string2 (-65536 - 13) = Some "request timed out" /\ NoDup (map fst documented).
Proof. repeat split; try reflexivity. repeat constructor; cbn; intuition discriminate. Qed.

Print Assumptions C32_every_code_partial.
Print Assumptions C32_documented_statuses.
Print Assumptions C32_int_min_refuted.
