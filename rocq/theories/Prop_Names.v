(** C68: numbers are named as the protocol names them.

    amqp_method_name, amqp_method_has_content, amqp_constant_name and
    amqp_constant_is_hard_error give, for every number, the answer of the AMQP documents
    (NameSpec.v). *)
From Coq Require Import String ZArith List Bool Lia.
From Verif Require Import Base BaseFacts FramingStmt FramingGen FramingModel MethodSpec NameSpec.
Import ListNotations.
Local Open Scope string_scope.
Local Open Scope Z_scope.

Lemma switch_in {A} n : forall (l : list (Z * A)) x, switch n l = Some x -> In (n, x) l.
Proof. induction l as [|[k v] l IH]; intros x H; cbn in H; [discriminate|]. destruct (n =? k) eqn:E; [injection H as ->; apply Z.eqb_eq in E; subst; left; reflexivity|right; auto]. Qed.
Lemma switch_none {A} n : forall (l : list (Z * A)), switch n l = None -> ~ In n (map fst l).
Proof. induction l as [|[k v] l IH]; intros H; cbn in *; [auto|]. destruct (n =? k) eqn:E; [discriminate|]. apply Z.eqb_neq in E. intros [K|K]; [congruence|]. apply (IH H K). Qed.
Lemma switch_some {A} n (l : list (Z * A)) x : NoDup (map fst l) -> In (n, x) l -> switch n l = Some x.
Proof.
  induction l as [|[k v] l IH]; intros D H; [destruct H|]. cbn in *. inversion D as [|? ? D1 D2]; subst. destruct H as [H|H].
  - injection H as -> ->. rewrite Z.eqb_refl. reflexivity.
  - destruct (n =? k) eqn:E; [|auto]. apply Z.eqb_eq in E. subst. contradiction D1. apply in_map_iff. exists (k, x). auto.
Qed.
Definition spec_names : list (Z * string) :=
  flat_map (fun c => map (fun m => (method_id (fst (fst c)) (fst m), "AMQP_" ++ snd (fst c) ++ "_" ++ snd m ++ "_METHOD")) (snd c)) classes.
Lemma spec_called n s : In (n, s) spec_names <-> exists c m, n = method_id c m /\ called c m s.
Proof.
  unfold spec_names, called. rewrite in_flat_map. split.
  - intros ([[c cn] ms] & H1 & H2). apply in_map_iff in H2 as ([m mn] & H2 & H3). cbn [fst snd] in *. injection H2 as <- <-. exists c, m. split; [reflexivity|]. exists cn, ms, mn. auto.
  - intros (c & m & -> & cn & ms & mn & H1 & H2 & ->). exists (c, cn, ms). split; [exact H1|]. apply in_map_iff. exists (m, mn). auto.
Qed.
Lemma tables_agree : method_name_table = spec_names.
Proof. vm_compute. reflexivity. Qed.
Fixpoint distinctb (l : list Z) : bool := match l with [] => true | x :: l => negb (existsb (Z.eqb x) l) && distinctb l end.
Lemma distinctb_ok : forall l, distinctb l = true -> NoDup l.
Proof.
  induction l as [|x l IH]; intros H; [constructor|]. cbn in H. apply andb_prop in H as [H1 H2]. constructor; [|auto]. intros K. apply negb_true_iff in H1.
  assert (existsb (Z.eqb x) l = true) as C; [|congruence]. apply existsb_exists. exists x. split; [exact K|apply Z.eqb_refl].
Qed.

Fixpoint dist (l : list string) : bool := match l with [] => true | x :: l => negb (existsb (String.eqb x) l) && dist l end.
Lemma dist_ok : forall l, dist l = true -> NoDup l.
Proof.
  induction l as [|x l IH]; intros H; [constructor|]. cbn in H. apply andb_prop in H as [H1 H2]. constructor; [|auto]. intros K. apply negb_true_iff in H1.
  assert (existsb (String.eqb x) l = true) as C; [|congruence]. apply existsb_exists. exists x. split; [exact K|apply String.eqb_refl].
Qed.

(** A number has a name exactly if it is a method of the protocol, and the name is that of
    the class and the method. *)
Theorem C68_method_name : forall n s, amqp_method_name n = Some s <-> exists c m, n = method_id c m /\ called c m s.
Proof.
  intros n s. rewrite <- spec_called. unfold amqp_method_name. rewrite tables_agree. split; [apply switch_in|]. apply switch_some. apply distinctb_ok. vm_compute. reflexivity.
Qed.
(** The named methods are those whose layout is known (C07). *)
Theorem C68_all_methods : forall c m, (exists s, called c m s) <-> exists args, In (c, m, args) catalogue.
Proof.
  intros c m.
  assert (flat_map (fun k => map (fun x => (fst (fst k), fst x)) (snd k)) classes = map fst catalogue) as T by (vm_compute; reflexivity).
  assert (In (c, m) (map fst catalogue) <-> exists args, In (c, m, args) catalogue) as K.
  { rewrite in_map_iff. split; [intros ([k args] & H & G); cbn [fst] in H; subst k; eauto|intros (args & H); exists (c, m, args); auto]. }
  rewrite <- K, <- T, in_flat_map. split.
  - intros (s & cn & ms & mn & H1 & H2 & _). exists (c, cn, ms). split; [exact H1|]. apply in_map_iff. exists (m, mn). auto.
  - intros ([[c' cn] ms] & H1 & H2). apply in_map_iff in H2 as ([m' mn] & H2 & H3). cbn [fst snd] in *. injection H2 as -> ->.
    eexists. exists cn, ms, mn. split; [exact H1|]. split; [exact H3|reflexivity].
Qed.
(** Different methods have different names. *)
Theorem C68_names_differ : forall n1 n2 s, amqp_method_name n1 = Some s -> amqp_method_name n2 = Some s -> n1 = n2.
Proof.
  intros n1 n2 s H1 H2. apply switch_in in H1, H2. unfold amqp_method_name in *.
  assert (NoDup (map snd method_name_table)) as D. { apply dist_ok. vm_compute. reflexivity. }
  clear -H1 H2 D. revert D H1 H2. generalize method_name_table. induction l as [|[k v] l IH]; intros D H1 H2; [destruct H1|]. inversion D as [|? ? D1 D2]; subst.
  destruct H1 as [H1|H1], H2 as [H2|H2]; [congruence| | |auto].
  - injection H1 as -> ->. contradiction D1. apply in_map_iff. exists (n2, s). auto.
  - injection H2 as -> ->. contradiction D1. apply in_map_iff. exists (n1, s). auto.
Qed.
(** Exactly publish, return, deliver and get-ok carry content. *)
Theorem C68_has_content : forall n, amqp_method_has_content n = true <-> exists c m, n = method_id c m /\ In (c, m) content_methods.
Proof.
  intros n. unfold amqp_method_has_content. rewrite existsb_exists. split.
  - intros (x & H & E). apply Z.eqb_eq in E. subst x. unfold has_content_table in H.
    destruct H as [H|[H|[H|[H|[]]]]]; subst n; [exists 60, 40|exists 60, 50|exists 60, 60|exists 60, 71]; (split; [reflexivity|]); unfold content_methods; cbn; auto.
  - intros (c & m & -> & H). exists (method_id c m). split; [|apply Z.eqb_refl].
    destruct H as [H|[H|[H|[H|[]]]]]; injection H as <- <-; vm_compute; auto 10.
Qed.
(** Names of the constants. *)
Definition spec_constants : list (Z * string) := map (fun x => (fst x, "AMQP_" ++ snd x)) (frame_constants ++ map fst reply_codes).
Theorem C68_constant_name : forall n,
  (forall s, In (n, s) (frame_constants ++ map fst reply_codes) -> amqp_constant_name n = "AMQP_" ++ s) /\
  (~ In n (map fst (frame_constants ++ map fst reply_codes)) -> amqp_constant_name n = "(unknown)").
Proof.
  intros n. unfold amqp_constant_name. assert (map fst constant_name_table = map fst (frame_constants ++ map fst reply_codes)) as K by (vm_compute; reflexivity).
  assert (constant_name_table = spec_constants) as T by (vm_compute; reflexivity). split.
  - intros s H. rewrite (switch_some n constant_name_table ("AMQP_" ++ s)); [reflexivity| |].
    + apply distinctb_ok. vm_compute. reflexivity.
    + rewrite T. unfold spec_constants. apply in_map_iff. exists (n, s). auto.
  - intros H. destruct (switch n constant_name_table) eqn:E; [|reflexivity]. apply switch_in in E. contradiction H. rewrite <- K. apply in_map_iff. exists (n, s). auto.
Qed.
Lemma hard_in n : existsb (fun x => (n =? fst (fst x)) && snd x) reply_codes = true -> exists s, In (n, s, true) reply_codes.
Proof.
  intros H. apply existsb_exists in H as ([[k s] b] & H1 & H2). cbn [fst snd] in H2. apply andb_prop in H2 as [H2 ->]. apply Z.eqb_eq in H2. subst k. exists s. exact H1.
Qed.
(** A hard error is a reply code that closes the connection. *)
Theorem C68_hard_error : forall n, amqp_constant_is_hard_error n = true <-> exists s, In (n, s, true) reply_codes.
Proof.
  intros n. unfold amqp_constant_is_hard_error. rewrite existsb_exists. split.
  - intros (x & H & E). apply Z.eqb_eq in E. subst x. unfold hard_error_table in H. cbn [In] in H.
    repeat (destruct H as [H|H]; [subst n; apply hard_in; vm_compute; reflexivity|]). destruct H.
  - intros (s & H). exists n. split; [|apply Z.eqb_refl]. unfold reply_codes in H. cbn [In] in H.
    repeat (destruct H as [H|H]; [first [discriminate H | injection H as <- _; vm_compute; tauto]|]). destruct H.
Qed.
(** ** The macros of amqp_framing.h, each with its name *)
Definition method_macros : list (Z * string) := [
  (AMQP_CONNECTION_START_METHOD, "AMQP_CONNECTION_START_METHOD"); (AMQP_CONNECTION_START_OK_METHOD, "AMQP_CONNECTION_START_OK_METHOD");
  (AMQP_CONNECTION_SECURE_METHOD, "AMQP_CONNECTION_SECURE_METHOD"); (AMQP_CONNECTION_SECURE_OK_METHOD, "AMQP_CONNECTION_SECURE_OK_METHOD");
  (AMQP_CONNECTION_TUNE_METHOD, "AMQP_CONNECTION_TUNE_METHOD"); (AMQP_CONNECTION_TUNE_OK_METHOD, "AMQP_CONNECTION_TUNE_OK_METHOD");
  (AMQP_CONNECTION_OPEN_METHOD, "AMQP_CONNECTION_OPEN_METHOD"); (AMQP_CONNECTION_OPEN_OK_METHOD, "AMQP_CONNECTION_OPEN_OK_METHOD");
  (AMQP_CONNECTION_CLOSE_METHOD, "AMQP_CONNECTION_CLOSE_METHOD"); (AMQP_CONNECTION_CLOSE_OK_METHOD, "AMQP_CONNECTION_CLOSE_OK_METHOD");
  (AMQP_CONNECTION_BLOCKED_METHOD, "AMQP_CONNECTION_BLOCKED_METHOD"); (AMQP_CONNECTION_UNBLOCKED_METHOD, "AMQP_CONNECTION_UNBLOCKED_METHOD");
  (AMQP_CONNECTION_UPDATE_SECRET_METHOD, "AMQP_CONNECTION_UPDATE_SECRET_METHOD");
  (AMQP_CONNECTION_UPDATE_SECRET_OK_METHOD, "AMQP_CONNECTION_UPDATE_SECRET_OK_METHOD"); (AMQP_CHANNEL_OPEN_METHOD, "AMQP_CHANNEL_OPEN_METHOD");
  (AMQP_CHANNEL_OPEN_OK_METHOD, "AMQP_CHANNEL_OPEN_OK_METHOD"); (AMQP_CHANNEL_FLOW_METHOD, "AMQP_CHANNEL_FLOW_METHOD");
  (AMQP_CHANNEL_FLOW_OK_METHOD, "AMQP_CHANNEL_FLOW_OK_METHOD"); (AMQP_CHANNEL_CLOSE_METHOD, "AMQP_CHANNEL_CLOSE_METHOD");
  (AMQP_CHANNEL_CLOSE_OK_METHOD, "AMQP_CHANNEL_CLOSE_OK_METHOD"); (AMQP_ACCESS_REQUEST_METHOD, "AMQP_ACCESS_REQUEST_METHOD");
  (AMQP_ACCESS_REQUEST_OK_METHOD, "AMQP_ACCESS_REQUEST_OK_METHOD"); (AMQP_EXCHANGE_DECLARE_METHOD, "AMQP_EXCHANGE_DECLARE_METHOD");
  (AMQP_EXCHANGE_DECLARE_OK_METHOD, "AMQP_EXCHANGE_DECLARE_OK_METHOD"); (AMQP_EXCHANGE_DELETE_METHOD, "AMQP_EXCHANGE_DELETE_METHOD");
  (AMQP_EXCHANGE_DELETE_OK_METHOD, "AMQP_EXCHANGE_DELETE_OK_METHOD"); (AMQP_EXCHANGE_BIND_METHOD, "AMQP_EXCHANGE_BIND_METHOD");
  (AMQP_EXCHANGE_BIND_OK_METHOD, "AMQP_EXCHANGE_BIND_OK_METHOD"); (AMQP_EXCHANGE_UNBIND_METHOD, "AMQP_EXCHANGE_UNBIND_METHOD");
  (AMQP_EXCHANGE_UNBIND_OK_METHOD, "AMQP_EXCHANGE_UNBIND_OK_METHOD"); (AMQP_QUEUE_DECLARE_METHOD, "AMQP_QUEUE_DECLARE_METHOD");
  (AMQP_QUEUE_DECLARE_OK_METHOD, "AMQP_QUEUE_DECLARE_OK_METHOD"); (AMQP_QUEUE_BIND_METHOD, "AMQP_QUEUE_BIND_METHOD");
  (AMQP_QUEUE_BIND_OK_METHOD, "AMQP_QUEUE_BIND_OK_METHOD"); (AMQP_QUEUE_PURGE_METHOD, "AMQP_QUEUE_PURGE_METHOD");
  (AMQP_QUEUE_PURGE_OK_METHOD, "AMQP_QUEUE_PURGE_OK_METHOD"); (AMQP_QUEUE_DELETE_METHOD, "AMQP_QUEUE_DELETE_METHOD");
  (AMQP_QUEUE_DELETE_OK_METHOD, "AMQP_QUEUE_DELETE_OK_METHOD"); (AMQP_QUEUE_UNBIND_METHOD, "AMQP_QUEUE_UNBIND_METHOD");
  (AMQP_QUEUE_UNBIND_OK_METHOD, "AMQP_QUEUE_UNBIND_OK_METHOD"); (AMQP_BASIC_QOS_METHOD, "AMQP_BASIC_QOS_METHOD");
  (AMQP_BASIC_QOS_OK_METHOD, "AMQP_BASIC_QOS_OK_METHOD"); (AMQP_BASIC_CONSUME_METHOD, "AMQP_BASIC_CONSUME_METHOD");
  (AMQP_BASIC_CONSUME_OK_METHOD, "AMQP_BASIC_CONSUME_OK_METHOD"); (AMQP_BASIC_CANCEL_METHOD, "AMQP_BASIC_CANCEL_METHOD");
  (AMQP_BASIC_CANCEL_OK_METHOD, "AMQP_BASIC_CANCEL_OK_METHOD"); (AMQP_BASIC_PUBLISH_METHOD, "AMQP_BASIC_PUBLISH_METHOD");
  (AMQP_BASIC_RETURN_METHOD, "AMQP_BASIC_RETURN_METHOD"); (AMQP_BASIC_DELIVER_METHOD, "AMQP_BASIC_DELIVER_METHOD");
  (AMQP_BASIC_GET_METHOD, "AMQP_BASIC_GET_METHOD"); (AMQP_BASIC_GET_OK_METHOD, "AMQP_BASIC_GET_OK_METHOD");
  (AMQP_BASIC_GET_EMPTY_METHOD, "AMQP_BASIC_GET_EMPTY_METHOD"); (AMQP_BASIC_ACK_METHOD, "AMQP_BASIC_ACK_METHOD");
  (AMQP_BASIC_REJECT_METHOD, "AMQP_BASIC_REJECT_METHOD"); (AMQP_BASIC_RECOVER_ASYNC_METHOD, "AMQP_BASIC_RECOVER_ASYNC_METHOD");
  (AMQP_BASIC_RECOVER_METHOD, "AMQP_BASIC_RECOVER_METHOD"); (AMQP_BASIC_RECOVER_OK_METHOD, "AMQP_BASIC_RECOVER_OK_METHOD");
  (AMQP_BASIC_NACK_METHOD, "AMQP_BASIC_NACK_METHOD"); (AMQP_TX_SELECT_METHOD, "AMQP_TX_SELECT_METHOD");
  (AMQP_TX_SELECT_OK_METHOD, "AMQP_TX_SELECT_OK_METHOD"); (AMQP_TX_COMMIT_METHOD, "AMQP_TX_COMMIT_METHOD");
  (AMQP_TX_COMMIT_OK_METHOD, "AMQP_TX_COMMIT_OK_METHOD"); (AMQP_TX_ROLLBACK_METHOD, "AMQP_TX_ROLLBACK_METHOD");
  (AMQP_TX_ROLLBACK_OK_METHOD, "AMQP_TX_ROLLBACK_OK_METHOD"); (AMQP_CONFIRM_SELECT_METHOD, "AMQP_CONFIRM_SELECT_METHOD");
  (AMQP_CONFIRM_SELECT_OK_METHOD, "AMQP_CONFIRM_SELECT_OK_METHOD")].
Definition constant_macros : list (Z * string) := [
  (AMQP_FRAME_METHOD, "AMQP_FRAME_METHOD"); (AMQP_FRAME_HEADER, "AMQP_FRAME_HEADER"); (AMQP_FRAME_BODY, "AMQP_FRAME_BODY");
  (AMQP_FRAME_HEARTBEAT, "AMQP_FRAME_HEARTBEAT"); (AMQP_FRAME_MIN_SIZE, "AMQP_FRAME_MIN_SIZE"); (AMQP_FRAME_END, "AMQP_FRAME_END");
  (AMQP_REPLY_SUCCESS, "AMQP_REPLY_SUCCESS"); (AMQP_CONTENT_TOO_LARGE, "AMQP_CONTENT_TOO_LARGE"); (AMQP_NO_ROUTE, "AMQP_NO_ROUTE");
  (AMQP_NO_CONSUMERS, "AMQP_NO_CONSUMERS"); (AMQP_ACCESS_REFUSED, "AMQP_ACCESS_REFUSED"); (AMQP_NOT_FOUND, "AMQP_NOT_FOUND");
  (AMQP_RESOURCE_LOCKED, "AMQP_RESOURCE_LOCKED"); (AMQP_PRECONDITION_FAILED, "AMQP_PRECONDITION_FAILED");
  (AMQP_CONNECTION_FORCED, "AMQP_CONNECTION_FORCED"); (AMQP_INVALID_PATH, "AMQP_INVALID_PATH"); (AMQP_FRAME_ERROR, "AMQP_FRAME_ERROR");
  (AMQP_SYNTAX_ERROR, "AMQP_SYNTAX_ERROR"); (AMQP_COMMAND_INVALID, "AMQP_COMMAND_INVALID"); (AMQP_CHANNEL_ERROR, "AMQP_CHANNEL_ERROR");
  (AMQP_UNEXPECTED_FRAME, "AMQP_UNEXPECTED_FRAME"); (AMQP_RESOURCE_ERROR, "AMQP_RESOURCE_ERROR"); (AMQP_NOT_ALLOWED, "AMQP_NOT_ALLOWED");
  (AMQP_NOT_IMPLEMENTED, "AMQP_NOT_IMPLEMENTED"); (AMQP_INTERNAL_ERROR, "AMQP_INTERNAL_ERROR")].
Definition flag_macros : list (Z * string) := [
  (AMQP_BASIC_CONTENT_TYPE_FLAG, "AMQP_BASIC_CONTENT_TYPE_FLAG"); (AMQP_BASIC_CONTENT_ENCODING_FLAG, "AMQP_BASIC_CONTENT_ENCODING_FLAG");
  (AMQP_BASIC_HEADERS_FLAG, "AMQP_BASIC_HEADERS_FLAG"); (AMQP_BASIC_DELIVERY_MODE_FLAG, "AMQP_BASIC_DELIVERY_MODE_FLAG");
  (AMQP_BASIC_PRIORITY_FLAG, "AMQP_BASIC_PRIORITY_FLAG"); (AMQP_BASIC_CORRELATION_ID_FLAG, "AMQP_BASIC_CORRELATION_ID_FLAG");
  (AMQP_BASIC_REPLY_TO_FLAG, "AMQP_BASIC_REPLY_TO_FLAG"); (AMQP_BASIC_EXPIRATION_FLAG, "AMQP_BASIC_EXPIRATION_FLAG");
  (AMQP_BASIC_MESSAGE_ID_FLAG, "AMQP_BASIC_MESSAGE_ID_FLAG"); (AMQP_BASIC_TIMESTAMP_FLAG, "AMQP_BASIC_TIMESTAMP_FLAG");
  (AMQP_BASIC_TYPE_FLAG, "AMQP_BASIC_TYPE_FLAG"); (AMQP_BASIC_USER_ID_FLAG, "AMQP_BASIC_USER_ID_FLAG");
  (AMQP_BASIC_APP_ID_FLAG, "AMQP_BASIC_APP_ID_FLAG"); (AMQP_BASIC_CLUSTER_ID_FLAG, "AMQP_BASIC_CLUSTER_ID_FLAG")].
(** the properties of class basic, in the order of their flags in a content header, from bit 15 down *)
Definition basic_properties : list string :=
  ["CONTENT_TYPE"; "CONTENT_ENCODING"; "HEADERS"; "DELIVERY_MODE"; "PRIORITY"; "CORRELATION_ID"; "REPLY_TO"; "EXPIRATION"; "MESSAGE_ID"; "TIMESTAMP"; "TYPE"; "USER_ID"; "APP_ID"; "CLUSTER_ID"].
(** Every macro has the value that the protocol gives to what it is named after, and
    everything in the protocol has its macro. *)
Theorem C68_macros :
  (forall n s, In (n, s) method_macros <-> exists c m, n = method_id c m /\ called c m s) /\
  (forall n s, In (n, s) constant_macros <-> exists t, s = "AMQP_" ++ t /\ In (n, t) (frame_constants ++ map fst reply_codes)) /\
  (forall n s, In (n, s) flag_macros <-> exists i t, nth_error basic_properties i = Some t /\ s = "AMQP_BASIC_" ++ t ++ "_FLAG" /\ n = 2 ^ (15 - Z.of_nat i)) /\
  (AMQP_PROTOCOL_VERSION_MAJOR, AMQP_PROTOCOL_VERSION_MINOR, AMQP_PROTOCOL_VERSION_REVISION, AMQP_PROTOCOL_PORT) = (0, 9, 1, 5672).
Proof.
  assert (method_macros = spec_names) as E1 by (vm_compute; reflexivity).
  assert (constant_macros = spec_constants) as E2 by (vm_compute; reflexivity).
  assert (flag_macros = map (fun i => (2 ^ (15 - Z.of_nat i), "AMQP_BASIC_" ++ nth i basic_properties "" ++ "_FLAG")) (seq 0 14)) as E3 by (vm_compute; reflexivity).
  split; [|split; [|split; [|reflexivity]]]; intros n s.
  - rewrite E1. apply spec_called.
  - rewrite E2. unfold spec_constants. rewrite in_map_iff. split.
    + intros ([k t] & H & K). cbn [fst snd] in H. apply pair_equal_spec in H. destruct H as [<- <-]. exists t. split; [reflexivity|exact K].
    + intros (t & -> & K). exists (n, t). split; [reflexivity|exact K].
  - rewrite E3, in_map_iff. split.
    + intros (i & H & K). apply pair_equal_spec in H. destruct H as [<- <-]. apply in_seq in K. exists i, (nth i basic_properties ""). split; [apply nth_error_nth'; cbn [length basic_properties]; lia|split; reflexivity].
    + intros (i & t & H & -> & ->). exists i. rewrite (nth_error_nth _ _ "" H). split; [reflexivity|]. apply in_seq. assert (i < length basic_properties)%nat as L by (apply nth_error_Some; congruence). cbn in L. lia.
Qed.
Example C68_example : amqp_method_name (method_id 60 120) = Some "AMQP_BASIC_NACK_METHOD" /\ amqp_method_name 0x003C0079 = None /\
  amqp_method_has_content (method_id 60 71) = true /\ amqp_constant_name 404 = "AMQP_NOT_FOUND" /\ amqp_constant_is_hard_error 404 = false /\ amqp_constant_is_hard_error 530 = true.
Proof. repeat split. Qed.

Print Assumptions C68_method_name.
Print Assumptions C68_all_methods.
Print Assumptions C68_names_differ.
Print Assumptions C68_has_content.
Print Assumptions C68_constant_name.
Print Assumptions C68_hard_error.
Print Assumptions C68_macros.
