(** C73: the complete lists of the statuses each call can report. *)
From Coq Require Import String ZArith List Bool Lia.
From Verif Require Import Base BaseFacts Codec TableModel TableSpec TableOps FramingStmt FramingGen FramingModel MethodSpec
  Frame FrameSpec Time Sasl Net NetApi NetSpec NetFacts NetSend NetWalk CalmSpec SpeakSpec NetNear CodesSpec NetCodes NetCodesAll NetCodesLogin Prop_Frame Prop_Publish Prop_Wire.
Import ListNotations.
Local Open Scope Z_scope.

(** ** Theorems *)
(** A program has made some calls and makes one more, which returns.  What it reports is
    success, an answer of the server, or one of the statuses listed for it - for every
    behaviour of the network, the peer and the allocator, in every state of the connection
    (open, closed, broken), if the clock does not go back. *)
Theorem C73_codes :
  forall (N : nat) (E : nat -> aenv) (calls : list api) (a : api) (c c1 c2 : conn) (ev ev1 ev2 : list event) (outs : list outcome_t) (o : outcome_t) (l1 l2 : list obs) (T : Z),
    Forall given_args (a :: calls) -> settled_at T c ->
    exec_all N E calls c ev = Done outs c1 ev1 l1 ->
    exec N E a c1 ev1 = Done o c2 ev2 l2 ->
    steady T (l1 ++ l2) ->
    reports (failures (c_to c1) a) o (c_recent c2).
Proof.
  intros N E calls a c c1 c2 ev ev1 ev2 outs o l1 l2 T HF Hn H1 H2 Hs. apply steady_app in Hs. destruct Hs as [S1 S2].
  pose proof (kn_exec_all N E calls T c Hn (Forall_inv_tail HF) ev) as K1. unfold wp in K1. rewrite H1 in K1. destruct (K1 S1) as [Hn1 _].
  pose proof (kn_exec N E _ a c1 Hn1 (Forall_inv HF) ev1) as K2. unfold wp in K2. rewrite H2 in K2. apply K2, S2.
Qed.
(** The lists hold statuses that amqp.h declares, without AMQP_STATUS_OK, and nothing else;
    the exception are the numbers 1 to 7 that a login can report. *)
Theorem C73_declared :
  forall (to : timeouts) (a : api) (st : Z), In st (failures to a) ->
    (In st declared_statuses /\ st < 0) \/ ((exists pf vh cm fm hb p cr, a = Login pf vh cm fm hb p cr) /\ 1 <= st <= 7).
Proof.
  intros to a st H.
  assert (forall l, In st l -> forallb (fun x => existsb (Z.eqb x) declared_statuses && (x <? 0)) l = true -> In st declared_statuses /\ st < 0) as Hd.
  { intros l Hl Hb. rewrite forallb_forall in Hb. specialize (Hb st Hl). apply andb_prop in Hb. destruct Hb as [B1 B2]. apply Z.ltb_lt in B2. split; [|exact B2].
    apply existsb_exists in B1. destruct B1 as (x & Hx & He). apply Z.eqb_eq in He. subst. exact Hx. }
  assert (forall t l, In st (unless_negative t l) -> forallb (fun x => existsb (Z.eqb x) declared_statuses && (x <? 0)) l = true -> In st declared_statuses /\ st < 0) as Hu.
  { intros t l Hl Hb. unfold unless_negative in Hl. destruct (negative t); [eapply Hd; [exact Hl|reflexivity]|]. apply in_app_or in Hl. destruct Hl as [Hl|Hl]; [|eapply Hd; eassumption].
    destruct t; [|destruct Hl]. eapply Hd; [exact Hl|reflexivity]. }
  assert (forall t l, In st (limit t ++ l) -> forallb (fun x => existsb (Z.eqb x) declared_statuses && (x <? 0)) l = true -> In st declared_statuses /\ st < 0) as Hl0.
  { intros t l Hl Hb. apply in_app_or in Hl. destruct Hl as [Hl|Hl]; [|eapply Hd; eassumption]. destruct t; [|destruct Hl]. eapply Hd; [exact Hl|reflexivity]. }
  destruct a; cbn [failures] in H; unfold code_refused in H; try (left; eapply Hd; [exact H|reflexivity]); try (left; eapply Hu; [exact H|reflexivity]); try (left; eapply Hl0; [exact H|reflexivity]).
  - destruct (_ && _); left; [eapply Hl0; [exact H|reflexivity]|eapply Hd; [exact H|reflexivity]].
  - destruct (_ && _); left; [eapply Hl0; [exact H|reflexivity]|eapply Hd; [exact H|reflexivity]].
  - destruct (negative t); left; (eapply Hd; [exact H|reflexivity]).
  - destruct (negative t); left; (eapply Hd; [exact H|reflexivity]).
  - destruct (_ || _) in H; [left; eapply Hd; [exact H|reflexivity]|]. apply in_app_or in H. destruct H as [H|H]; [right|left; eapply Hl0; [exact H|reflexivity]].
    split; [repeat eexists|]. destruct (amqp_get_handshake_timeout to); [|destruct H]. cbn [In] in H. lia.
Qed.

(** ** The lists are exact *)
Definition idle_in (buf : bytes) (hb_due : bool) (fd : Z) (out : Z) : conn :=
  let c := set_sbuf (set_fd (set_outbuf small_conn (repeat x00 (Z.to_nat out))) fd) buf in
  if hb_due then set_next_recv (set_next_send (with_hb c 10) 5000000000) 30000000000 else c.
Definition wire_of (t : byte) (payload : bytes) (tail : byte) : bytes := [t; x00; x01; x00; x00; x00; byte_of_Z (zlen payload)] ++ payload ++ [tail].
Definition ack_wire : bytes := ser_frame 1 ack_7.
Definition no_pool : nat -> aenv := fun _ => mkA true false (fun _ => x5a) no_oom.
Definition waits (st : Z) (c : conn) (E : nat -> aenv) (ev : list event) : Prop :=
  settled_at 1000000000 c /\
  match exec 10 E (WaitFrame None) c ev with Done (OutFrame r _) _ _ l => r = st /\ steady 1000000000 l | _ => False end.
Ltac settled := split; [unfold settled_at, on_time; split; [split; [lia|]; split; [cbn; lia|]; split; [first [left; reflexivity|right; cbn; lia]|vm_compute; reflexivity]|split; [first [left; reflexivity|right; cbn; lia]|split; [cbn; lia|split; [cbn; lia|vm_compute; reflexivity]]]]|].
Ltac shown := settled; vm_compute; split; [reflexivity|repeat split; auto; try (right; split; congruence)].
(** every status listed for waiting occurs *)
Theorem C73_wait_exact : forall st, In st wait_failures -> exists c E ev, waits st c E ev.
Proof.
  intros st H. unfold wait_failures, link_failures, input_failures in H. cbn [In app] in H.
  destruct H as [<-|[<-|[<-|[<-|[<-|[<-|[<-|[<-|[<-|[<-|[]]]]]]]]]]].
  - exists (idle_in [] false 5 40), plain_env, [EvRecv (ROk [])]. shown.
  - exists (idle_in [] true (-1) 40), plain_env, [EvClock 6000000000]. shown.
  - exists (idle_in [] false 5 40), plain_env, [EvRecv RErr]. shown.
  - exists (idle_in [] false 5 40), plain_env, [EvRecv RTls]. shown.
  - exists (idle_in [] true 5 40), plain_env, [EvClock 0]. shown.
  - exists (idle_in ack_wire false 5 40), no_pool, []. shown.
  - exists (idle_in (wire_of x01 [x00; x3c; x00; x50; x00] x00) false 5 40), plain_env, []. shown.
  - exists (idle_in (wire_of x02 [x00; x3d; x00; x00; x00; x00; x00; x00; x00; x00; x00; x00; x00; x00] xce) false 5 40), plain_env, []. shown.
  - exists (idle_in (wire_of x01 [x00; x63; x00; x63] xce) false 5 40), plain_env, []. shown.
  - exists (idle_in [] true 5 40), plain_env, [EvClock 4000000000; EvRecv RAgain; EvClock 4000000000; EvPoll PTimeout; EvClock 6000000000; EvSend (SOk 99); EvClock 40000000000; EvRecv RAgain; EvClock 40000000000; EvPoll PTimeout; EvClose true]. shown.
Qed.
Definition sends (st : Z) (f : frame) (c : conn) (ev : list event) : Prop :=
  settled_at 1000000000 c /\
  match exec 10 plain_env (SendFrame f) c ev with Done (OutStatus r) _ _ l => r = st /\ steady 1000000000 l | _ => False end.
Definition method_1 (id : Z) (m : mstruct) : frame := mkFrame 1 1 (PMethod id m) 0.
Definition ack_frame : frame := method_1 BASIC_ACK [("delivery_tag", VInt 7); ("multiple", VBool 0)]%string.
Definition start_ok (t : table) : frame :=
  method_1 CONNECTION_START_OK [("client_properties", VTable t); ("mechanism", VBytes [x41]); ("response", VBytes []); ("locale", VBytes [])]%string.
(** every status listed for sending occurs *)
Theorem C73_send_exact : forall st, In st send_failures -> exists f c ev, sends st f c ev.
Proof.
  intros st H. unfold send_failures, output_failures, wait_failures, link_failures, input_failures in H. cbn [In app] in H.
  destruct H as [<-|[<-|[<-|[<-|[<-|[<-|[<-|[<-|[<-|[<-|[<-|[<-|[<-|[<-|[<-|[]]]]]]]]]]]]]]]].
  - exists ack_frame, (idle_in [] false 5 12), []. shown.
  - exists (start_ok [([x6b], FUtf8 (repeat x61 60))]), (idle_in [] false 5 40), []. shown.
  - exists (start_ok [([x6b], FOther 1)]), (idle_in [] false 5 40), []. shown.
  - exists (method_1 6488163 []), (idle_in [] false 5 40), []. shown.
  - exists (mkFrame 2 1 (PHeader 61 0 (mkProps 0 []) []) 0), (idle_in [] false 5 40), []. shown.
  - exists ack_frame, (idle_in [] false 5 40), [EvSend SEof]. shown.
  - exists ack_frame, (idle_in [] false (-1) 40), []. shown.
  - exists ack_frame, (idle_in [] false 5 40), [EvSend (SOk 4); EvSend SErr]. shown.
  - exists ack_frame, (idle_in [] false 5 40), [EvSend STls]. shown.
  - exists ack_frame, (idle_in [] true 5 40), [EvSend (SOk 99); EvClock 0]. shown.
  - exists ack_frame, (idle_in ack_wire true 5 40), [EvSend (SOk 3); EvSend SAgain; EvClock 2000000000; EvPoll PTimeout; EvAlloc false]. shown.
  - exists ack_frame, (idle_in [] false 5 12), []. shown.
  - exists (mkFrame 2 1 (PHeader 61 0 (mkProps 0 []) []) 0), (idle_in [] false 5 40), []. shown.
  - exists (method_1 6488163 []), (idle_in [] false 5 40), []. shown.
  - exists ack_frame, (idle_in [] true 5 40), [EvSend (SOk 3); EvSend SAgain; EvClock 2000000000; EvPoll PTimeout; EvClock 2000000000; EvRecv RAgain; EvClock 3000000000; EvPoll PTimeout]. shown.
Qed.
(** and the others *)
Definition comes (st : Z) (calls : list api) (c : conn) (ev : list event) : Prop :=
  settled_at 1000000000 c /\ Forall given_args calls /\
  match exec_all 10 plain_env calls c ev with
  | Done outs _ _ l => match last outs OutNothing with OutReply (RLibrary r) | OutConfirm (RLibrary r) _ | OutMessage (RLibrary r) _ | OutMethod r _ _ | OutFrame r _ => r = st | _ => False end /\ steady 1000000000 l
  | Halt _ _ _ => False
  end.
Definition poll_ends : list event := [EvClock 2000000000; EvSend (SOk 99); EvRecv RAgain; EvClock 3000000000; EvPoll PTimeout; EvClose true].
Theorem C73_other_cases :
  comes AMQP_STATUS_TIMEOUT [SetRpcTimeout (Some (mkTv 1 0)); BasicGet 1 [x71] 0] (idle_in [] false 5 40) poll_ends /\
  comes AMQP_STATUS_TIMEOUT [WaitFrame (Some (mkTv 1 0))] (idle_in [] false 5 40) [EvClock 2000000000; EvRecv RAgain; EvClock 3000000000; EvPoll PTimeout] /\
  comes AMQP_STATUS_INVALID_PARAMETER [WaitFrame (Some (mkTv (-1) 0))] (idle_in [] false 5 40) [] /\
  comes AMQP_STATUS_WRONG_METHOD [WaitMethod 1 BASIC_NACK] (idle_in ack_wire false 5 40) [] /\
  comes AMQP_STATUS_UNEXPECTED_STATE [ReadMessage 1] (idle_in ack_wire false 5 40) [EvAlloc true] /\
  comes AMQP_STATUS_INVALID_PARAMETER [ChannelClose 1 65536] (idle_in [] false 5 40) [] /\
  comes 3 [Login "Linux" [x2f] 0 131072 0 (Some []) (Plain [x75] [x70])] (set_fd (new_connection 5) 5)
    [EvClock 1000000000; EvSend (SOk 3); EvSend SAgain; EvClock 2000000000; EvPoll PTimeout; EvClose true].
Proof.
  repeat match goal with |- _ /\ comes _ _ _ _ => split | |- comes _ _ _ _ /\ _ => split end.
  all: settled; (split; [repeat constructor; cbn; try lia; first [left; reflexivity|right; cbn; lia]|]).
  all: vm_compute; split; [reflexivity|repeat split; auto; try (right; split; congruence)].
Qed.
(** The hypothesis on the time limits matters: for a limit of 3000000 seconds (34 days) the
    "status" is a number that means nothing (amqp_time_ms_until does not fit into an int and
    amqp_poll takes the negative result for an error). *)
Example C73_excessive_timeout :
  match exec 10 plain_env (WaitFrame (Some (mkTv 3000000 0))) (idle_in [] false 5 40) [EvClock 2000000000; EvRecv RAgain; EvClock 2000000000] with
  | Done (OutFrame r _) _ _ _ => r = -1294967296 /\ ~ In r declared_statuses
  | _ => False
  end.
Proof. vm_compute. split; [reflexivity|]. intuition discriminate. Qed.

Print Assumptions C73_codes.
Print Assumptions C73_declared.
Print Assumptions C73_wait_exact.
Print Assumptions C73_send_exact.
Print Assumptions C73_other_cases.
