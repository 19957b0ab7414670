(** C81: during a login the client never gets ahead of the server; the credentials are not
    sent before the server has offered the mechanism. *)
From Coq Require Import String ZArith List Bool Lia.
From Verif Require Import Base BaseFacts Codec TableModel TableSpec FramingStmt FramingGen FramingModel MethodSpec Frame FrameSpec Time Sasl Net NetApi NetSpec NetFacts
  LoginSpec NetLogin SpeakSpec ParleySpec NetLoginWire Prop_Login.
From Verif Require Prop_Safe Prop_Sasl.
Import ListNotations.
Local Open Scope Z_scope.
Local Open Scope list_scope.

(** At every moment of a login, on any connection on which nothing has been negotiated: the
    login has returned (with success or not) or it has come to any point in between (the
    events are those until then; [Halt]). *)
Theorem C81_never_ahead :
  forall (N : nat) (E : nat -> aenv) (platform : string) (vhost : bytes) (cm fm hb : Z) (p : option table) (cr : credentials) (c : conn) (ev : list event),
    fresh c -> Prop_Safe.arguments_ok (Login platform vhost cm fm hb p cr) ->
    match exec N E (Login platform vhost cm fm hb p cr) c ev with
    | Done _ _ _ l | Halt _ _ l => never_ahead platform vhost cm fm hb p cr l
    end.
Proof.
  intros N E pf vh cm fm hb p cr c ev Hf (A1 & A2 & A3 & A4 & A5).
  assert (wp (exec N E (Login pf vh cm fm hb p cr)) c ev (fun _ _ _ l => never_ahead pf vh cm fm hb p cr l) (fun _ _ l => never_ahead pf vh cm fm hb p cr l)) as H.
  { cbn [exec]. unfold amqp_login_with_properties. apply wp_bind. wstep.
    eapply wp_conseq; [apply login_wire; assumption| |auto]; cbv beta. intros r c' ev' l H. apply wp_ret. rewrite app_nil_r. exact H. }
  unfold wp in H. destruct (exec _ _ _ _ _); exact H.
Qed.

(** the greeting of a server that can be trusted with these credentials *)
Definition offers (cr : credentials) (f : frame) : Prop :=
  exists server_props mechanisms locales,
    server_method f CONNECTION_START [("version_major", VInt 0); ("version_minor", VInt 9);
      ("server_properties", VTable server_props); ("mechanisms", VBytes mechanisms); ("locales", VBytes locales)]%string /\
    Prop_Sasl.is_word (mechanism cr) mechanisms.
(** As long as no such greeting has been received, nothing but the protocol header or a
    beginning of it has been sent; in particular nothing of the user name or the password. *)
Theorem C81_credentials_kept :
  forall (N : nat) (E : nat -> aenv) (platform : string) (vhost : bytes) (cm fm hb : Z) (p : option table) (cr : credentials) (c : conn) (ev : list event),
    fresh c -> Prop_Safe.arguments_ok (Login platform vhost cm fm hb p cr) ->
    match exec N E (Login platform vhost cm fm hb p cr) c ev with
    | Done _ _ _ l | Halt _ _ l => (forall f, In f (frames l) -> ~ offers cr f) -> prefix (out_bytes l) amqp_header
    end.
Proof.
  intros N E pf vh cm fm hb p cr c ev Hf Ha. pose proof (C81_never_ahead N E pf vh cm fm hb p cr c ev Hf Ha) as H.
  assert (forall l, never_ahead pf vh cm fm hb p cr l -> (forall f, In f (frames l) -> ~ offers cr f) -> prefix (out_bytes l) amqp_header) as K.
  { intros l [K|(hdr & Hh & K)] Hno; [exact K|]. exfalso.
    assert (forall la lb lc sp, greeted pf p cr sp lb hdr la -> (forall f, In f (frames la) -> In f (frames lc)) -> (forall f, In f (frames lc) -> ~ offers cr f) -> False) as G.
    { intros la lb lc sp (l1 & l2 & l3 & hbs & f & mm & me & lo & -> & _ & _ & _ & G4 & _ & G6 & -> & G7 & _) Hin Hn. apply (Hn f); [|exists lb, me, lo; split; [exact G6|exact G7]].
      apply Hin. rewrite !frames_app. apply in_or_app. right. apply in_or_app. left. rewrite G4. apply in_or_app. right. left. reflexivity. }
    assert (forall la lb f, In f (frames la) -> In f (frames (la ++ lb))) as L by (intros; rewrite frames_app; apply in_or_app; auto).
    destruct K as [(props & l1 & l2 & -> & K & _)|[(props & sp & s1 & s2 & s3 & l1 & l2 & l3 & -> & K & _)|(props & sp & s1 & s2 & s3 & l1 & l2 & l3 & -> & K & _)]].
    - destruct K as (la & lb & hbs & f & sp & me & lo & -> & _ & _ & _ & G4 & _ & G6 & G7). apply (Hno f); [|exists sp, me, lo; auto].
      apply L. rewrite frames_app. apply in_or_app. right. rewrite G4. apply in_or_app. right. left. reflexivity.
    - eapply G; [exact K|apply L|exact Hno].
    - eapply G; [exact K|apply L|exact Hno]. }
  destruct (exec _ _ _ _ _); apply K, H.
Qed.

(** ** Cases *)
(** a server that offers other mechanisms gets the header and nothing else *)
Definition plainless : bytes := ser_frame 0 (AMethod 10 10 [("version_major", Octet); ("version_minor", Octet); ("server_properties", Tbl); ("mechanisms", LongStr); ("locales", LongStr)]%string
  [("version_major", VInt 0); ("version_minor", VInt 9); ("server_properties", VTable []); ("mechanisms", VBytes (lit "AMQPLAIN EXTERNAL")); ("locales", VBytes (lit "en_US"))]%string).
Example C81_refused :
  match exec 100 zero_env (a_login 131072 0) (new_connection 5)
          [EvClock 1; EvSend (SOk 8); EvClock 1; EvClock 2; EvRecv (ROk plainless); EvClone (fun _ => false); EvClose true] with
  | Done (OutReply (RLibrary st)) c' ev' l => st = AMQP_STATUS_BROKER_UNSUPPORTED_SASL_METHOD /\ out_bytes l = amqp_header /\ zlen (frames l) = 1
  | _ => False
  end.
Proof. vm_compute. repeat split. Qed.
(** a login in the middle of start-ok: the connection takes 100 bytes of it, then no more *)
Example C81_middle :
  match exec 100 zero_env (a_login 131072 0) (new_connection 5)
          [EvClock 1; EvSend (SOk 8); EvClock 1; EvClock 2; EvRecv (ROk the_start); EvClone (fun _ => false); EvAlloc true; EvClone (fun _ => false); EvSend (SOk 100)] with
  | Halt Blocked c' l => out_bytes l = amqp_header ++ firstn 100 (start_ok (library_properties "Linux") (lit "PLAIN") ([x00] ++ lit "guest" ++ [x00] ++ lit "guest"))
  | _ => False
  end.
Proof. vm_compute. reflexivity. Qed.
Print Assumptions C81_never_ahead.
Print Assumptions C81_credentials_kept.
