(** Specification side of the framing layer: the AMQP 0-9-1 frame format, and a
    driver that hands a byte stream to amqp_handle_input piece by piece. *)
From Coq Require Import String ZArith List Bool.
From Verif Require Import Base Codec TableModel TableSpec FramingStmt FramingModel MethodSpec Frame.
Import ListNotations.
Local Open Scope Z_scope.

(** AMQP 0-9-1, 4.2.3: type octet, channel, payload size, payload, 0xCE *)
Definition wire (ty chan : Z) (payload : bytes) : bytes :=
  be 1 ty ++ be 2 chan ++ be 4 (zlen payload) ++ payload ++ [xce].

(** A frame an application can send, in terms of the protocol. *)
Inductive aframe :=
| AMethod (c i : Z) (fs : list (string * dom)) (args : mstruct)
| AContent (body_size flags : Z) (ms : mstruct) (pl : list (string * dom * mval))
| ABody (b : bytes)
| AHeartbeat.

(** The corresponding C structure. *)
Definition c_frame (chan : Z) (a : aframe) : frame :=
  match a with
  | AMethod c i _ args => mkFrame 1 chan (PMethod (method_id c i) args) 0
  | AContent size flags ms _ => mkFrame 2 chan (PHeader 60 size (mkProps flags ms) []) 0
  | ABody b => mkFrame 3 chan (PBody b) 0
  | AHeartbeat => mkFrame 8 chan PNone 0
  end.

Definition type_of (a : aframe) : Z :=
  match a with AMethod _ _ _ _ => 1 | AContent _ _ _ _ => 2 | ABody _ => 3 | AHeartbeat => 8 end.

(** The payload on the wire (4.2.4 method, 4.2.6.1 content header, body). *)
Definition ser_payload (a : aframe) : bytes :=
  match a with
  | AMethod c i fs args => be 2 c ++ be 2 i ++ ser_method fs args
  | AContent size flags _ pl => be 2 60 ++ be 2 0 ++ be 8 size ++ ser_props flags pl
  | ABody b => b
  | AHeartbeat => []
  end.
Definition ser_frame (chan : Z) (a : aframe) : bytes := wire (type_of a) chan (ser_payload a).

(** C types and AMQP limits of the contents *)
Definition aframe_ok (a : aframe) : Prop :=
  match a with
  | AMethod c i fs args => In (c, i, fs) catalogue /\ well_typed fs args
  | AContent size flags ms pl =>
      0 <= size < M64 /\ 0 <= flags < M32 /\ present flags basic_catalogue ms = Some pl /\ props_typed pl
  | ABody _ | AHeartbeat => True
  end.
Definition aframe_representable (a : aframe) : bool :=
  match a with
  | AMethod _ _ fs args => representable_args fs args
  | AContent _ _ _ pl => props_representable pl
  | _ => true
  end.
Definition aframe_tables_ok (a : aframe) : Prop :=
  match a with
  | AMethod _ _ _ args => tables_ok args
  | AContent _ _ _ pl => props_tables_ok pl
  | _ => True
  end.

(** What the receiver is given for it (gen: see Frame.v). *)
Definition received_frame (gen : nat) (chan : Z) (a : aframe) : frame :=
  mkFrame (type_of a) chan
    (match a with
     | AMethod c i _ args => PMethod (method_id c i) (norm_struct args)
     | AContent size flags _ pl => PHeader 60 size (mkProps (wire_flags flags) (received_props pl)) (ser_props flags pl)
     | ABody b => PBody b
     | AHeartbeat => PNone
     end) gen.

(** ** Driving amqp_handle_input with a piece of the stream: call it on what is
    left until nothing is left or it fails.  Frames of type 0 are no frames. *)
Inductive outcome := NeedMore (s : inst) | Failed (st : Z) (s : inst) | Undefined | Aborted | NoFuel.

Definition emit (f : frame) (r : list frame * outcome) : list frame * outcome :=
  (if f_type f =? 0 then fst r else f :: fst r, snd r).

Fixpoint feed (fuel : nat) (E : nat -> aenv) (s : inst) (data : bytes) : list frame * outcome :=
  match data, fuel with
  | [], _ => ([], NeedMore s)
  | _, O => ([], NoFuel)
  | _, S fuel =>
    match amqp_handle_input E s data with
    | HRet res f s =>
      if res <? 0 then ([], Failed res s)
      else emit f (feed fuel E s (skipn (Z.to_nat res) data))
    | HUB => ([], Undefined)
    | HAbort => ([], Aborted)
    end
  end.

(** a whole sequence of pieces, as they arrive from the network *)
Fixpoint feed_all (E : nat -> aenv) (s : inst) (pieces : list bytes) : list frame * outcome :=
  match pieces with
  | [] => ([], NeedMore s)
  | d :: r =>
    match feed (length d) E s d with
    | (fs, NeedMore s) => (fs ++ fst (feed_all E s r), snd (feed_all E s r))
    | (fs, o) => (fs, o)
    end
  end.

(** Between two frames. *)
Definition idle (s : inst) : Prop :=
  i_state s = IDLE /\ i_buf s = IHdr /\ i_off s = 0 /\ i_target s = 7 /\ zlen (i_hdr s) = 8.

(** All allocations succeed. *)
Definition never_fails (E : nat -> aenv) : Prop :=
  forall n, ae_nopool (E n) = false /\ ae_noblock (E n) = false /\ ae_oom (E n) = no_oom.

(** [x] is one complete frame on the wire and [f] is what the application is
    given for it; frames of a type the library does not know are dropped (type
    0).  [oom]: the allocation failures while decoding it. *)
Definition is_frame (oom : Z -> Z -> bool) (gen : nat) (x : bytes) (f : frame) : Prop :=
  exists ty chan payload,
    x = wire ty chan payload /\ 0 <= ty < 256 /\ 0 <= chan < 65536 /\ zlen payload < M31 /\
    f_chan f = chan /\ f_gen f = gen /\
    ((ty = 1 /\ f_type f = 1 /\ exists id args m n, 0 <= id < M32 /\
        payload = be 4 id ++ args /\ f_pay f = PMethod id m /\ amqp_decode_method id args oom = DOk m n)
     \/ (ty = 2 /\ f_type f = 2 /\ exists class_id weight size enc p n,
        0 <= class_id < M16 /\ 0 <= size < M64 /\
        payload = be 2 class_id ++ be 2 weight ++ be 8 size ++ enc /\ f_pay f = PHeader class_id size p enc /\
        amqp_decode_properties class_id enc oom = DOk p n)
     \/ (ty = 3 /\ f_type f = 3 /\ f_pay f = PBody payload)
     \/ (ty = 8 /\ f_type f = 8 /\ f_pay f = PNone)
     \/ (ty <> 1 /\ ty <> 2 /\ ty <> 3 /\ ty <> 8 /\ f_type f = 0)).

(** The frames on which amqp_handle_input leaves the received frame (C13):
    method frames with less than three bytes of payload, content headers with
    less than twelve, and content headers with three or more flag words. *)
Definition third_flag_word (enc : bytes) : Prop :=
  zlen enc >= 6 /\ Z.odd (Z_of_byte (nth 1 enc x00)) = true /\ Z.odd (Z_of_byte (nth 3 enc x00)) = true.
Definition malformed (x : bytes) : Prop :=
  exists ty chan payload, x = wire ty chan payload /\ zlen payload < M31 /\
    ((ty = 1 /\ zlen payload < 3) \/
     (ty = 2 /\ (zlen payload < 12 \/ third_flag_word (skipn 12 payload)))).

(** [delivered E fm gens n w fs n' rest]: the stream [w] is a sequence of
    complete frames of at most [fm] bytes each, followed by [rest]; [fs] are the
    frames the application is given for them.  [n] counts frames (for the
    allocation oracle). *)
Inductive delivered (E : nat -> aenv) (fm : Z) (gens : Z -> nat) : nat -> bytes -> list frame -> nat -> bytes -> Prop :=
| dl_end n rest : delivered E fm gens n rest [] n rest
| dl_frame n x f w fs n' rest :
    is_frame (ae_oom (E n)) (gens (f_chan f)) x f -> zlen x <= fm -> delivered E fm gens (S n) w fs n' rest ->
    delivered E fm gens n (x ++ w) (if f_type f =? 0 then fs else f :: fs) n' rest.

(** The payload size a frame header announces. *)
Definition announced (w : bytes) : Z := be_val 0 (firstn 4 (skipn 3 w)).

(** What is left of the stream when the library stops. *)
Definition stopped_at (fm : Z) (e : aenv) (rest : bytes) (o : outcome) : Prop :=
  match o with
  | NeedMore _ =>       (* an incomplete frame that may still become a good one *)
      zlen rest < 7 \/ (announced rest < INT_MAX /\ announced rest + 8 <= fm /\ zlen rest < announced rest + 8)
  | Failed st _ =>      (* an announced size that is too large, a complete frame that is not a good one, or no memory *)
      7 <= zlen rest /\
      ((st = AMQP_STATUS_BAD_AMQP_DATA /\ (announced rest >= INT_MAX \/ announced rest + 8 > fm))
       \/ (st < 0 /\ announced rest + 8 <= zlen rest /\ announced rest + 8 <= fm)
       \/ (st = AMQP_STATUS_NO_MEMORY /\ (ae_nopool e = true \/ ae_noblock e = true)))
  | Undefined => exists x y, rest = x ++ y /\ malformed x
  | Aborted | NoFuel => False
  end.

(** A connection that has not received anything yet (Frame.v: new_inst is one). *)
Definition untouched (s : inst) : Prop :=
  i_state s = INITIAL /\ i_buf s = IHdr /\ i_off s = 0 /\ i_target s = 8 /\ zlen (i_hdr s) = 8.
