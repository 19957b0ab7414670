(** Model of the framing layer, librabbitmq/amqp_connection.c:
    amqp_handle_input, its helpers, and amqp_frame_to_bytes. *)
From Coq Require Import String ZArith List Bool.
From Verif Require Import Base Codec TableModel FramingStmt FramingGen FramingModel.
Import ListNotations.
Local Open Scope Z_scope.

(** amqp_private.h:96-97 *)
Definition HEADER_SIZE := 7.
Definition FOOTER_SIZE := 1.
(** amqp_private.h:99 'A' *)
Definition AMQP_PSEUDOFRAME_PROTOCOL_HEADER := 0x41.

(** include/rabbitmq-c/amqp.h:502-540 amqp_frame_t.  [f_gen] is not part of the
    C structure: it is the generation of the channel pool that the frame's data
    lives in (see [i_gens]). *)
Inductive payload :=
| PNone                                                    (* not assigned *)
| PMethod (id : Z) (decoded : mstruct)
| PHeader (class_id body_size : Z) (decoded : props) (raw : bytes)
| PBody (fragment : bytes)
| PProto (transport_high transport_low major minor : Z).
Record frame := mkFrame { f_type : Z; f_chan : Z; f_pay : payload; f_gen : nat }.

(** A frame structure whose type was set to 0 on entry (amqp_connection.c:212) *)
Definition no_frame : frame := mkFrame 0 0 PNone 0.

(** amqp_private.h:81-86 *)
Inductive cstate := IDLE | INITIAL | HEADER | BODY.

(** What inbound_buffer.bytes points to: the header_buffer, a block allocated
    from the pool of a channel (with the generation of the pool at that time), or
    nothing. *)
Inductive ibuf := IHdr | IBlock (chan : Z) (gen : nat) (bs : bytes) | INull.

(** The part of amqp_connection_state_t that amqp_handle_input uses.
    [i_gens c] counts how often the pool of channel c has been recycled;
    [i_nf] counts completed frames (it indexes the allocation oracle).  Both
    are not part of the C structure. *)
Record inst := mkIn {
  i_state : cstate;
  i_frame_max : Z;         (* int *)
  i_hdr : bytes;           (* char header_buffer[8] *)
  i_buf : ibuf;            (* inbound_buffer *)
  i_off : Z;               (* inbound_offset *)
  i_target : Z;            (* target_size *)
  i_gens : Z -> nat;
  i_nf : nat }.

(** Allocation oracle for one frame: whether the channel's pool cannot be
    created, whether the frame block cannot be allocated, the contents of a fresh
    block, and the allocation failures during decoding. *)
Record aenv := mkA { ae_nopool : bool; ae_noblock : bool; ae_junk : nat -> byte; ae_oom : Z -> Z -> bool }.
Definition fresh_block (e : aenv) (n : Z) : bytes := map (ae_junk e) (seq 0 (Z.to_nat n)).

(** amqp_connection.c:180-186 *)
Definition return_to_idle (s : inst) : inst :=
  mkIn IDLE (i_frame_max s) (i_hdr s) IHdr 0 HEADER_SIZE (i_gens s) (S (i_nf s)).

(** amqp_connection.c:188-203: (bytes consumed, new state, rest of the data).
    [None]: undefined behaviour - a write outside the buffer, to a NULL pointer,
    or to a block whose pool was recycled. *)
Definition consume_data (s : inst) (received : bytes) : option (Z * inst * bytes) :=
  let n0 := sub_size (i_target s) (i_off s) in
  let n := if zlen received <? n0 then zlen received else n0 in
  let src := firstn (Z.to_nat n) received in
  let rest := skipn (Z.to_nat n) received in
  let off := add_size (i_off s) n in
  match i_buf s with
  | IHdr =>
    match write (i_hdr s) (i_off s) src with
    | Some h => Some (n, mkIn (i_state s) (i_frame_max s) h IHdr off (i_target s) (i_gens s) (i_nf s), rest)
    | None => None
    end
  | IBlock c g bs =>
    if Nat.eqb g (i_gens s c) then
      match write bs (i_off s) src with
      | Some b => Some (n, mkIn (i_state s) (i_frame_max s) (i_hdr s) (IBlock c g b) off (i_target s) (i_gens s) (i_nf s), rest)
      | None => None
      end
    else None
  | INull => None
  end.

(** The bytes inbound_buffer.bytes points to, if any (and if still alive). *)
Definition raw_bytes (s : inst) : option bytes :=
  match i_buf s with
  | IHdr => Some (i_hdr s)
  | IBlock c g bs => if Nat.eqb g (i_gens s c) then Some bs else None
  | INull => None
  end.

(** amqp_d8/16/32/64 at an offset of a block (amqp_private.h:213-291) *)
Definition d_at (w : width) (mem : bytes) (o : Z) : option Z :=
  match slice mem o (wbytes w) with Some bs => Some (amqp_d LittleEndian w bs) | None => None end.
(** amqp_e8/16/32/64 at an offset of a block *)
Definition e_at (w : width) (v : Z) (mem : bytes) (o : Z) : option bytes :=
  write mem o (amqp_e LittleEndian w (v mod wmod w)).

Inductive hres :=
| HRet (res : Z) (f : frame) (s : inst)
| HUB
| HAbort.

Notation "'let?' x := a 'in' b" := (match a with Some x => b | None => HUB end)
  (at level 200, x pattern, right associativity).

(** Result of amqp_decode_method / amqp_decode_properties inside a frame. *)
Definition decoded {A} (r : dres A) (err : Z -> hres) (ok : A -> hres) : hres :=
  match r with
  | DOk a _ => ok a
  | DErr st _ => err st
  | DUB | DFuel => HUB
  end.

(** amqp_connection.c:301-369: case CONNECTION_STATE_BODY, with the complete
    frame in inbound_buffer.  [bytes_consumed] is the count so far.

    The length of [encoded] is target_size minus a constant in size_t: it wraps
    around for short frames.  The block then starts at the very end of the frame
    (or beyond) and every access through it is out of bounds; the model says so
    by cases: a method without arguments accesses nothing. *)
Definition handle_body (E : nat -> aenv) (bytes_consumed : Z) (s : inst) : hres :=
  let e := E (i_nf s) in
  let? raw := raw_bytes s in
  let? footer := d_at W8 raw (sub_size (i_target s) 1) in
  if negb (footer =? AMQP_FRAME_END) then HRet AMQP_STATUS_BAD_AMQP_DATA no_frame s
  else
    let? frame_type := d_at W8 raw 0 in
    let? channel := d_at W16 raw 1 in
    if ae_nopool e then HRet AMQP_STATUS_NO_MEMORY (mkFrame frame_type channel PNone 0) s
    else
      let err st := HRet st (mkFrame frame_type channel PNone 0) s in
      let done ty pay :=
        HRet (signed M32 bytes_consumed) (mkFrame ty channel pay (i_gens s channel)) (return_to_idle s) in
      if frame_type =? AMQP_FRAME_METHOD then
        let? id := d_at W32 raw HEADER_SIZE in
        let len := sub_size (i_target s) (HEADER_SIZE + 4 + FOOTER_SIZE) in
        match slice raw (HEADER_SIZE + 4) len with
        | Some enc => decoded (amqp_decode_method id enc (ae_oom e)) err (fun m => done frame_type (PMethod id m))
        | None =>
          match switch id dec_table with
          | None => err AMQP_STATUS_UNKNOWN_METHOD
          | Some [] => if ae_oom e SITE_METHOD 0 then err AMQP_STATUS_NO_MEMORY else done frame_type (PMethod id [])
          | Some (_ :: _) => HUB
          end
        end
      else if frame_type =? AMQP_FRAME_HEADER then
        let? class_id := d_at W16 raw HEADER_SIZE in
        let? body_size := d_at W64 raw (HEADER_SIZE + 4) in
        let len := sub_size (i_target s) (HEADER_SIZE + 12 + FOOTER_SIZE) in
        match slice raw (HEADER_SIZE + 12) len with
        | Some enc =>
          decoded (amqp_decode_properties class_id enc (ae_oom e)) err
            (fun p => done frame_type (PHeader class_id body_size p enc))
        | None => HUB
        end
      else if frame_type =? AMQP_FRAME_BODY then
        let? fragment := slice raw HEADER_SIZE (sub_size (i_target s) (HEADER_SIZE + FOOTER_SIZE)) in
        done frame_type (PBody fragment)
      else if frame_type =? AMQP_FRAME_HEARTBEAT then done frame_type PNone
      else done 0 PNone.

(** amqp_connection.c:255-298: case CONNECTION_STATE_HEADER *)
Definition handle_header (E : nat -> aenv) (bytes_consumed : Z) (s : inst) (received : bytes) : hres :=
  let e := E (i_nf s) in
  let? raw := raw_bytes s in
  let? channel := d_at W16 raw 1 in
  let? frame_size := d_at W32 raw 3 in
  if INT_MAX <=? frame_size then HRet AMQP_STATUS_BAD_AMQP_DATA no_frame s
  else
    let frame_size := u32 (frame_size + HEADER_SIZE + FOOTER_SIZE) in
    if u64 (i_frame_max s) <? frame_size then HRet AMQP_STATUS_BAD_AMQP_DATA no_frame s
    else if ae_nopool e then HRet AMQP_STATUS_NO_MEMORY no_frame s
    else if ae_noblock e then
      HRet AMQP_STATUS_NO_MEMORY no_frame
        (mkIn (i_state s) (i_frame_max s) (i_hdr s) INull (i_off s) (i_target s) (i_gens s) (i_nf s))
    else
      let? header := slice (i_hdr s) 0 HEADER_SIZE in
      let? block := write (fresh_block e frame_size) 0 header in
      let s := mkIn BODY (i_frame_max s) (i_hdr s) (IBlock channel (i_gens s channel) block)
                    (i_off s) frame_size (i_gens s) (i_nf s) in
      let? (n, s, _) := consume_data s received in
      let bytes_consumed := add_size bytes_consumed n in
      if i_off s <? i_target s then HRet (signed M32 bytes_consumed) no_frame s
      else handle_body E bytes_consumed s.

(** amqp_connection.c:205-375 amqp_handle_input *)
Definition amqp_handle_input (E : nat -> aenv) (s : inst) (received : bytes) : hres :=
  if zlen received =? 0 then HRet AMQP_STATUS_OK no_frame s
  else
    let s := match i_state s with
             | IDLE => mkIn HEADER (i_frame_max s) (i_hdr s) (i_buf s) (i_off s) (i_target s) (i_gens s) (i_nf s)
             | _ => s
             end in
    let? (bytes_consumed, s, received) := consume_data s received in
    if i_off s <? i_target s then HRet (signed M32 bytes_consumed) no_frame s
    else
      match i_state s with
      | INITIAL =>
        let? raw := raw_bytes s in
        let? magic := slice raw 0 4 in
        if list_eq_dec Byte.byte_eq_dec magic [x41; x4d; x51; x50] then
          let? th := d_at W8 raw 4 in
          let? tl := d_at W8 raw 5 in
          let? major := d_at W8 raw 6 in
          let? minor := d_at W8 raw 7 in
          HRet (signed M32 bytes_consumed)
               (mkFrame AMQP_PSEUDOFRAME_PROTOCOL_HEADER 0 (PProto th tl major minor) 0) (return_to_idle s)
        else handle_header E bytes_consumed s received
      | HEADER => handle_header E bytes_consumed s received
      | BODY => handle_body E bytes_consumed s
      | IDLE => HAbort
      end.

(** amqp_connection.c:44-83 amqp_new_connection: the state of the input side of a
    new connection (frame_max is AMQP_INITIAL_FRAME_POOL_PAGE_SIZE, the memory is
    zeroed). *)
Definition new_inst : inst :=
  mkIn INITIAL 65536 (repeat x00 8) IHdr 0 8 (fun _ => 0%nat) 0.

(** ** Outgoing frames *)
Inductive fres :=
| FRet (res : Z) (buffer : bytes) (encoded : bytes)   (* [encoded] is meaningful if res = AMQP_STATUS_OK *)
| FUB.
Notation "'letf' x := a 'in' b" := (match a with Some x => b | None => FUB end)
  (at level 200, x pattern, right associativity).

(** amqp_connection.c:498-502: length and end marker *)
Definition frame_finish (out_frame_len : Z) (out_frame : bytes) : fres :=
  letf out_frame := e_at W32 (u32 out_frame_len) out_frame 3 in
  letf out_frame := e_at W8 AMQP_FRAME_END out_frame (add_size HEADER_SIZE out_frame_len) in
  let len := add_size out_frame_len (HEADER_SIZE + FOOTER_SIZE) in
  letf encoded := slice out_frame 0 len in
  FRet AMQP_STATUS_OK out_frame encoded.

(** Encoding into the part of the buffer that starts at [o], leaving
    FOOTER_SIZE bytes at the end.  Simplification: if the buffer is so short that
    the length wraps around, the model says undefined behaviour at once (the C
    code returns an error instead if the method or class is unknown and the
    buffer has exactly o bytes). *)
Definition encode_sub (o : Z) (f : bytes -> option (Z * bytes)) (out_frame : bytes) : option (Z * bytes) :=
  match slice out_frame o (sub_size (zlen out_frame) (o + FOOTER_SIZE)) with
  | None => None
  | Some sub =>
    match f sub with
    | None => None
    | Some (res, sub') =>
      match write out_frame o sub' with Some m => Some (res, m) | None => None end
    end
  end.

(** amqp_connection.c:431-505 amqp_frame_to_bytes *)
Definition amqp_frame_to_bytes (f : frame) (buffer : bytes) : fres :=
  letf out_frame := e_at W8 (f_type f) buffer 0 in
  letf out_frame := e_at W16 (f_chan f) out_frame 1 in
  if f_type f =? AMQP_FRAME_BODY then
    match f_pay f with
    | PBody body =>
      letf out_frame := write out_frame HEADER_SIZE body in
      frame_finish (zlen body) out_frame
    | _ => FUB
    end
  else if f_type f =? AMQP_FRAME_METHOD then
    match f_pay f with
    | PMethod id m =>
      letf out_frame := e_at W32 id out_frame HEADER_SIZE in
      letf (res, out_frame) := encode_sub (HEADER_SIZE + 4) (amqp_encode_method id m) out_frame in
      if res <? 0 then FRet res out_frame [] else frame_finish (res + 4) out_frame
    | _ => FUB
    end
  else if f_type f =? AMQP_FRAME_HEADER then
    match f_pay f with
    | PHeader class_id body_size p _ =>
      letf out_frame := e_at W16 class_id out_frame HEADER_SIZE in
      letf out_frame := e_at W16 0 out_frame (HEADER_SIZE + 2) in
      letf out_frame := e_at W64 body_size out_frame (HEADER_SIZE + 4) in
      letf (res, out_frame) := encode_sub (HEADER_SIZE + 12) (amqp_encode_properties class_id p) out_frame in
      if res <? 0 then FRet res out_frame [] else frame_finish (res + 12) out_frame
    | _ => FUB
    end
  else if f_type f =? AMQP_FRAME_HEARTBEAT then frame_finish 0 out_frame
  else FRet AMQP_STATUS_INVALID_PARAMETER out_frame [].
