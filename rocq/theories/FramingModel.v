(** Model of amqp_framing.c: amqp_decode_method, amqp_encode_method,
    amqp_decode_properties, amqp_encode_properties and the small lookups, over
    the statement lists of FramingGen.v. *)
From Coq Require Import String ZArith List Bool.
From Verif Require Import Base Codec TableModel FramingStmt FramingGen.
Import ListNotations.
Local Open Scope Z_scope.

(** C switch on an integer *)
Fixpoint switch {A} (n : Z) (l : list (Z * A)) : option A :=
  match l with
  | [] => None
  | (k, v) :: r => if n =? k then Some v else switch n r
  end.

(** allocation sites of this file for the oracle [oom] (0-2 are in
    amqp_decode_table) *)
Definition SITE_METHOD := 3.

(** amqp_framing.c:256-1409 amqp_decode_method.  The struct is allocated from
    the pool first; the result carries the final *offset, which the C function
    does not return. *)
Definition amqp_decode_method (methodNumber : Z) (encoded : bytes) (oom : Z -> Z -> bool) : dres mstruct :=
  match switch methodNumber dec_table with
  | None => DErr AMQP_STATUS_UNKNOWN_METHOD 0
  | Some body =>
    if oom SITE_METHOD 0 then DErr AMQP_STATUS_NO_MEMORY 0
    else exec_decs encoded oom body 0 []
  end.

(** amqp_framing.c:1614-2321 amqp_encode_method: (return value, contents of
    [encoded]) *)
Definition amqp_encode_method (methodNumber : Z) (decoded : mstruct) (encoded : bytes) : option (Z * bytes) :=
  match switch methodNumber enc_table with
  | None => Some (AMQP_STATUS_UNKNOWN_METHOD, encoded)
  | Some body =>
    match exec_encs body decoded (mkE encoded 0) with
    | None => None
    | Some (res, s) => if res <? 0 then Some (res, emem s) else Some (signed M32 (eoff s), emem s)
    end
  end.

(** Content properties: the flags word and the members that hold a value.
    amqp_basic_properties_t, framing.h *)
Record props := mkProps { pflags : Z; pfields : mstruct }.

(** amqp_framing.c:1419-1424 the flag words of amqp_decode_properties.  The
    shift count is flagword_index * 16 on a 32 bit int: from the third word on
    it is undefined behaviour.  (Shifting into the sign bit is defined by gcc.)
    The loop is bounded by the input: each round consumes two bytes. *)
Fixpoint decode_flags (fuel : nat) (encoded : bytes) (off flags idx : Z) : dres Z :=
  match fuel with
  | O => DFuel
  | S fuel' =>
    dbind (amqp_decode W16 encoded off) (fun partial off =>
    if 32 <=? idx * 16 then DUB
    else
      let flags := u32 (Z.lor flags (u32 (Z.shiftl partial (idx * 16)))) in
      if Z.land partial 1 =? 0 then DOk flags off
      else decode_flags fuel' encoded off flags (idx + 1))
  end.

(** amqp_framing.c:1440-1590: the guarded statements of case 60 *)
Fixpoint exec_dec_props (l : list (Z * stmt)) (encoded : bytes) (oom : Z -> Z -> bool)
    (flags off : Z) (acc : mstruct) : dres mstruct :=
  match l with
  | [] => DOk acc off
  | (k, st) :: r =>
    if Z.land flags (Z.shiftl 1 k) =? 0 then exec_dec_props r encoded oom flags off acc
    else dbind (exec_dec encoded oom st off) (fun ms off =>
         exec_dec_props r encoded oom flags off (acc ++ ms))
  end.

(** amqp_framing.c:1411-1612 amqp_decode_properties *)
Definition amqp_decode_properties (class_id : Z) (encoded : bytes) (oom : Z -> Z -> bool) : dres props :=
  dbind (decode_flags (S (List.length encoded)) encoded 0 0 0) (fun flags off =>
  if existsb (Z.eqb class_id) dec_props_classes then
    if oom SITE_METHOD off then DErr AMQP_STATUS_NO_MEMORY off
    else if class_id =? 60 then
      dbind (exec_dec_props dec_props_basic encoded oom flags off []) (fun ms off =>
      DOk (mkProps flags ms) off)
    else DOk (mkProps flags []) off
  else DErr AMQP_STATUS_UNKNOWN_CLASS off).

(** amqp_framing.c:2333-2346 the flag words of amqp_encode_properties; a uint32_t
    is exhausted after two rounds *)
Fixpoint encode_flags (fuel : nat) (remaining : Z) (s : est) : option (Z * est) :=
  match fuel with
  | O => None
  | S fuel' =>
    let remainder := Z.shiftr remaining 16 in
    let partial := Z.land remaining 0xFFFE in
    let partial := if remainder =? 0 then partial else Z.lor partial 1 in
    match amqp_encode W16 partial s with
    | None => None
    | Some (false, s') => Some (AMQP_STATUS_BAD_AMQP_DATA, s')
    | Some (true, s') => if remainder =? 0 then Some (AMQP_STATUS_OK, s') else encode_flags fuel' remainder s'
    end
  end.

(** amqp_framing.c:2364-2450 the guarded statements of case 60 *)
Fixpoint exec_enc_props (l : list (Z * stmt)) (flags : Z) (m : mstruct) (s : est) : option (Z * est) :=
  match l with
  | [] => Some (AMQP_STATUS_OK, s)
  | (k, st) :: r =>
    if Z.land flags (Z.shiftl 1 k) =? 0 then exec_enc_props r flags m s
    else
      match exec_enc st m s with
      | None => None
      | Some (res, s') => if res <? 0 then Some (res, s') else exec_enc_props r flags m s'
      end
  end.

(** amqp_framing.c:2323-2455 amqp_encode_properties *)
Definition amqp_encode_properties (class_id : Z) (p : props) (encoded : bytes) : option (Z * bytes) :=
  match encode_flags 3 (pflags p) (mkE encoded 0) with
  | None => None
  | Some (res, s) =>
    if res <? 0 then Some (res, emem s)
    else if existsb (Z.eqb class_id) enc_props_classes then
      if class_id =? 60 then
        match exec_enc_props enc_props_basic (pflags p) (pfields p) s with
        | None => None
        | Some (res, s) => if res <? 0 then Some (res, emem s) else Some (signed M32 (eoff s), emem s)
        end
      else Some (signed M32 (eoff s), emem s)
    else Some (AMQP_STATUS_UNKNOWN_CLASS, emem s)
  end.

(** amqp_framing.c:17-68 *)
Definition amqp_constant_name (n : Z) : string :=
  match switch n constant_name_table with Some s => s | None => "(unknown)"%string end.
(** amqp_framing.c:70-97 *)
Definition amqp_constant_is_hard_error (n : Z) : bool := existsb (Z.eqb n) hard_error_table.
(** amqp_framing.c:99-239 *)
Definition amqp_method_name (n : Z) : option string := switch n method_name_table.
(** amqp_framing.c:241-254 *)
Definition amqp_method_has_content (n : Z) : bool := existsb (Z.eqb n) has_content_table.

(** amqp_framing.c:2457-2919: the request struct built by a synchronous call
    from its arguments *)
Fixpoint build_request (l : list (string * asource)) (tys : list (string * ctype)) (args : list (string * mval)) : option mstruct :=
  match l with
  | [] => Some []
  | (f, src) :: r =>
    let v :=
      match src with
      | AParam p => lookup p args
      | AZero =>
        match lookup f tys with
        | Some (CInt _) => Some (VInt 0)
        | Some CBool => Some (VBool 0)
        | _ => None
        end
      | AEmptyBytes => Some (VBytes [])
      end in
    match v, build_request r tys args with
    | Some v, Some m => Some ((f, v) :: m)
    | _, _ => None
    end
  end.
