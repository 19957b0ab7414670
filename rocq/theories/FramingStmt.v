(** The statement language of the generated codec code in amqp_framing.c and
    its execution.  FramingGen.v lists, case by case, the statements that
    scripts/gen_framing.py extracted from the C text. *)
From Coq Require Import String ZArith List Bool.
From Verif Require Import Base Codec TableModel.
Import ListNotations.
Local Open Scope Z_scope.

(** C types of struct members in include/rabbitmq-c/framing.h *)
Inductive ctype := CInt (w : width) | CBytes | CTable | CBool.

(** the value of a member: uintN_t, amqp_bytes_t, amqp_table_t, amqp_boolean_t
    (an int) *)
Inductive mval :=
| VInt (z : Z)
| VBytes (b : bytes)
| VTable (t : table)
| VBool (z : Z).

(** a struct: the members that have been assigned, with their values *)
Definition mstruct := list (string * mval).

Fixpoint lookup {A} (f : string) (m : list (string * A)) : option A :=
  match m with
  | [] => None
  | (g, v) :: r => if String.eqb f g then Some v else lookup f r
  end.

(** C idioms (amqp_framing.c):
    [SInt w f]    if (!amqp_encode_w(encoded, &offset, m->f)) return BAD
    [SShort f]    8 bit length, then bytes
    [SLong f]     32 bit length, then bytes
    [STable f]    amqp_encode_table / amqp_decode_table
    [SBits l]     bit_buffer with (member, bit position) pairs, then one octet *)
Inductive stmt :=
| SInt (w : width) (f : string)
| SShort (f : string)
| SLong (f : string)
| STable (f : string)
| SBits (l : list (string * Z)).

(** ** Encoding.  [None] is undefined behaviour (including reading a member
    that was never assigned). *)

(** e.g. amqp_framing.c:1626-1629; the negative status of the caller *)
Definition enc_int (w : width) (v : Z) (s : est) : option (Z * est) :=
  match amqp_encode w v s with
  | None => None
  | Some (false, s') => Some (AMQP_STATUS_BAD_AMQP_DATA, s')
  | Some (true, s') => Some (AMQP_STATUS_OK, s')
  end.

(** e.g. amqp_framing.c:1634-1637 (limit = UINT32_MAX) and 1652-1655 (UINT8_MAX) *)
Definition enc_str (w : width) (b : bytes) (s : est) : option (Z * est) :=
  if wmod w - 1 <? zlen b then Some (AMQP_STATUS_BAD_AMQP_DATA, s)
  else
    match amqp_encode w (zlen b mod wmod w) s with
    | None => None
    | Some (false, s1) => Some (AMQP_STATUS_BAD_AMQP_DATA, s1)
    | Some (true, s1) =>
      match amqp_encode_bytes b s1 with
      | None => None
      | Some (false, s2) => Some (AMQP_STATUS_BAD_AMQP_DATA, s2)
      | Some (true, s2) => Some (AMQP_STATUS_OK, s2)
      end
    end.

(** e.g. amqp_framing.c:1708-1711: bit_buffer = 0; if (m->f) bit_buffer |= (1 << k); *)
Fixpoint enc_bits (l : list (string * Z)) (m : mstruct) (buf : Z) : option Z :=
  match l with
  | [] => Some buf
  | (f, k) :: r =>
    match lookup f m with
    | Some (VBool z) => enc_bits r m (if z =? 0 then buf else u8 (Z.lor buf (Z.shiftl 1 k)))
    | _ => None
    end
  end.

Definition exec_enc (st : stmt) (m : mstruct) (s : est) : option (Z * est) :=
  match st with
  | SInt w f => match lookup f m with Some (VInt z) => enc_int w z s | _ => None end
  | SShort f => match lookup f m with Some (VBytes b) => enc_str W8 b s | _ => None end
  | SLong f => match lookup f m with Some (VBytes b) => enc_str W32 b s | _ => None end
  | STable f => match lookup f m with Some (VTable t) => amqp_encode_table t s | _ => None end
  | SBits l => match enc_bits l m 0 with Some buf => enc_int W8 buf s | None => None end
  end.

Fixpoint exec_encs (l : list stmt) (m : mstruct) (s : est) : option (Z * est) :=
  match l with
  | [] => Some (AMQP_STATUS_OK, s)
  | st :: r =>
    match exec_enc st m s with
    | None => None
    | Some (res, s') => if res <? 0 then Some (res, s') else exec_encs r m s'
    end
  end.

(** ** Decoding: the members assigned by the statement *)
Section Dec.
Context (encoded : bytes) (oom : Z -> Z -> bool).

Definition dec_str (w : width) (off : Z) : dres bytes :=
  dbind (amqp_decode w encoded off) (fun len off =>
  amqp_decode_bytes encoded off len).

Definition exec_dec (st : stmt) (off : Z) : dres mstruct :=
  match st with
  | SInt w f => dbind (amqp_decode w encoded off) (fun z off => DOk [(f, VInt z)] off)
  | SShort f => dbind (dec_str W8 off) (fun b off => DOk [(f, VBytes b)] off)
  | SLong f => dbind (dec_str W32 off) (fun b off => DOk [(f, VBytes b)] off)
  | STable f => dbind (amqp_decode_table encoded oom off) (fun t off => DOk [(f, VTable t)] off)
  | SBits l =>
    dbind (amqp_decode W8 encoded off) (fun buf off =>
    DOk (map (fun fk => (fst fk, VBool (if Z.land buf (Z.shiftl 1 (snd fk)) =? 0 then 0 else 1))) l) off)
  end.

Fixpoint exec_decs (l : list stmt) (off : Z) (acc : mstruct) : dres mstruct :=
  match l with
  | [] => DOk acc off
  | st :: r => dbind (exec_dec st off) (fun ms off => exec_decs r off (acc ++ ms))
  end.
End Dec.

(** amqp_framing.c:2457-2919: the synchronous calls fill a request struct *)
Inductive asource := AParam (p : string) | AZero | AEmptyBytes.
Record rpc_wrapper := mkRpc {
  rpc_name : string;
  rpc_params : list (string * ctype);
  rpc_request : Z;
  rpc_fields : list (string * asource);
  rpc_reply : Z }.
