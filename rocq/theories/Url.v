(** Model of librabbitmq/amqp_url.c.  The URL lives in a block of memory; pointers
    into it are offsets ([nat]); reading or writing outside it is [None].

    [cm] is CHAR_MAX (127 where char is signed, 255 where it is not); [ox] tells
    whether the C library's "%2x" accepts the two characters "0x" as zero (glibc
    does; the C standard says it does not). *)
From Coq Require Import String ZArith List Bool.
From Verif Require Import Base Pool.
Import ListNotations.
Local Open Scope list_scope.
Local Open Scope Z_scope.

Definition rd (m : bytes) (p : nat) : option byte := nth_error m p.
Definition wr (m : bytes) (p : nat) (b : byte) : option bytes :=
  if Nat.ltb p (length m) then Some (set_nth p b m) else None.

(** the C string starting at an offset: the bytes up to the first NUL; None if there is
    no NUL in the block *)
Fixpoint to_nul (l : bytes) : option bytes :=
  match l with
  | [] => None
  | c :: l => if Byte.eqb c x00 then Some [] else match to_nul l with Some s => Some (c :: s) | None => None end
  end.
Definition cstr (m : bytes) (p : nat) : option bytes := to_nul (skipn p m).

(** isspace in the C locale *)
Definition is_space (c : byte) : bool :=
  let z := Z_of_byte c in (z =? 32) || ((9 <=? z) && (z <=? 13)).
Definition is_sign (c : byte) : bool := Byte.eqb c x2b || Byte.eqb c x2d.  (* '+' '-' *)
Definition hexval (c : byte) : option Z :=
  let z := Z_of_byte c in
  if (48 <=? z) && (z <=? 57) then Some (z - 48)
  else if (65 <=? z) && (z <=? 70) then Some (z - 55)
  else if (97 <=? z) && (z <=? 102) then Some (z - 87)
  else None.

Fixpoint skip_spaces (s : bytes) : Z * bytes :=
  match s with
  | c :: r => if is_space c then let (k, r) := skip_spaces r in (k + 1, r) else (0, s)
  | [] => (0, [])
  end.

(** sscanf(s, "%2x%n", &val, &chars): Some (val, chars) when it returns 1 (then %n has
    stored the number of characters consumed, leading white space included), None when
    it returns 0 or EOF.  The field: at most two characters, an optional sign, hex digits. *)
Definition sscanf_2x (ox : bool) (s : bytes) : option (Z * Z) :=
  let (k, s) := skip_spaces s in
  match s with
  | [] => None
  | c :: r =>
    if is_sign c then
      match r with
      | d :: _ => match hexval d with
                  | Some w => Some (if Byte.eqb c x2d then u32 (- w) else w, k + 2)
                  | None => None
                  end
      | [] => None
      end
    else
      match hexval c with
      | None => None
      | Some v =>
        match r with
        | d :: _ =>
          match hexval d with
          | Some w => Some (16 * v + w, k + 2)
          | None =>
            if Byte.eqb c x30 && (Byte.eqb d x78 || Byte.eqb d x58) then
              (if ox then Some (0, k + 2) else None)
            else Some (v, k + 1)
          end
        | [] => Some (v, k + 1)
        end
      end
  end.

(** strtol(s, &end, 10): the value (clamped to long) and how many characters it
    consumed; 0 if there is no number. *)
Definition digit (c : byte) : option Z :=
  let z := Z_of_byte c in if (48 <=? z) && (z <=? 57) then Some (z - 48) else None.
Fixpoint digits (s : bytes) (acc k : Z) : Z * Z :=
  match s with
  | c :: r => match digit c with Some d => digits r (10 * acc + d) (k + 1) | None => (acc, k) end
  | [] => (acc, k)
  end.
Definition strtol10 (s : bytes) : Z * Z :=
  let (k, s) := skip_spaces s in
  let '(neg, k, s) := match s with
                      | c :: r => if is_sign c then (Byte.eqb c x2d, k + 1, r) else (false, k, s)
                      | [] => (false, k, s)
                      end in
  let (v, n) := digits s 0 0 in
  if n =? 0 then (0, 0)
  else (if neg then Z.max (- M63) (- v) else Z.min (M63 - 1) v, k + n).

(** the characters with a meaning of their own, amqp_url.c:38-52 *)
Definition is_delim (colon : bool) (ch : byte) : bool :=
  ((Byte.eqb ch x3a || Byte.eqb ch x40) && colon) ||     (* ':' '@' *)
  Byte.eqb ch x00 || Byte.eqb ch x2f || Byte.eqb ch x3f || (* NUL '/' '?' *)
  Byte.eqb ch x23 || Byte.eqb ch x5b || Byte.eqb ch x5d.   (* '#' '[' ']' *)

Section Url.
Context (cm : Z) (ox : bool).

(** amqp_url.c:30-77 find_delim: the memory, the delimiter and, if *pp was updated,
    its new value.  [from] and [to] are the local pointers.  [fuel] bounds the loop. *)
Fixpoint find_delim (fuel : nat) (m : bytes) (from to : nat) (colon : bool) : option (bytes * byte * option nat) :=
  match fuel with
  | O => None
  | S fuel =>
    match rd m from with
    | None => None
    | Some ch =>
      let from := S from in
      if is_delim colon ch then
        match wr m to x00 with None => None | Some m => Some (m, ch, Some from) end
      else if Byte.eqb ch x25 then                       (* '%' *)
        match cstr m from with
        | None => None                                   (* sscanf runs off the block *)
        | Some s =>
          match sscanf_2x ox s with
          | None => Some (m, x25, None)
          | Some (val, chars) =>
            if negb (chars =? 2) || (cm <? val) then Some (m, x25, None)
            else match wr m to (byte_of_Z val) with
                 | None => None
                 | Some m => find_delim fuel m (S (S from)) (S to) colon
                 end
          end
        end
      else match wr m to ch with None => None | Some m => find_delim fuel m from (S to) colon end
    end
  end.

(** char* members of amqp_connection_info: a string constant or a place in the URL *)
Inductive cptr := Const (s : bytes) | At (p : nat).

(** include/rabbitmq-c/amqp.h:2397-2404 struct amqp_connection_info *)
Record connection_info := mkCI { ci_user : cptr; ci_password : cptr; ci_host : cptr; ci_vhost : cptr; ci_port : Z; ci_ssl : bool }.

Definition guest : bytes := list_byte_of_string "guest".
Definition localhost : bytes := list_byte_of_string "localhost".
Definition slash : bytes := list_byte_of_string "/".

(** amqp_url.c:19-27 *)
Definition amqp_default_connection_info : connection_info := mkCI (Const guest) (Const guest) (Const localhost) (Const slash) 5672 false.

(** strncmp(s, t, n) == 0 for a constant t of n bytes without NUL *)
Fixpoint starts_with (t s : bytes) : bool :=
  match t, s with
  | [], _ => true
  | x :: t, y :: s => Byte.eqb x y && starts_with t s
  | _, [] => false
  end.

(** *pp after find_delim *)
Definition p_ (url : nat) (upd : option nat) : nat := match upd with Some p => p | None => url end.

Definition ures := option (Z * connection_info * bytes).
Definition bad (ci : connection_info) (m : bytes) : ures := Some (AMQP_STATUS_BAD_URL, ci, m).

(** amqp_parse_url in stages, each the rest of the function from the lines cited; [fd] is
    find_delim. *)
Section Stages.
Context (fd : bytes -> nat -> nat -> bool -> option (bytes * byte * option nat)).

(** amqp_url.c:161-186 (the port number, the vhost) *)
Definition url_tail (m : bytes) (url : nat) (delim : byte) (port : option nat) (ci : connection_info) : ures :=
  match (match port with
         | None => Some (inr ci)
         | Some p =>
           match cstr m p with
           | None => None
           | Some s =>
             let (portnum, used) := strtol10 s in
             if (used =? 0) || negb (used =? zlen s) || (portnum <? 0) || (65535 <? portnum) then Some (inl ci)
             else Some (inr (mkCI (ci_user ci) (ci_password ci) (ci_host ci) (ci_vhost ci) portnum (ci_ssl ci)))
           end
         end) with
  | None => None
  | Some (inl ci) => bad ci m
  | Some (inr ci) =>
    if Byte.eqb delim x2f then
      match fd m url url true with
      | None => None
      | Some (m, delim, _) =>
        if negb (Byte.eqb delim x00) then bad ci m
        else Some (AMQP_STATUS_OK, mkCI (ci_user ci) (ci_password ci) (ci_host ci) (At url) (ci_port ci) (ci_ssl ci), m)
      end
    else if Byte.eqb delim x00 then Some (AMQP_STATUS_OK, ci, m)
    else bad ci m
  end.

(** amqp_url.c:156-159 *)
Definition url_port (m : bytes) (url : nat) (delim : byte) (port : option nat) (ci : connection_info) : ures :=
  if Byte.eqb delim x3a then
    match fd m url url true with
    | None => None
    | Some (m, delim, up) => url_tail m (p_ url up) delim (Some url) ci
    end
  else url_tail m url delim port ci.

(** amqp_url.c:125-154 *)
Definition url_host (m : bytes) (url : nat) (delim : byte) (host start : nat) (port : option nat) (ci : connection_info) : ures :=
  if Byte.eqb delim x5b then
    match rd m host with
    | None => None
    | Some h =>
      if negb (Nat.eqb host start) || negb (Byte.eqb h x00) then bad ci m
      else
        let start := url in
        match fd m url url false with
        | None => None
        | Some (m, delim, up) =>
          let url := p_ url up in
          if negb (Byte.eqb delim x5d) then bad ci m
          else
            let ci := mkCI (ci_user ci) (ci_password ci) (At start) (ci_vhost ci) (ci_port ci) (ci_ssl ci) in
            let start := url in
            match fd m url url true with
            | None => None
            | Some (m, delim, up) =>
              match rd m start with
              | None => None
              | Some c => if negb (Byte.eqb c x00) then bad ci m else url_port m (p_ url up) delim port ci
              end
            end
        end
    end
  else
    match rd m host with
    | None => None
    | Some h =>
      url_port m url delim port
        (if negb (Byte.eqb h x00)
         then mkCI (ci_user ci) (ci_password ci) (At host) (ci_vhost ci) (ci_port ci) (ci_ssl ci) else ci)
    end.

(** amqp_url.c:112-123 *)
Definition url_user (m : bytes) (url : nat) (delim : byte) (host start : nat) (port : option nat) (ci : connection_info) : ures :=
  if Byte.eqb delim x40 then
    let ci := mkCI (At host) (match port with Some p => At p | None => ci_password ci end)
                   (ci_host ci) (ci_vhost ci) (ci_port ci) (ci_ssl ci) in
    match fd m url url true with
    | None => None
    | Some (m, delim, up) => url_host m (p_ url up) delim url url None ci
    end
  else url_host m url delim host start port ci.

(** amqp_url.c:101-110 *)
Definition url_body (m : bytes) (url : nat) (ci : connection_info) : ures :=
  match fd m url url true with
  | None => None
  | Some (m, delim, up) =>
    if Byte.eqb delim x3a then
      match fd m (p_ url up) (p_ url up) true with
      | None => None
      | Some (m, delim, up') => url_user m (p_ (p_ url up) up') delim url (p_ url up) (Some (p_ url up)) ci
      end
    else url_user m (p_ url up) delim url url None ci
  end.
End Stages.

(** amqp_url.c:80-198 amqp_parse_url on the block [m], the URL starting at offset 0:
    status, what was parsed, and the memory afterwards.  Lines 88-99 here. *)
Definition amqp_parse_url (m : bytes) : ures :=
  let ci := amqp_default_connection_info in
  let fd := find_delim (S (length m)) in
  match cstr m 0 with
  | None => None
  | Some s =>
    if starts_with (list_byte_of_string "amqp://") s then url_body fd m 7 ci
    else if starts_with (list_byte_of_string "amqps://") s then
      url_body fd m 8 (mkCI (ci_user ci) (ci_password ci) (ci_host ci) (ci_vhost ci) 5671 true)
    else bad ci m
  end.
End Url.
