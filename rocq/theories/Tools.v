(** Model of tools/common.c: read_all, write_all, copy_body and read_authfile.
    The kernel decides how much each read() and write() moves: a schedule says what it
    does next.  die() and exit() end the program. *)
From Coq Require Import String ZArith List Bool.
From Verif Require Import Base FramingGen Frame.
Import ListNotations.
Local Open Scope list_scope.
Local Open Scope Z_scope.

(** ** read_all *)
(** the next read(): moves up to [k] bytes (at least one if there is input and room),
    is interrupted, or fails *)
Inductive rd := RChunk (k : nat) | RIntr | RFail.
(** [Waits]: the schedule ends in the middle; [Undefined]: undefined behaviour *)
Inductive outcome (A : Type) := Returns (a : A) | Dies | Waits | Undefined.
Arguments Returns {A}. Arguments Dies {A}. Arguments Waits {A}. Arguments Undefined {A}.

(** the next allocation succeeds unless [mem] says otherwise *)
Definition next_alloc (mem : list bool) : bool * list bool :=
  match mem with [] => (true, []) | b :: mem => (b, mem) end.
(** realloc to [n] bytes: new memory is not initialised (zero here) *)
Definition resize (b : bytes) (n : Z) : bytes := firstn (Z.to_nat n) b ++ repeat x00 (Z.to_nat n - length b).

(** tools/common.c:391-410; [buf]: bytes.bytes (None: NULL; read() then fails with
    EFAULT as soon as it has something to deliver) *)
Fixpoint read_loop (sched : list rd) (input : bytes) (mem : list bool) (buf : option bytes) (len space : Z) : outcome (option bytes * Z) :=
  match sched with
  | [] => Waits
  | RIntr :: sched => read_loop sched input mem buf len space
  | RFail :: _ => Dies
  | RChunk k :: sched =>
    let room := sub_size space len in
    let d := firstn (Nat.min (Nat.max 1 k) (Z.to_nat room)) input in
    match d with
    | [] => Returns (buf, len)
    | _ :: _ =>
      match buf with
      | None => Dies
      | Some b =>
        match write b len d with
        | None => Undefined
        | Some b =>
          let input := skipn (length d) input in
          let len := add_size len (zlen d) in
          if len =? space then
            let space := u64 (space * 2) in
            let (ok, mem) := next_alloc mem in
            read_loop sched input mem (if ok then Some (resize b space) else None) len space
          else read_loop sched input mem (Some b) len space
        end
      end
    end
  end.
(** tools/common.c:384-413: (bytes.bytes, bytes.len) *)
Definition read_all (sched : list rd) (input : bytes) (mem : list bool) : outcome (option bytes * Z) :=
  let space := 4096 in
  let (ok, mem) := next_alloc mem in
  read_loop sched input mem (if ok then Some (repeat x00 (Z.to_nat space)) else None) 0 space.

(** ** write_all *)
(** the next write(): moves up to [k] bytes (0: none) or fails (also if interrupted) *)
Inductive wr := WChunk (k : nat) | WFail.
(** result and what has been written; [WDone] also gives the rest of the schedule *)
Inductive wresult := WDone (rest : list wr) | WDied | WWaits | WUndefined.
(** tools/common.c:415-425; the data are [len] bytes at offset [off] of [block] *)
Fixpoint write_loop (sched : list wr) (block : bytes) (off len : Z) : wresult * bytes :=
  if 0 <? len then
    match sched with
    | [] => (WWaits, [])
    | WFail :: _ => (WDied, [])
    | WChunk k :: sched =>
      match slice block off (Z.min (Z.of_nat k) len) with
      | None => (WUndefined, [])
      | Some d =>
        let res := zlen d in
        let (r, out) := write_loop sched block (off + res) (sub_size len res) in
        (r, d ++ out)
      end
    end
  else (WDone sched, []).
Definition write_all (sched : list wr) (data : bytes) : wresult * bytes := write_loop sched data 0 (zlen data).

(** ** copy_body *)
(** tools/common.c:438-447; [frames]: what the calls of amqp_simple_wait_frame deliver
    (status, frame).  The result carries the frames that were not consumed. *)
Fixpoint copy_loop (frames : list (Z * frame)) (sched : list wr) (body_remaining : Z) : outcome (list (Z * frame)) * bytes :=
  if body_remaining =? 0 then (Returns frames, [])
  else
    match frames with
    | [] => (Waits, [])
    | (res, f) :: frames =>
      if res <? 0 then (Dies, [])
      else if negb (f_type f =? AMQP_FRAME_BODY) then (Dies, [])
      else
        match f_pay f with
        | PBody fragment =>
          match write_all sched fragment with
          | (WDone sched, out) =>
            let (r, out') := copy_loop frames sched (sub_size body_remaining (zlen fragment)) in (r, out ++ out')
          | (WDied, out) => (Dies, out)
          | (WWaits, out) => (Waits, out)
          | (WUndefined, out) => (Undefined, out)
          end
        | _ => (Undefined, [])
        end
    end.
(** tools/common.c:427-448 *)
Definition copy_body (frames : list (Z * frame)) (sched : list wr) : outcome (list (Z * frame)) * bytes :=
  match frames with
  | [] => (Waits, [])
  | (res, f) :: frames =>
    if res <? 0 then (Dies, [])
    else if negb (f_type f =? AMQP_FRAME_HEADER) then (Dies, [])
    else
      match f_pay f with
      | PHeader _ body_size _ _ => copy_loop frames sched (u64 body_size)
      | _ => (Undefined, [])
      end
  end.

(** ** read_authfile *)
Definition MAXAUTHTOKENLEN : Z := 128.
Definition newline : byte := x0a.
(** fgets(token, n + 1, fp) for the rest [file] of the file: the characters up to a
    newline (included), the end of the file or n; None: end of file at once *)
Fixpoint take_line (n : nat) (file : bytes) : bytes * bytes :=
  match n, file with
  | O, _ => ([], file)
  | _, [] => ([], [])
  | S n, c :: file => if Byte.eqb c newline then ([c], file) else let (l, r) := take_line n file in (c :: l, r)
  end.
Definition fgets (size : Z) (file : bytes) : option (bytes * bytes) :=
  match file with [] => None | _ => Some (take_line (Z.to_nat (size - 1)) file) end.
(** strncmp(token, prefix, strlen(prefix)) = 0, for a prefix without NUL *)
Fixpoint starts_with (token prefix : bytes) : bool :=
  match token, prefix with
  | _, [] => true
  | [], _ => false
  | t :: token, p :: prefix => Byte.eqb t p && starts_with token prefix
  end.
(** the C string in a line read by fgets (which adds a NUL): up to the first NUL *)
Fixpoint upto_nul (l : bytes) : bytes :=
  match l with [] => [] | c :: l => if Byte.eqb c x00 then [] else c :: upto_nul l end.
(** one line, tools/common.c:180-192 and 194-206: the value is copied by strncpy (which
    pads with NULs, so it fits: the rest of the token is shorter than the destination),
    its last character is overwritten; (value, rest of the file) *)
Definition auth_line (prefix : bytes) (file : bytes) : outcome (bytes * bytes) :=
  match fgets MAXAUTHTOKENLEN file with
  | None => Dies
  | Some (token, file) =>
    if negb (starts_with token prefix) then Dies
    else
      let value := upto_nul (skipn (length prefix) token) in
      match rev value with
      | [] => Undefined           (* value[n - 1] with n = 0 *)
      | c :: r => if negb (Byte.eqb c newline) then Dies else Returns (rev r, file)
      end
  end.
Definition username_prefix : bytes := list_byte_of_string "username:".
Definition password_prefix : bytes := list_byte_of_string "password:".
(** tools/common.c:169-212 (allocations and fopen succeed): (username, password) *)
Definition read_authfile (file : bytes) : outcome (bytes * bytes) :=
  match auth_line username_prefix file with
  | Returns (u, file) =>
    match auth_line password_prefix file with
    | Returns (p, file) => match file with [] => Returns (u, p) | _ => Dies end
    | Dies => Dies | Waits => Waits | Undefined => Undefined
    end
  | Dies => Dies | Waits => Waits | Undefined => Undefined
  end.
