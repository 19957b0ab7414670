(** Model of tools/unix/process.c (pipeline, finish_pipeline) with the tables of file
    descriptors of the tool and of the commands that it starts, and of the loop of
    tools/consume.c that uses them.  ToolConsume.v models the same loop with the
    commands seen through the bytes written to them and their exit status. *)
From Coq Require Import ZArith List Bool.
From Verif Require Import Base Frame Tools ToolConsume.
Import ListNotations.
Local Open Scope Z_scope.

(** ** File descriptors *)
(** open file descriptions: the ends of the pipes that the tool makes (numbered), others *)
Inductive description := PipeRead (pipe : nat) | PipeWrite (pipe : nat) | Other (file : nat).
Record entry := mkEntry { e_description : description; e_cloexec : bool }.
Definition table := Z -> option entry.
Definition set (fd : Z) (e : option entry) (t : table) : table := fun x => if x =? fd then e else t x.
(** posix_spawn: the actions are executed in the child, in order, on a copy of the
    parent's table (None: one fails); closing what is not open is no error there.  The
    copy that dup2 makes stays open over exec, also if both numbers are the same
    (POSIX; glibc since 2.29). *)
Inductive action := ADup2 (fd newfd : Z) | AClose (fd : Z).
Fixpoint do_actions (acts : list action) (t : table) : option table :=
  match acts with
  | [] => Some t
  | ADup2 fd newfd :: acts =>
    match t fd with
    | None => None
    | Some e => do_actions acts (set newfd (Some (mkEntry (e_description e) false)) t)
    end
  | AClose fd :: acts => do_actions acts (set fd None t)
  end.
(** exec: closes the descriptors that have FD_CLOEXEC *)
Definition exec (t : table) : table := fun fd => match t fd with Some e => if e_cloexec e then None else Some e | None => None end.

(** ** One run of the command *)
(** what the system calls say: the descriptors that pipe() gives (None: it fails), the
    error numbers of the posix_spawn functions (0: none), the pid ([inl]: error number),
    close() works?, the write()s, the status from waitpid (None: it fails) *)
Record run := mkRun { r_pipe : option (Z * Z); r_init : Z; r_adddup2 : Z; r_addclose0 : Z; r_addclose1 : Z;
  r_spawnp : Z + Z; r_destroy : Z; r_close_read : bool; r_writes : list wr; r_close_write : bool; r_waitpid : option Z }.
(** what can be seen of it: a program is started with the descriptors [child]; the tool
    then has [tool] and writes to [infd]; the tool, with [tool], waits for its end *)
Inductive happening := Started (child tool : table) (infd : Z) | Awaiting (tool : table).

(** tools/unix/process.c:14-43; [n]: the number of the new pipe; the outcome is
    pl->infd and the tool's table.  die_errno(0) returns (common.c:38-40); errno after
    a failed pipe() or close() is not 0. *)
Definition pipeline (n : nat) (t : table) (r : run) : outcome (Z * table) * list happening :=
  match r_pipe r with
  | None => (Dies, [])
  | Some (pipefds0, pipefds1) =>
    let t := set pipefds1 (Some (mkEntry (PipeWrite n) false)) (set pipefds0 (Some (mkEntry (PipeRead n) false)) t) in
    if negb (r_init r =? 0) then (Dies, [])
    else
      let file_acts := [] in
      if negb (r_adddup2 r =? 0) then (Dies, [])
      else
        let file_acts := file_acts ++ [ADup2 pipefds0 0] in
        if negb (r_addclose0 r =? 0) then (Dies, [])
        else
          let file_acts := file_acts ++ [AClose pipefds0] in
          if negb (r_addclose1 r =? 0) then (Dies, [])
          else
            let file_acts := file_acts ++ [AClose pipefds1] in
            match do_actions file_acts t, r_spawnp r with
            | Some child, inr pid =>
              let after := set pipefds0 None t in
              let started := [Started (exec child) after pipefds1] in
              if negb (r_destroy r =? 0) then (Dies, started)
              else if negb (r_close_read r) then (Dies, started)
              else (Returns (pipefds1, after), started)
            | _, _ => (Dies, [])
            end
  end.
(** <sys/wait.h> *)
Definition WIFEXITED (status : Z) : bool := Z.land status 127 =? 0.
Definition WEXITSTATUS (status : Z) : Z := Z.shiftr (Z.land status 65280) 8.
(** tools/unix/process.c:45-55 *)
Definition finish_pipeline (infd : Z) (t : table) (r : run) : outcome (bool * table) * list happening :=
  if negb (r_close_write r) then (Dies, [])
  else
    let t := set infd None t in
    match r_waitpid r with
    | None => (Dies, [Awaiting t])
    | Some status => (Returns (WIFEXITED status && (WEXITSTATUS status =? 0), t), [Awaiting t])
    end.

(** ** The loop *)
(** tools/consume.c:134-157, as in ToolConsume.v, with the processes *)
Definition outcomes := (outcome unit * list act * list happening)%type.
Definition and_then (acts : list act) (hs : list happening) (o : outcomes) : outcomes :=
  (fst (fst o), acts ++ snd (fst o), hs ++ snd o).
Fixpoint consume_loop (fuel : nat) (no_ack : bool) (count i : Z) (n : nat) (t : table) (frames : list (Z * frame)) (runs : list run) (acks : list Z) : outcomes :=
  match fuel with
  | O => (Undefined, [], [])
  | S fuel =>
    let next n t frames runs acks := if i =? INT_MAX then (Undefined, [], []) else consume_loop fuel no_ack count (i + 1) n t frames runs acks in
    if negb ((count <? 0) || (i <? count)) then (Returns tt, [], [])
    else
      match frames with
      | [] => (Waits, [], [])
      | (res, f) :: frames =>
        if res <? 0 then (Dies, [], [])
        else
          match delivery f with
          | None => next n t frames runs acks
          | Some None => (Undefined, [], [])
          | Some (Some tag) =>
            match runs with
            | [] => (Waits, [], [])
            | r :: runs =>
              match pipeline n t r with
              | (Returns (infd, t), hs) =>
                match copy_body frames (r_writes r) with
                | (Returns frames, out) =>
                  let (fin, hs') := finish_pipeline infd t r in
                  match fin with
                  | Returns (ok, t) =>
                    if ok && negb no_ack then
                      match acks with
                      | [] => (Waits, [Ran out ok], hs ++ hs')
                      | a :: acks =>
                        if a <? 0 then (Dies, [Ran out ok], hs ++ hs')
                        else and_then [Ran out ok; Acked tag] (hs ++ hs') (next (S n) t frames runs acks)
                      end
                    else and_then [Ran out ok] (hs ++ hs') (next (S n) t frames runs acks)
                  | Dies => (Dies, [Broken out], hs ++ hs')
                  | Waits => (Waits, [Broken out], hs ++ hs')
                  | Undefined => (Undefined, [Broken out], hs ++ hs')
                  end
                | (Dies, out) => (Dies, [Broken out], hs)
                | (Waits, out) => (Waits, [Broken out], hs)
                | (Undefined, out) => (Undefined, [Broken out], hs)
                end
              | (_, hs) => (Dies, [], hs)
              end
            end
          end
      end
  end.
Definition do_consume (no_ack : bool) (count : Z) (t : table) (frames : list (Z * frame)) (runs : list run) (acks : list Z) : outcomes :=
  consume_loop (S (length frames)) no_ack count 0 0 t frames runs acks.
