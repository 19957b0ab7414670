(** Model of tools/common.c:213-336: where the tools connect to, from their options. *)
From Coq Require Import String ZArith List Bool.
From Verif Require Import Base Pool Url Tools.
Import ListNotations.
Local Open Scope list_scope.
Local Open Scope Z_scope.

(** The options after popt has read them, tools/common.c:126-138 (WITH_SSL).  Strings
    are C strings without their NUL; [o_port] is -1 if --port was not given;
    [o_authfile]: Some None is a file that cannot be opened, Some (Some f) one with the
    content f. *)
Record options := mkOpts { o_url : option bytes; o_server : option bytes; o_port : Z; o_vhost : option bytes; o_username : option bytes;
  o_password : option bytes; o_heartbeat : Z; o_authfile : option (option bytes); o_ssl : bool }.
(** struct amqp_connection_info with its strings *)
Record target := mkTarget { t_user : bytes; t_password : bytes; t_host : bytes; t_vhost : bytes; t_port : Z; t_ssl : bool }.

Definition and_then {A B} (x : outcome A) (f : A -> outcome B) : outcome B :=
  match x with Returns a => f a | Dies => Dies | Waits => Waits | Undefined => Undefined end.
(** if (c) die(...) *)
Definition die_if (c : bool) : outcome unit := if c then Dies else Returns tt.
Notation "'let*' x ':=' a 'in' b" := (and_then a (fun x => b)) (at level 200, x pattern, right associativity).
Definition given {A} (x : option A) : bool := match x with Some _ => true | None => false end.

(** strchr(s, ':'): the text before and after the first colon *)
Fixpoint at_colon (s : bytes) : option (bytes * bytes) :=
  match s with
  | [] => None
  | c :: s => if Byte.eqb c x3a then Some ([], s) else match at_colon s with Some (h, p) => Some (c :: h, p) | None => None end
  end.

Section T.
Context (cm : Z) (ox : bool).   (* see Url.v *)

(** the string a member of amqp_connection_info points to *)
Definition member (m : bytes) (c : cptr) : outcome bytes :=
  match c with Const s => Returns s | At p => match cstr m p with Some s => Returns s | None => Undefined end end.
(** tools/common.c:221-225: amqp_default_connection_info, then amqp_parse_url on a copy of
    the URL (strdup succeeds); die_amqp_error ends the program for a negative status *)
Definition url_info (url : bytes) : outcome target :=
  match amqp_parse_url cm ox (url ++ [x00]) with
  | None => Undefined
  | Some (st, ci, m) =>
    let* _ := die_if (st <? 0) in
    let* u := member m (ci_user ci) in
    let* p := member m (ci_password ci) in
    let* h := member m (ci_host ci) in
    let* v := member m (ci_vhost ci) in
    Returns (mkTarget u p h v (ci_port ci) (ci_ssl ci))
  end.
Definition default_info : target := mkTarget guest guest localhost slash 5672 false.

(** tools/common.c:227-268: --server (malloc succeeds); strtol's long becomes an int *)
Definition server_info (o : options) (ci : target) : outcome target :=
  match o_server o with
  | None => Returns ci
  | Some server =>
    let* _ := die_if (given (o_url o)) in
    match at_colon server with
    | Some (host, port) =>
      let* _ := die_if (0 <=? o_port o) in
      let (v, used) := strtol10 port in
      let n := signed M32 v in
      let* _ := die_if ((n <? 0) || (65535 <? n) || (used =? 0) || negb (used =? zlen port)) in
      Returns (mkTarget (t_user ci) (t_password ci) host (t_vhost ci) n (t_ssl ci))
    | None => Returns (mkTarget (t_user ci) (t_password ci) server (t_vhost ci) (if o_ssl o then 5671 else 5672) (t_ssl ci))
    end
  end.
(** tools/common.c:270-279 *)
Definition ssl_info (o : options) (ci : target) : outcome target :=
  if o_ssl o && negb (t_ssl ci) then
    let* _ := die_if (given (o_url o)) in
    Returns (mkTarget (t_user ci) (t_password ci) (t_host ci) (t_vhost ci) (t_port ci) true)
  else Returns ci.
(** tools/common.c:281-287 *)
Definition port_info (o : options) (ci : target) : outcome target :=
  if 0 <=? o_port o then
    let* _ := die_if (given (o_url o)) in
    Returns (mkTarget (t_user ci) (t_password ci) (t_host ci) (t_vhost ci) (o_port o) (t_ssl ci))
  else Returns ci.
(** tools/common.c:289-297 *)
Definition username_info (o : options) (ci : target) : outcome target :=
  match o_username o with
  | Some u =>
    let* _ := die_if (given (o_url o)) in
    let* _ := die_if (given (o_authfile o)) in
    Returns (mkTarget u (t_password ci) (t_host ci) (t_vhost ci) (t_port ci) (t_ssl ci))
  | None => Returns ci
  end.
(** tools/common.c:299-307 *)
Definition password_info (o : options) (ci : target) : outcome target :=
  match o_password o with
  | Some p =>
    let* _ := die_if (given (o_url o)) in
    let* _ := die_if (given (o_authfile o)) in
    Returns (mkTarget (t_user ci) p (t_host ci) (t_vhost ci) (t_port ci) (t_ssl ci))
  | None => Returns ci
  end.
(** tools/common.c:309-317 *)
Definition authfile_info (o : options) (ci : target) : outcome target :=
  match o_authfile o with
  | Some file =>
    let* _ := die_if (given (o_url o)) in
    match file with
    | None => Dies
    | Some file =>
      let* up := read_authfile file in
      Returns (mkTarget (fst up) (snd up) (t_host ci) (t_vhost ci) (t_port ci) (t_ssl ci))
    end
  | None => Returns ci
  end.
(** tools/common.c:319-325 *)
Definition vhost_info (o : options) (ci : target) : outcome target :=
  match o_vhost o with
  | Some v =>
    let* _ := die_if (given (o_url o)) in
    Returns (mkTarget (t_user ci) (t_password ci) (t_host ci) v (t_port ci) (t_ssl ci))
  | None => Returns ci
  end.
(** tools/common.c:213-330 init_connection_info *)
Definition init_connection_info (o : options) : outcome target :=
  let* ci := match o_url o with Some url => url_info url | None => Returns default_info end in
  let* ci := server_info o ci in
  let* ci := ssl_info o ci in
  let* ci := port_info o ci in
  let* ci := username_info o ci in
  let* ci := password_info o ci in
  let* ci := authfile_info o ci in
  let* ci := vhost_info o ci in
  let* _ := die_if (o_heartbeat o <? 0) in
  Returns ci.
End T.
