(** Model of sending through OpenSSL with the records below: what SSL_write accepts is
    encrypted into a record at once; if the record cannot be transmitted, SSL_write returns
    SSL_ERROR_WANT_WRITE and has the record still to send.  The caller must then call it
    again with the same arguments (SSL_write(3)); OpenSSL checks only that the address is
    the same (SSL_MODE_ACCEPT_MOVING_WRITE_BUFFER is not set, amqp_openssl.c:345) and the
    length no smaller, and sends the old record.

    Net.v has the same functions without the records. *)
From Coq Require Import String ZArith List Bool.
From Verif Require Import Base Codec TableModel FramingStmt FramingGen FramingModel Frame Time Net.
Import ListNotations.
Local Open Scope Z_scope.

(** The record that is still to be sent: the address it was made from, its plain text.
    [t_sizes]: how much goes into the records that cannot be sent at once (it is OpenSSL's
    choice; no more sizes: the call blocks before it makes a record) *)
Record tls_state := mkTlsState { t_pending : option (Z * bytes); t_sizes : list Z }.

Section TlsRecords.
Context (N : nat) (E : nat -> aenv).

(** SSL_write(address, buf), with the statuses of amqp_openssl.c:87-109.  The answer is
    the next event, as in Net.v; one that OpenSSL cannot give in this state, such as a
    number that is not the length of the old record, does not happen ([Halt Blocked]).
    SIntr and SErr are for plain sockets. *)
Definition ssl_write (address : Z) (more : bool) (buf : bytes) (ts : tls_state) : M (Z * tls_state) := fun c ev =>
  match t_pending ts with
  | Some (a, record) =>
    if (a =? address) && (zlen record <=? zlen buf) then
      match ev with
      | EvSend (SOk n) :: ev => if n =? zlen record then Done (n, mkTlsState None (t_sizes ts)) c ev [OSend more record] else Halt Blocked c []
      | EvSend SAgain :: ev => Done (NEEDWRITE, ts) c ev []
      | EvSend SWantRead :: ev => Done (NEEDREAD, ts) c ev [OSend more []]
      | EvSend SEof :: ev => Done (AMQP_STATUS_CONNECTION_CLOSED, ts) c ev []
      | EvSend STls :: ev => Done (AMQP_STATUS_SSL_ERROR, ts) c ev []
      | _ => Halt Blocked c []
      end
    else match ev with EvSend STls :: ev => Done (AMQP_STATUS_SSL_ERROR, ts) c ev [] | _ => Halt Blocked c [] end   (* SSL_R_BAD_WRITE_RETRY *)
  | None =>
    match ev with
    | EvSend (SOk n) :: ev => if (1 <=? n) && (n <=? zlen buf) then Done (n, ts) c ev [OSend more (firstn (Z.to_nat n) buf)] else Halt Blocked c []
    | EvSend SAgain :: ev =>
      match t_sizes ts with
      | [] => Done (NEEDWRITE, ts) c ev []
      | n :: sizes =>
        if (1 <=? n) && (n <=? zlen buf) then Done (NEEDWRITE, mkTlsState (Some (address, firstn (Z.to_nat n) buf)) sizes) c ev [] else Halt Blocked c []
      end
    | EvSend SWantRead :: ev => Done (NEEDREAD, ts) c ev [OSend more []]
    | EvSend SEof :: ev => Done (AMQP_STATUS_CONNECTION_CLOSED, ts) c ev []
    | EvSend STls :: ev => Done (AMQP_STATUS_SSL_ERROR, ts) c ev []
    | _ => Halt Blocked c []
    end
  end.
(** amqp_openssl.c:65-112 (len > INT_MAX: see Net.v) *)
Definition tls_socket_send (address : Z) (more : bool) (buf : bytes) (ts : tls_state) : M (Z * tls_state) :=
  bind get (fun c => if c_fd c =? -1 then ret (AMQP_STATUS_SOCKET_CLOSED, ts) else ssl_write address more buf ts).
(** amqp_socket.c:257-275; [address] is buf_left *)
Fixpoint tls_try_send_loop (fuel : nat) (len address : Z) (left : bytes) (deadline : Z) (more : bool) (ts : tls_state) : M (Z * tls_state) :=
  match fuel with
  | O => halt Fuel
  | S fuel =>
    bind (tls_socket_send address more left ts) (fun p =>
    let (res, ts) := p in
    if 0 <? res then
      let left := skipn (Z.to_nat res) left in
      if zlen left =? 0 then ret (len, ts) else tls_try_send_loop fuel len (address + res) left deadline more ts
    else
      bind (do_poll N res deadline) (fun res =>
      if res =? AMQP_STATUS_OK then tls_try_send_loop fuel len address left deadline more ts
      else if res =? AMQP_STATUS_TIMEOUT then ret (len - zlen left, ts)
      else ret (res, ts)))
  end.
(** amqp_socket.c:250-276 *)
Definition tls_try_send (address : Z) (buf : bytes) (deadline : Z) (more : bool) (ts : tls_state) : M (Z * tls_state) :=
  tls_try_send_loop N (zlen buf) address buf deadline more ts.
(** amqp_connection.c:530-562.  Reading (amqp_try_recv) does not touch the record *)
Fixpoint tls_send_frame_loop (fuel : nat) (address : Z) (encoded : bytes) (more : bool) (deadline : Z) (ts : tls_state) : M (Z * tls_state) :=
  match fuel with
  | O => halt Fuel
  | S fuel =>
    bind get (fun c =>
    let next_timeout := amqp_time_first deadline (c_next_recv c) in
    bind (tls_try_send address encoded next_timeout more ts) (fun p =>
    let (sent, ts) := p in
    if sent <? 0 then ret (sent, ts)
    else if negb (zlen encoded =? sent) then
      if amqp_time_equal next_timeout deadline then ret (AMQP_STATUS_TIMEOUT, ts)
      else
        bind (amqp_try_recv N E) (fun res =>
        if res =? AMQP_STATUS_TIMEOUT then ret (AMQP_STATUS_HEARTBEAT_TIMEOUT, ts)
        else if negb (res =? AMQP_STATUS_OK) then ret (res, ts)
        else tls_send_frame_loop fuel (address + sent) (skipn (Z.to_nat sent) encoded) more deadline ts)
    else bind update_next_send (fun res => ret (res, ts))))
  end.
(** amqp_connection.c:512-563; [buffer]: the address of state->outbound_buffer *)
Definition tls_send_frame_inner (buffer : Z) (f : frame) (more : bool) (deadline : Z) (ts : tls_state) : M (Z * tls_state) :=
  bind get (fun c =>
  match amqp_frame_to_bytes f (c_outbuf c) with
  | FUB => halt UB
  | FRet res buf encoded =>
    bind (upd (fun c => set_outbuf c buf)) (fun _ =>
    if negb (res =? AMQP_STATUS_OK) then ret (res, ts) else tls_send_frame_loop N buffer encoded more deadline ts)
  end).
(** amqp_connection.c:507-510 *)
Definition tls_send_frame (buffer : Z) (f : frame) (ts : tls_state) : M (Z * tls_state) := tls_send_frame_inner buffer f false amqp_time_infinite ts.
(** frames one after the other, until one call fails: its status *)
Fixpoint tls_send_frames (buffer : Z) (fs : list frame) (ts : tls_state) : M (Z * tls_state) :=
  match fs with
  | [] => ret (AMQP_STATUS_OK, ts)
  | f :: fs => bind (tls_send_frame buffer f ts) (fun p => if fst p =? AMQP_STATUS_OK then tls_send_frames buffer fs (snd p) else ret p)
  end.
End TlsRecords.
