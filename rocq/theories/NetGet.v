(** Reading the state of a connection. *)
From Coq Require Import ZArith.
From Verif Require Import Base TableModel Net.
(** amqp_connection.c:145-155 *)
Definition amqp_get_channel_max (c : conn) : Z := c_chmax c.
Definition amqp_get_frame_max (c : conn) : Z := frame_max c.
Definition amqp_get_heartbeat (c : conn) : Z := c_hb c.
(** amqp_connection.c:88-90 (the connection has a socket) *)
Definition amqp_get_sockfd (c : conn) : Z := c_fd c.
(** amqp_connection.c:565-571.  The server's properties are in a pool of their own;
    the client's are in the pool of channel 0, in the generation given: the
    memory is valid as long as this is the pool's current generation.  None: the
    empty table of a new connection. *)
Definition amqp_get_server_properties (c : conn) : table := c_sprops c.
Definition amqp_get_client_properties (c : conn) : option (table * nat) := c_cprops c.
Definition still_valid (c : conn) (generation : nat) : Prop := generation = gens c 0%Z.
