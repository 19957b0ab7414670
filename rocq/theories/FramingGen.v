(** GENERATED by scripts/gen_framing.py from librabbitmq/amqp_framing.c and
    include/rabbitmq-c/framing.h.  Do not edit. *)
From Coq Require Import ZArith List String.
From Verif Require Import Base Codec FramingStmt.
Import ListNotations.
Local Open Scope Z_scope.
Local Open Scope string_scope.

(** include/rabbitmq-c/framing.h:148-1040 the method structs: fields with their C types, in
    declaration order ([dummy] of empty structs left out) *)
Definition struct_table : list (Z * list (string * ctype)) := [
  (0x000A000A, [("version_major", CInt W8); ("version_minor", CInt W8); ("server_properties", CTable); ("mechanisms", CBytes); ("locales", CBytes)]) (* amqp_connection_start_t *);
  (0x000A000B, [("client_properties", CTable); ("mechanism", CBytes); ("response", CBytes); ("locale", CBytes)]) (* amqp_connection_start_ok_t *);
  (0x000A0014, [("challenge", CBytes)]) (* amqp_connection_secure_t *);
  (0x000A0015, [("response", CBytes)]) (* amqp_connection_secure_ok_t *);
  (0x000A001E, [("channel_max", CInt W16); ("frame_max", CInt W32); ("heartbeat", CInt W16)]) (* amqp_connection_tune_t *);
  (0x000A001F, [("channel_max", CInt W16); ("frame_max", CInt W32); ("heartbeat", CInt W16)]) (* amqp_connection_tune_ok_t *);
  (0x000A0028, [("virtual_host", CBytes); ("capabilities", CBytes); ("insist", CBool)]) (* amqp_connection_open_t *);
  (0x000A0029, [("known_hosts", CBytes)]) (* amqp_connection_open_ok_t *);
  (0x000A0032, [("reply_code", CInt W16); ("reply_text", CBytes); ("class_id", CInt W16); ("method_id", CInt W16)]) (* amqp_connection_close_t *);
  (0x000A0033, []) (* amqp_connection_close_ok_t *);
  (0x000A003C, [("reason", CBytes)]) (* amqp_connection_blocked_t *);
  (0x000A003D, []) (* amqp_connection_unblocked_t *);
  (0x000A0046, [("new_secret", CBytes); ("reason", CBytes)]) (* amqp_connection_update_secret_t *);
  (0x000A0047, []) (* amqp_connection_update_secret_ok_t *);
  (0x0014000A, [("out_of_band", CBytes)]) (* amqp_channel_open_t *);
  (0x0014000B, [("channel_id", CBytes)]) (* amqp_channel_open_ok_t *);
  (0x00140014, [("active", CBool)]) (* amqp_channel_flow_t *);
  (0x00140015, [("active", CBool)]) (* amqp_channel_flow_ok_t *);
  (0x00140028, [("reply_code", CInt W16); ("reply_text", CBytes); ("class_id", CInt W16); ("method_id", CInt W16)]) (* amqp_channel_close_t *);
  (0x00140029, []) (* amqp_channel_close_ok_t *);
  (0x001E000A, [("realm", CBytes); ("exclusive", CBool); ("passive", CBool); ("active", CBool); ("write", CBool); ("read", CBool)]) (* amqp_access_request_t *);
  (0x001E000B, [("ticket", CInt W16)]) (* amqp_access_request_ok_t *);
  (0x0028000A, [("ticket", CInt W16); ("exchange", CBytes); ("type", CBytes); ("passive", CBool); ("durable", CBool); ("auto_delete", CBool); ("internal", CBool); ("nowait", CBool); ("arguments", CTable)]) (* amqp_exchange_declare_t *);
  (0x0028000B, []) (* amqp_exchange_declare_ok_t *);
  (0x00280014, [("ticket", CInt W16); ("exchange", CBytes); ("if_unused", CBool); ("nowait", CBool)]) (* amqp_exchange_delete_t *);
  (0x00280015, []) (* amqp_exchange_delete_ok_t *);
  (0x0028001E, [("ticket", CInt W16); ("destination", CBytes); ("source", CBytes); ("routing_key", CBytes); ("nowait", CBool); ("arguments", CTable)]) (* amqp_exchange_bind_t *);
  (0x0028001F, []) (* amqp_exchange_bind_ok_t *);
  (0x00280028, [("ticket", CInt W16); ("destination", CBytes); ("source", CBytes); ("routing_key", CBytes); ("nowait", CBool); ("arguments", CTable)]) (* amqp_exchange_unbind_t *);
  (0x00280033, []) (* amqp_exchange_unbind_ok_t *);
  (0x0032000A, [("ticket", CInt W16); ("queue", CBytes); ("passive", CBool); ("durable", CBool); ("exclusive", CBool); ("auto_delete", CBool); ("nowait", CBool); ("arguments", CTable)]) (* amqp_queue_declare_t *);
  (0x0032000B, [("queue", CBytes); ("message_count", CInt W32); ("consumer_count", CInt W32)]) (* amqp_queue_declare_ok_t *);
  (0x00320014, [("ticket", CInt W16); ("queue", CBytes); ("exchange", CBytes); ("routing_key", CBytes); ("nowait", CBool); ("arguments", CTable)]) (* amqp_queue_bind_t *);
  (0x00320015, []) (* amqp_queue_bind_ok_t *);
  (0x0032001E, [("ticket", CInt W16); ("queue", CBytes); ("nowait", CBool)]) (* amqp_queue_purge_t *);
  (0x0032001F, [("message_count", CInt W32)]) (* amqp_queue_purge_ok_t *);
  (0x00320028, [("ticket", CInt W16); ("queue", CBytes); ("if_unused", CBool); ("if_empty", CBool); ("nowait", CBool)]) (* amqp_queue_delete_t *);
  (0x00320029, [("message_count", CInt W32)]) (* amqp_queue_delete_ok_t *);
  (0x00320032, [("ticket", CInt W16); ("queue", CBytes); ("exchange", CBytes); ("routing_key", CBytes); ("arguments", CTable)]) (* amqp_queue_unbind_t *);
  (0x00320033, []) (* amqp_queue_unbind_ok_t *);
  (0x003C000A, [("prefetch_size", CInt W32); ("prefetch_count", CInt W16); ("global", CBool)]) (* amqp_basic_qos_t *);
  (0x003C000B, []) (* amqp_basic_qos_ok_t *);
  (0x003C0014, [("ticket", CInt W16); ("queue", CBytes); ("consumer_tag", CBytes); ("no_local", CBool); ("no_ack", CBool); ("exclusive", CBool); ("nowait", CBool); ("arguments", CTable)]) (* amqp_basic_consume_t *);
  (0x003C0015, [("consumer_tag", CBytes)]) (* amqp_basic_consume_ok_t *);
  (0x003C001E, [("consumer_tag", CBytes); ("nowait", CBool)]) (* amqp_basic_cancel_t *);
  (0x003C001F, [("consumer_tag", CBytes)]) (* amqp_basic_cancel_ok_t *);
  (0x003C0028, [("ticket", CInt W16); ("exchange", CBytes); ("routing_key", CBytes); ("mandatory", CBool); ("immediate", CBool)]) (* amqp_basic_publish_t *);
  (0x003C0032, [("reply_code", CInt W16); ("reply_text", CBytes); ("exchange", CBytes); ("routing_key", CBytes)]) (* amqp_basic_return_t *);
  (0x003C003C, [("consumer_tag", CBytes); ("delivery_tag", CInt W64); ("redelivered", CBool); ("exchange", CBytes); ("routing_key", CBytes)]) (* amqp_basic_deliver_t *);
  (0x003C0046, [("ticket", CInt W16); ("queue", CBytes); ("no_ack", CBool)]) (* amqp_basic_get_t *);
  (0x003C0047, [("delivery_tag", CInt W64); ("redelivered", CBool); ("exchange", CBytes); ("routing_key", CBytes); ("message_count", CInt W32)]) (* amqp_basic_get_ok_t *);
  (0x003C0048, [("cluster_id", CBytes)]) (* amqp_basic_get_empty_t *);
  (0x003C0050, [("delivery_tag", CInt W64); ("multiple", CBool)]) (* amqp_basic_ack_t *);
  (0x003C005A, [("delivery_tag", CInt W64); ("requeue", CBool)]) (* amqp_basic_reject_t *);
  (0x003C0064, [("requeue", CBool)]) (* amqp_basic_recover_async_t *);
  (0x003C006E, [("requeue", CBool)]) (* amqp_basic_recover_t *);
  (0x003C006F, []) (* amqp_basic_recover_ok_t *);
  (0x003C0078, [("delivery_tag", CInt W64); ("multiple", CBool); ("requeue", CBool)]) (* amqp_basic_nack_t *);
  (0x005A000A, []) (* amqp_tx_select_t *);
  (0x005A000B, []) (* amqp_tx_select_ok_t *);
  (0x005A0014, []) (* amqp_tx_commit_t *);
  (0x005A0015, []) (* amqp_tx_commit_ok_t *);
  (0x005A001E, []) (* amqp_tx_rollback_t *);
  (0x005A001F, []) (* amqp_tx_rollback_ok_t *);
  (0x0055000A, [("nowait", CBool)]) (* amqp_confirm_select_t *);
  (0x0055000B, []) (* amqp_confirm_select_ok_t *)
].

(** amqp_framing.c:256-1409 amqp_decode_method, one case per method *)
Definition dec_table : list (Z * list stmt) := [
  (* amqp_framing.c:262-291 AMQP_CONNECTION_START_METHOD *)
  (0x000A000A, [SInt W8 "version_major"; SInt W8 "version_minor"; STable "server_properties"; SLong "mechanisms"; SLong "locales"]);
  (* amqp_framing.c:292-324 AMQP_CONNECTION_START_OK_METHOD *)
  (0x000A000B, [STable "client_properties"; SShort "mechanism"; SLong "response"; SShort "locale"]);
  (* amqp_framing.c:325-339 AMQP_CONNECTION_SECURE_METHOD *)
  (0x000A0014, [SLong "challenge"]);
  (* amqp_framing.c:340-355 AMQP_CONNECTION_SECURE_OK_METHOD *)
  (0x000A0015, [SLong "response"]);
  (* amqp_framing.c:356-370 AMQP_CONNECTION_TUNE_METHOD *)
  (0x000A001E, [SInt W16 "channel_max"; SInt W32 "frame_max"; SInt W16 "heartbeat"]);
  (* amqp_framing.c:371-386 AMQP_CONNECTION_TUNE_OK_METHOD *)
  (0x000A001F, [SInt W16 "channel_max"; SInt W32 "frame_max"; SInt W16 "heartbeat"]);
  (* amqp_framing.c:387-410 AMQP_CONNECTION_OPEN_METHOD *)
  (0x000A0028, [SShort "virtual_host"; SShort "capabilities"; SBits [("insist", 0)]]);
  (* amqp_framing.c:411-426 AMQP_CONNECTION_OPEN_OK_METHOD *)
  (0x000A0029, [SShort "known_hosts"]);
  (* amqp_framing.c:427-447 AMQP_CONNECTION_CLOSE_METHOD *)
  (0x000A0032, [SInt W16 "reply_code"; SShort "reply_text"; SInt W16 "class_id"; SInt W16 "method_id"]);
  (* amqp_framing.c:448-457 AMQP_CONNECTION_CLOSE_OK_METHOD *)
  (0x000A0033, []);
  (* amqp_framing.c:458-473 AMQP_CONNECTION_BLOCKED_METHOD *)
  (0x000A003C, [SShort "reason"]);
  (* amqp_framing.c:474-483 AMQP_CONNECTION_UNBLOCKED_METHOD *)
  (0x000A003D, []);
  (* amqp_framing.c:484-505 AMQP_CONNECTION_UPDATE_SECRET_METHOD *)
  (0x000A0046, [SLong "new_secret"; SShort "reason"]);
  (* amqp_framing.c:506-515 AMQP_CONNECTION_UPDATE_SECRET_OK_METHOD *)
  (0x000A0047, []);
  (* amqp_framing.c:516-530 AMQP_CHANNEL_OPEN_METHOD *)
  (0x0014000A, [SShort "out_of_band"]);
  (* amqp_framing.c:531-545 AMQP_CHANNEL_OPEN_OK_METHOD *)
  (0x0014000B, [SLong "channel_id"]);
  (* amqp_framing.c:546-557 AMQP_CHANNEL_FLOW_METHOD *)
  (0x00140014, [SBits [("active", 0)]]);
  (* amqp_framing.c:558-569 AMQP_CHANNEL_FLOW_OK_METHOD *)
  (0x00140015, [SBits [("active", 0)]]);
  (* amqp_framing.c:570-590 AMQP_CHANNEL_CLOSE_METHOD *)
  (0x00140028, [SInt W16 "reply_code"; SShort "reply_text"; SInt W16 "class_id"; SInt W16 "method_id"]);
  (* amqp_framing.c:591-599 AMQP_CHANNEL_CLOSE_OK_METHOD *)
  (0x00140029, []);
  (* amqp_framing.c:600-621 AMQP_ACCESS_REQUEST_METHOD *)
  (0x001E000A, [SShort "realm"; SBits [("exclusive", 0); ("passive", 1); ("active", 2); ("write", 3); ("read", 4)]]);
  (* amqp_framing.c:622-632 AMQP_ACCESS_REQUEST_OK_METHOD *)
  (0x001E000B, [SInt W16 "ticket"]);
  (* amqp_framing.c:633-666 AMQP_EXCHANGE_DECLARE_METHOD *)
  (0x0028000A, [SInt W16 "ticket"; SShort "exchange"; SShort "type"; SBits [("passive", 0); ("durable", 1); ("auto_delete", 2); ("internal", 3); ("nowait", 4)]; STable "arguments"]);
  (* amqp_framing.c:667-676 AMQP_EXCHANGE_DECLARE_OK_METHOD *)
  (0x0028000B, []);
  (* amqp_framing.c:677-697 AMQP_EXCHANGE_DELETE_METHOD *)
  (0x00280014, [SInt W16 "ticket"; SShort "exchange"; SBits [("if_unused", 0); ("nowait", 1)]]);
  (* amqp_framing.c:698-707 AMQP_EXCHANGE_DELETE_OK_METHOD *)
  (0x00280015, []);
  (* amqp_framing.c:708-743 AMQP_EXCHANGE_BIND_METHOD *)
  (0x0028001E, [SInt W16 "ticket"; SShort "destination"; SShort "source"; SShort "routing_key"; SBits [("nowait", 0)]; STable "arguments"]);
  (* amqp_framing.c:744-752 AMQP_EXCHANGE_BIND_OK_METHOD *)
  (0x0028001F, []);
  (* amqp_framing.c:753-788 AMQP_EXCHANGE_UNBIND_METHOD *)
  (0x00280028, [SInt W16 "ticket"; SShort "destination"; SShort "source"; SShort "routing_key"; SBits [("nowait", 0)]; STable "arguments"]);
  (* amqp_framing.c:789-798 AMQP_EXCHANGE_UNBIND_OK_METHOD *)
  (0x00280033, []);
  (* amqp_framing.c:799-826 AMQP_QUEUE_DECLARE_METHOD *)
  (0x0032000A, [SInt W16 "ticket"; SShort "queue"; SBits [("passive", 0); ("durable", 1); ("exclusive", 2); ("auto_delete", 3); ("nowait", 4)]; STable "arguments"]);
  (* amqp_framing.c:827-845 AMQP_QUEUE_DECLARE_OK_METHOD *)
  (0x0032000B, [SShort "queue"; SInt W32 "message_count"; SInt W32 "consumer_count"]);
  (* amqp_framing.c:846-881 AMQP_QUEUE_BIND_METHOD *)
  (0x00320014, [SInt W16 "ticket"; SShort "queue"; SShort "exchange"; SShort "routing_key"; SBits [("nowait", 0)]; STable "arguments"]);
  (* amqp_framing.c:882-890 AMQP_QUEUE_BIND_OK_METHOD *)
  (0x00320015, []);
  (* amqp_framing.c:891-910 AMQP_QUEUE_PURGE_METHOD *)
  (0x0032001E, [SInt W16 "ticket"; SShort "queue"; SBits [("nowait", 0)]]);
  (* amqp_framing.c:911-921 AMQP_QUEUE_PURGE_OK_METHOD *)
  (0x0032001F, [SInt W32 "message_count"]);
  (* amqp_framing.c:922-943 AMQP_QUEUE_DELETE_METHOD *)
  (0x00320028, [SInt W16 "ticket"; SShort "queue"; SBits [("if_unused", 0); ("if_empty", 1); ("nowait", 2)]]);
  (* amqp_framing.c:944-954 AMQP_QUEUE_DELETE_OK_METHOD *)
  (0x00320029, [SInt W32 "message_count"]);
  (* amqp_framing.c:955-987 AMQP_QUEUE_UNBIND_METHOD *)
  (0x00320032, [SInt W16 "ticket"; SShort "queue"; SShort "exchange"; SShort "routing_key"; STable "arguments"]);
  (* amqp_framing.c:988-996 AMQP_QUEUE_UNBIND_OK_METHOD *)
  (0x00320033, []);
  (* amqp_framing.c:997-1012 AMQP_BASIC_QOS_METHOD *)
  (0x003C000A, [SInt W32 "prefetch_size"; SInt W16 "prefetch_count"; SBits [("global", 0)]]);
  (* amqp_framing.c:1013-1021 AMQP_BASIC_QOS_OK_METHOD *)
  (0x003C000B, []);
  (* amqp_framing.c:1022-1054 AMQP_BASIC_CONSUME_METHOD *)
  (0x003C0014, [SInt W16 "ticket"; SShort "queue"; SShort "consumer_tag"; SBits [("no_local", 0); ("no_ack", 1); ("exclusive", 2); ("nowait", 3)]; STable "arguments"]);
  (* amqp_framing.c:1055-1069 AMQP_BASIC_CONSUME_OK_METHOD *)
  (0x003C0015, [SShort "consumer_tag"]);
  (* amqp_framing.c:1070-1087 AMQP_BASIC_CANCEL_METHOD *)
  (0x003C001E, [SShort "consumer_tag"; SBits [("nowait", 0)]]);
  (* amqp_framing.c:1088-1102 AMQP_BASIC_CANCEL_OK_METHOD *)
  (0x003C001F, [SShort "consumer_tag"]);
  (* amqp_framing.c:1103-1129 AMQP_BASIC_PUBLISH_METHOD *)
  (0x003C0028, [SInt W16 "ticket"; SShort "exchange"; SShort "routing_key"; SBits [("mandatory", 0); ("immediate", 1)]]);
  (* amqp_framing.c:1130-1158 AMQP_BASIC_RETURN_METHOD *)
  (0x003C0032, [SInt W16 "reply_code"; SShort "reply_text"; SShort "exchange"; SShort "routing_key"]);
  (* amqp_framing.c:1159-1190 AMQP_BASIC_DELIVER_METHOD *)
  (0x003C003C, [SShort "consumer_tag"; SInt W64 "delivery_tag"; SBits [("redelivered", 0)]; SShort "exchange"; SShort "routing_key"]);
  (* amqp_framing.c:1191-1210 AMQP_BASIC_GET_METHOD *)
  (0x003C0046, [SInt W16 "ticket"; SShort "queue"; SBits [("no_ack", 0)]]);
  (* amqp_framing.c:1211-1238 AMQP_BASIC_GET_OK_METHOD *)
  (0x003C0047, [SInt W64 "delivery_tag"; SBits [("redelivered", 0)]; SShort "exchange"; SShort "routing_key"; SInt W32 "message_count"]);
  (* amqp_framing.c:1239-1253 AMQP_BASIC_GET_EMPTY_METHOD *)
  (0x003C0048, [SShort "cluster_id"]);
  (* amqp_framing.c:1254-1267 AMQP_BASIC_ACK_METHOD *)
  (0x003C0050, [SInt W64 "delivery_tag"; SBits [("multiple", 0)]]);
  (* amqp_framing.c:1268-1281 AMQP_BASIC_REJECT_METHOD *)
  (0x003C005A, [SInt W64 "delivery_tag"; SBits [("requeue", 0)]]);
  (* amqp_framing.c:1282-1294 AMQP_BASIC_RECOVER_ASYNC_METHOD *)
  (0x003C0064, [SBits [("requeue", 0)]]);
  (* amqp_framing.c:1295-1306 AMQP_BASIC_RECOVER_METHOD *)
  (0x003C006E, [SBits [("requeue", 0)]]);
  (* amqp_framing.c:1307-1315 AMQP_BASIC_RECOVER_OK_METHOD *)
  (0x003C006F, []);
  (* amqp_framing.c:1316-1330 AMQP_BASIC_NACK_METHOD *)
  (0x003C0078, [SInt W64 "delivery_tag"; SBits [("multiple", 0); ("requeue", 1)]]);
  (* amqp_framing.c:1331-1339 AMQP_TX_SELECT_METHOD *)
  (0x005A000A, []);
  (* amqp_framing.c:1340-1348 AMQP_TX_SELECT_OK_METHOD *)
  (0x005A000B, []);
  (* amqp_framing.c:1349-1357 AMQP_TX_COMMIT_METHOD *)
  (0x005A0014, []);
  (* amqp_framing.c:1358-1366 AMQP_TX_COMMIT_OK_METHOD *)
  (0x005A0015, []);
  (* amqp_framing.c:1367-1375 AMQP_TX_ROLLBACK_METHOD *)
  (0x005A001E, []);
  (* amqp_framing.c:1376-1384 AMQP_TX_ROLLBACK_OK_METHOD *)
  (0x005A001F, []);
  (* amqp_framing.c:1385-1396 AMQP_CONFIRM_SELECT_METHOD *)
  (0x0055000A, [SBits [("nowait", 0)]]);
  (* amqp_framing.c:1397-1405 AMQP_CONFIRM_SELECT_OK_METHOD *)
  (0x0055000B, [])
].

(** amqp_framing.c:1614-2321 amqp_encode_method, one case per method *)
Definition enc_table : list (Z * list stmt) := [
  (* amqp_framing.c:1620-1639 AMQP_CONNECTION_START_METHOD *)
  (0x000A000A, [SInt W8 "version_major"; SInt W8 "version_minor"; STable "server_properties"; SLong "mechanisms"; SLong "locales"]);
  (* amqp_framing.c:1640-1659 AMQP_CONNECTION_START_OK_METHOD *)
  (0x000A000B, [STable "client_properties"; SShort "mechanism"; SLong "response"; SShort "locale"]);
  (* amqp_framing.c:1660-1667 AMQP_CONNECTION_SECURE_METHOD *)
  (0x000A0014, [SLong "challenge"]);
  (* amqp_framing.c:1668-1675 AMQP_CONNECTION_SECURE_OK_METHOD *)
  (0x000A0015, [SLong "response"]);
  (* amqp_framing.c:1676-1685 AMQP_CONNECTION_TUNE_METHOD *)
  (0x000A001E, [SInt W16 "channel_max"; SInt W32 "frame_max"; SInt W16 "heartbeat"]);
  (* amqp_framing.c:1686-1695 AMQP_CONNECTION_TUNE_OK_METHOD *)
  (0x000A001F, [SInt W16 "channel_max"; SInt W32 "frame_max"; SInt W16 "heartbeat"]);
  (* amqp_framing.c:1696-1711 AMQP_CONNECTION_OPEN_METHOD *)
  (0x000A0028, [SShort "virtual_host"; SShort "capabilities"; SBits [("insist", 0)]]);
  (* amqp_framing.c:1712-1719 AMQP_CONNECTION_OPEN_OK_METHOD *)
  (0x000A0029, [SShort "known_hosts"]);
  (* amqp_framing.c:1720-1733 AMQP_CONNECTION_CLOSE_METHOD *)
  (0x000A0032, [SInt W16 "reply_code"; SShort "reply_text"; SInt W16 "class_id"; SInt W16 "method_id"]);
  (* amqp_framing.c:1734-1736 AMQP_CONNECTION_CLOSE_OK_METHOD *)
  (0x000A0033, []);
  (* amqp_framing.c:1737-1744 AMQP_CONNECTION_BLOCKED_METHOD *)
  (0x000A003C, [SShort "reason"]);
  (* amqp_framing.c:1745-1747 AMQP_CONNECTION_UNBLOCKED_METHOD *)
  (0x000A003D, []);
  (* amqp_framing.c:1748-1760 AMQP_CONNECTION_UPDATE_SECRET_METHOD *)
  (0x000A0046, [SLong "new_secret"; SShort "reason"]);
  (* amqp_framing.c:1761-1763 AMQP_CONNECTION_UPDATE_SECRET_OK_METHOD *)
  (0x000A0047, []);
  (* amqp_framing.c:1764-1771 AMQP_CHANNEL_OPEN_METHOD *)
  (0x0014000A, [SShort "out_of_band"]);
  (* amqp_framing.c:1772-1779 AMQP_CHANNEL_OPEN_OK_METHOD *)
  (0x0014000B, [SLong "channel_id"]);
  (* amqp_framing.c:1780-1787 AMQP_CHANNEL_FLOW_METHOD *)
  (0x00140014, [SBits [("active", 0)]]);
  (* amqp_framing.c:1788-1795 AMQP_CHANNEL_FLOW_OK_METHOD *)
  (0x00140015, [SBits [("active", 0)]]);
  (* amqp_framing.c:1796-1809 AMQP_CHANNEL_CLOSE_METHOD *)
  (0x00140028, [SInt W16 "reply_code"; SShort "reply_text"; SInt W16 "class_id"; SInt W16 "method_id"]);
  (* amqp_framing.c:1810-1812 AMQP_CHANNEL_CLOSE_OK_METHOD *)
  (0x00140029, []);
  (* amqp_framing.c:1813-1828 AMQP_ACCESS_REQUEST_METHOD *)
  (0x001E000A, [SShort "realm"; SBits [("exclusive", 0); ("passive", 1); ("active", 2); ("write", 3); ("read", 4)]]);
  (* amqp_framing.c:1829-1834 AMQP_ACCESS_REQUEST_OK_METHOD *)
  (0x001E000B, [SInt W16 "ticket"]);
  (* amqp_framing.c:1835-1860 AMQP_EXCHANGE_DECLARE_METHOD *)
  (0x0028000A, [SInt W16 "ticket"; SShort "exchange"; SShort "type"; SBits [("passive", 0); ("durable", 1); ("auto_delete", 2); ("internal", 3); ("nowait", 4)]; STable "arguments"]);
  (* amqp_framing.c:1861-1863 AMQP_EXCHANGE_DECLARE_OK_METHOD *)
  (0x0028000B, []);
  (* amqp_framing.c:1864-1878 AMQP_EXCHANGE_DELETE_METHOD *)
  (0x00280014, [SInt W16 "ticket"; SShort "exchange"; SBits [("if_unused", 0); ("nowait", 1)]]);
  (* amqp_framing.c:1879-1881 AMQP_EXCHANGE_DELETE_OK_METHOD *)
  (0x00280015, []);
  (* amqp_framing.c:1882-1907 AMQP_EXCHANGE_BIND_METHOD *)
  (0x0028001E, [SInt W16 "ticket"; SShort "destination"; SShort "source"; SShort "routing_key"; SBits [("nowait", 0)]; STable "arguments"]);
  (* amqp_framing.c:1908-1910 AMQP_EXCHANGE_BIND_OK_METHOD *)
  (0x0028001F, []);
  (* amqp_framing.c:1911-1936 AMQP_EXCHANGE_UNBIND_METHOD *)
  (0x00280028, [SInt W16 "ticket"; SShort "destination"; SShort "source"; SShort "routing_key"; SBits [("nowait", 0)]; STable "arguments"]);
  (* amqp_framing.c:1937-1939 AMQP_EXCHANGE_UNBIND_OK_METHOD *)
  (0x00280033, []);
  (* amqp_framing.c:1940-1961 AMQP_QUEUE_DECLARE_METHOD *)
  (0x0032000A, [SInt W16 "ticket"; SShort "queue"; SBits [("passive", 0); ("durable", 1); ("exclusive", 2); ("auto_delete", 3); ("nowait", 4)]; STable "arguments"]);
  (* amqp_framing.c:1962-1973 AMQP_QUEUE_DECLARE_OK_METHOD *)
  (0x0032000B, [SShort "queue"; SInt W32 "message_count"; SInt W32 "consumer_count"]);
  (* amqp_framing.c:1974-1999 AMQP_QUEUE_BIND_METHOD *)
  (0x00320014, [SInt W16 "ticket"; SShort "queue"; SShort "exchange"; SShort "routing_key"; SBits [("nowait", 0)]; STable "arguments"]);
  (* amqp_framing.c:2000-2002 AMQP_QUEUE_BIND_OK_METHOD *)
  (0x00320015, []);
  (* amqp_framing.c:2003-2016 AMQP_QUEUE_PURGE_METHOD *)
  (0x0032001E, [SInt W16 "ticket"; SShort "queue"; SBits [("nowait", 0)]]);
  (* amqp_framing.c:2017-2022 AMQP_QUEUE_PURGE_OK_METHOD *)
  (0x0032001F, [SInt W32 "message_count"]);
  (* amqp_framing.c:2023-2038 AMQP_QUEUE_DELETE_METHOD *)
  (0x00320028, [SInt W16 "ticket"; SShort "queue"; SBits [("if_unused", 0); ("if_empty", 1); ("nowait", 2)]]);
  (* amqp_framing.c:2039-2044 AMQP_QUEUE_DELETE_OK_METHOD *)
  (0x00320029, [SInt W32 "message_count"]);
  (* amqp_framing.c:2045-2066 AMQP_QUEUE_UNBIND_METHOD *)
  (0x00320032, [SInt W16 "ticket"; SShort "queue"; SShort "exchange"; SShort "routing_key"; STable "arguments"]);
  (* amqp_framing.c:2067-2069 AMQP_QUEUE_UNBIND_OK_METHOD *)
  (0x00320033, []);
  (* amqp_framing.c:2070-2081 AMQP_BASIC_QOS_METHOD *)
  (0x003C000A, [SInt W32 "prefetch_size"; SInt W16 "prefetch_count"; SBits [("global", 0)]]);
  (* amqp_framing.c:2082-2084 AMQP_BASIC_QOS_OK_METHOD *)
  (0x003C000B, []);
  (* amqp_framing.c:2085-2109 AMQP_BASIC_CONSUME_METHOD *)
  (0x003C0014, [SInt W16 "ticket"; SShort "queue"; SShort "consumer_tag"; SBits [("no_local", 0); ("no_ack", 1); ("exclusive", 2); ("nowait", 3)]; STable "arguments"]);
  (* amqp_framing.c:2110-2117 AMQP_BASIC_CONSUME_OK_METHOD *)
  (0x003C0015, [SShort "consumer_tag"]);
  (* amqp_framing.c:2118-2129 AMQP_BASIC_CANCEL_METHOD *)
  (0x003C001E, [SShort "consumer_tag"; SBits [("nowait", 0)]]);
  (* amqp_framing.c:2130-2137 AMQP_BASIC_CANCEL_OK_METHOD *)
  (0x003C001F, [SShort "consumer_tag"]);
  (* amqp_framing.c:2138-2156 AMQP_BASIC_PUBLISH_METHOD *)
  (0x003C0028, [SInt W16 "ticket"; SShort "exchange"; SShort "routing_key"; SBits [("mandatory", 0); ("immediate", 1)]]);
  (* amqp_framing.c:2157-2174 AMQP_BASIC_RETURN_METHOD *)
  (0x003C0032, [SInt W16 "reply_code"; SShort "reply_text"; SShort "exchange"; SShort "routing_key"]);
  (* amqp_framing.c:2175-2196 AMQP_BASIC_DELIVER_METHOD *)
  (0x003C003C, [SShort "consumer_tag"; SInt W64 "delivery_tag"; SBits [("redelivered", 0)]; SShort "exchange"; SShort "routing_key"]);
  (* amqp_framing.c:2197-2210 AMQP_BASIC_GET_METHOD *)
  (0x003C0046, [SInt W16 "ticket"; SShort "queue"; SBits [("no_ack", 0)]]);
  (* amqp_framing.c:2211-2230 AMQP_BASIC_GET_OK_METHOD *)
  (0x003C0047, [SInt W64 "delivery_tag"; SBits [("redelivered", 0)]; SShort "exchange"; SShort "routing_key"; SInt W32 "message_count"]);
  (* amqp_framing.c:2231-2238 AMQP_BASIC_GET_EMPTY_METHOD *)
  (0x003C0048, [SShort "cluster_id"]);
  (* amqp_framing.c:2239-2248 AMQP_BASIC_ACK_METHOD *)
  (0x003C0050, [SInt W64 "delivery_tag"; SBits [("multiple", 0)]]);
  (* amqp_framing.c:2249-2258 AMQP_BASIC_REJECT_METHOD *)
  (0x003C005A, [SInt W64 "delivery_tag"; SBits [("requeue", 0)]]);
  (* amqp_framing.c:2259-2266 AMQP_BASIC_RECOVER_ASYNC_METHOD *)
  (0x003C0064, [SBits [("requeue", 0)]]);
  (* amqp_framing.c:2267-2274 AMQP_BASIC_RECOVER_METHOD *)
  (0x003C006E, [SBits [("requeue", 0)]]);
  (* amqp_framing.c:2275-2277 AMQP_BASIC_RECOVER_OK_METHOD *)
  (0x003C006F, []);
  (* amqp_framing.c:2278-2288 AMQP_BASIC_NACK_METHOD *)
  (0x003C0078, [SInt W64 "delivery_tag"; SBits [("multiple", 0); ("requeue", 1)]]);
  (* amqp_framing.c:2289-2291 AMQP_TX_SELECT_METHOD *)
  (0x005A000A, []);
  (* amqp_framing.c:2292-2294 AMQP_TX_SELECT_OK_METHOD *)
  (0x005A000B, []);
  (* amqp_framing.c:2295-2297 AMQP_TX_COMMIT_METHOD *)
  (0x005A0014, []);
  (* amqp_framing.c:2298-2300 AMQP_TX_COMMIT_OK_METHOD *)
  (0x005A0015, []);
  (* amqp_framing.c:2301-2303 AMQP_TX_ROLLBACK_METHOD *)
  (0x005A001E, []);
  (* amqp_framing.c:2304-2306 AMQP_TX_ROLLBACK_OK_METHOD *)
  (0x005A001F, []);
  (* amqp_framing.c:2307-2314 AMQP_CONFIRM_SELECT_METHOD *)
  (0x0055000A, [SBits [("nowait", 0)]]);
  (* amqp_framing.c:2315-2317 AMQP_CONFIRM_SELECT_OK_METHOD *)
  (0x0055000B, [])
].

(** amqp_framing.c:1411-1612 amqp_decode_properties: the classes with a case *)
Definition dec_props_classes : list Z := [10; 20; 30; 40; 50; 60; 90; 85].
(** amqp_framing.c:1480-1587 case 60: flag bit number and statement guarded by it *)
Definition dec_props_basic : list (Z * stmt) := [
  (15, SShort "content_type");
  (14, SShort "content_encoding");
  (13, STable "headers");
  (12, SInt W8 "delivery_mode");
  (11, SInt W8 "priority");
  (10, SShort "correlation_id");
  (9, SShort "reply_to");
  (8, SShort "expiration");
  (7, SShort "message_id");
  (6, SInt W64 "timestamp");
  (5, SShort "type");
  (4, SShort "user_id");
  (3, SShort "app_id");
  (2, SShort "cluster_id")
].

(** amqp_framing.c:2323-2455 amqp_encode_properties: the classes with a case *)
Definition enc_props_classes : list Z := [10; 20; 30; 40; 50; 60; 90; 85].
(** amqp_framing.c:2363-2445 case 60: flag bit number and statement guarded by it *)
Definition enc_props_basic : list (Z * stmt) := [
  (15, SShort "content_type");
  (14, SShort "content_encoding");
  (13, STable "headers");
  (12, SInt W8 "delivery_mode");
  (11, SInt W8 "priority");
  (10, SShort "correlation_id");
  (9, SShort "reply_to");
  (8, SShort "expiration");
  (7, SShort "message_id");
  (6, SInt W64 "timestamp");
  (5, SShort "type");
  (4, SShort "user_id");
  (3, SShort "app_id");
  (2, SShort "cluster_id")
].

(** include/rabbitmq-c/framing.h amqp_basic_properties_t without _flags *)
Definition basic_struct : list (string * ctype) := [("content_type", CBytes); ("content_encoding", CBytes); ("headers", CTable); ("delivery_mode", CInt W8); ("priority", CInt W8); ("correlation_id", CBytes); ("reply_to", CBytes); ("expiration", CBytes); ("message_id", CBytes); ("timestamp", CInt W64); ("type", CBytes); ("user_id", CBytes); ("app_id", CBytes); ("cluster_id", CBytes)].

(** amqp_framing.c:16-71 amqp_constant_name *)
Definition constant_name_table : list (Z * string) := [(1, "AMQP_FRAME_METHOD");
  (2, "AMQP_FRAME_HEADER");
  (3, "AMQP_FRAME_BODY");
  (8, "AMQP_FRAME_HEARTBEAT");
  (4096, "AMQP_FRAME_MIN_SIZE");
  (206, "AMQP_FRAME_END");
  (200, "AMQP_REPLY_SUCCESS");
  (311, "AMQP_CONTENT_TOO_LARGE");
  (312, "AMQP_NO_ROUTE");
  (313, "AMQP_NO_CONSUMERS");
  (403, "AMQP_ACCESS_REFUSED");
  (404, "AMQP_NOT_FOUND");
  (405, "AMQP_RESOURCE_LOCKED");
  (406, "AMQP_PRECONDITION_FAILED");
  (320, "AMQP_CONNECTION_FORCED");
  (402, "AMQP_INVALID_PATH");
  (501, "AMQP_FRAME_ERROR");
  (502, "AMQP_SYNTAX_ERROR");
  (503, "AMQP_COMMAND_INVALID");
  (504, "AMQP_CHANNEL_ERROR");
  (505, "AMQP_UNEXPECTED_FRAME");
  (506, "AMQP_RESOURCE_ERROR");
  (530, "AMQP_NOT_ALLOWED");
  (540, "AMQP_NOT_IMPLEMENTED");
  (541, "AMQP_INTERNAL_ERROR")].

(** amqp_framing.c:73-100 amqp_constant_is_hard_error: cases returning 1 *)
Definition hard_error_table : list Z := [320; 402; 501; 502; 503; 504; 505; 506; 530; 540; 541].

(** amqp_framing.c:102-239 amqp_method_name *)
Definition method_name_table : list (Z * string) := [(0x000A000A, "AMQP_CONNECTION_START_METHOD");
  (0x000A000B, "AMQP_CONNECTION_START_OK_METHOD");
  (0x000A0014, "AMQP_CONNECTION_SECURE_METHOD");
  (0x000A0015, "AMQP_CONNECTION_SECURE_OK_METHOD");
  (0x000A001E, "AMQP_CONNECTION_TUNE_METHOD");
  (0x000A001F, "AMQP_CONNECTION_TUNE_OK_METHOD");
  (0x000A0028, "AMQP_CONNECTION_OPEN_METHOD");
  (0x000A0029, "AMQP_CONNECTION_OPEN_OK_METHOD");
  (0x000A0032, "AMQP_CONNECTION_CLOSE_METHOD");
  (0x000A0033, "AMQP_CONNECTION_CLOSE_OK_METHOD");
  (0x000A003C, "AMQP_CONNECTION_BLOCKED_METHOD");
  (0x000A003D, "AMQP_CONNECTION_UNBLOCKED_METHOD");
  (0x000A0046, "AMQP_CONNECTION_UPDATE_SECRET_METHOD");
  (0x000A0047, "AMQP_CONNECTION_UPDATE_SECRET_OK_METHOD");
  (0x0014000A, "AMQP_CHANNEL_OPEN_METHOD");
  (0x0014000B, "AMQP_CHANNEL_OPEN_OK_METHOD");
  (0x00140014, "AMQP_CHANNEL_FLOW_METHOD");
  (0x00140015, "AMQP_CHANNEL_FLOW_OK_METHOD");
  (0x00140028, "AMQP_CHANNEL_CLOSE_METHOD");
  (0x00140029, "AMQP_CHANNEL_CLOSE_OK_METHOD");
  (0x001E000A, "AMQP_ACCESS_REQUEST_METHOD");
  (0x001E000B, "AMQP_ACCESS_REQUEST_OK_METHOD");
  (0x0028000A, "AMQP_EXCHANGE_DECLARE_METHOD");
  (0x0028000B, "AMQP_EXCHANGE_DECLARE_OK_METHOD");
  (0x00280014, "AMQP_EXCHANGE_DELETE_METHOD");
  (0x00280015, "AMQP_EXCHANGE_DELETE_OK_METHOD");
  (0x0028001E, "AMQP_EXCHANGE_BIND_METHOD");
  (0x0028001F, "AMQP_EXCHANGE_BIND_OK_METHOD");
  (0x00280028, "AMQP_EXCHANGE_UNBIND_METHOD");
  (0x00280033, "AMQP_EXCHANGE_UNBIND_OK_METHOD");
  (0x0032000A, "AMQP_QUEUE_DECLARE_METHOD");
  (0x0032000B, "AMQP_QUEUE_DECLARE_OK_METHOD");
  (0x00320014, "AMQP_QUEUE_BIND_METHOD");
  (0x00320015, "AMQP_QUEUE_BIND_OK_METHOD");
  (0x0032001E, "AMQP_QUEUE_PURGE_METHOD");
  (0x0032001F, "AMQP_QUEUE_PURGE_OK_METHOD");
  (0x00320028, "AMQP_QUEUE_DELETE_METHOD");
  (0x00320029, "AMQP_QUEUE_DELETE_OK_METHOD");
  (0x00320032, "AMQP_QUEUE_UNBIND_METHOD");
  (0x00320033, "AMQP_QUEUE_UNBIND_OK_METHOD");
  (0x003C000A, "AMQP_BASIC_QOS_METHOD");
  (0x003C000B, "AMQP_BASIC_QOS_OK_METHOD");
  (0x003C0014, "AMQP_BASIC_CONSUME_METHOD");
  (0x003C0015, "AMQP_BASIC_CONSUME_OK_METHOD");
  (0x003C001E, "AMQP_BASIC_CANCEL_METHOD");
  (0x003C001F, "AMQP_BASIC_CANCEL_OK_METHOD");
  (0x003C0028, "AMQP_BASIC_PUBLISH_METHOD");
  (0x003C0032, "AMQP_BASIC_RETURN_METHOD");
  (0x003C003C, "AMQP_BASIC_DELIVER_METHOD");
  (0x003C0046, "AMQP_BASIC_GET_METHOD");
  (0x003C0047, "AMQP_BASIC_GET_OK_METHOD");
  (0x003C0048, "AMQP_BASIC_GET_EMPTY_METHOD");
  (0x003C0050, "AMQP_BASIC_ACK_METHOD");
  (0x003C005A, "AMQP_BASIC_REJECT_METHOD");
  (0x003C0064, "AMQP_BASIC_RECOVER_ASYNC_METHOD");
  (0x003C006E, "AMQP_BASIC_RECOVER_METHOD");
  (0x003C006F, "AMQP_BASIC_RECOVER_OK_METHOD");
  (0x003C0078, "AMQP_BASIC_NACK_METHOD");
  (0x005A000A, "AMQP_TX_SELECT_METHOD");
  (0x005A000B, "AMQP_TX_SELECT_OK_METHOD");
  (0x005A0014, "AMQP_TX_COMMIT_METHOD");
  (0x005A0015, "AMQP_TX_COMMIT_OK_METHOD");
  (0x005A001E, "AMQP_TX_ROLLBACK_METHOD");
  (0x005A001F, "AMQP_TX_ROLLBACK_OK_METHOD");
  (0x0055000A, "AMQP_CONFIRM_SELECT_METHOD");
  (0x0055000B, "AMQP_CONFIRM_SELECT_OK_METHOD")].

(** amqp_framing.c:241-254 amqp_method_has_content: cases returning 1 *)
Definition has_content_table : list Z := [0x003C0028; 0x003C0032; 0x003C003C; 0x003C0047].

(** amqp_framing.c:2457-2919 the synchronous calls: name, parameters (after state and
    channel), request method, struct assignments, expected reply *)
Definition rpc_table : list rpc_wrapper := [
  (* amqp_framing.c:2466-2477 *)
  mkRpc "amqp_connection_update_secret" [("new_secret", CBytes); ("reason", CBytes)] 0x000A0046 [("new_secret", AParam "new_secret"); ("reason", AParam "reason")] 0x000A0047;
  (* amqp_framing.c:2486-2494 *)
  mkRpc "amqp_channel_open" [] 0x0014000A [("out_of_band", AEmptyBytes)] 0x0014000B;
  (* amqp_framing.c:2504-2513 *)
  mkRpc "amqp_channel_flow" [("active", CBool)] 0x00140014 [("active", AParam "active")] 0x00140015;
  (* amqp_framing.c:2529-2548 *)
  mkRpc "amqp_exchange_declare" [("exchange", CBytes); ("type", CBytes); ("passive", CBool); ("durable", CBool); ("auto_delete", CBool); ("internal", CBool); ("arguments", CTable)] 0x0028000A [("ticket", AZero); ("exchange", AParam "exchange"); ("type", AParam "type"); ("passive", AParam "passive"); ("durable", AParam "durable"); ("auto_delete", AParam "auto_delete"); ("internal", AParam "internal"); ("nowait", AZero); ("arguments", AParam "arguments")] 0x0028000B;
  (* amqp_framing.c:2559-2571 *)
  mkRpc "amqp_exchange_delete" [("exchange", CBytes); ("if_unused", CBool)] 0x00280014 [("ticket", AZero); ("exchange", AParam "exchange"); ("if_unused", AParam "if_unused"); ("nowait", AZero)] 0x00280015;
  (* amqp_framing.c:2584-2599 *)
  mkRpc "amqp_exchange_bind" [("destination", CBytes); ("source", CBytes); ("routing_key", CBytes); ("arguments", CTable)] 0x0028001E [("ticket", AZero); ("destination", AParam "destination"); ("source", AParam "source"); ("routing_key", AParam "routing_key"); ("nowait", AZero); ("arguments", AParam "arguments")] 0x0028001F;
  (* amqp_framing.c:2612-2627 *)
  mkRpc "amqp_exchange_unbind" [("destination", CBytes); ("source", CBytes); ("routing_key", CBytes); ("arguments", CTable)] 0x00280028 [("ticket", AZero); ("destination", AParam "destination"); ("source", AParam "source"); ("routing_key", AParam "routing_key"); ("nowait", AZero); ("arguments", AParam "arguments")] 0x00280033;
  (* amqp_framing.c:2642-2659 *)
  mkRpc "amqp_queue_declare" [("queue", CBytes); ("passive", CBool); ("durable", CBool); ("exclusive", CBool); ("auto_delete", CBool); ("arguments", CTable)] 0x0032000A [("ticket", AZero); ("queue", AParam "queue"); ("passive", AParam "passive"); ("durable", AParam "durable"); ("exclusive", AParam "exclusive"); ("auto_delete", AParam "auto_delete"); ("nowait", AZero); ("arguments", AParam "arguments")] 0x0032000B;
  (* amqp_framing.c:2672-2686 *)
  mkRpc "amqp_queue_bind" [("queue", CBytes); ("exchange", CBytes); ("routing_key", CBytes); ("arguments", CTable)] 0x00320014 [("ticket", AZero); ("queue", AParam "queue"); ("exchange", AParam "exchange"); ("routing_key", AParam "routing_key"); ("nowait", AZero); ("arguments", AParam "arguments")] 0x00320015;
  (* amqp_framing.c:2696-2707 *)
  mkRpc "amqp_queue_purge" [("queue", CBytes)] 0x0032001E [("ticket", AZero); ("queue", AParam "queue"); ("nowait", AZero)] 0x0032001F;
  (* amqp_framing.c:2719-2732 *)
  mkRpc "amqp_queue_delete" [("queue", CBytes); ("if_unused", CBool); ("if_empty", CBool)] 0x00320028 [("ticket", AZero); ("queue", AParam "queue"); ("if_unused", AParam "if_unused"); ("if_empty", AParam "if_empty"); ("nowait", AZero)] 0x00320029;
  (* amqp_framing.c:2745-2758 *)
  mkRpc "amqp_queue_unbind" [("queue", CBytes); ("exchange", CBytes); ("routing_key", CBytes); ("arguments", CTable)] 0x00320032 [("ticket", AZero); ("queue", AParam "queue"); ("exchange", AParam "exchange"); ("routing_key", AParam "routing_key"); ("arguments", AParam "arguments")] 0x00320033;
  (* amqp_framing.c:2770-2783 *)
  mkRpc "amqp_basic_qos" [("prefetch_size", CInt W32); ("prefetch_count", CInt W16); ("global", CBool)] 0x003C000A [("prefetch_size", AParam "prefetch_size"); ("prefetch_count", AParam "prefetch_count"); ("global", AParam "global")] 0x003C000B;
  (* amqp_framing.c:2798-2815 *)
  mkRpc "amqp_basic_consume" [("queue", CBytes); ("consumer_tag", CBytes); ("no_local", CBool); ("no_ack", CBool); ("exclusive", CBool); ("arguments", CTable)] 0x003C0014 [("ticket", AZero); ("queue", AParam "queue"); ("consumer_tag", AParam "consumer_tag"); ("no_local", AParam "no_local"); ("no_ack", AParam "no_ack"); ("exclusive", AParam "exclusive"); ("nowait", AZero); ("arguments", AParam "arguments")] 0x003C0015;
  (* amqp_framing.c:2825-2835 *)
  mkRpc "amqp_basic_cancel" [("consumer_tag", CBytes)] 0x003C001E [("consumer_tag", AParam "consumer_tag"); ("nowait", AZero)] 0x003C001F;
  (* amqp_framing.c:2845-2854 *)
  mkRpc "amqp_basic_recover" [("requeue", CBool)] 0x003C006E [("requeue", AParam "requeue")] 0x003C006F;
  (* amqp_framing.c:2863-2870 *)
  mkRpc "amqp_tx_select" [] 0x005A000A [] 0x005A000B;
  (* amqp_framing.c:2879-2886 *)
  mkRpc "amqp_tx_commit" [] 0x005A0014 [] 0x005A0015;
  (* amqp_framing.c:2895-2902 *)
  mkRpc "amqp_tx_rollback" [] 0x005A001E [] 0x005A001F;
  (* amqp_framing.c:2911-2919 *)
  mkRpc "amqp_confirm_select" [] 0x0055000A [("nowait", AZero)] 0x0055000B
].

(** include/rabbitmq-c/framing.h method numbers *)
Definition AMQP_CONNECTION_START_METHOD : Z := 0x000A000A.
Definition AMQP_CONNECTION_START_OK_METHOD : Z := 0x000A000B.
Definition AMQP_CONNECTION_SECURE_METHOD : Z := 0x000A0014.
Definition AMQP_CONNECTION_SECURE_OK_METHOD : Z := 0x000A0015.
Definition AMQP_CONNECTION_TUNE_METHOD : Z := 0x000A001E.
Definition AMQP_CONNECTION_TUNE_OK_METHOD : Z := 0x000A001F.
Definition AMQP_CONNECTION_OPEN_METHOD : Z := 0x000A0028.
Definition AMQP_CONNECTION_OPEN_OK_METHOD : Z := 0x000A0029.
Definition AMQP_CONNECTION_CLOSE_METHOD : Z := 0x000A0032.
Definition AMQP_CONNECTION_CLOSE_OK_METHOD : Z := 0x000A0033.
Definition AMQP_CONNECTION_BLOCKED_METHOD : Z := 0x000A003C.
Definition AMQP_CONNECTION_UNBLOCKED_METHOD : Z := 0x000A003D.
Definition AMQP_CONNECTION_UPDATE_SECRET_METHOD : Z := 0x000A0046.
Definition AMQP_CONNECTION_UPDATE_SECRET_OK_METHOD : Z := 0x000A0047.
Definition AMQP_CHANNEL_OPEN_METHOD : Z := 0x0014000A.
Definition AMQP_CHANNEL_OPEN_OK_METHOD : Z := 0x0014000B.
Definition AMQP_CHANNEL_FLOW_METHOD : Z := 0x00140014.
Definition AMQP_CHANNEL_FLOW_OK_METHOD : Z := 0x00140015.
Definition AMQP_CHANNEL_CLOSE_METHOD : Z := 0x00140028.
Definition AMQP_CHANNEL_CLOSE_OK_METHOD : Z := 0x00140029.
Definition AMQP_ACCESS_REQUEST_METHOD : Z := 0x001E000A.
Definition AMQP_ACCESS_REQUEST_OK_METHOD : Z := 0x001E000B.
Definition AMQP_EXCHANGE_DECLARE_METHOD : Z := 0x0028000A.
Definition AMQP_EXCHANGE_DECLARE_OK_METHOD : Z := 0x0028000B.
Definition AMQP_EXCHANGE_DELETE_METHOD : Z := 0x00280014.
Definition AMQP_EXCHANGE_DELETE_OK_METHOD : Z := 0x00280015.
Definition AMQP_EXCHANGE_BIND_METHOD : Z := 0x0028001E.
Definition AMQP_EXCHANGE_BIND_OK_METHOD : Z := 0x0028001F.
Definition AMQP_EXCHANGE_UNBIND_METHOD : Z := 0x00280028.
Definition AMQP_EXCHANGE_UNBIND_OK_METHOD : Z := 0x00280033.
Definition AMQP_QUEUE_DECLARE_METHOD : Z := 0x0032000A.
Definition AMQP_QUEUE_DECLARE_OK_METHOD : Z := 0x0032000B.
Definition AMQP_QUEUE_BIND_METHOD : Z := 0x00320014.
Definition AMQP_QUEUE_BIND_OK_METHOD : Z := 0x00320015.
Definition AMQP_QUEUE_PURGE_METHOD : Z := 0x0032001E.
Definition AMQP_QUEUE_PURGE_OK_METHOD : Z := 0x0032001F.
Definition AMQP_QUEUE_DELETE_METHOD : Z := 0x00320028.
Definition AMQP_QUEUE_DELETE_OK_METHOD : Z := 0x00320029.
Definition AMQP_QUEUE_UNBIND_METHOD : Z := 0x00320032.
Definition AMQP_QUEUE_UNBIND_OK_METHOD : Z := 0x00320033.
Definition AMQP_BASIC_QOS_METHOD : Z := 0x003C000A.
Definition AMQP_BASIC_QOS_OK_METHOD : Z := 0x003C000B.
Definition AMQP_BASIC_CONSUME_METHOD : Z := 0x003C0014.
Definition AMQP_BASIC_CONSUME_OK_METHOD : Z := 0x003C0015.
Definition AMQP_BASIC_CANCEL_METHOD : Z := 0x003C001E.
Definition AMQP_BASIC_CANCEL_OK_METHOD : Z := 0x003C001F.
Definition AMQP_BASIC_PUBLISH_METHOD : Z := 0x003C0028.
Definition AMQP_BASIC_RETURN_METHOD : Z := 0x003C0032.
Definition AMQP_BASIC_DELIVER_METHOD : Z := 0x003C003C.
Definition AMQP_BASIC_GET_METHOD : Z := 0x003C0046.
Definition AMQP_BASIC_GET_OK_METHOD : Z := 0x003C0047.
Definition AMQP_BASIC_GET_EMPTY_METHOD : Z := 0x003C0048.
Definition AMQP_BASIC_ACK_METHOD : Z := 0x003C0050.
Definition AMQP_BASIC_REJECT_METHOD : Z := 0x003C005A.
Definition AMQP_BASIC_RECOVER_ASYNC_METHOD : Z := 0x003C0064.
Definition AMQP_BASIC_RECOVER_METHOD : Z := 0x003C006E.
Definition AMQP_BASIC_RECOVER_OK_METHOD : Z := 0x003C006F.
Definition AMQP_BASIC_NACK_METHOD : Z := 0x003C0078.
Definition AMQP_TX_SELECT_METHOD : Z := 0x005A000A.
Definition AMQP_TX_SELECT_OK_METHOD : Z := 0x005A000B.
Definition AMQP_TX_COMMIT_METHOD : Z := 0x005A0014.
Definition AMQP_TX_COMMIT_OK_METHOD : Z := 0x005A0015.
Definition AMQP_TX_ROLLBACK_METHOD : Z := 0x005A001E.
Definition AMQP_TX_ROLLBACK_OK_METHOD : Z := 0x005A001F.
Definition AMQP_CONFIRM_SELECT_METHOD : Z := 0x0055000A.
Definition AMQP_CONFIRM_SELECT_OK_METHOD : Z := 0x0055000B.

(** include/rabbitmq-c/framing.h constants *)
Definition AMQP_PROTOCOL_VERSION_MAJOR : Z := 0.
Definition AMQP_PROTOCOL_VERSION_MINOR : Z := 9.
Definition AMQP_PROTOCOL_VERSION_REVISION : Z := 1.
Definition AMQP_PROTOCOL_PORT : Z := 5672.
Definition AMQP_FRAME_METHOD : Z := 1.
Definition AMQP_FRAME_HEADER : Z := 2.
Definition AMQP_FRAME_BODY : Z := 3.
Definition AMQP_FRAME_HEARTBEAT : Z := 8.
Definition AMQP_FRAME_MIN_SIZE : Z := 4096.
Definition AMQP_FRAME_END : Z := 206.
Definition AMQP_REPLY_SUCCESS : Z := 200.
Definition AMQP_CONTENT_TOO_LARGE : Z := 311.
Definition AMQP_NO_ROUTE : Z := 312.
Definition AMQP_NO_CONSUMERS : Z := 313.
Definition AMQP_ACCESS_REFUSED : Z := 403.
Definition AMQP_NOT_FOUND : Z := 404.
Definition AMQP_RESOURCE_LOCKED : Z := 405.
Definition AMQP_PRECONDITION_FAILED : Z := 406.
Definition AMQP_CONNECTION_FORCED : Z := 320.
Definition AMQP_INVALID_PATH : Z := 402.
Definition AMQP_FRAME_ERROR : Z := 501.
Definition AMQP_SYNTAX_ERROR : Z := 502.
Definition AMQP_COMMAND_INVALID : Z := 503.
Definition AMQP_CHANNEL_ERROR : Z := 504.
Definition AMQP_UNEXPECTED_FRAME : Z := 505.
Definition AMQP_RESOURCE_ERROR : Z := 506.
Definition AMQP_NOT_ALLOWED : Z := 530.
Definition AMQP_NOT_IMPLEMENTED : Z := 540.
Definition AMQP_INTERNAL_ERROR : Z := 541.

(** include/rabbitmq-c/framing.h basic property flags *)
Definition AMQP_BASIC_CONTENT_TYPE_FLAG : Z := 2 ^ 15.
Definition AMQP_BASIC_CONTENT_ENCODING_FLAG : Z := 2 ^ 14.
Definition AMQP_BASIC_HEADERS_FLAG : Z := 2 ^ 13.
Definition AMQP_BASIC_DELIVERY_MODE_FLAG : Z := 2 ^ 12.
Definition AMQP_BASIC_PRIORITY_FLAG : Z := 2 ^ 11.
Definition AMQP_BASIC_CORRELATION_ID_FLAG : Z := 2 ^ 10.
Definition AMQP_BASIC_REPLY_TO_FLAG : Z := 2 ^ 9.
Definition AMQP_BASIC_EXPIRATION_FLAG : Z := 2 ^ 8.
Definition AMQP_BASIC_MESSAGE_ID_FLAG : Z := 2 ^ 7.
Definition AMQP_BASIC_TIMESTAMP_FLAG : Z := 2 ^ 6.
Definition AMQP_BASIC_TYPE_FLAG : Z := 2 ^ 5.
Definition AMQP_BASIC_USER_ID_FLAG : Z := 2 ^ 4.
Definition AMQP_BASIC_APP_ID_FLAG : Z := 2 ^ 3.
Definition AMQP_BASIC_CLUSTER_ID_FLAG : Z := 2 ^ 2.
