(** RocketMQ remoting commands with the binary header: length; serialization 1 and header length; code, language, version,
    opaque, flag, remark, extension fields. *)
From Verif Require Import Base ReaderSpec.
Open Scope string_scope. Open Scope list_scope. Open Scope Z_scope.

Definition field (kv : bytes * bytes) : bytes := be16 (zlen (fst kv)) ++ fst kv ++ be32 (zlen (snd kv)) ++ snd kv.
Definition fields (l : list (bytes * bytes)) : bytes := List.concat (map field l).
Definition smallFields (l : list (bytes * bytes)) : Prop := Forall (fun kv => zlen (fst kv) < 2 ^ 15 /\ zlen (snd kv) < 2 ^ 31) l.
(** [n] is the length of the extension fields; there is no remark *)
Definition command (total hl code lang version opaque flag remark n : Z) (rest : bytes) : bytes :=
  be32 total ++ [1; hl / 2 ^ 16 mod 2 ^ 8; hl / 2 ^ 8 mod 2 ^ 8; hl mod 2 ^ 8] ++ be16 code ++ [lang] ++ be16 version ++ be32 opaque ++ be32 flag ++ be32 remark ++ be32 n ++ rest.
(** the same with a JSON header *)
Definition jsonCommand (total : Z) (header rest : bytes) : bytes :=
  be32 total ++ [0; zlen header / 2 ^ 16 mod 2 ^ 8; zlen header / 2 ^ 8 mod 2 ^ 8; zlen header mod 2 ^ 8] ++ header ++ rest.
(** the topic is the value of the first field called "topic" or, in abbreviated headers, "b" *)
Definition isTopic (kv : bytes * bytes) : bool := eqb (fst kv) (bs "topic") || eqb (fst kv) (bs "b").
Definition topicOf (l : list (bytes * bytes)) : bytes := match find isTopic l with Some kv => snd kv | None => [] end.

(** the kinds of requests by name, and the code of each (RocketMQ's RequestCode) *)
Definition requestKinds : list (string * Z) := [
  ("ADD_WRITE_PERM_OF_BROKER", 327); ("ADJUST_CONSUMER_THREAD_POOL", 213); ("CHECK_CLIENT_CONFIG", 46); ("CHECK_TRANSACTION_STATE", 39);
  ("CLEAN_EXPIRED_CONSUMEQUEUE", 306); ("CLEAN_UNUSED_TOPIC", 316); ("CLONE_GROUP_OFFSET", 314); ("CONSUMER_SEND_MSG_BACK", 36);
  ("CONSUME_MESSAGE_DIRECTLY", 309); ("DELETE_ACL_CONFIG", 51); ("DELETE_EXPIRED_COMMITLOG", 329); ("DELETE_KV_CONFIG", 102);
  ("DELETE_SUBSCRIPTIONGROUP", 207); ("DELETE_TOPIC_IN_BROKER", 215); ("DELETE_TOPIC_IN_NAMESRV", 216); ("END_TRANSACTION", 37);
  ("GET_ALL_CONSUMER_OFFSET", 43); ("GET_ALL_DELAY_OFFSET", 45); ("GET_ALL_PRODUCER_INFO", 328); ("GET_ALL_SUBSCRIPTIONGROUP_CONFIG", 201);
  ("GET_ALL_TOPIC_CONFIG", 21); ("GET_ALL_TOPIC_LIST_FROM_NAMESERVER", 206); ("GET_BROKER_CLUSTER_ACL_CONFIG", 54);
  ("GET_BROKER_CLUSTER_ACL_INFO", 52); ("GET_BROKER_CLUSTER_INFO", 106); ("GET_BROKER_CONFIG", 26); ("GET_BROKER_CONSUME_STATS", 317);
  ("GET_BROKER_RUNTIME_INFO", 28); ("GET_CONSUMER_CONNECTION_LIST", 203); ("GET_CONSUMER_LIST_BY_GROUP", 38); ("GET_CONSUMER_RUNNING_INFO", 307);
  ("GET_CONSUMER_STATUS_FROM_CLIENT", 221); ("GET_CONSUME_STATS", 208); ("GET_EARLIEST_MSG_STORETIME", 32); ("GET_HAS_UNIT_SUB_TOPIC_LIST", 312);
  ("GET_HAS_UNIT_SUB_UNUNIT_TOPIC_LIST", 313); ("GET_KVLIST_BY_NAMESPACE", 219); ("GET_KV_CONFIG", 101); ("GET_MAX_OFFSET", 30);
  ("GET_MIN_OFFSET", 31); ("GET_NAMESRV_CONFIG", 319); ("GET_PRODUCER_CONNECTION_LIST", 204); ("GET_ROUTEINFO_BY_TOPIC", 105);
  ("GET_SYSTEM_TOPIC_LIST_FROM_BROKER", 305); ("GET_SYSTEM_TOPIC_LIST_FROM_NS", 304); ("GET_TOPICS_BY_CLUSTER", 224); ("GET_TOPIC_CONFIG_LIST", 22);
  ("GET_TOPIC_NAME_LIST", 23); ("GET_TOPIC_STATS_INFO", 202); ("GET_UNIT_TOPIC_LIST", 311); ("HEART_BEAT", 34);
  ("INVOKE_BROKER_TO_GET_CONSUMER_STATUS", 223); ("INVOKE_BROKER_TO_RESET_OFFSET", 222); ("LOCK_BATCH_MQ", 41); ("NOTIFY_CONSUMER_IDS_CHANGED", 40);
  ("PULL_MESSAGE", 11); ("PUSH_REPLY_MESSAGE_TO_CLIENT", 326); ("PUT_KV_CONFIG", 100); ("QUERY_BROKER_OFFSET", 13); ("QUERY_CONSUMER_OFFSET", 14);
  ("QUERY_CONSUME_QUEUE", 321); ("QUERY_CONSUME_TIME_SPAN", 303); ("QUERY_CORRECTION_OFFSET", 308); ("QUERY_DATA_VERSION", 322); ("QUERY_MESSAGE", 12);
  ("QUERY_TOPIC_CONSUME_BY_WHO", 300); ("REGISTER_BROKER", 103); ("REGISTER_FILTER_SERVER", 301); ("REGISTER_MESSAGE_FILTER_CLASS", 302);
  ("RESET_CONSUMER_CLIENT_OFFSET", 220); ("RESET_CONSUMER_OFFSET_IN_BROKER", 212); ("RESET_CONSUMER_OFFSET_IN_CONSUMER", 211);
  ("RESUME_CHECK_HALF_MESSAGE", 323); ("RESUME_CONSUMER", 210); ("SEARCH_OFFSET_BY_TIMESTAMP", 29); ("SEND_BATCH_MESSAGE", 320); ("SEND_MESSAGE", 10);
  ("SEND_MESSAGE_V2", 310); ("SEND_REPLY_MESSAGE", 324); ("SEND_REPLY_MESSAGE_V2", 325); ("SUSPEND_CONSUMER", 209); ("TRIGGER_DELETE_FILES", 27);
  ("UNLOCK_BATCH_MQ", 42); ("UNREGISTER_BROKER", 104); ("UPDATE_AND_CREATE_ACL_CONFIG", 50); ("UPDATE_AND_CREATE_SUBSCRIPTIONGROUP", 200);
  ("UPDATE_AND_CREATE_TOPIC", 17); ("UPDATE_BROKER_CONFIG", 25); ("UPDATE_CONSUMER_OFFSET", 15); ("UPDATE_GLOBAL_WHITE_ADDRS_CONFIG", 53);
  ("UPDATE_NAMESRV_CONFIG", 318); ("VIEW_BROKER_STATS_DATA", 315); ("VIEW_MESSAGE_BY_ID", 33); ("WHO_CONSUME_THE_MESSAGE", 214);
  ("WIPE_WRITE_PERM_OF_BROKER", 205)].
(** the errors a broker answers with, by name, and the code of each (ResponseCode) *)
Definition errorKinds : list (string * Z) := [
  ("CONSUMER_NOT_ONLINE", 206); ("CONSUME_MSG_TIMEOUT", 207); ("DELETE_ACL_CONFIG_FAILED", 210);   ("FILTER_DATA_NOT_EXIST", 27); ("FILTER_DATA_NOT_LATEST", 28); ("FLUSH_DISK_TIMEOUT", 10); ("FLUSH_SLAVE_TIMEOUT", 12);   ("MESSAGE_ILLEGAL", 13); ("NOT_IN_CURRENT_UNIT", 205); ("NO_BUYER_ID", 204); ("NO_MESSAGE", 208); ("NO_PERMISSION", 16);
  ("PULL_NOT_FOUND", 19); ("PULL_OFFSET_MOVED", 21); ("PULL_RETRY_IMMEDIATELY", 20);   ("QUERY_NOT_FOUND", 22); ("SERVICE_NOT_AVAILABLE", 14); ("SLAVE_NOT_AVAILABLE", 11); ("SUBSCRIPTION_GROUP_NOT_EXIST", 26);
  ("SUBSCRIPTION_NOT_EXIST", 24); ("SUBSCRIPTION_NOT_LATEST", 25); ("SUBSCRIPTION_PARSE_FAILED", 23); ("TOPIC_EXIST_ALREADY", 18);
  ("TOPIC_NOT_EXIST", 17); ("TRANSACTION_SHOULD_COMMIT", 200); ("TRANSACTION_SHOULD_ROLLBACK", 201); ("TRANSACTION_STATE_GROUP_WRONG", 203);
  ("TRANSACTION_STATE_UNKNOW", 202); ("UPDATE_AND_CREATE_ACL_CONFIG_FAILED", 209); ("UPDATE_GLOBAL_WHITE_ADDRS_CONFIG_FAILED", 211);
  ("VERSION_NOT_SUPPORTED", 15)].
