(** Model of the RocketMQ parser (collector/pkg/component/analyzer/network/protocol/rocketmq).
    json.Unmarshal is a parameter: a function from the header bytes to the decoded header, or None where it reports an error.
    A failed decode returns at once, so what it may have written into the header before failing is never used. *)
From Verif Require Import Base Decimal AttrModel LabelNames MsgModel.
Open Scope string_scope. Open Scope list_scope. Open Scope Z_scope.

(** rocketmq_api.go:16-112 requestMsgMap *)
Definition requestMsgMap : list (Z * string) :=
  [(10, "SEND_MESSAGE"); (11, "PULL_MESSAGE"); (12, "QUERY_MESSAGE"); (13, "QUERY_BROKER_OFFSET");
   (14, "QUERY_CONSUMER_OFFSET"); (15, "UPDATE_CONSUMER_OFFSET"); (17, "UPDATE_AND_CREATE_TOPIC"); (21, "GET_ALL_TOPIC_CONFIG");
   (22, "GET_TOPIC_CONFIG_LIST"); (23, "GET_TOPIC_NAME_LIST"); (25, "UPDATE_BROKER_CONFIG"); (26, "GET_BROKER_CONFIG");
   (27, "TRIGGER_DELETE_FILES"); (28, "GET_BROKER_RUNTIME_INFO"); (29, "SEARCH_OFFSET_BY_TIMESTAMP"); (30, "GET_MAX_OFFSET");
   (31, "GET_MIN_OFFSET"); (32, "GET_EARLIEST_MSG_STORETIME"); (33, "VIEW_MESSAGE_BY_ID"); (34, "HEART_BEAT");
   (36, "CONSUMER_SEND_MSG_BACK"); (37, "END_TRANSACTION"); (38, "GET_CONSUMER_LIST_BY_GROUP"); (39, "CHECK_TRANSACTION_STATE");
   (40, "NOTIFY_CONSUMER_IDS_CHANGED"); (41, "LOCK_BATCH_MQ"); (42, "UNLOCK_BATCH_MQ"); (43, "GET_ALL_CONSUMER_OFFSET");
   (45, "GET_ALL_DELAY_OFFSET"); (46, "CHECK_CLIENT_CONFIG"); (50, "UPDATE_AND_CREATE_ACL_CONFIG"); (51, "DELETE_ACL_CONFIG");
   (52, "GET_BROKER_CLUSTER_ACL_INFO"); (53, "UPDATE_GLOBAL_WHITE_ADDRS_CONFIG"); (54, "GET_BROKER_CLUSTER_ACL_CONFIG"); (100, "PUT_KV_CONFIG");
   (101, "GET_KV_CONFIG"); (102, "DELETE_KV_CONFIG"); (103, "REGISTER_BROKER"); (104, "UNREGISTER_BROKER");
   (105, "GET_ROUTEINFO_BY_TOPIC"); (106, "GET_BROKER_CLUSTER_INFO"); (200, "UPDATE_AND_CREATE_SUBSCRIPTIONGROUP"); (201, "GET_ALL_SUBSCRIPTIONGROUP_CONFIG");
   (202, "GET_TOPIC_STATS_INFO"); (203, "GET_CONSUMER_CONNECTION_LIST"); (204, "GET_PRODUCER_CONNECTION_LIST"); (205, "WIPE_WRITE_PERM_OF_BROKER");
   (206, "GET_ALL_TOPIC_LIST_FROM_NAMESERVER"); (207, "DELETE_SUBSCRIPTIONGROUP"); (208, "GET_CONSUME_STATS"); (209, "SUSPEND_CONSUMER");
   (210, "RESUME_CONSUMER"); (211, "RESET_CONSUMER_OFFSET_IN_CONSUMER"); (212, "RESET_CONSUMER_OFFSET_IN_BROKER"); (213, "ADJUST_CONSUMER_THREAD_POOL");
   (214, "WHO_CONSUME_THE_MESSAGE"); (215, "DELETE_TOPIC_IN_BROKER"); (216, "DELETE_TOPIC_IN_NAMESRV"); (219, "GET_KVLIST_BY_NAMESPACE");
   (220, "RESET_CONSUMER_CLIENT_OFFSET"); (221, "GET_CONSUMER_STATUS_FROM_CLIENT"); (222, "INVOKE_BROKER_TO_RESET_OFFSET"); (223, "INVOKE_BROKER_TO_GET_CONSUMER_STATUS");
   (224, "GET_TOPICS_BY_CLUSTER"); (300, "QUERY_TOPIC_CONSUME_BY_WHO"); (301, "REGISTER_FILTER_SERVER"); (302, "REGISTER_MESSAGE_FILTER_CLASS");
   (303, "QUERY_CONSUME_TIME_SPAN"); (304, "GET_SYSTEM_TOPIC_LIST_FROM_NS"); (305, "GET_SYSTEM_TOPIC_LIST_FROM_BROKER"); (306, "CLEAN_EXPIRED_CONSUMEQUEUE");
   (307, "GET_CONSUMER_RUNNING_INFO"); (308, "QUERY_CORRECTION_OFFSET"); (309, "CONSUME_MESSAGE_DIRECTLY"); (310, "SEND_MESSAGE_V2");
   (311, "GET_UNIT_TOPIC_LIST"); (312, "GET_HAS_UNIT_SUB_TOPIC_LIST"); (313, "GET_HAS_UNIT_SUB_UNUNIT_TOPIC_LIST"); (314, "CLONE_GROUP_OFFSET");
   (315, "VIEW_BROKER_STATS_DATA"); (316, "CLEAN_UNUSED_TOPIC"); (317, "GET_BROKER_CONSUME_STATS"); (318, "UPDATE_NAMESRV_CONFIG");
   (319, "GET_NAMESRV_CONFIG"); (320, "SEND_BATCH_MESSAGE"); (321, "QUERY_CONSUME_QUEUE"); (322, "QUERY_DATA_VERSION");
   (323, "RESUME_CHECK_HALF_MESSAGE"); (324, "SEND_REPLY_MESSAGE"); (325, "SEND_REPLY_MESSAGE_V2"); (326, "PUSH_REPLY_MESSAGE_TO_CLIENT");
   (327, "ADD_WRITE_PERM_OF_BROKER"); (328, "GET_ALL_PRODUCER_INFO"); (329, "DELETE_EXPIRED_COMMITLOG")].
(** rocketmq_api.go:115-147 responseErrMsgMap *)
Definition responseErrMsgMap : list (Z * string) :=
  [(10, "FLUSH_DISK_TIMEOUT"); (11, "SLAVE_NOT_AVAILABLE"); (12, "FLUSH_SLAVE_TIMEOUT"); (13, "MESSAGE_ILLEGAL");
   (14, "SERVICE_NOT_AVAILABLE"); (15, "VERSION_NOT_SUPPORTED"); (16, "NO_PERMISSION"); (17, "TOPIC_NOT_EXIST");
   (18, "TOPIC_EXIST_ALREADY"); (19, "PULL_NOT_FOUND"); (20, "PULL_RETRY_IMMEDIATELY"); (21, "PULL_OFFSET_MOVED");
   (22, "QUERY_NOT_FOUND"); (23, "SUBSCRIPTION_PARSE_FAILED"); (24, "SUBSCRIPTION_NOT_EXIST"); (25, "SUBSCRIPTION_NOT_LATEST");
   (26, "SUBSCRIPTION_GROUP_NOT_EXIST"); (27, "FILTER_DATA_NOT_EXIST"); (28, "FILTER_DATA_NOT_LATEST"); (200, "TRANSACTION_SHOULD_COMMIT");
   (201, "TRANSACTION_SHOULD_ROLLBACK"); (202, "TRANSACTION_STATE_UNKNOW"); (203, "TRANSACTION_STATE_GROUP_WRONG"); (204, "NO_BUYER_ID");
   (205, "NOT_IN_CURRENT_UNIT"); (206, "CONSUMER_NOT_ONLINE"); (207, "CONSUME_MSG_TIMEOUT"); (208, "NO_MESSAGE");
   (209, "UPDATE_AND_CREATE_ACL_CONFIG_FAILED"); (210, "DELETE_ACL_CONFIG_FAILED"); (211, "UPDATE_GLOBAL_WHITE_ADDRS_CONFIG_FAILED")].

(** rocketmq_api.go:3-13 rocketmqHeader: the fields that are read after parsing *)
Record rheader := { r_code : Z; r_opaque : Z; r_remark : bytes; r_ext : list (bytes * bytes) }.
(** a map lookup m[k] with the zero value for a missing key *)
Definition msgOf (t : list (Z * string)) (c : Z) : bytes := match aget t c with Some s => bs s | None => [] end.
Definition extOf (h : rheader) (k : bytes) : bytes := match aget (r_ext h) k with Some v => v | None => [] end.
(** A read whose error is ignored leaves the zero value. *)
Definition orZero (r : res (Z * Z)) : res Z := match r with Ok (v, _) => Ok v | Err => Ok 0 | Panic => Panic end.
(** "if err != nil { break }" *)
Definition orBreak {A B} (r : res A) (m : B) (k : A -> res B) : res B := match r with Ok a => k a | Err => Ok m | Panic => Panic end.

(** rocketmq_request.go:87-109: the loop over the extension fields. [used] is extFieldBytesLen. Running out of [fuel] is excluded by the proofs. *)
Fixpoint extLoop (fuel : nat) (d : bytes) (off used limit : Z) (m : list (bytes * bytes)) : res (list (bytes * bytes)) :=
  match fuel with
  | O => Err
  | S f =>
      if (used <? limit) && (used + 29 <? zlen d)
      then orBreak (readInt16 d off) m (fun '(keyLen, o1) =>
           orBreak (readBytes d o1 keyLen) m (fun '(key, o2) =>
           orBreak (readInt32 d o2) m (fun '(valueLen, o3) =>
           orBreak (readBytes d o3 valueLen) m (fun '(value, o4) =>
             let m' := aset m key value in
             if eqb key (bs "topic") || eqb key (bs "b") then Ok m'
             else extLoop f d o4 (used + 2 + keyLen + 4 + valueLen) limit m'))))
      else Ok m
  end.
(** rocketmq_request.go:62-113 parseHeader. The offset 29 is what ReadInt32(25, …) returns on a payload of at least 29 bytes, which both callers have checked;
    the language code, the version and the flag are read but never used. *)
Definition parseHeader (d : bytes) : res rheader :=
  bind (orZero (readInt16 d 8)) (fun code =>
  bind (gindex d 10) (fun _ =>
  bind (orZero (readInt32 d 13)) (fun opaque =>
  bind (orZero (readInt32 d 21)) (fun remarkLen =>
  bind (orZero (readInt32 d 25)) (fun extFieldLen =>
  bind (if (0 <? extFieldLen) && (remarkLen =? 0) then extLoop (S (List.length d)) d 29 0 extFieldLen [] else Ok [])
    (fun ext => Ok {| r_code := code; r_opaque := opaque; r_remark := []; r_ext := ext |})))))).

Section Json.
Variable json : bytes -> option rheader.
(** rocketmq_request.go:24-41 and rocketmq_response.go:26-41: the header of either serialization; [None] is "return false, true" *)
Definition rocketHeader (d : bytes) : res (option rheader) :=
  bind (gindex d 4) (fun serializeType =>
    if serializeType =? 0 then
      bind (orZero (readInt32 d 4)) (fun headerLength =>
        match readBytes d 8 headerLength with
        | Ok (hb, _) => Ok (json hb)
        | Err => Ok None
        | Panic => Panic
        end)
    else if serializeType =? 1 then bind (parseHeader d) (fun h => Ok (Some h))
    else Ok None).
(** rocketmq_request.go:17-59 parseRocketMQRequest *)
Definition parseRocketRequest (m : msg) : res ((bool * bool) * msg) :=
  bind (rocketHeader (m_data m)) (fun oh =>
    match oh with
    | None => Ok ((false, true), m)
    | Some h =>
        let m1 := addAttr (addAttr m LRocketMQRequestMsg (SV (msgOf requestMsgMap (r_code h)))) LRocketMQOpaque (IV (r_opaque h)) in
        let key := if negb (zlen (extOf h (bs "topic")) =? 0) then bs "Topic:" ++ extOf h (bs "topic")
                   else if negb (zlen (extOf h (bs "b")) =? 0) then bs "Topic:" ++ extOf h (bs "b")
                   else msgOf requestMsgMap (r_code h) in
        Ok ((true, true), addAttr m1 LContentKey (SV key))
    end).
(** rocketmq_response.go:16-65 parseRocketMQResponse *)
Definition parseRocketResponse (m : msg) : res ((bool * bool) * msg) :=
  bind (rocketHeader (m_data m)) (fun oh =>
    match oh with
    | None => Ok ((false, true), m)
    | Some h =>
        if negb (hasAttr m LRocketMQOpaque) || negb (attrInt m LRocketMQOpaque =? r_opaque h) then Ok ((false, true), m)
        else
          let m1 := addAttr m LRocketMQErrCode (IV (r_code h)) in
          Ok ((true, true),
            if 0 <? r_code h then
              let text := if ahas responseErrMsgMap (r_code h) then msgOf responseErrMsgMap (r_code h)
                          else if negb (zlen (r_remark h) =? 0) then r_remark h
                          else bs "error:response code is " ++ formatInt (r_code h) in
              addAttr (addAttr (addAttr m1 LRocketMQErrMsg (SV text)) LIsError (BV true)) LErrorType (IV ProtocolError)
            else m1)
    end).
(** rocketmq_request.go:11-15 and rocketmq_response.go:10-14 *)
Definition fastfailRocket (m : msg) : res (bool * msg) := Ok (zlen (m_data m) <? 29, m).
(** rocketmq_parser.go:5-10 NewRocketMQParser (single frame); protocol_parser.go:415-421 *)
Definition rocketRequest (d : bytes) : res (bool * msg) := parsePayload false (Pkg fastfailRocket parseRocketRequest []) (newRequest d).
Definition rocketResponse (d : bytes) (attrs : list (string * aval)) : res (bool * msg) := parsePayload false (Pkg fastfailRocket parseRocketResponse []) (newResponse d attrs).
End Json.
