(** Model of the Kafka parser (collector/pkg/component/analyzer/network/protocol/kafka). *)
From Verif Require Import Base AttrModel LabelNames MsgModel TextModel RocketModel.
Open Scope string_scope. Open Scope list_scope. Open Scope Z_scope.

(** kafka_api.go:67-124 kafka_apis: the largest version of each request kind; the smallest is always 0 *)
Definition kafkaApis : list (Z * Z) :=
  [(0, 9); (1, 12); (2, 7); (3, 11); (4, 5); (5, 3); (6, 7); (7, 3); (8, 8); (9, 8); (10, 4); (11, 7); (12, 4); (13, 4); (14, 5); (15, 5); (16, 4);
   (17, 1); (18, 3); (19, 7); (20, 6); (21, 2); (22, 4); (23, 4); (24, 3); (25, 3); (26, 3); (27, 1); (28, 3); (29, 2); (30, 2); (31, 2); (32, 4);
   (33, 2); (34, 2); (35, 2); (36, 2); (37, 3); (38, 2); (39, 2); (40, 2); (41, 2); (42, 2); (43, 2); (44, 1); (45, 0); (46, 0); (47, 0); (48, 1);
   (49, 1); (50, 0); (51, 0); (56, 0); (57, 0); (60, 0); (61, 0)].
(** kafka_api.go:126-132 IsValidVersion *)
Definition isValidVersion (api ver : Z) : bool :=
  match aget kafkaApis api with None => false | Some mx => (0 <=? ver) && (ver <=? mx) end.
(** "if err != nil { return false, true }" *)
Definition orFail {A} (r : res A) (m : msg) (k : A -> res ((bool * bool) * msg)) : res ((bool * bool) * msg) :=
  match r with Ok a => k a | Err => Ok ((false, true), m) | Panic => Panic end.

(** kafka_request.go:8-12 fastfailRequest *)
Definition fastfailKafka (n : Z) (m : msg) : res (bool * msg) := Ok (zlen (m_data m) <? n, m).
(** kafka_request.go:14-49 parseRequest *)
Definition parseKafkaRequest (m : msg) : res ((bool * bool) * msg) :=
  let d := m_data m in
  bind (orZero (readInt32 d 0)) (fun payloadLength =>
    if payloadLength <=? 8 then Ok ((false, true), m)
    else bind (orZero (readInt16 d 4)) (fun apiKey => bind (orZero (readInt16 d 6)) (fun apiVersion =>
      if negb (isValidVersion apiKey apiVersion) then Ok ((false, true), m)
      else bind (orZero (readInt32 d 8)) (fun correlationId => bind (orZero (readInt16 d 12)) (fun clientIdLength =>
        if (correlationId <? 0) || (clientIdLength <? 0) then Ok ((false, true), m)
        else let offset := clientIdLength + 14 in
          if zlen d <? offset then Ok ((false, true), m)
          else Ok ((true, false), addAttr (addAttr (addAttr (setOff m offset) LKafkaApi (IV apiKey)) LKafkaVersion (IV apiVersion)) LKafkaCorrelationId (IV correlationId))))))).
(** kafka_request_fetch.go:8-12, kafka_request_produce.go:8-12, kafka_response_fetch.go:8-12, kafka_response_produce.go:8-12 *)
Definition fastfailApi (api : Z) (m : msg) : res (bool * msg) := Ok (negb (attrInt m LKafkaApi =? api), m).
(** kafka_request_other.go:8-12, kafka_response_other.go:8-12 *)
Definition fastfailOther (m : msg) : res (bool * msg) := Ok (attrInt m LKafkaApi <=? 1, m).
(** kafka_request_other.go:14-18, kafka_response_other.go:14-18 *)
Definition parseKafkaOther (m : msg) : res ((bool * bool) * msg) := Ok ((true, true), m).
(** AddUtf8StringAttribute(KafkaTopic, …), protocol_parser.go:78-80 *)
Definition addTopic (m : msg) (t : bytes) : res msg := bind (formatUtf8 t) (fun q => Ok (addAttr m LKafkaTopic (SV q))).
(** kafka_request_fetch.go:37-56 and kafka_request_produce.go:34-44: the first topic *)
Definition requestTopic (m : msg) (compact : bool) (offset : Z) : res ((bool * bool) * msg) :=
  orFail (readArraySize (m_data m) offset compact) m (fun '(topicNum, o1) =>
    if 0 <? topicNum then
      orFail (readString (m_data m) o1 compact) m (fun '(topicName, _) => bind (addTopic m topicName) (fun m' => Ok ((true, true), m')))
    else Ok ((true, true), m)).
(** kafka_request_fetch.go:14-58 parseRequestFetch *)
Definition parseRequestFetch (m : msg) : res ((bool * bool) * msg) :=
  let version := attrInt m LKafkaVersion in
  let o0 := m_off m + 12 in
  let o1 := if 3 <=? version then o0 + 4 else o0 in
  let o2 := if 4 <=? version then o1 + 1 else o1 in
  let o3 := if 7 <=? version then o2 + 8 else o2 in
  requestTopic m (12 <=? version) o3.
(** kafka_request_produce.go:14-46 parseRequestProduce *)
Definition parseRequestProduce (m : msg) : res ((bool * bool) * msg) :=
  let version := attrInt m LKafkaVersion in
  let compact := 9 <=? version in
  if 3 <=? version
  then orFail (readNullableString (m_data m) (m_off m) compact) m (fun '(_, o) => requestTopic m compact (o + 6))
  else requestTopic m compact (m_off m + 6).

(** kafka_response.go:14-34 parseResponse *)
Definition parseKafkaResponse (m : msg) : res ((bool * bool) * msg) :=
  bind (orZero (readInt32 (m_data m) 0)) (fun payloadLength =>
    if payloadLength <=? 4 then Ok ((false, true), m)
    else bind (orZero (readInt32 (m_data m) 4)) (fun correlationId =>
      if negb (hasAttr m LKafkaCorrelationId) || negb (attrInt m LKafkaCorrelationId =? correlationId) then Ok ((false, true), m)
      else Ok ((true, false), setOff m 8))).
(** kafka_response_fetch.go:48-65 and kafka_response_produce.go:34-48: the error code of the first partition, the topic and the code *)
Definition finishTopic (m : msg) (topicName : bytes) (errorCode : Z) : res ((bool * bool) * msg) :=
  bind (addTopic m topicName) (fun m' => Ok ((true, true), addAttr m' LKafkaErrorCode (IV errorCode))).
Definition partitionError (m : msg) (compact : bool) (offset : Z) (topicName : bytes) (errorCode : Z) : res ((bool * bool) * msg) :=
  orFail (readArraySize (m_data m) offset compact) m (fun '(partitionNum, o) =>
    if 0 <? partitionNum then orFail (readInt16 (m_data m) (o + 4)) m (fun '(code, _) => finishTopic m topicName code)
    else finishTopic m topicName errorCode).
(** kafka_response_fetch.go:39-66 *)
Definition fetchTopics (m : msg) (version : Z) (compact : bool) (offset errorCode : Z) : res ((bool * bool) * msg) :=
  orFail (readArraySize (m_data m) offset compact) m (fun '(topicNum, o1) =>
    if 0 <? topicNum then
      orFail (readString (m_data m) o1 compact) m (fun '(topicName, o2) =>
        if version <? 7 then partitionError m compact o2 topicName errorCode
        else finishTopic m topicName errorCode)
    else Ok ((true, true), addAttr m LKafkaErrorCode (IV errorCode))).
(** kafka_response_fetch.go:14-67 parseResponseFetch *)
Definition parseResponseFetch (m : msg) : res ((bool * bool) * msg) :=
  let version := attrInt m LKafkaVersion in
  let compact := 12 <=? version in
  let o1 := if 1 <=? version then m_off m + 4 else m_off m in
  if 7 <=? version
  then orFail (readInt16 (m_data m) o1) m (fun '(code, o) => fetchTopics m version compact (o + 4) code)
  else fetchTopics m version compact o1 0.
(** kafka_response_produce.go:14-50 parseResponseProduce *)
Definition parseResponseProduce (m : msg) : res ((bool * bool) * msg) :=
  let version := attrInt m LKafkaVersion in
  let compact := 9 <=? version in
  orFail (readArraySize (m_data m) (m_off m) compact) m (fun '(topicNum, o1) =>
    if 0 <? topicNum then orFail (readString (m_data m) o1 compact) m (fun '(topicName, o2) => partitionError m compact o2 topicName 0)
    else Ok ((true, true), addAttr m LKafkaErrorCode (IV 0))).

(** kafka_parser.go:12-25 NewKafkaParser (single frame); protocol_parser.go:415-421 *)
Definition kafkaRequestParser : pkg :=
  Pkg (fastfailKafka 12) parseKafkaRequest [Pkg (fastfailApi 1) parseRequestFetch []; Pkg (fastfailApi 0) parseRequestProduce []; Pkg fastfailOther parseKafkaOther []].
Definition kafkaResponseParser : pkg :=
  Pkg (fastfailKafka 8) parseKafkaResponse [Pkg (fastfailApi 1) parseResponseFetch []; Pkg (fastfailApi 0) parseResponseProduce []; Pkg fastfailOther parseKafkaOther []].
Definition kafkaRequest (d : bytes) : res (bool * msg) := parsePayload false kafkaRequestParser (newRequest d).
Definition kafkaResponse (d : bytes) (attrs : list (string * aval)) : res (bool * msg) := parsePayload false kafkaResponseParser (newResponse d attrs).
