(** Label names. collector/pkg/model/constlabels/protocols.go and const.go. *)
From Verif Require Import Base.
Open Scope string_scope. Open Scope list_scope. Open Scope Z_scope.

(** const.go:3-8 error types *)
Definition NoError : Z := 0.
Definition ConnectFailError : Z := 1.
Definition NoResponse : Z := 2.
Definition ProtocolError : Z := 3.
(** const.go:16-20 *)
Definition LProtocol := "protocol".
Definition LIsError := "is_error".
Definition LErrorType := "error_type".
Definition LIsSlow := "is_slow".
Definition LIsServer := "is_server".
(** protocols.go:4-6 *)
Definition LContentKey := "content_key".
Definition LRequestPayload := "request_payload".
Definition LResponsePayload := "response_payload".
(** protocols.go:8-13 *)
Definition LHttpMethod := "http_method".
Definition LHttpUrl := "http_url".
Definition LHttpApmTraceType := "trace_type".
Definition LHttpApmTraceId := "trace_id".
Definition LHttpStatusCode := "http_status_code".
Definition LHttpContinue := "http_continue".
(** protocols.go:15-18 *)
Definition LDnsId := "dns_id".
Definition LDnsDomain := "dns_domain".
Definition LDnsRcode := "dns_rcode".
Definition LDnsIp := "dns_ip".
(** protocols.go:20 *)
Definition LOneway := "one_way".
(** protocols.go:22-24 *)
Definition LSql := "sql".
Definition LSqlErrCode := "sql_error_code".
Definition LSqlErrMsg := "sql_error_msg".
(** protocols.go:26-27 *)
Definition LRedisCommand := "redis_command".
Definition LRedisErrMsg := "redis_error_msg".
(** protocols.go:29-33 *)
Definition LKafkaApi := "kafka_api".
Definition LKafkaVersion := "kafka_version".
Definition LKafkaCorrelationId := "kafka_id".
Definition LKafkaTopic := "kafka_topic".
Definition LKafkaErrorCode := "kafka_error_code".
(** protocols.go:35 *)
Definition LDubboErrorCode := "dubbo_error_code".
(** protocols.go:37-40 *)
Definition LRocketMQOpaque := "rocketmq_opaque".
Definition LRocketMQRequestMsg := "rocketmq_request_msg".
Definition LRocketMQErrMsg := "rocketmq_error_msg".
Definition LRocketMQErrCode := "rocketmq_error_code".
