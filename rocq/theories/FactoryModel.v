(** The parsers of the collector: collector/pkg/component/analyzer/network/protocol/factory/factory.go:28-47. *)
From Verif Require Import Base AttrModel MsgModel HttpModel RedisModel MysqlModel DnsModel DubboModel RocketModel KafkaModel DetectModel RecordModel.
Open Scope string_scope. Open Scope list_scope. Open Scope Z_scope.

(** generic/generic_parser.go *)
Definition fastfailGeneric (m : msg) : res (bool * msg) := Ok (false, m).
Definition parseGeneric (m : msg) : res ((bool * bool) * msg) := Ok ((true, true), m).
Definition genericRequest (d : bytes) : res (bool * msg) := parsePayload false (Pkg fastfailGeneric parseGeneric []) (newRequest d).
Definition genericResponse (d : bytes) (a : attrs) : res (bool * msg) := parsePayload false (Pkg fastfailGeneric parseGeneric []) (newResponse d a).

(** base64 decoding, the url clustering method, json decoding and the text of unusual addresses are parameters (see the models of the parsers). *)
Section Factory.
  Context (b64 : bytes -> option bytes) (clustering : bytes -> bytes) (json : bytes -> option rheader) (ipOther : bytes -> bytes) (ignore3 : bool).
  (** a parser without a PairMatch *)
  Definition plain (name : string) (rq : bytes -> res (bool * msg)) (rs : bytes -> attrs -> res (bool * msg)) : parser :=
    {| pr_name := name; pr_multi := false; pr_request := rq; pr_response := rs; pr_match := fun _ _ => -1 |}.
  Definition httpParser := plain "http" (httpRequest b64 clustering) (httpResponse b64).
  Definition kafkaParser := plain "kafka" kafkaRequest kafkaResponse.
  Definition mysqlParser := plain "mysql" mysqlRequest mysqlResponse.
  Definition redisParser := plain "redis" redisRequest redisResponse.
  Definition dubboParser := plain "dubbo" dubboRequest dubboResponse.
  Definition rocketParser := plain "rocketmq" (rocketRequest json) (rocketResponse json).
  Definition genericParser := plain NOSUPPORT genericRequest genericResponse.
  Definition dnsParser : parser :=
    {| pr_name := "dns"; pr_multi := true; pr_request := tcpDnsRequest; pr_response := tcpDnsResponse ipOther ignore3; pr_match := dnsPair |}.
  Definition factory : list parser := [httpParser; kafkaParser; mysqlParser; redisParser; dubboParser; dnsParser; rocketParser; genericParser].
End Factory.
