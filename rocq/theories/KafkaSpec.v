(** Kafka frames, from the protocol guide. *)
From Verif Require Import Base ReaderSpec.
Open Scope string_scope. Open Scope list_scope. Open Scope Z_scope.

(** Request header 1: api key, api version, correlation id, client id (a nullable string). Frames before the flexible versions. *)
Definition kafkaFrame (len api ver cid : Z) (client : option bytes) (body : bytes) : bytes :=
  be32 len ++ be16 api ++ be16 ver ++ be32 cid ++ encNullStr client ++ body.
(** Request header 2 of the flexible versions ends with tagged fields, here none. *)
Definition flexibleFrame (len api ver cid : Z) (client : option bytes) (body : bytes) : bytes :=
  be32 len ++ be16 api ++ be16 ver ++ be32 cid ++ encNullStr client ++ [0] ++ body.
Definition PRODUCE := 0.
Definition FETCH := 1.
(** fetch: replica, wait, min bytes; max bytes since 3, isolation level since 4, session id and epoch since 7; then the topics *)
Definition fetchFixed (ver : Z) : Z := 12 + (if 3 <=? ver then 4 else 0) + (if 4 <=? ver then 1 else 0) + (if 7 <=? ver then 8 else 0).
(** produce: transactional id since 3; acks and timeout (6 bytes); then the topics *)
Definition produceHead (ver : Z) (txn : option bytes) (acks : bytes) : bytes := (if 3 <=? ver then encNullStr txn else []) ++ acks.
Definition topics (n : Z) (topic rest : bytes) : bytes := be32 n ++ encStr topic ++ rest.
(** Response header 0. *)
Definition kafkaAnswer (len cid : Z) (body : bytes) : bytes := be32 len ++ be32 cid ++ body.
(** fetch answer: throttle time since 1; error code and session id since 7; topics; then, for each, the partitions with index and error code *)
Definition fetchAnswerHead (ver : Z) (throttle : bytes) (err : Z) (session : bytes) : bytes :=
  (if 1 <=? ver then throttle else []) ++ (if 7 <=? ver then be16 err ++ session else []).
Definition partitions (n : Z) (index : bytes) (err : Z) (rest : bytes) : bytes := be32 n ++ index ++ be16 err ++ rest.

(** the kinds of requests: name, api key, largest version the collector knows; the smallest is 0 *)
Definition apiKinds : list (string * Z * Z) := [
  ("AddOffsetsToTxn", 25, 3); ("AddPartitionsToTxn", 24, 3); ("AlterClientQuotas", 49, 1); ("AlterConfigs", 33, 2); ("AlterIsr", 56, 0);
  ("AlterPartitionReassignments", 45, 0); ("AlterReplicaLogDirs", 34, 2); ("AlterUserScramCredentials", 51, 0); ("ApiVersions", 18, 3);
  ("ControlledShutdown", 7, 3); ("CreateAcls", 30, 2); ("CreateDelegationToken", 38, 2); ("CreatePartitions", 37, 3); ("CreateTopics", 19, 7);
  ("DeleteAcls", 31, 2); ("DeleteGroups", 42, 2); ("DeleteRecords", 21, 2); ("DeleteTopics", 20, 6); ("DescribeAcls", 29, 2);
  ("DescribeClientQuotas", 48, 1); ("DescribeCluster", 60, 0); ("DescribeConfigs", 32, 4); ("DescribeDelegationToken", 41, 2);
  ("DescribeGroups", 15, 5); ("DescribeLogDirs", 35, 2); ("DescribeProducers", 61, 0); ("DescribeUserScramCredentials", 50, 0);
  ("ElectLeaders", 43, 2); ("EndTxn", 26, 3); ("ExpireDelegationToken", 40, 2); ("Fetch", 1, 12); ("FindCoordinator", 10, 4); ("Heartbeat", 12, 4);
  ("IncrementalAlterConfigs", 44, 1); ("InitProducerId", 22, 4); ("JoinGroup", 11, 7); ("LeaderAndIsr", 4, 5); ("LeaveGroup", 13, 4);
  ("ListGroups", 16, 4); ("ListOffsets", 2, 7); ("ListPartitionReassignments", 46, 0); ("Metadata", 3, 11); ("OffsetCommit", 8, 8);
  ("OffsetDelete", 47, 0); ("OffsetFetch", 9, 8); ("OffsetForLeaderEpoch", 23, 4); ("Produce", 0, 9); ("RenewDelegationToken", 39, 2);
  ("SaslAuthenticate", 36, 2); ("SaslHandshake", 17, 1); ("StopReplica", 5, 3); ("SyncGroup", 14, 5); ("TxnOffsetCommit", 28, 3);
  ("UpdateFeatures", 57, 0); ("UpdateMetadata", 6, 7); ("WriteTxnMarkers", 27, 1)].
