(** The Redis serialization protocol, as a flat sequence of elements. *)
From Verif Require Import Base Decimal AttrModel.
Open Scope string_scope. Open Scope list_scope. Open Scope Z_scope.

Inductive resp :=
| Array (n : Z)        (** header of an array of n elements; the elements follow *)
| Bulk (s : bytes)
| Nil
| Int (n : Z)
| Simple (s : bytes)
| Error (s : bytes).
Definition crlf : bytes := [13; 10].
Definition enc (e : resp) : bytes :=
  match e with
  | Array n => bs "*" ++ formatInt n ++ crlf
  | Bulk s => bs "$" ++ formatInt (zlen s) ++ crlf ++ s ++ crlf
  | Nil => bs "$-1" ++ crlf
  | Int n => bs ":" ++ formatInt n ++ crlf
  | Simple s => bs "+" ++ s ++ crlf
  | Error s => bs "-" ++ s ++ crlf
  end.
Definition encAll (es : list resp) : bytes := List.concat (map enc es).

(** Numbers are 64-bit; strings hold no carriage return (a binary string that holds one is not recognised). *)
Definition fits (n : Z) : Prop := - 2 ^ 63 <= n < 2 ^ 63.
Definition noCR (s : bytes) : Prop := ~ In 13 s.
Definition wellFormed (e : resp) : Prop :=
  match e with
  | Array n | Int n => fits n
  | Bulk s => noCR s /\ fits (zlen s)
  | Nil => True
  | Simple s | Error s => noCR s
  end.
(** What clients send. *)
Definition isRequestElement (e : resp) : Prop := match e with Array _ | Bulk _ | Nil | Int _ => True | _ => False end.
(** A command: an array of bulk strings, the name first. *)
Definition command (name : bytes) (args : list bytes) : list resp :=
  Array (1 + zlen args) :: Bulk name :: map Bulk args.

(** Command names are compared without regard to ASCII case. *)
Definition upper (s : bytes) : bytes := map (fun b => if (97 <=? b) && (b <=? 122) then b - 32 else b) s.
Definition commandOf (table : list string) (s : bytes) : Prop := In (upper s) (map bs table).
(** the bulk strings of a message, and the first non-empty error *)
Definition bulks (es : list resp) : list bytes := flat_map (fun e => match e with Bulk s => [s] | _ => [] end) es.
Definition errors (es : list resp) : list bytes := flat_map (fun e => match e with Error (c :: s) => [c :: s] | _ => [] end) es.

(** The Redis commands the collector is to recognise, alphabetically. *)
Definition knownCommands : list string :=
  [
    "ACL CAT"; "ACL DELUSER"; "ACL GENPASS"; "ACL GETUSER"; "ACL HELP"; "ACL LIST"; "ACL LOAD"; "ACL LOG"; "ACL SAVE"; "ACL SETUSER"; "ACL USERS";
    "ACL WHOAMI"; "APPEND"; "AUTH"; "BGREWRITEAOF"; "BGSAVE"; "BITCOUNT"; "BITFIELD"; "BITOP"; "BITPOS"; "BLMOVE"; "BLPOP"; "BRPOP"; "BRPOPLPUSH";
    "BZPOPMAX"; "BZPOPMIN"; "CLIENT CACHING"; "CLIENT GETNAME"; "CLIENT GETREDIR"; "CLIENT ID"; "CLIENT INFO"; "CLIENT KILL"; "CLIENT LIST";
    "CLIENT PAUSE"; "CLIENT REPLY"; "CLIENT SETNAME"; "CLIENT TRACKING"; "CLIENT TRACKINGINFO"; "CLIENT UNBLOCK"; "CLIENT UNPAUSE";
    "CLUSTER ADDSLOTS"; "CLUSTER BUMPEPOCH"; "CLUSTER COUNT-FAILURE-REPORTS"; "CLUSTER COUNTKEYSINSLOT"; "CLUSTER DELSLOTS"; "CLUSTER FAILOVER";
    "CLUSTER FLUSHSLOTS"; "CLUSTER FORGET"; "CLUSTER GETKEYSINSLOT"; "CLUSTER INFO"; "CLUSTER KEYSLOT"; "CLUSTER MEET"; "CLUSTER MYID";
    "CLUSTER NODES"; "CLUSTER REPLICAS"; "CLUSTER REPLICATE"; "CLUSTER RESET"; "CLUSTER SAVECONFIG"; "CLUSTER SET-CONFIG-EPOCH"; "CLUSTER SETSLOT";
    "CLUSTER SLAVES"; "CLUSTER SLOTS"; "COMMAND"; "COMMAND COUNT"; "COMMAND GETKEYS"; "COMMAND INFO"; "CONFIG GET"; "CONFIG RESETSTAT";
    "CONFIG REWRITE"; "CONFIG SET"; "COPY"; "DBSIZE"; "DEBUG OBJECT"; "DEBUG SEGFAULT"; "DECR"; "DECRBY"; "DEL"; "DISCARD"; "DUMP"; "ECHO"; "EVAL";
    "EVALSHA"; "EXEC"; "EXISTS"; "EXPIRE"; "EXPIREAT"; "FAILOVER"; "FLUSHALL"; "FLUSHDB"; "GEOADD"; "GEODIST"; "GEOHASH"; "GEOPOS"; "GEORADIUS";
    "GEORADIUSBYMEMBER"; "GEOSEARCH"; "GEOSEARCHSTORE"; "GET"; "GETBIT"; "GETDEL"; "GETEX"; "GETRANGE"; "GETSET"; "HDEL"; "HELLO"; "HEXISTS"; "HGET";
    "HGETALL"; "HINCRBY"; "HINCRBYFLOAT"; "HKEYS"; "HLEN"; "HMGET"; "HMSET"; "HRANDFIELD"; "HSCAN"; "HSET"; "HSETNX"; "HSTRLEN"; "HVALS"; "INCR";
    "INCRBY"; "INCRBYFLOAT"; "INFO"; "KEYS"; "LASTSAVE"; "LATENCY DOCTOR"; "LATENCY GRAPH"; "LATENCY HELP"; "LATENCY HISTORY"; "LATENCY LATEST";
    "LATENCY RESET"; "LINDEX"; "LINSERT"; "LLEN"; "LMOVE"; "LOLWUT"; "LPOP"; "LPOS"; "LPUSH"; "LPUSHX"; "LRANGE"; "LREM"; "LSET"; "LTRIM";
    "MEMORY DOCTOR"; "MEMORY HELP"; "MEMORY MALLOC-STATS"; "MEMORY PURGE"; "MEMORY STATS"; "MEMORY USAGE"; "MGET"; "MIGRATE"; "MODULE LIST";
    "MODULE LOAD"; "MODULE UNLOAD"; "MONITOR"; "MOVE"; "MSET"; "MSETNX"; "MULTI"; "OBJECT"; "PERSIST"; "PEXPIRE"; "PEXPIREAT"; "PFADD"; "PFCOUNT";
    "PFMERGE"; "PING"; "PSETEX"; "PSUBSCRIBE"; "PSYNC"; "PTTL"; "PUBLISH"; "PUBSUB"; "PUNSUBSCRIBE"; "QUIT"; "RANDOMKEY"; "READONLY"; "READWRITE";
    "RENAME"; "RENAMENX"; "REPLCONF ACK"; "REPLICAOF"; "RESET"; "RESTORE"; "ROLE"; "RPOP"; "RPOPLPUSH"; "RPUSH"; "RPUSHX"; "SADD"; "SAVE"; "SCAN";
    "SCARD"; "SCRIPT DEBUG"; "SCRIPT EXISTS"; "SCRIPT FLUSH"; "SCRIPT KILL"; "SCRIPT LOAD"; "SDIFF"; "SDIFFSTORE"; "SELECT"; "SENTINEL"; "SET";
    "SETBIT"; "SETEX"; "SETNX"; "SETRANGE"; "SHUTDOWN"; "SINTER"; "SINTERSTORE"; "SISMEMBER"; "SLAVEOF"; "SLOWLOG"; "SMEMBERS"; "SMISMEMBER";
    "SMOVE"; "SORT"; "SPOP"; "SRANDMEMBER"; "SREM"; "SSCAN"; "STRALGO"; "STRLEN"; "SUBSCRIBE"; "SUNION"; "SUNIONSTORE"; "SWAPDB"; "SYNC"; "TIME";
    "TOUCH"; "TTL"; "TYPE"; "UNLINK"; "UNSUBSCRIBE"; "UNWATCH"; "WAIT"; "WATCH"; "XACK"; "XADD"; "XAUTOCLAIM"; "XCLAIM"; "XDEL"; "XGROUP"; "XINFO";
    "XLEN"; "XPENDING"; "XRANGE"; "XREAD"; "XREADGROUP"; "XREVRANGE"; "XTRIM"; "ZADD"; "ZCARD"; "ZCOUNT"; "ZDIFF"; "ZDIFFSTORE"; "ZINCRBY"; "ZINTER";
    "ZINTERSTORE"; "ZLEXCOUNT"; "ZMSCORE"; "ZPOPMAX"; "ZPOPMIN"; "ZRANDMEMBER"; "ZRANGE"; "ZRANGEBYLEX"; "ZRANGEBYSCORE"; "ZRANGESTORE"; "ZRANK";
    "ZREM"; "ZREMRANGEBYLEX"; "ZREMRANGEBYRANK"; "ZREMRANGEBYSCORE"; "ZREVRANGE"; "ZREVRANGEBYLEX"; "ZREVRANGEBYSCORE"; "ZREVRANK"; "ZSCAN";
    "ZSCORE"; "ZUNION"; "ZUNIONSTORE"
  ].
