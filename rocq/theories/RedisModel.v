(** Model of the Redis parser (collector/pkg/component/analyzer/network/protocol/redis). *)
From Verif Require Import Base Decimal AttrModel LabelNames MsgModel TextModel.
Open Scope string_scope. Open Scope list_scope. Open Scope Z_scope.

(** redis_command.go:3-292 redisCommands *)
Definition redisCommands : list string :=
  [
    "ACL LOAD"; "ACL SAVE"; "ACL LIST"; "ACL USERS"; "ACL GETUSER"; "ACL SETUSER"; "ACL DELUSER"; "ACL CAT"; "ACL GENPASS"; "ACL WHOAMI"; "ACL LOG";
    "ACL HELP"; "APPEND"; "AUTH"; "BGREWRITEAOF"; "BGSAVE"; "BITCOUNT"; "BITFIELD"; "BITOP"; "BITPOS"; "BLPOP"; "BRPOP"; "BRPOPLPUSH"; "BLMOVE";
    "BZPOPMIN"; "BZPOPMAX"; "CLIENT CACHING"; "CLIENT ID"; "CLIENT INFO"; "CLIENT KILL"; "CLIENT LIST"; "CLIENT GETNAME"; "CLIENT GETREDIR";
    "CLIENT UNPAUSE"; "CLIENT PAUSE"; "CLIENT REPLY"; "CLIENT SETNAME"; "CLIENT TRACKING"; "CLIENT TRACKINGINFO"; "CLIENT UNBLOCK"; "CLUSTER ADDSLOTS";
    "CLUSTER BUMPEPOCH"; "CLUSTER COUNT-FAILURE-REPORTS"; "CLUSTER COUNTKEYSINSLOT"; "CLUSTER DELSLOTS"; "CLUSTER FAILOVER"; "CLUSTER FLUSHSLOTS";
    "CLUSTER FORGET"; "CLUSTER GETKEYSINSLOT"; "CLUSTER INFO"; "CLUSTER KEYSLOT"; "CLUSTER MEET"; "CLUSTER MYID"; "CLUSTER NODES"; "CLUSTER REPLICATE";
    "CLUSTER RESET"; "CLUSTER SAVECONFIG"; "CLUSTER SET-CONFIG-EPOCH"; "CLUSTER SETSLOT"; "CLUSTER SLAVES"; "CLUSTER REPLICAS"; "CLUSTER SLOTS";
    "COMMAND"; "COMMAND COUNT"; "COMMAND GETKEYS"; "COMMAND INFO"; "CONFIG GET"; "CONFIG REWRITE"; "CONFIG SET"; "CONFIG RESETSTAT"; "COPY"; "DBSIZE";
    "DEBUG OBJECT"; "DEBUG SEGFAULT"; "DECR"; "DECRBY"; "DEL"; "DISCARD"; "DUMP"; "ECHO"; "EVAL"; "EVALSHA"; "EXEC"; "EXISTS"; "EXPIRE"; "EXPIREAT";
    "FAILOVER"; "FLUSHALL"; "FLUSHDB"; "GEOADD"; "GEOHASH"; "GEOPOS"; "GEODIST"; "GEORADIUS"; "GEORADIUSBYMEMBER"; "GEOSEARCH"; "GEOSEARCHSTORE";
    "GET"; "GETBIT"; "GETDEL"; "GETEX"; "GETRANGE"; "GETSET"; "HDEL"; "HELLO"; "HEXISTS"; "HGET"; "HGETALL"; "HINCRBY"; "HINCRBYFLOAT"; "HKEYS";
    "HLEN"; "HMGET"; "HMSET"; "HSET"; "HSETNX"; "HRANDFIELD"; "HSTRLEN"; "HVALS"; "INCR"; "INCRBY"; "INCRBYFLOAT"; "INFO"; "LOLWUT"; "KEYS";
    "LASTSAVE"; "LINDEX"; "LINSERT"; "LLEN"; "LPOP"; "LPOS"; "LPUSH"; "LPUSHX"; "LRANGE"; "LREM"; "LSET"; "LTRIM"; "MEMORY DOCTOR"; "MEMORY HELP";
    "MEMORY MALLOC-STATS"; "MEMORY PURGE"; "MEMORY STATS"; "MEMORY USAGE"; "MGET"; "MIGRATE"; "MODULE LIST"; "MODULE LOAD"; "MODULE UNLOAD"; "MONITOR";
    "MOVE"; "MSET"; "MSETNX"; "MULTI"; "OBJECT"; "PERSIST"; "PEXPIRE"; "PEXPIREAT"; "PFADD"; "PFCOUNT"; "PFMERGE"; "PING"; "PSETEX"; "PSUBSCRIBE";
    "PUBSUB"; "PTTL"; "PUBLISH"; "PUNSUBSCRIBE"; "QUIT"; "RANDOMKEY"; "READONLY"; "READWRITE"; "RENAME"; "RENAMENX"; "RESET"; "RESTORE"; "ROLE";
    "RPOP"; "RPOPLPUSH"; "LMOVE"; "RPUSH"; "RPUSHX"; "SADD"; "SAVE"; "SCARD"; "SCRIPT DEBUG"; "SCRIPT EXISTS"; "SCRIPT FLUSH"; "SCRIPT KILL";
    "SCRIPT LOAD"; "SDIFF"; "SDIFFSTORE"; "SELECT"; "SET"; "SETBIT"; "SETEX"; "SETNX"; "SETRANGE"; "SHUTDOWN"; "SINTER"; "SINTERSTORE"; "SISMEMBER";
    "SMISMEMBER"; "SLAVEOF"; "REPLICAOF"; "SLOWLOG"; "SMEMBERS"; "SMOVE"; "SORT"; "SPOP"; "SRANDMEMBER"; "SREM"; "STRALGO"; "STRLEN"; "SUBSCRIBE";
    "SUNION"; "SUNIONSTORE"; "SWAPDB"; "SYNC"; "PSYNC"; "TIME"; "TOUCH"; "TTL"; "TYPE"; "UNSUBSCRIBE"; "UNLINK"; "UNWATCH"; "WAIT"; "WATCH"; "ZADD";
    "ZCARD"; "ZCOUNT"; "ZDIFF"; "ZDIFFSTORE"; "ZINCRBY"; "ZINTER"; "ZINTERSTORE"; "ZLEXCOUNT"; "ZPOPMAX"; "ZPOPMIN"; "ZRANDMEMBER"; "ZRANGESTORE";
    "ZRANGE"; "ZRANGEBYLEX"; "ZREVRANGEBYLEX"; "ZRANGEBYSCORE"; "ZRANK"; "ZREM"; "ZREMRANGEBYLEX"; "ZREMRANGEBYRANK"; "ZREMRANGEBYSCORE"; "ZREVRANGE";
    "ZREVRANGEBYSCORE"; "ZREVRANK"; "ZSCORE"; "ZUNION"; "ZMSCORE"; "ZUNIONSTORE"; "SCAN"; "SSCAN"; "HSCAN"; "ZSCAN"; "XINFO"; "XADD"; "XTRIM"; "XDEL";
    "XRANGE"; "XREVRANGE"; "XLEN"; "XREAD"; "XGROUP"; "XREADGROUP"; "XACK"; "XCLAIM"; "XAUTOCLAIM"; "XPENDING"; "LATENCY DOCTOR"; "LATENCY GRAPH";
    "LATENCY HISTORY"; "LATENCY LATEST"; "LATENCY RESET"; "LATENCY HELP"; "SENTINEL"; "REPLCONF ACK"
  ].
(** redis_command.go:294-305 maxCommandLen *)
Definition maxCommandLen : Z := fold_left (fun m c => if m <? zlen (bs c) then zlen (bs c) else m) redisCommands 0.
(** redis_command.go:313-320: ASCII letters to upper case. The buffer of 50 bytes is longer than every command, so [buf[:len(key)]] is in range. *)
Definition upperByte (b : Z) : Z := if (97 <=? b) && (b <=? 122) then b - 97 + 65 else b.
(** redis_command.go:307-324 IsRedisCommand *)
Definition isRedisCommand (key : bytes) : bool :=
  if maxCommandLen <? zlen key then false else existsb (fun c => eqb (bs c) (map upperByte key)) redisCommands.

(** message.HasAttribute called with a value of the payload as the name *)
Definition hasAttrNamed (m : msg) (name : bytes) : bool := existsb (fun k => eqb (bs k) name) (keys (m_attrs m)).

(** [message.Data[message.Offset] != c], the fastfail functions *)
Definition fastfailByte (cs : list Z) (m : msg) : res (bool * msg) :=
  bind (gindex (m_data m) (m_off m)) (fun b => Ok (negb (existsb (Z.eqb b) cs), m)).

(** redis_array.go:20-34 parseRedisArray and redis_integer.go:18-32 parseRedisInteger, which are the same code *)
Definition parseRedisNumber (m : msg) : res ((bool * bool) * msg) :=
  bind (readUntilCRLF (m_data m) (m_off m + 1)) (fun r =>
    match r with
    | None => Ok ((false, true), m)
    | Some (data, offset) =>
        let '(_, ok) := parseInt 64 data in
        if negb ok then Ok ((false, true), m)
        else let m1 := setOff m offset in Ok ((true, isComplete m1), m1)
    end).
(** redis_bulk_string.go:20-59 parseRedisBulkString *)
Definition parseRedisBulkString (m : msg) : res ((bool * bool) * msg) :=
  bind (readUntilCRLF (m_data m) (m_off m + 1)) (fun r =>
    match r with
    | None => Ok ((false, true), m)
    | Some (data, offset) =>
        let '(size, ok) := parseInt 64 data in
        if negb ok then Ok ((false, true), m)
        else if size =? -1 then let m1 := setOff m offset in Ok ((true, isComplete m1), m1)
        else bind (readUntilCRLF (m_data m) offset) (fun r2 =>
          match r2 with
          | None => Ok ((false, true), m)
          | Some (data2, offset2) =>
              if negb (zlen data2 =? size) then Ok ((false, true), m)
              else bind (if negb (hasAttrNamed m data2) && isRedisCommand data2
                         then bind (formatUtf8 data2) (fun c => Ok (addAttr (addAttr m LContentKey (SV c)) LRedisCommand (SV c)))
                         else Ok m)
                     (fun m1 => let m2 := setOff m1 offset2 in Ok ((true, isComplete m2), m2))
          end)
    end).
(** redis_simple_string.go:16-26 parseRedisSimpleString *)
Definition parseRedisSimpleString (m : msg) : res ((bool * bool) * msg) :=
  bind (readUntilCRLF (m_data m) (m_off m + 1)) (fun r =>
    match r with
    | None => Ok ((false, true), m)
    | Some (_, offset) => let m1 := setOff m offset in Ok ((true, isComplete m1), m1)
    end).
(** redis_error.go:17-32 parseRedisError *)
Definition parseRedisError (m : msg) : res ((bool * bool) * msg) :=
  bind (readUntilCRLF (m_data m) (m_off m + 1)) (fun r =>
    match r with
    | None => Ok ((false, true), m)
    | Some (data, offset) =>
        let m1 := setOff m offset in
        bind (if (0 <? zlen data) && negb (hasAttr m1 LRedisErrMsg)
              then bind (formatUtf8 data) (fun t =>
                     Ok (addAttr (addAttr (addAttr m1 LRedisErrMsg (SV t)) LIsError (BV true)) LErrorType (IV ProtocolError)))
              else Ok m1)
          (fun m2 => Ok ((true, isComplete m2), m2))
    end).
(** redis_request.go:21-25 and redis_response.go:25-29 *)
Definition parseRedisRoot (m : msg) : res ((bool * bool) * msg) := Ok ((true, false), m).

(** redis_parser.go:7-23 NewRedisParser (multi frame); keywords '*' 42, '$' 36, ':' 58, '+' 43, '-' 45 *)
Definition redisRequestParser : pkg :=
  Pkg (fastfailByte [42; 36; 58]) parseRedisRoot
    [Pkg (fastfailByte [42]) parseRedisNumber []; Pkg (fastfailByte [36]) parseRedisBulkString []; Pkg (fastfailByte [58]) parseRedisNumber []].
Definition redisResponseParser : pkg :=
  Pkg (fastfailByte [43; 45; 42; 36; 58]) parseRedisRoot
    [Pkg (fastfailByte [42]) parseRedisNumber []; Pkg (fastfailByte [36]) parseRedisBulkString []; Pkg (fastfailByte [58]) parseRedisNumber [];
     Pkg (fastfailByte [43]) parseRedisSimpleString []; Pkg (fastfailByte [45]) parseRedisError []].
(** protocol_parser.go:415-421 ParseRequest and ParseResponse for Redis *)
Definition redisRequest (d : bytes) : res (bool * msg) := parsePayload true redisRequestParser (newRequest d).
Definition redisResponse (d : bytes) (attrs : list (string * aval)) : res (bool * msg) := parsePayload true redisResponseParser (newResponse d attrs).
