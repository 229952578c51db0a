(** Model of the MySQL parser (collector/pkg/component/analyzer/network/protocol/mysql).
    Simplification: strings.ToLower folds ASCII only (the Kelvin sign and the dotted capital I, which Go folds to 'k' and 'i', are left alone). *)
From Verif Require Import Base AttrModel LabelNames MsgModel TextModel SqlModel.
Open Scope string_scope. Open Scope list_scope. Open Scope Z_scope.

(** mysql_request.go:103-113 sqlPrefixs *)
Definition sqlPrefixs : list string := ["select"; "insert"; "update"; "delete"; "drop"; "create"; "alter"; "set"; "commit"].
(** mysql_request.go:115-124 isSql *)
Definition isSql (s : bytes) : bool := existsb (fun p => starts_with (bs p) (map foldByte s)) sqlPrefixs.

(** mysql_request.go:16-20 and mysql_response.go:15-19 *)
Definition shorterThan (n : Z) (m : msg) : res (bool * msg) := Ok (zlen (m_data m) <? n, m).
(** mysql_request.go:22-26 and mysql_response.go:21-25 *)
Definition parseMysqlRoot (m : msg) : res ((bool * bool) * msg) := Ok ((true, false), m).
(** mysql_request.go:33-37, 62-66, 90-94 and mysql_response.go:37-41, 84-88, 104-108: Data[4] is none of these *)
Definition fastfailCommand (cs : list Z) (m : msg) : res (bool * msg) :=
  bind (gindex (m_data m) 4) (fun b => Ok (negb (existsb (Z.eqb b) cs), m)).
(** mysql_request.go:42-47 and 76-82: the common end of prepare and query *)
Definition addSql (m : msg) (sql : bytes) : res ((bool * bool) * msg) :=
  if negb (isSql sql) then Ok ((false, true), m)
  else bind (formatUtf8 sql) (fun q => bind (formatUtf8 (mergeSql sql)) (fun k =>
         Ok ((true, true), addAttr (addAttr m LSql (SV q)) LContentKey (SV k)))).
(** mysql_request.go:39-49 parseMysqlPrepare *)
Definition parseMysqlPrepare (m : msg) : res ((bool * bool) * msg) :=
  bind (gslice (m_data m) 5 (zlen (m_data m))) (fun sql => addSql m sql).
(** mysql_request.go:68-84 parseMysqlQuery *)
Definition parseMysqlQuery (m : msg) : res ((bool * bool) * msg) :=
  bind (gslice (m_data m) 5 (zlen (m_data m))) (fun sql =>
    bind (if 2 <? zlen sql
          then bind (gindex sql 0) (fun a => bind (gindex sql 1) (fun b =>
                 if (a =? 0) && (b =? 1) then gslice sql 2 (zlen sql) else Ok sql))
          else Ok sql)
      (fun sql' => addSql m sql')).
(** mysql_request.go:96-101 parseMysqlQuit *)
Definition parseMysqlQuit (m : msg) : res ((bool * bool) * msg) := Ok ((true, true), addAttr m LOneway (BV true)).

(** mysql_response.go:43-62 parseMysqlErr. A payload of six bytes: Go checks Data[5:7] against the capacity, so it may go on there,
    but then Data[8:] is checked against the length: it panics either way. *)
Definition parseMysqlErr (m : msg) : res ((bool * bool) * msg) :=
  bind (gslice (m_data m) 5 7) (fun c =>
    bind (gindex c 0) (fun lo => bind (gindex c 1) (fun hi =>
      let errorCode := Z.lor lo (Z.shiftl hi 8) in
      bind (if 14 <? zlen (m_data m)
            then bind (gindex (m_data m) 8) (fun b =>
                   if b =? 35 then bind (gslice (m_data m) 8 13) (fun st => bind (gslice (m_data m) 13 (zlen (m_data m))) (fun t => Ok (st ++ bs ":" ++ t)))
                   else gslice (m_data m) 8 (zlen (m_data m)))
            else gslice (m_data m) 8 (zlen (m_data m)))
        (fun errorMessage =>
           bind (formatUtf8 errorMessage) (fun t =>
             let m1 := addAttr (addAttr m LSqlErrCode (IV errorCode)) LSqlErrMsg (SV t) in
             Ok ((true, true),
                 if errorCode =? 0 then m1
                 else addAttr (addAttr m1 LIsError (BV true)) LErrorType (IV ProtocolError))))))).
(** mysql_response.go:90-94, 110-114, 142-146 *)
Definition parseMysqlNothing (m : msg) : res ((bool * bool) * msg) := Ok ((true, true), m).
(** mysql_response.go:136-140 fastfailMysqlResultSet *)
Definition fastfailMysqlResultSet (m : msg) : res (bool * msg) := Ok (negb (hasAttr m LSql), m).

(** mysql_parser.go:12-25 NewMysqlParser (single frame) *)
Definition mysqlRequestParser : pkg :=
  Pkg (shorterThan 5) parseMysqlRoot
    [Pkg (fastfailCommand [22]) parseMysqlPrepare []; Pkg (fastfailCommand [3]) parseMysqlQuery []; Pkg (fastfailCommand [1]) parseMysqlQuit []].
Definition mysqlResponseParser : pkg :=
  Pkg (shorterThan 6) parseMysqlRoot
    [Pkg (fastfailCommand [255]) parseMysqlErr []; Pkg (fastfailCommand [0; 254]) parseMysqlNothing [];
     Pkg (fastfailCommand [254]) parseMysqlNothing []; Pkg fastfailMysqlResultSet parseMysqlNothing []].
(** protocol_parser.go:415-421 ParseRequest and ParseResponse for MySQL *)
Definition mysqlRequest (d : bytes) : res (bool * msg) := parsePayload false mysqlRequestParser (newRequest d).
Definition mysqlResponse (d : bytes) (attrs : list (string * aval)) : res (bool * msg) := parsePayload false mysqlResponseParser (newResponse d attrs).
