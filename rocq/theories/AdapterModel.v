(** Model of collector/pkg/component/consumer/exporter/tools/adapter: the labels, metrics and spans given to the exporters.
    The converters recycle the label lists and label maps they hand out (sync.Pool); the model keeps those pools.
    Simplifications: a label map is a finite map (C07); a list form label is a name and a value, [None] being the zero attribute.Value
    of type INVALID; the unused second call of withExtraLabels (label_converter.go:165-181) is left out; GetMetric of a single group
    returns the metric itself, here its data. *)
From Verif Require Import Base Decimal AttrModel PoolModel LabelNames EnrichModel.
Open Scope string_scope. Open Scope list_scope. Open Scope Z_scope.

(** net_dict.go:11-24 *)
Definition pEmpty := 0. Definition pHTTP := 1. Definition pKAFKA := 2. Definition pDNS := 3. Definition pMYSQL := 4.
Definition pGRPC := 5. Definition pDUBBO := 6. Definition pREDIS := 7. Definition pROCKETMQ := 8. Definition pUNSUPPORTED := 9.

(** net_dict.go:26-36 *)
Inductive vtype := TInt64 | TString | TBool | TStrEmpty | TIntToStr | TProtErrStr | TProtErrStatus.
(** net_dict.go:45-49 *)
Record dict := D { newKey : string; originKey : string; vt : vtype }.
Notation kv := (string * option aval)%type.

(** constlabels/const.go:11-15, 46-57, 61-63, 69-88 *)
Definition LbComm := "comm".
Definition LbPid := "pid".
Definition LbRequestTid := "request_tid".
Definition LbResponseTid := "response_tid".
Definition LbNode := "node".
Definition LbNamespace := "namespace".
Definition LbWorkloadKind := "workload_kind".
Definition LbWorkloadName := "workload_name".
Definition LbService := "service".
Definition LbPod := "pod".
Definition LbContainer := "container".
Definition LbIp := "ip".
Definition LbPort := "port".
Definition LbEndTimestamp := "end_timestamp".
Definition LbRequestContent := "request_content".
Definition LbResponseContent := "response_content".
Definition LbStatusCode := "status_code".
Definition LbRequestDurationStatus := "request_duration_status".
Definition LbRequestReqxferStatus := "request_reqxfer_status".
Definition LbRequestProcessingStatus := "request_processing_status".
Definition LbResponseRspxferStatus := "response_rspxfer_status".
Definition LbRequestTotalNs := "request_total_ns".
Definition LbRequestSentNs := "request_sent_ns".
Definition LbWaitingTTfbNs := "waiting_ttfb_ns".
Definition LbContentDownloadNs := "content_download_ns".
Definition LbRequestIoBytes := "requestio_bytes".
Definition LbResponseIoBytes := "responseio_bytes".
Definition LbTimestamp := "timestamp".
Definition LbIsConvergent := "is_convergent".
(** constlabels/const.go:86-121 *)
Definition SpanSrcContainerId := "src_containerid".
Definition SpanSrcContainerName := "src_container_name".
Definition SpanDstContainerId := "dst_containerid".
Definition SpanDstContainerName := "dst_container_name".
Definition SpanHttpMethod := "http.method".
Definition SpanHttpEndpoint := "http.endpoint".
Definition SpanHttpStatusCode := "http.status_code".
Definition SpanHttpTraceId := "http.trace_id".
Definition SpanHttpTraceType := "http.trace_type".
Definition SpanHttpRequestHeaders := "http.request_headers".
Definition SpanHttpRequestBody := "http.request_body".
Definition SpanHttpResponseHeaders := "http.response_headers".
Definition SpanHttpResponseBody := "http.response_body".
Definition SpanDnsDomain := "dns.domain".
Definition SpanDnsRCode := "dns.rcode".
Definition SpanMysqlSql := "mysql.sql".
Definition SpanMysqlErrorCode := "mysql.error_code".
Definition SpanMysqlErrorMsg := "mysql.error_msg".
Definition SpanDubboErrorCode := "dubbo.error_code".
Definition SpanDubboRequestBody := "dubbo.request_body".
Definition SpanDubboResponseBody := "dubbo.response_body".
Definition SpanRedisCommand := "redis.command".
Definition SpanRedisErrorMsg := "redis.error_msg".
Definition SpanRedisRequestPayload := "redis.request_payload".
Definition SpanRedisResponsePayload := "redis.request_payload".
Definition SpanRocketMQRequestMsg := "rocketmq.request_msg".
Definition SpanRocketMQErrMsg := "rocketmq.error_msg".
Definition SpanRequestPayload := "request_payload".
Definition SpanResponsePayload := "response_payload".
(** constvalues/const.go:4-13 *)
Definition MRequestCount := "request_count".
Definition MRequestTotalTime := "request_total_time".
Definition MRequestSentTime := "request_sent_time".
Definition MWaitingTtfbTime := "waiting_ttfb_time".
Definition MContentDownloadTime := "content_download_time".
Definition MRequestTimeHistogram := "request_time_histogram".
Definition MRequestIo := "request_io".
Definition MResponseIo := "response_io".

(** net_dict.go:51-53 *)
Definition isSlowDicList := [D LIsSlow LIsSlow TBool].
(** :55-59 *)
Definition topologyInstanceMetricDicList := [D LbSrcIp LbSrcIp TString; D LbDstIp LbDstIp TString; D LbDstPort LbDstPort TInt64].
(** :61-64 *)
Definition entityInstanceMetricDicList := [D LbIp LbDstIp TString; D LbPort LbDstPort TInt64].
(** :66-71 *)
Definition entityDetailMetricDicList :=
  [D LbNode LbDstNode TString; D LbPod LbDstPod TString; D LbContainer LbDstContainer TString; D LbContainerId LbDstContainerId TString].
(** :73-79 *)
Definition entityMetricDicList :=
  [D LbNamespace LbDstNamespace TString; D LbWorkloadKind LbDstWorkloadKind TString; D LbWorkloadName LbDstWorkloadName TString;
   D LbService LbDstService TString; D LProtocol LProtocol TString].
(** :81-84 *)
Definition dNatDicList := [D LbDnatIp LbDnatIp TString; D LbDnatPort LbDnatPort TInt64].
(** :86-96 *)
Definition topologyDetailMetricDicList :=
  [D LbSrcContainerId LbSrcContainerId TString; D LbSrcContainer LbSrcContainer TString; D LbDstContainerId LbDstContainerId TString;
   D LbDstContainer LbDstContainer TString; D LbSrcNode LbSrcNode TString; D LbSrcPod LbSrcPod TString].
(** :98-113 *)
Definition SpanDicList :=
  [D SpanSrcContainerId LbSrcContainerId TString; D SpanSrcContainerName LbSrcContainer TString; D SpanDstContainerId LbDstContainerId TString;
   D SpanDstContainerName LbDstContainer TString; D LbSrcNode LbSrcNode TString; D LbSrcPod LbSrcPod TString; D LbPid LbPid TInt64;
   D LbRequestTid LbRequestTid TInt64; D LbResponseTid LbResponseTid TInt64; D LbComm LbComm TString; D LbEndTimestamp LbEndTimestamp TInt64].
(** :115-130 *)
Definition topologyMetricDicList :=
  [D LbSrcNamespace LbSrcNamespace TString; D LbSrcWorkloadKind LbSrcWorkloadKind TString; D LbSrcWorkloadName LbSrcWorkloadName TString;
   D LbSrcService LbSrcService TString; D LbDstNamespace LbDstNamespace TString; D LbDstWorkloadKind LbDstWorkloadKind TString;
   D LbDstWorkloadName LbDstWorkloadName TString; D LbDstService LbDstService TString; D LbDstNode LbDstNode TString;
   D LbDstPod LbDstPod TString; D LProtocol LProtocol TString].
(** :190-227 *)
Definition entityProtocol : list (Z * list dict) :=
  [(pHTTP, [D LbRequestContent LContentKey TString; D LbResponseContent LHttpStatusCode TIntToStr]);
   (pKAFKA, [D LbRequestContent LKafkaTopic TString; D LbResponseContent "" TStrEmpty]);
   (pMYSQL, [D LbRequestContent LContentKey TString; D LbResponseContent LSqlErrCode TIntToStr]);
   (pGRPC, [D LbRequestContent LContentKey TString; D LbResponseContent LHttpStatusCode TIntToStr]);
   (pDNS, [D LbRequestContent LDnsDomain TString; D LbResponseContent LDnsRcode TIntToStr]);
   (pDUBBO, [D LbRequestContent LContentKey TString; D LbResponseContent LDubboErrorCode TIntToStr]);
   (pREDIS, [D LbRequestContent LContentKey TString; D LbResponseContent "" TProtErrStr]);
   (pROCKETMQ, [D LbRequestContent LContentKey TString; D LbResponseContent LRocketMQErrCode TIntToStr]);
   (pUNSUPPORTED, [D LbRequestContent "" TStrEmpty; D LbResponseContent "" TStrEmpty])].
(** :229-284 *)
Definition spanProtocol : list (Z * list dict) :=
  [(pHTTP, [D SpanHttpMethod LHttpMethod TString; D SpanHttpEndpoint LHttpUrl TString; D SpanHttpStatusCode LHttpStatusCode TInt64;
            D SpanHttpTraceId LHttpApmTraceId TString; D SpanHttpTraceType LHttpApmTraceType TString;
            D SpanHttpRequestHeaders LRequestPayload TString; D SpanHttpRequestBody "" TStrEmpty;
            D SpanHttpResponseHeaders LResponsePayload TString; D SpanHttpResponseBody "" TStrEmpty]);
   (pKAFKA, [D SpanRequestPayload LRequestPayload TString; D SpanResponsePayload LResponsePayload TString]);
   (pMYSQL, [D SpanMysqlSql LSql TString; D SpanMysqlErrorCode LSqlErrCode TInt64; D SpanMysqlErrorMsg LSqlErrMsg TString;
             D SpanRequestPayload LRequestPayload TString; D SpanResponsePayload LResponsePayload TString]);
   (pDNS, [D SpanDnsDomain LDnsDomain TString; D SpanDnsRCode LDnsRcode TIntToStr; D SpanRequestPayload LRequestPayload TString;
           D SpanResponsePayload LResponsePayload TString]);
   (pDUBBO, [D SpanDubboRequestBody LRequestPayload TString; D SpanDubboResponseBody LResponsePayload TString;
             D SpanDubboErrorCode LDubboErrorCode TInt64]);
   (pREDIS, [D SpanRedisCommand LRedisCommand TString; D SpanRedisErrorMsg LRedisErrMsg TString;
             D SpanRedisRequestPayload LRequestPayload TString; D SpanRedisResponsePayload LResponsePayload TString]);
   (pROCKETMQ, [D SpanRocketMQRequestMsg LRocketMQRequestMsg TString; D SpanRocketMQErrMsg LRocketMQErrMsg TString;
                D SpanRequestPayload LRequestPayload TString; D SpanResponsePayload LResponsePayload TString]);
   (pUNSUPPORTED, [D SpanRequestPayload LRequestPayload TString; D SpanResponsePayload LResponsePayload TString])].
(** :286-315 *)
Definition topologyProtocol : list (Z * list dict) :=
  [(pHTTP, [D LbStatusCode LHttpStatusCode TIntToStr]);
   (pKAFKA, [D LbStatusCode "" TStrEmpty]);
   (pMYSQL, [D LbStatusCode LSqlErrCode TIntToStr]);
   (pGRPC, [D LbStatusCode LHttpStatusCode TIntToStr]);
   (pDNS, [D LbStatusCode LDnsRcode TIntToStr]);
   (pDUBBO, [D LbStatusCode LDubboErrorCode TIntToStr]);
   (pREDIS, [D LbStatusCode "" TProtErrStatus]);
   (pROCKETMQ, [D LbStatusCode LRocketMQErrCode TIntToStr]);
   (pUNSUPPORTED, [D LbStatusCode "" TStrEmpty])].

(** net_dict.go:38-43, 389-397, 399-407 *)
Definition millToNano := 1000000.
Definition getRequestStatus (t : Z) : bytes :=
  if t <=? 800 * millToNano then bs "1" else if 1500 * millToNano <=? t then bs "3" else bs "2".
Definition getSubStageStatus (t : Z) : bytes :=
  if t <=? 200 * millToNano then bs "1" else if 1000 * millToNano <=? t then bs "3" else bs "2".

(** metric.go:25-30 [GetInt().Value]: a nil pointer when the metric is a histogram *)
Definition intVal (d : mdata) : res Z := match d with MInt v => Ok v | MHist _ _ _ _ => Panic end.

(** net_dict.go:317-329: the names of the value labels of a span *)
Definition traceSpanStatus : list string :=
  [LbRequestSentNs; LbWaitingTTfbNs; LbContentDownloadNs; LbRequestTotalNs; LbRequestIoBytes; LbResponseIoBytes; LIsServer; LIsError; LIsSlow;
   LbIsConvergent; LbTimestamp].
(** :334-347 *)
Definition spanSlot (n : string) : option (nat * string) :=
  if eqb n MRequestSentTime then Some (0%nat, LbRequestSentNs)
  else if eqb n MWaitingTtfbTime then Some (1%nat, LbWaitingTTfbNs)
  else if eqb n MContentDownloadTime then Some (2%nat, LbContentDownloadNs)
  else if eqb n MRequestTotalTime then Some (3%nat, LbRequestTotalNs)
  else if eqb n MRequestIo then Some (4%nat, LbRequestIoBytes)
  else if eqb n MResponseIo then Some (5%nat, LbResponseIoBytes)
  else None.
(** :331-356; the first six entries are filled by the loop, the other five by the statements after it *)
Fixpoint spanValues (ms : list (string * mdata)) (l : list kv) : res (list kv) :=
  match ms with
  | [] => Ok l
  | (n, d) :: ms' =>
      match spanSlot n with
      | Some (i, k) => bind (intVal d) (fun v => spanValues ms' (set_nth l i (k, Some (IV v))))
      | None => spanValues ms' l
      end
  end.
Definition b2i (b : bool) : Z := if b then 1 else 0.
Definition getTraceSpanStatusLabels (g : group) : res (list kv) :=
  bind (spanValues (gmetrics g) (repeat ("", None) 6))
    (fun l => Ok (l ++ [(LIsServer, Some (IV (b2i (boolOf (glabels g) LIsServer))));
                        (LIsError, Some (IV (b2i (boolOf (glabels g) LIsError))));
                        (LIsSlow, Some (IV (b2i (boolOf (glabels g) LIsSlow))));
                        (LbIsConvergent, Some (IV 0));
                        (LbTimestamp, Some (IV (s64 (gts g / millToNano))))])).

(** :358-364 *)
Definition traceStatus : list string :=
  [LbRequestReqxferStatus; LbRequestProcessingStatus; LbResponseRspxferStatus; LbRequestDurationStatus; LIsServer].
(** :367-378 *)
Fixpoint statusValues (ms : list (string * mdata)) (send ttfb down total : Z) : res (Z * Z * Z * Z) :=
  match ms with
  | [] => Ok (send, ttfb, down, total)
  | (n, d) :: ms' =>
      if eqb n MRequestSentTime then bind (intVal d) (fun v => statusValues ms' v ttfb down total)
      else if eqb n MWaitingTtfbTime then bind (intVal d) (fun v => statusValues ms' send v down total)
      else if eqb n MContentDownloadTime then bind (intVal d) (fun v => statusValues ms' send ttfb v total)
      else if eqb n MRequestTotalTime then bind (intVal d) (fun v => statusValues ms' send ttfb down v)
      else statusValues ms' send ttfb down total
  end.
(** :366-387 *)
Definition getTraceStatusLabels (g : group) : res (list kv) :=
  bind (statusValues (gmetrics g) 0 0 0 0)
    (fun r => let '(send, ttfb, down, total) := r in
       Ok [(LbRequestReqxferStatus, Some (SV (getSubStageStatus send)));
           (LbRequestProcessingStatus, Some (SV (getSubStageStatus ttfb)));
           (LbResponseRspxferStatus, Some (SV (getSubStageStatus down)));
           (LbRequestDurationStatus, Some (SV (getRequestStatus total)));
           (LIsServer, Some (BV (boolOf (glabels g) LIsServer)))]).

(** The value label functions a converter may have (label_converter.go:184-188). *)
Inductive vfun := VNone | VSpan | VStatus.
Definition vkeys (v : vfun) : list string := match v with VNone => [] | VSpan => traceSpanStatus | VStatus => traceStatus end.
Definition vlabels (v : vfun) (g : group) : res (list kv) :=
  match v with VNone => Ok [] | VSpan => getTraceSpanStatusLabels g | VStatus => getTraceStatusLabels g end.

(** The adjusters: net_dict.go:132-156 and :158-188; constlabels/const.go:135-137. *)
Inductive adjust := ARemoveDstPod | AReplaceByDnat.
Definition namespaceNotFound (ns : bytes) : bool := eqb ns ExternalNs || eqb ns InternalNs.
Definition setOnKey (k : string) (v : aval) (l : list kv) : list kv :=
  map (fun p => if eqb (fst p) k then (fst p, Some v) else p) l.
(** :134-142, 160-170 *)
Definition adjustMap (a : adjust) (m out : labels) : labels :=
  match a with
  | ARemoveDstPod => if namespaceNotFound (strOf m LbDstNamespace) then out else aset (aset out LbDstNode (SV [])) LbDstPod (SV [])
  | AReplaceByDnat =>
      let ip := strOf m LbDnatIp in
      let port := intOf m LbDnatPort in
      if eqb ip [] || (port <? 1) then out else aset (aset out LbDstIp (SV ip)) LbDstPort (IV port)
  end.
(** :143-154, 171-186 *)
Definition adjustList (a : adjust) (m : labels) (out : list kv) : list kv :=
  match a with
  | ARemoveDstPod =>
      if namespaceNotFound (strOf m LbDstNamespace) then out
      else map (fun p => if eqb (fst p) LbDstNode || eqb (fst p) LbDstPod then (fst p, Some (SV [])) else p) out
  | AReplaceByDnat =>
      let ip := strOf m LbDnatIp in
      let port := intOf m LbDnatPort in
      if eqb ip [] || (port <? 1) then out
      else map (fun p => if eqb (fst p) LbDstIp && negb (eqb ip []) then (fst p, Some (SV ip))
                         else if eqb (fst p) LbDstPort && (0 <? port) then (fst p, Some (IV port)) else p) out
  end.

(** sort.Strings (label_converter.go:241): bytewise lexicographic order *)
Fixpoint insertKey (k : string) (l : list string) : list string :=
  match l with [] => [k] | x :: l' => if String.leb k x then k :: l else x :: insertKey k l' end.
Definition sortKeys (l : list string) : list string := fold_right insertKey [] l.

(** label_converter.go:41-49 *)
Record real := { r_list : list kv; r_map : labels; r_dict : list dict; r_sort : list (nat * nat) }.

Fixpoint firstIndex (k : string) (l : list string) (j : nat) : option nat :=
  match l with [] => None | x :: l' => if eqb x k then Some j else firstIndex k l' (S j) end.
(** :245-253: the positions of the sorted keys; [ps] is tmpParamList *)
Fixpoint sortCache (sorted : list string) (s : nat) (ps : list kv) (acc : list (nat * nat)) : list (nat * nat) :=
  match sorted with
  | [] => acc
  | k :: r => sortCache r (S s) ps (match firstIndex k (map fst ps) 0%nat with Some j => aset acc j s | None => acc end)
  end.
Definition realParam (ps : list kv) (k : string) : kv :=
  match firstIndex k (map fst ps) 0%nat with
  | Some j => match nth_error ps j with Some p => p | None => ("", None) end
  | None => ("", None)
  end.
(** :211-272, for one extra key *)
Definition buildOne (ds : list dict) (vs : list string) (cl : list (string * aval)) : real :=
  let ps := map (fun d => (newKey d, @None aval)) ds ++ map (fun k => (k, @None aval)) vs ++ map (fun p => (fst p, Some (snd p))) cl in
  let sorted := sortKeys (map fst ps) in
  {| r_list := map (realParam ps) sorted;
     r_map := fold_left (fun m p => aset m (fst p) (snd p)) cl [];
     r_dict := ds;
     r_sort := sortCache sorted 0%nat ps [] |}.

(** :15-25 *)
Record converter := { c_real : list (Z * real); c_val : vfun; c_adj : list adjust }.
(** :123-147, 153-163, 184-198, 200-281: newAdapterBuilder … build *)
Definition buildConverter (base : list dict) (commons : list (list dict)) (extra : list (Z * list dict)) (v : vfun) (adj : list adjust)
  (cl : list (string * aval)) : converter :=
  {| c_real := fold_left (fun m p => aset m (fst p) (buildOne ((base ++ List.concat commons) ++ snd p) (vkeys v) cl)) extra [];
     c_val := v;
     c_adj := adj |}.

(** :70-92 updateProtocolKey *)
Definition updateProtocolKey (m : labels) : Z :=
  let p := strOf m LProtocol in
  if eqb p (bs "http") then pHTTP
  else if eqb p (bs "grpc") then pGRPC
  else if eqb p (bs "mysql") then pMYSQL
  else if eqb p (bs "dns") then pDNS
  else if eqb p (bs "kafka") then pKAFKA
  else if eqb p (bs "dubbo") then pDUBBO
  else if eqb p (bs "redis") then pREDIS
  else if eqb p (bs "rocketmq") then pROCKETMQ
  else pUNSUPPORTED.
(** :337-348; no entry at all is the zero realAttributes, whose pools are nil *)
Definition searchExtra (c : converter) (m : labels) : option (Z * real) :=
  let k := updateProtocolKey m in
  match aget (c_real c) k with
  | Some r => Some (k, r)
  | None => match aget (c_real c) pUNSUPPORTED with Some r => Some (pUNSUPPORTED, r) | None => None end
  end.

(** :289-312, 356-379: the value of one dictionary entry *)
Definition dictValue (m : labels) (d : dict) : aval :=
  match vt d with
  | TString => SV (strOf m (originKey d))
  | TInt64 => IV (intOf m (originKey d))
  | TBool => BV (boolOf m (originKey d))
  | TIntToStr => SV (formatInt (intOf m (originKey d)))
  | TProtErrStr => if intOf m LErrorType =? ProtocolError then SV (bs "error") else SV (bs "noerror")
  | TProtErrStatus => if intOf m LErrorType =? ProtocolError then SV (bs "1") else SV (bs "0")
  | TStrEmpty => SV []
  end.

(** [attrsList[i].Value = v] *)
Definition writeAt (l : list kv) (i : nat) (v : option aval) : res (list kv) :=
  match nth_error l i with Some p => Ok (set_nth l i (fst p, v)) | None => Panic end.
(** a Go map of ints: 0 for a key it does not have *)
Definition sortAt (r : real) (i : nat) : nat := match aget (r_sort r) i with Some s => s | None => 0%nat end.
(** :355-387: entries from index [i] on *)
Fixpoint writeAll (r : real) (i : nat) (vs : list (option aval)) (l : list kv) : res (list kv) :=
  match vs with
  | [] => Ok l
  | v :: vs' => bind (writeAt l (sortAt r i) v) (writeAll r (S i) vs')
  end.
(** :351-393 convert, on the list [l] taken from the pool *)
Definition convertOn (c : converter) (r : real) (g : group) (l : list kv) : res (list kv) :=
  bind (writeAll r 0%nat (map (fun d => Some (dictValue (glabels g) d)) (r_dict r)) l)
    (fun l => bind (vlabels (c_val c) g)
      (fun vl => bind (writeAll r (List.length (r_dict r)) (map snd vl) l)
        (fun l => Ok (fold_left (fun l a => adjustList a (glabels g) l) (c_adj c) l)))).
(** :284-333 transform, on the map [m] taken from the pool *)
Definition addValueLabel (m : labels) (p : kv) : labels := match snd p with Some v => aset m (fst p) v | None => m end.
Definition transformOn (c : converter) (r : real) (g : group) (m : labels) : res labels :=
  let m := fold_left (fun m d => aset m (newKey d) (dictValue (glabels g) d)) (r_dict r) m in
  bind (vlabels (c_val c) g)
    (fun vl => let m := fold_left addValueLabel vl m in
       Ok (fold_left (fun m a => adjustMap a (glabels g) m) (c_adj c) m)).

(** adapter.go:13-43 *)
Inductive rtype := RMetric | RTrace.
Inductive attrs := AList (l : list kv) | AMap (m : labels).
Inductive attrType := AttributeList | AttributeMap.
(** a pool: the converter (by index) and its extra key; each has one pool of lists and one of maps *)
Definition home := (nat * Z)%type.
Record result := { res_type : rtype; res_attrs : attrs; res_home : option home; res_metrics : list (string * mdata); res_ts : Z }.

(** The pools, and the choices sync.Pool makes: the next Get takes the object at the next index, or a new one when there is none. *)
Record pools := { p_lists : list (home * list (list kv)); p_maps : list (home * list labels); p_choice : list nat }.
Definition getAll {A} (t : list (home * list A)) (h : home) : list A := match aget t h with Some l => l | None => [] end.
Fixpoint dropAt {A} (l : list A) (i : nat) : list A :=
  match l, i with [], _ => [] | _ :: l', O => l' | x :: l', S i' => x :: dropAt l' i' end.
Definition nextChoice (p : pools) : nat * list nat := match p_choice p with [] => (0%nat, []) | c :: r => (S c, r) end.

(** a choice of 0 (or out of range) is a new object: label_converter.go:395-411, 417-440 *)
Definition takeList (p : pools) (h : home) (r : real) : pools * list kv :=
  let '(c, rest) := nextChoice p in
  match c with
  | O => ({| p_lists := p_lists p; p_maps := p_maps p; p_choice := rest |}, r_list r)
  | S i => match nth_error (getAll (p_lists p) h) i with
           | Some l => ({| p_lists := aset (p_lists p) h (dropAt (getAll (p_lists p) h) i); p_maps := p_maps p; p_choice := rest |}, l)
           | None => ({| p_lists := p_lists p; p_maps := p_maps p; p_choice := rest |}, r_list r)
           end
  end.
Definition takeMap (p : pools) (h : home) (r : real) : pools * labels :=
  let '(c, rest) := nextChoice p in
  match c with
  | O => ({| p_lists := p_lists p; p_maps := p_maps p; p_choice := rest |}, r_map r)
  | S i => match nth_error (getAll (p_maps p) h) i with
           | Some m => ({| p_lists := p_lists p; p_maps := aset (p_maps p) h (dropAt (getAll (p_maps p) h) i); p_choice := rest |}, m)
           | None => ({| p_lists := p_lists p; p_maps := p_maps p; p_choice := rest |}, r_map r)
           end
  end.

(** relabel_metric_const.go:5-13, 43-75 *)
Definition metricNameDictionary : list (string * (string * string)) :=
  [(MRequestIo, ("receive_bytes_total", "request_bytes_total"));
   (MResponseIo, ("send_bytes_total", "response_bytes_total"));
   (MRequestTotalTime, ("duration_nanoseconds_total", "duration_nanoseconds_total"));
   (MRequestCount, ("total", "total"));
   ("request_total_time_avg", ("average_duration_nanoseconds", "average_duration_nanoseconds"));
   (MRequestTimeHistogram, ("request_time_histogram", "request_time_histogram"))].
Definition toKindlingNetMetricName (n : string) (isServer : bool) : string :=
  match aget metricNameDictionary n with
  | None => ""
  | Some (e, t) => ("kindling_" ++ (if isServer then "entity" else "topology") ++ "_" ++ "request_" ++ (if isServer then e else t))%string
  end.
Definition TraceAsMetric := "kindling_trace_request_duration_nanoseconds".
(** constnames/const.go:37, 39 *)
Definition SingleNetRequestMetricGroup := "single_net_request_metric_group".
Definition AggregatedNetRequestMetricGroup := "aggregated_net_request_metric_group".

(** net_adapter.go:16-21 *)
Record config := { StoreTraceAsMetric : bool; StoreTraceAsSpan : bool; StorePodDetail : bool; StoreExternalSrcIP : bool }.

(** net_adapter.go:151-236: the ten converters of createNetAdapterManager, by index *)
Definition xAggEntity := 0%nat. Definition xAggEntitySlow := 1%nat. Definition xDetailEntity := 2%nat. Definition xDetailEntitySlow := 3%nat.
Definition xAggTopology := 4%nat. Definition xAggTopologySlow := 5%nat. Definition xDetailTopology := 6%nat. Definition xDetailTopologySlow := 7%nat.
Definition xSpan := 8%nat. Definition xTraceMetric := 9%nat.
Definition manager (cl : list (string * aval)) : list converter :=
  [buildConverter entityMetricDicList [] entityProtocol VNone [] cl;
   buildConverter entityMetricDicList [isSlowDicList] entityProtocol VNone [] cl;
   buildConverter entityMetricDicList [entityInstanceMetricDicList; entityDetailMetricDicList] entityProtocol VNone [] cl;
   buildConverter entityMetricDicList [entityInstanceMetricDicList; entityDetailMetricDicList; isSlowDicList] entityProtocol VNone [] cl;
   buildConverter topologyMetricDicList [] topologyProtocol VNone [ARemoveDstPod] cl;
   buildConverter topologyMetricDicList [isSlowDicList] topologyProtocol VNone [ARemoveDstPod] cl;
   buildConverter topologyMetricDicList [topologyInstanceMetricDicList; topologyDetailMetricDicList] topologyProtocol VNone [AReplaceByDnat] cl;
   buildConverter topologyMetricDicList [topologyInstanceMetricDicList; topologyDetailMetricDicList; isSlowDicList] topologyProtocol VNone [AReplaceByDnat] cl;
   buildConverter topologyMetricDicList [topologyInstanceMetricDicList; SpanDicList; dNatDicList] spanProtocol VSpan [] cl;
   buildConverter topologyMetricDicList [topologyInstanceMetricDicList; topologyDetailMetricDicList; dNatDicList] entityProtocol VStatus [] cl].

Section Adapt.
  Context (cl : list (string * aval)) (cfg : config).

  (** net_adapter.go:103-149 createMetric, createTrace with the converter of index [x] *)
  Definition create (t : rtype) (ms : list (string * mdata)) (g : group) (x : nat) (ty : attrType) (p : pools) : res (pools * result) :=
    match nth_error (manager cl) x with
    | None => Panic
    | Some c =>
        match searchExtra c (glabels g) with
        | None => Panic
        | Some (k, r) =>
            let h : home := (x, k) in
            match ty with
            | AttributeList =>
                let '(p, l) := takeList p h r in
                bind (convertOn c r g l)
                  (fun l => Ok (p, {| res_type := t; res_attrs := AList l; res_home := Some h; res_metrics := ms; res_ts := gts g |}))
            | AttributeMap =>
                let '(p, m) := takeMap p h r in
                bind (transformOn c r g m)
                  (fun m => Ok (p, {| res_type := t; res_attrs := AMap m; res_home := Some h; res_metrics := ms; res_ts := gts g |}))
            end
        end
    end.
  Definition createIf (b : bool) (t : rtype) (ms : list (string * mdata)) (g : group) (x : nat) (ty : attrType) (p : pools)
    : res (pools * list result) :=
    if b then bind (create t ms g x ty p) (fun q => Ok (fst q, [snd q])) else Ok (p, []).
  Definition both (f1 f2 : pools -> res (pools * list result)) (p : pools) : res (pools * list result) :=
    bind (f1 p) (fun q1 => bind (f2 (fst q1)) (fun q2 => Ok (fst q2, snd q1 ++ snd q2))).

  (** :34-51 *)
  Definition dealWithSingle (g : group) (ty : attrType) (p : pools) : res (pools * list result) :=
    match getMetric g MRequestTotalTime with
    | None => Ok (p, [])
    | Some d =>
        both (createIf (StoreTraceAsMetric cfg) RMetric [(TraceAsMetric, d)] g xTraceMetric AttributeMap)
             (createIf (StoreTraceAsSpan cfg) RTrace [(MRequestTotalTime, d)] g xSpan ty) p
    end.
  (** :81-101; [x0], [x1] are the two converters of the adapter *)
  Definition createNetMetricResults (g : group) (x0 x1 : nat) (ty : attrType) (toTopology : bool) (p : pools) : res (pools * list result) :=
    let isServer := boolOf (glabels g) LIsServer in
    let rename := map (fun m => (toKindlingNetMetricName (fst m) (isServer && negb toTopology), snd m)) in
    let others := rename (filter (fun m : string * mdata => negb (eqb (fst m) MRequestCount)) (gmetrics g)) in
    let counts := rename (filter (fun m : string * mdata => eqb (fst m) MRequestCount) (gmetrics g)) in
    both (createIf (0 <? zlen others) RMetric others g x0 ty) (createIf (0 <? zlen counts) RMetric counts g x1 ty) p.
  (** :53-79 *)
  Definition dealWithPreAgg (g : group) (ty : attrType) (p : pools) : res (pools * list result) :=
    let isServer := boolOf (glabels g) LIsServer in
    both (fun p => if StoreExternalSrcIP cfg && eqb (strOf (glabels g) LbSrcNamespace) ExternalNs && isServer
                   then createNetMetricResults g xDetailTopology xDetailTopologySlow ty true p else Ok (p, []))
         (fun p => if StorePodDetail cfg
                   then (if isServer then createNetMetricResults g xDetailEntity xDetailEntitySlow ty false p
                         else createNetMetricResults g xDetailTopology xDetailTopologySlow ty false p)
                   else (if isServer then createNetMetricResults g xAggEntity xAggEntitySlow ty false p
                         else createNetMetricResults g xAggTopology xAggTopologySlow ty false p)) p.
  (** :23-32 Adapt *)
  Definition adapt (g : group) (ty : attrType) (p : pools) : res (pools * list result) :=
    if eqb (gname g) AggregatedNetRequestMetricGroup then dealWithPreAgg g ty p
    else if eqb (gname g) SingleNetRequestMetricGroup then dealWithSingle g ty p
    else Ok (p, []).

  (** adapter.go:45-52 Free: back to the pool of the converter *)
  Definition freeResult (r : result) (p : pools) : pools :=
    match res_home r with
    | None => p
    | Some h => match res_attrs r with
                | AList l => {| p_lists := aset (p_lists p) h (l :: getAll (p_lists p) h); p_maps := p_maps p; p_choice := p_choice p |}
                | AMap m => {| p_lists := p_lists p; p_maps := aset (p_maps p) h (m :: getAll (p_maps p) h); p_choice := p_choice p |}
                end
    end.

  (** What the exporters do with an adapter: groups arrive, results are exported and freed (consume.go), and sync.Pool may drop what it
      holds. A panic of Adapt leaves the pools without the object it took; such a step is left out. *)
  Inductive hop := HAdapt (g : group) (ty : attrType) (choices : list nat) | HFree (i : nat) | HDrop (h : home) (isList : bool) (i : nat).
  Record wstate := { w_pools : pools; w_out : list result }.
  Definition w0 : wstate := {| w_pools := {| p_lists := []; p_maps := []; p_choice := [] |}; w_out := [] |}.
  Definition withChoices (p : pools) (c : list nat) : pools := {| p_lists := p_lists p; p_maps := p_maps p; p_choice := c |}.
  Definition hstep (w : wstate) (o : hop) : wstate :=
    match o with
    | HAdapt g ty c =>
        match adapt g ty (withChoices (w_pools w) c) with
        | Ok (p, rs) => {| w_pools := p; w_out := rs ++ w_out w |}
        | _ => w
        end
    | HFree i =>
        match nth_error (w_out w) i with
        | Some r => {| w_pools := freeResult r (w_pools w); w_out := dropAt (w_out w) i |}
        | None => w
        end
    | HDrop h isList i =>
        let p := w_pools w in
        {| w_pools := if isList then {| p_lists := aset (p_lists p) h (dropAt (getAll (p_lists p) h) i); p_maps := p_maps p; p_choice := p_choice p |}
                      else {| p_lists := p_lists p; p_maps := aset (p_maps p) h (dropAt (getAll (p_maps p) h) i); p_choice := p_choice p |};
           w_out := w_out w |}
    end.
  Definition hrun (h : list hop) : wstate := fold_left hstep h w0.
End Adapt.

(** simple_adapter.go:13-53; [it] is the iteration order of the label map *)
Definition simpleAdapt (it : labels -> labels) (accept : list string) (cl : list (string * aval)) (g : group) : list (list kv * labels * list (string * mdata) * Z) :=
  if existsb (eqb (gname g)) accept
  then [(map (fun p => (fst p, Some (SV (toString (snd p))))) (it (glabels g)) ++ map (fun p => (fst p, Some (snd p))) cl, glabels g, gmetrics g, gts g)]
  else [].
