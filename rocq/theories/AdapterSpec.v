(** What the exported metrics and spans of a record should carry, stated on the record itself (its labels, metrics and time).
    Vocabulary: [strOf m k], [intOf m k], [boolOf m k] read a label of the record (the empty string, 0 or false when it has none);
    [formatInt] is the decimal form. *)
From Verif Require Import Base Decimal AttrModel PoolModel EnrichModel AdapterModel.
From Coq Require Import Sorting.Sorted.
Open Scope string_scope. Open Scope list_scope. Open Scope Z_scope.

Definition protocolIs (m : labels) (p : string) : bool := eqb (strOf m "protocol") (bs p).
Definition oneOf (m : labels) (ps : list string) : bool := existsb (protocolIs m) ps.
Definition failed (m : labels) : bool := intOf m "error_type" =? 3.

(** What was asked: the content key, the topic of Kafka, the domain of DNS; nothing for other protocols. *)
Definition requestContent (m : labels) : bytes :=
  if oneOf m ["http"; "grpc"; "mysql"; "dubbo"; "redis"; "rocketmq"] then strOf m "content_key"
  else if protocolIs m "kafka" then strOf m "kafka_topic"
  else if protocolIs m "dns" then strOf m "dns_domain"
  else [].
(** What was answered: the status of HTTP and gRPC, the error code of MySQL, DNS, Dubbo, RocketMQ. *)
Definition codeOf (m : labels) : option bytes :=
  if oneOf m ["http"; "grpc"] then Some (formatInt (intOf m "http_status_code"))
  else if protocolIs m "mysql" then Some (formatInt (intOf m "sql_error_code"))
  else if protocolIs m "dns" then Some (formatInt (intOf m "dns_rcode"))
  else if protocolIs m "dubbo" then Some (formatInt (intOf m "dubbo_error_code"))
  else if protocolIs m "rocketmq" then Some (formatInt (intOf m "rocketmq_error_code"))
  else None.
Definition responseContent (m : labels) : bytes :=
  match codeOf m with
  | Some c => c
  | None => if protocolIs m "redis" then (if failed m then bs "error" else bs "noerror") else []
  end.
Definition statusCode (m : labels) : bytes :=
  match codeOf m with
  | Some c => c
  | None => if protocolIs m "redis" then (if failed m then bs "1" else bs "0") else []
  end.

Definition S_ (k : string) (v : bytes) : kv := (k, Some (SV v)).
Definition I_ (k : string) (v : Z) : kv := (k, Some (IV v)).
Definition B_ (k : string) (v : bool) : kv := (k, Some (BV v)).
(** A label kept under its own name. *)
Definition keepS (m : labels) (k : string) : kv := S_ k (strOf m k).
Definition keepI (m : labels) (k : string) : kv := I_ k (intOf m k).

(** *** Metrics of a server *)
Definition contentT (m : labels) : list kv := [S_ "request_content" (requestContent m); S_ "response_content" (responseContent m)].
Definition entityT (m : labels) : list kv :=
  [S_ "namespace" (strOf m "dst_namespace"); S_ "workload_kind" (strOf m "dst_workload_kind"); S_ "workload_name" (strOf m "dst_workload_name");
   S_ "service" (strOf m "dst_service"); S_ "protocol" (strOf m "protocol")].
Definition podT (m : labels) : list kv :=
  [S_ "ip" (strOf m "dst_ip"); I_ "port" (intOf m "dst_port"); S_ "node" (strOf m "dst_node"); S_ "pod" (strOf m "dst_pod");
   S_ "container" (strOf m "dst_container"); S_ "container_id" (strOf m "dst_container_id")].
Definition slowT (m : labels) : list kv := [B_ "is_slow" (boolOf m "is_slow")].

(** *** Metrics of a topology edge *)
Definition edgeT (m : labels) : list kv :=
  map (keepS m) ["src_namespace"; "src_workload_kind"; "src_workload_name"; "src_service"; "dst_namespace"; "dst_workload_kind"; "dst_workload_name";
                 "dst_service"; "protocol"].
(** Without pod detail, the node and the pod of the destination are shown only when it was not found in the cluster. *)
Definition notFound (m : labels) : bool := eqb (strOf m "dst_namespace") (bs "NOT_FOUND_EXTERNAL") || eqb (strOf m "dst_namespace") (bs "NOT_FOUND_INTERNAL").
Definition coarseDstT (m : labels) : list kv :=
  if notFound m then map (keepS m) ["dst_node"; "dst_pod"] else [S_ "dst_node" []; S_ "dst_pod" []].
(** With pod detail, the destination address is the one a translation leads to, when there is one. *)
Definition translated (m : labels) : bool := negb (eqb (strOf m "dnat_ip") []) && (1 <=? intOf m "dnat_port").
Definition fineDstT (m : labels) : list kv :=
  map (keepS m) ["dst_node"; "dst_pod"; "src_ip"] ++
  (if translated m then [S_ "dst_ip" (strOf m "dnat_ip"); I_ "dst_port" (intOf m "dnat_port")] else [keepS m "dst_ip"; keepI m "dst_port"]).
Definition containersT (m : labels) : list kv :=
  map (keepS m) ["src_container_id"; "src_container"; "dst_container_id"; "dst_container"; "src_node"; "src_pod"].
Definition edgeStatusT (m : labels) : list kv := [S_ "status_code" (statusCode m)].

(** *** A single request, as a metric *)
Definition plainDstT (m : labels) : list kv :=
  map (keepS m) ["dst_node"; "dst_pod"; "src_ip"; "dst_ip"; "dnat_ip"] ++ [keepI m "dst_port"; keepI m "dnat_port"].
(** Colours: green up to 200 ms (a stage) or 800 ms (the whole request), red from 1 s or 1.5 s on, yellow between. *)
Definition ms := 1000000.
Definition colour (green red t : Z) : bytes := if t <=? green * ms then bs "1" else if t <? red * ms then bs "2" else bs "3".
(** The last metric of that name, 0 when there is none. *)
Definition lastInt (l : list (string * mdata)) (n : string) : option Z :=
  match aget (rev l) n with Some (MInt v) => Some v | _ => None end.
Definition timeOf (g : group) (n : string) : Z := match lastInt (gmetrics g) n with Some v => v | None => 0 end.
Definition coloursT (g : group) : list kv :=
  [S_ "request_reqxfer_status" (colour 200 1000 (timeOf g "request_sent_time"));
   S_ "request_processing_status" (colour 200 1000 (timeOf g "waiting_ttfb_time"));
   S_ "response_rspxfer_status" (colour 200 1000 (timeOf g "content_download_time"));
   S_ "request_duration_status" (colour 800 1500 (timeOf g "request_total_time"));
   B_ "is_server" (boolOf (glabels g) "is_server")].
Definition traceMetricT (g : group) : list kv :=
  let m := glabels g in edgeT m ++ plainDstT m ++ containersT m ++ contentT m ++ coloursT g.

(** *** A single request, as a span *)
Definition spanBaseT (m : labels) : list kv :=
  [S_ "src_containerid" (strOf m "src_container_id"); S_ "src_container_name" (strOf m "src_container");
   S_ "dst_containerid" (strOf m "dst_container_id"); S_ "dst_container_name" (strOf m "dst_container");
   keepS m "src_node"; keepS m "src_pod"; keepI m "pid"; keepI m "request_tid"; keepI m "response_tid"; keepS m "comm"; keepI m "end_timestamp"].
Definition payloadT (m : labels) : list kv := [keepS m "request_payload"; keepS m "response_payload"].
Definition spanProtocolT (m : labels) : list kv :=
  if protocolIs m "http" then
    [S_ "http.method" (strOf m "http_method"); S_ "http.endpoint" (strOf m "http_url"); I_ "http.status_code" (intOf m "http_status_code");
     S_ "http.trace_id" (strOf m "trace_id"); S_ "http.trace_type" (strOf m "trace_type");
     S_ "http.request_headers" (strOf m "request_payload"); S_ "http.request_body" []; S_ "http.response_headers" (strOf m "response_payload");
     S_ "http.response_body" []]
  else if protocolIs m "mysql" then
    [S_ "mysql.sql" (strOf m "sql"); I_ "mysql.error_code" (intOf m "sql_error_code"); S_ "mysql.error_msg" (strOf m "sql_error_msg")] ++ payloadT m
  else if protocolIs m "dns" then
    [S_ "dns.domain" (strOf m "dns_domain"); S_ "dns.rcode" (formatInt (intOf m "dns_rcode"))] ++ payloadT m
  else if protocolIs m "dubbo" then
    [S_ "dubbo.request_body" (strOf m "request_payload"); S_ "dubbo.response_body" (strOf m "response_payload");
     I_ "dubbo.error_code" (intOf m "dubbo_error_code")]
  else if protocolIs m "rocketmq" then
    [S_ "rocketmq.request_msg" (strOf m "rocketmq_request_msg"); S_ "rocketmq.error_msg" (strOf m "rocketmq_error_msg")] ++ payloadT m
  else payloadT m.
(** The timings and sizes of the request; a metric the record lacks leaves its label without a value. *)
Definition metricT (g : group) (label name : string) : kv :=
  (label, match lastInt (gmetrics g) name with Some v => Some (IV v) | None => None end).
Definition bit (b : bool) : Z := if b then 1 else 0.
Definition spanValuesT (g : group) : list kv :=
  let m := glabels g in
  [metricT g "request_sent_ns" "request_sent_time"; metricT g "waiting_ttfb_ns" "waiting_ttfb_time";
   metricT g "content_download_ns" "content_download_time"; metricT g "request_total_ns" "request_total_time";
   metricT g "requestio_bytes" "request_io"; metricT g "responseio_bytes" "response_io";
   I_ "is_server" (bit (boolOf m "is_server")); I_ "is_error" (bit (boolOf m "is_error")); I_ "is_slow" (bit (boolOf m "is_slow"));
   I_ "is_convergent" 0; I_ "timestamp" (gts g / ms)].
Definition spanT (g : group) : list kv :=
  let m := glabels g in edgeT m ++ plainDstT m ++ spanBaseT m ++ spanProtocolT m ++ spanValuesT g.

(** *** Names of the exported metrics *)
Definition entityName (n : string) : string :=
  if eqb n "request_io" then "kindling_entity_request_receive_bytes_total"
  else if eqb n "response_io" then "kindling_entity_request_send_bytes_total"
  else if eqb n "request_total_time" then "kindling_entity_request_duration_nanoseconds_total"
  else if eqb n "request_count" then "kindling_entity_request_total"
  else if eqb n "request_total_time_avg" then "kindling_entity_request_average_duration_nanoseconds"
  else if eqb n "request_time_histogram" then "kindling_entity_request_request_time_histogram"
  else "".
Definition topologyName (n : string) : string :=
  if eqb n "request_io" then "kindling_topology_request_request_bytes_total"
  else if eqb n "response_io" then "kindling_topology_request_response_bytes_total"
  else if eqb n "request_total_time" then "kindling_topology_request_duration_nanoseconds_total"
  else if eqb n "request_count" then "kindling_topology_request_total"
  else if eqb n "request_total_time_avg" then "kindling_topology_request_average_duration_nanoseconds"
  else if eqb n "request_time_histogram" then "kindling_topology_request_request_time_histogram"
  else "".

(** *** Results *)
Record want := { wn_type : rtype; wn_metrics : list (string * mdata); wn_labels : list kv }.
(** Two results: the metrics but for the request count, and the request count, which says whether the requests were slow. *)
Definition counted (g : group) (name : string -> string) (t : list kv) : list want :=
  let others := filter (fun m : string * mdata => negb (eqb (fst m) "request_count")) (gmetrics g) in
  let counts := filter (fun m : string * mdata => eqb (fst m) "request_count") (gmetrics g) in
  let named := map (fun m : string * mdata => (name (fst m), snd m)) in
  (if 0 <? zlen others then [{| wn_type := RMetric; wn_metrics := named others; wn_labels := t |}] else []) ++
  (if 0 <? zlen counts then [{| wn_type := RMetric; wn_metrics := named counts; wn_labels := t ++ slowT (glabels g) |}] else []).
Definition fineEdgeT (m : labels) : list kv := edgeT m ++ fineDstT m ++ containersT m ++ edgeStatusT m.
Definition coarseEdgeT (m : labels) : list kv := edgeT m ++ coarseDstT m ++ edgeStatusT m.
Definition fineServerT (m : labels) : list kv := entityT m ++ podT m ++ contentT m.
Definition coarseServerT (m : labels) : list kv := entityT m ++ contentT m.
Definition wantAggregated (cfg : config) (g : group) : list want :=
  let m := glabels g in
  let server := boolOf m "is_server" in
  (if StoreExternalSrcIP cfg && server && eqb (strOf m "src_namespace") (bs "NOT_FOUND_EXTERNAL") then counted g topologyName (fineEdgeT m) else []) ++
  (if server then counted g entityName (if StorePodDetail cfg then fineServerT m else coarseServerT m)
   else counted g topologyName (if StorePodDetail cfg then fineEdgeT m else coarseEdgeT m)).
Definition wantSingle (cfg : config) (g : group) : list want :=
  match aget (gmetrics g) "request_total_time" with
  | None => []
  | Some d =>
      (if StoreTraceAsMetric cfg
       then [{| wn_type := RMetric; wn_metrics := [("kindling_trace_request_duration_nanoseconds", d)]; wn_labels := traceMetricT g |}] else []) ++
      (if StoreTraceAsSpan cfg then [{| wn_type := RTrace; wn_metrics := [("request_total_time", d)]; wn_labels := spanT g |}] else [])
  end.

(** Labels are a table and the custom labels of the configuration: as a list sorted by name, as a map by looking up. *)
Definition withCustom (t : list kv) (cl : list (string * aval)) : list kv := t ++ map (fun p => (fst p, Some (snd p))) cl.
Definition before (a b : string) : Prop := String.ltb a b = true.
Definition labelsAre (cl : list (string * aval)) (t : list kv) (a : attrs) : Prop :=
  match a with
  | AList l => StronglySorted before (map fst l) /\ forall k v, In (k, v) l <-> In (k, v) (withCustom t cl)
  | AMap m => forall k v, aget m k = Some v <-> In (k, Some v) (withCustom t cl)
  end.
(** The custom labels have distinct names that no exported label has. *)
Definition reserved : list string :=
  ["namespace"; "workload_kind"; "workload_name"; "service"; "protocol"; "ip"; "port"; "node"; "pod"; "container"; "container_id"; "is_slow";
   "request_content"; "response_content"; "src_namespace"; "src_workload_kind"; "src_workload_name"; "src_service"; "dst_namespace";
   "dst_workload_kind"; "dst_workload_name"; "dst_service"; "dst_node"; "dst_pod"; "src_ip"; "dst_ip"; "dst_port"; "src_container_id";
   "src_container"; "dst_container_id"; "dst_container"; "src_node"; "src_pod"; "status_code"; "dnat_ip"; "dnat_port"; "request_reqxfer_status";
   "request_processing_status"; "response_rspxfer_status"; "request_duration_status"; "is_server"; "src_containerid"; "src_container_name";
   "dst_containerid"; "dst_container_name"; "pid"; "request_tid"; "response_tid"; "comm"; "end_timestamp"; "http.method"; "http.endpoint";
   "http.status_code"; "http.trace_id"; "http.trace_type"; "http.request_headers"; "http.request_body"; "http.response_headers";
   "http.response_body"; "mysql.sql"; "mysql.error_code"; "mysql.error_msg"; "request_payload"; "response_payload"; "dns.domain"; "dns.rcode";
   "dubbo.request_body"; "dubbo.response_body"; "dubbo.error_code"; "redis.command"; "redis.error_msg"; "redis.request_payload";
   "rocketmq.request_msg"; "rocketmq.error_msg"; "request_sent_ns"; "waiting_ttfb_ns"; "content_download_ns"; "request_total_ns";
   "requestio_bytes"; "responseio_bytes"; "is_error"; "is_convergent"; "timestamp"].
Definition goodCustom (cl : list (string * aval)) : Prop := NoDup (map fst cl) /\ forall k, In k (map fst cl) -> ~ In k reserved.

(** A result is as wanted. *)
Definition shows (cl : list (string * aval)) (g : group) (w : want) (r : result) : Prop :=
  res_type r = wn_type w /\ res_metrics r = wn_metrics w /\ res_ts r = gts g /\ labelsAre cl (wn_labels w) (res_attrs r).
Definition formOf (a : attrs) : attrType := match a with AList _ => AttributeList | AMap _ => AttributeMap end.

(** The metrics of these names are numbers, not histograms. *)
Definition isInt (d : mdata) : Prop := match d with MInt _ => True | _ => False end.
Definition timed := ["request_sent_time"; "waiting_ttfb_time"; "content_download_time"; "request_total_time"].
Definition measured := timed ++ ["request_io"; "response_io"].
Definition intsOf (names : list string) (ms : list (string * mdata)) : Prop := forall n d, In (n, d) ms -> In n names -> isInt d.

(** Two results that say the same. *)
Definition sameAttrs (a b : attrs) : Prop :=
  match a, b with AList l, AList l' => l = l' | AMap m, AMap m' => forall k, aget m k = aget m' k | _, _ => False end.
Definition sameResult (a b : result) : Prop :=
  res_type a = res_type b /\ res_metrics a = res_metrics b /\ res_ts a = res_ts b /\ sameAttrs (res_attrs a) (res_attrs b).

(** The labels of a Redis span but for the payloads. *)
Definition redisSpanT (g : group) : list kv :=
  let m := glabels g in
  edgeT m ++ plainDstT m ++ spanBaseT m ++ [S_ "redis.command" (strOf m "redis_command"); S_ "redis.error_msg" (strOf m "redis_error_msg")] ++ spanValuesT g.

(** The stages of a request: the label of the colour, the metric of the time, and the two bounds in milliseconds. *)
Definition stages : list (string * string * Z * Z) :=
  [("request_reqxfer_status", "request_sent_time", 200, 1000); ("request_processing_status", "waiting_ttfb_time", 200, 1000);
   ("response_rspxfer_status", "content_download_time", 200, 1000); ("request_duration_status", "request_total_time", 800, 1500)].
