(** Model of collector/pkg/component/consumer/processor/aggregateprocessor.
    The random draw of each request is an input.  The next consumer is the list of groups it receives.
    Not modelled: the profiling signal raised for sampled requests (cpuanalyzer.ReceiveDataGroupAsSignal) and the
    ticker's real period. *)
From Verif Require Import Base Decimal AttrModel PoolModel KeyModel AggModel.
Open Scope string_scope.

(** config.go:17-21 *)
Record sampling := { normalRate : Z; slowRate : Z; errorRate : Z }.
(** config.go:11-15: (output name, kind name, boundaries if given) *)
Record rawKind := { r_out : string; r_kind : string; r_bounds : option (list Z) }.

(** defaultaggregator/agg_values.go:41-58 GetAggregatorKind *)
Definition getAggregatorKind (k : string) : akind :=
  if eqb k "sum" then SumKind else if eqb k "max" then MaxKind else if eqb k "avg" then AvgKind
  else if eqb k "last" then LastKind else if eqb k "count" then CountKind
  else if eqb k "histogram" then HistogramKind else SumKind.

(** processor.go:21-22 *)
Definition exponentialInt64Boundaries : list Z :=
  map (fun x => x * 1000000)%Z [10; 20; 50; 80; 130; 200; 300; 400; 500; 700; 1000; 2000; 5000; 30000]%Z.

(** processor.go:71-92 newKindConfig *)
Definition newKindConfig (r : rawKind) : kcfg :=
  match getAggregatorKind (r_kind r) with
  | HistogramKind => {| c_out := r_out r; c_kind := HistogramKind;
                        c_bounds := match r_bounds r with Some b => b | None => exponentialInt64Boundaries end |}
  | k => {| c_out := r_out r; c_kind := k; c_bounds := [] |}
  end.

(** processor.go:56-69 toAggregatedConfig *)
Definition toAggregatedConfig (m : list (string * list rawKind)) : kindMap :=
  map (fun p => (fst p, map (fun r => newKindConfig
        {| r_out := (if eqb (r_out r) "" then fst p else r_out r); r_kind := r_kind r; r_bounds := r_bounds r |}) (snd p))) m.

(** config.go:24-43 NewDefaultConfig *)
Definition raw (k o : string) : rawKind := {| r_out := o; r_kind := k; r_bounds := None |}.
Definition defaultKindMap : list (string * list rawKind) :=
  [("request_total_time", [raw "sum" ""; raw "avg" "request_total_time_avg"; raw "count" "request_count"]);
   ("request_io", [raw "sum" ""]);
   ("response_io", [raw "sum" ""]);
   ("kindling_tcp_srtt_microseconds", [raw "last" ""]);
   ("kindling_tcp_retransmit_total", [raw "sum" ""]);
   ("kindling_tcp_packet_loss_total", [raw "sum" ""])].
Definition defaultSampling : sampling := {| normalRate := 0; slowRate := 100; errorRate := 100 |}.

(** Names: model/constlabels/const.go, protocols.go, model/constnames/const.go:35-48 *)
Definition singleNetRequestGroup := "single_net_request_metric_group".
Definition aggregatedNetRequestGroup := "aggregated_net_request_metric_group".
Definition tcpRttGroup := "tcp_rtt_metric_group".
Definition tcpRetransmitGroup := "tcp_retransmit_metric_group".
Definition tcpDropGroup := "tcp_drop_metric_group".
Definition tcpConnectGroup := "tcp_connect_metric_group".

(** processor.go:144-187 newNetRequestLabelSelectors *)
Definition netSelectors : list selector :=
  [("pid", IntType); ("comm", StringType); ("protocol", StringType); ("is_server", BooleanType);
   ("container_id", StringType); ("src_node", StringType); ("src_node_ip", StringType); ("src_namespace", StringType);
   ("src_pod", StringType); ("src_workload_name", StringType); ("src_workload_kind", StringType);
   ("src_service", StringType); ("src_ip", StringType); ("src_container_id", StringType); ("src_container", StringType);
   ("dst_node", StringType); ("dst_node_ip", StringType); ("dst_namespace", StringType); ("dst_pod", StringType);
   ("dst_workload_name", StringType); ("dst_workload_kind", StringType); ("dst_service", StringType);
   ("dst_ip", StringType); ("dst_port", IntType); ("dnat_ip", StringType); ("dnat_port", IntType);
   ("dst_container_id", StringType); ("dst_container", StringType);
   ("is_error", BooleanType); ("is_slow", BooleanType); ("http_status_code", IntType); ("dns_rcode", IntType);
   ("sql_error_code", IntType); ("content_key", StringType); ("dns_domain", StringType); ("kafka_topic", StringType);
   ("rocketmq_error_code", IntType)].
(** processor.go:189-217 newTcpLabelSelectors *)
Definition tcpSelectors : list selector :=
  [("src_node", StringType); ("src_node_ip", StringType); ("src_namespace", StringType);
   ("src_pod", StringType); ("src_workload_name", StringType); ("src_workload_kind", StringType);
   ("src_service", StringType); ("src_ip", StringType); ("src_port", IntType); ("src_container_id", StringType);
   ("src_container", StringType);
   ("dst_node", StringType); ("dst_node_ip", StringType); ("dst_namespace", StringType); ("dst_pod", StringType);
   ("dst_workload_name", StringType); ("dst_workload_kind", StringType); ("dst_service", StringType);
   ("dst_ip", StringType); ("dst_port", IntType); ("dnat_ip", StringType); ("dnat_port", IntType);
   ("dst_container_id", StringType); ("dst_container", StringType)].
(** processor.go:217-247 newTcpConnectLabelSelectors *)
Definition tcpConnectSelectors : list selector :=
  [("pid", IntType); ("comm", StringType); ("src_node", StringType); ("src_node_ip", StringType);
   ("src_namespace", StringType); ("src_pod", StringType); ("src_workload_name", StringType);
   ("src_workload_kind", StringType); ("src_service", StringType); ("src_ip", StringType);
   ("src_container_id", StringType); ("src_container", StringType);
   ("dst_node", StringType); ("dst_node_ip", StringType); ("dst_namespace", StringType); ("dst_pod", StringType);
   ("dst_workload_name", StringType); ("dst_workload_kind", StringType); ("dst_service", StringType);
   ("dst_ip", StringType); ("dst_port", IntType); ("dnat_ip", StringType); ("dnat_port", IntType);
   ("dst_container_id", StringType); ("dst_container", StringType); ("errno", IntType); ("success", BooleanType)].

Definition lbool (l : labelset) (n : string) : bool := asBool (aget l n).
Definition lint (l : labelset) (n : string) : Z := asInt (aget l n).

(** processor.go:267-270 isAbnormal *)
Definition isAbnormal (l : labelset) : bool :=
  lbool l "is_slow" || lbool l "is_error" || (0 <? lint l "error_type")%Z.

(** processor.go:249-264 isSampled; [draw] is rand.Intn(100) *)
Definition isSampled (cfg : sampling) (draw : Z) (l : labelset) : bool :=
  if isAbnormal l then
    if (draw <? slowRate cfg)%Z && lbool l "is_slow" then true
    else if (draw <? errorRate cfg)%Z && lbool l "is_error" then true
    else false
  else (draw <? normalRate cfg)%Z.

Definition rename (g : group) (n : string) : group :=
  {| gname := n; gmetrics := gmetrics g; glabels := glabels g; gts := gts g |}.

(** processor.go:112-142 Consume: the groups handed to the next consumer, and the aggregator *)
Definition consume (km : kindMap) (cfg : sampling) (draw : Z) (g : group) (s : agg_state)
  : res (list group * agg_state) :=
  if eqb (gname g) netRequestGroup then
    let out := if isSampled cfg draw (glabels g) then [rename g singleNetRequestGroup] else [] in
    bind (aggregate km s (rename g aggregatedNetRequestGroup) netSelectors) (fun s' => Ok (out, s'))
  else if eqb (gname g) tcpRttGroup || eqb (gname g) tcpRetransmitGroup || eqb (gname g) tcpDropGroup then
    bind (aggregate km s g tcpSelectors) (fun s' => Ok ([], s'))
  else if eqb (gname g) tcpConnectGroup then
    bind (aggregate km s g tcpConnectSelectors) (fun s' => Ok ([], s'))
  else
    bind (aggregate km s g netSelectors) (fun s' => Ok ([], s')).

(** One call to Consume with its random draw, or one tick (processor.go:94-110 runTicker). *)
Inductive proc_op : Type :=
| PConsume (draw : Z) (g : group)
| PTick.
Definition proc_step (km : kindMap) (cfg : sampling) (s : agg_state) (o : proc_op) : res (list group * agg_state) :=
  match o with
  | PConsume draw g => consume km cfg draw g s
  | PTick => dump s
  end.
Fixpoint proc_run (km : kindMap) (cfg : sampling) (s : agg_state) (os : list proc_op)
  : res (list (list group) * agg_state) :=
  match os with
  | [] => Ok ([], s)
  | o :: os' => bind (proc_step km cfg s o)
      (fun r => bind (proc_run km cfg (snd r) os') (fun r' => Ok (fst r :: fst r', snd r')))
  end.
