(** Model of collector/pkg/component/consumer/exporter/otelexporter: what the OpenTelemetry exporter hands to the metrics SDK.
    The SDK is the list of calls it receives: batches of measurements, spans, and the observations of a collection (a scrape).
    Consume and NewMeter hold the exporter's lock (consume.go:17-18, otelexporter.go:317-318).  A collection does not, but it only meets
    them in the aggregator of the gauges, whose Aggregate and DumpSingle exclude each other (default_aggregator.go:31-70), so every
    schedule is a history of the three steps below.
    Simplifications: a nil group, the self-metric that counts groups and the log messages are left out; the observers of a collection run
    in the order they were registered; two registrations under one name keep the first (the SDK's registry of unique instruments). *)
From Verif Require Import Base Decimal AttrModel PoolModel KeyModel AggModel LabelNames EnrichModel AdapterModel.
Open Scope string_scope. Open Scope list_scope. Open Scope Z_scope.

(** constnames/relabel_metric_const.go:33-37 *)
Definition TcpRttMetricName := "kindling_tcp_srtt_microseconds".
Definition K8sWorkLoadMetricName := "kindling_k8s_workload_info".

(** instrument.go:208-226: the two instruments *)
Inductive instr := ICounter | IHistogram.
(** What reaches the SDK: RecordBatch (consume.go:99-101), a span (consume.go:57-68), an observation (instrument.go:96). *)
Inductive sdk :=
| SBatch (attrs : list kv) (ms : list (string * instr * Z))
| SSpan (attrs : list kv)
| SObserve (name : string) (v : Z) (attrs : list kv).

(** instrument.go:72-84 createNewInstrument; agg_kind.go *)
Definition createNewInstrument (kind : string) : instr :=
  if eqb kind "counter" then ICounter else if eqb kind "histogram" then IHistogram else ICounter.

(** instrument.go:43-55: the aggregator of the gauges *)
Definition lastOf (n : string) : string * list kcfg := (n, [{| c_out := n; c_kind := LastKind; c_bounds := [] |}]).
Definition gaugeKinds : kindMap := [lastOf TcpRttMetricName; lastOf TraceAsMetric; lastOf K8sWorkLoadMetricName].

(** instrument.go:134-171 newTraceAsMetricSelectors *)
Definition traceAsMetricSelector : list selector :=
  [("protocol", StringType); ("is_server", BooleanType); ("container_id", StringType);
   ("src_node", StringType); ("src_node_ip", StringType); ("src_namespace", StringType); ("src_pod", StringType);
   ("src_workload_name", StringType); ("src_workload_kind", StringType); ("src_service", StringType); ("src_ip", StringType);
   ("src_container_id", StringType); ("src_container", StringType);
   ("dst_node", StringType); ("dst_node_ip", StringType); ("dst_namespace", StringType); ("dst_pod", StringType);
   ("dst_workload_name", StringType); ("dst_workload_kind", StringType); ("dst_service", StringType); ("dst_ip", StringType);
   ("dst_port", IntType); ("dnat_ip", StringType); ("dnat_port", IntType); ("dst_container_id", StringType); ("dst_container", StringType);
   ("request_reqxfer_status", StringType); ("request_processing_status", StringType); ("response_rspxfer_status", StringType);
   ("request_duration_status", StringType); ("request_content", StringType); ("response_content", StringType)].
(** instrument.go:173-198 newTcpRttMicroSecondsSelectors *)
Definition tcpRttSelector : list selector :=
  [("src_node", StringType); ("src_node_ip", StringType); ("src_namespace", StringType); ("src_pod", StringType);
   ("src_workload_name", StringType); ("src_workload_kind", StringType); ("src_service", StringType); ("src_ip", StringType);
   ("src_port", IntType); ("src_container_id", StringType); ("src_container", StringType);
   ("dst_node", StringType); ("dst_node_ip", StringType); ("dst_namespace", StringType); ("dst_pod", StringType);
   ("dst_workload_name", StringType); ("dst_workload_kind", StringType); ("dst_service", StringType); ("dst_ip", StringType);
   ("dst_port", IntType); ("dst_container_id", StringType); ("dst_container", StringType)].
(** instrument.go:200-206 newK8sWorkloadSelector *)
Definition k8sWorkloadSelector : list selector :=
  [("namespace", StringType); ("workload_kind", StringType); ("workload_name", StringType)].
(** instrument.go:121-132 getSelector *)
Definition getSelector (n : string) : option (list selector) :=
  if eqb n TraceAsMetric then Some traceAsMetricSelector
  else if eqb n TcpRttMetricName then Some tcpRttSelector
  else if eqb n K8sWorkLoadMetricName then Some k8sWorkloadSelector
  else None.

(** The instrument factory (instrument.go:24-35) and the pools of the adapter. *)
Record ostate := { o_pools : pools; o_instr : list (string * instr); o_gauges : list string; o_agg : agg_state }.
Definition o0 : ostate := {| o_pools := {| p_lists := []; p_maps := []; p_choice := [] |}; o_instr := []; o_gauges := []; o_agg := [] |}.
Definition setPools (p : pools) (s : ostate) : ostate := {| o_pools := p; o_instr := o_instr s; o_gauges := o_gauges s; o_agg := o_agg s |}.

(** adapter.go:13-26 AdaptedResult: both forms of labels, either may be missing (nil) *)
Record ores := { x_type : rtype; x_list : list kv; x_map : option labels; x_metrics : list (string * mdata); x_ts : Z }.
Definition ofNet (r : result) : ores :=
  {| x_type := res_type r; x_list := match res_attrs r with AList l => l | AMap _ => [] end;
     x_map := match res_attrs r with AList _ => None | AMap m => Some m end; x_metrics := res_metrics r; x_ts := res_ts r |}.
Definition ofSimple (q : list kv * labels * list (string * mdata) * Z) : ores :=
  let '(l, m, ms, t) := q in {| x_type := RMetric; x_list := l; x_map := Some m; x_metrics := ms; x_ts := t |}.

(** otelexporter.go:151-153, 225-227: the groups the simple adapter accepts; constnames/const.go:43-48 *)
Definition simpleGroups : list string :=
  ["tcp_rtt_metric_group"; "tcp_retransmit_metric_group"; "tcp_drop_metric_group"; "tcp_connect_metric_group"; "k8s_workload_metric_group"].

Section Exporter.
  (** the custom labels, the adapter configuration, metric_aggregation_map, and whether spans are supported (not with Prometheus) *)
  Context (cl : list (string * aval)) (cfg : config) (kinds : list (string * string)) (tracer : bool).

  (** instrument.go:87-108 recordLastValue; an error is only logged (consume.go:86-88) *)
  Definition recordLastValue (n : string) (v : Z) (m : option labels) (ts : Z) (s : ostate) : res ostate :=
    let gs := if ahas (o_agg s) n || existsb (eqb n) (o_gauges s) then o_gauges s else o_gauges s ++ [n] in
    match getSelector n with
    | None => Ok {| o_pools := o_pools s; o_instr := o_instr s; o_gauges := gs; o_agg := o_agg s |}
    | Some sels =>
        match m with
        | None => Panic
        | Some m =>
            bind (aggregate gaugeKinds (o_agg s) {| gname := n; gmetrics := [(n, MInt v)]; glabels := m; gts := ts |} sels) (fun a =>
            Ok {| o_pools := o_pools s; o_instr := o_instr s; o_gauges := gs; o_agg := a |})
        end
    end.
  (** instrument.go:62-70 getInstrument *)
  Definition getInstrument (n kind : string) (s : ostate) : instr * ostate :=
    match aget (o_instr s) n with
    | Some i => (i, s)
    | None => let i := createNewInstrument kind in
              (i, {| o_pools := o_pools s; o_instr := aset (o_instr s) n i; o_gauges := o_gauges s; o_agg := o_agg s |})
    end.
  (** consume.go:71-98: the metrics of a result, in order; the measurements collected so far *)
  Fixpoint metricLoop (r : ores) (ms : list (string * mdata)) (acc : list (string * instr * Z)) (s : ostate) : res (list (string * instr * Z) * ostate) :=
    match ms with
    | [] => Ok (acc, s)
    | (n, d) :: ms' =>
        match aget kinds n, d with
        | Some k, MInt v =>
            if eqb k "gauge" then bind (recordLastValue n v (x_map r) (x_ts r) s) (fun s' => metricLoop r ms' acc s')
            else let '(i, s') := getInstrument n k s in metricLoop r ms' (acc ++ [(n, i, v)]) s'
        | _, _ => metricLoop r ms' acc s
        end
    end.
  (** consume.go:70-102 exportMetric, 57-68 exportTrace, 42-55 Export *)
  Definition exportOne (r : ores) (s : ostate) : res (list sdk * ostate) :=
    match x_type r with
    | RTrace => Ok (if tracer then [SSpan (x_list r)] else [], s)
    | RMetric => bind (metricLoop r (x_metrics r) [] s) (fun q => Ok (match fst q with [] => [] | ms => [SBatch (x_list r) ms] end, snd q))
    end.
  Fixpoint export (rs : list ores) (s : ostate) : res (list sdk * ostate) :=
    match rs with
    | [] => Ok ([], s)
    | r :: rs' => bind (exportOne r s) (fun q => bind (export rs' (snd q)) (fun q' => Ok (fst q ++ fst q', snd q')))
    end.
  (** consume.go:16-40 Consume: the net adapter, then the simple one; every result is freed once exported (:53).
      [choices] is what the pools give back, [it] the iteration order of the group's labels. *)
  Definition consumeGroup (g : group) (choices : list nat) (it : labels -> labels) (s : ostate) : res (list sdk * ostate) :=
    bind (adapt cl cfg g AttributeList (withChoices (o_pools s) choices)) (fun a =>
    bind (export (map ofNet (snd a)) s) (fun q1 =>
    let s1 := setPools (fold_left (fun p r => freeResult r p) (snd a) (fst a)) (snd q1) in
    bind (export (map ofSimple (simpleAdapt it simpleGroups cl g)) s1) (fun q2 => Ok (fst q1 ++ fst q2, snd q2)))).

  (** instrument.go:89-99: the callback of one gauge; [it] is the iteration order of a series' labels *)
  Definition observeOne (it : labels -> labels) (n : string) (g : group) : res (list sdk) :=
    match gmetrics g with
    | [] => Ok []
    | (_, MInt v) :: _ =>
        Ok [SObserve n v (map (fun p => (fst p, Some (SV (toString (snd p))))) (it (glabels g)) ++ map (fun p => (fst p, Some (snd p))) cl)]
    | (_, MHist _ _ _ _) :: _ => Panic
    end.
  Fixpoint collectGauges (it : labels -> labels) (ns : list string) (a : agg_state) : res (list sdk * agg_state) :=
    match ns with
    | [] => Ok ([], a)
    | n :: ns' =>
        bind (dumpSingle a n) (fun d =>
        bind (mapM (observeOne it n) (fst d)) (fun os =>
        bind (collectGauges it ns' (snd d)) (fun r => Ok (List.concat os ++ fst r, snd r))))
    end.

  (** A group arrives, the SDK collects, the meter is replaced (otelexporter.go:316-353 NewMeter). *)
  Inductive oop :=
  | XConsume (g : group) (choices : list nat) (it : labels -> labels)
  | XScrape (it : labels -> labels)
  | XRestart.
  Definition ostep (s : ostate) (o : oop) : res (list sdk * ostate) :=
    match o with
    | XConsume g choices it => consumeGroup g choices it s
    | XScrape it =>
        bind (collectGauges it (o_gauges s) (o_agg s)) (fun r =>
        Ok (fst r, {| o_pools := o_pools s; o_instr := o_instr s; o_gauges := o_gauges s; o_agg := snd r |}))
    | XRestart => Ok ([], {| o_pools := o_pools s; o_instr := []; o_gauges := []; o_agg := [] |})
    end.
  Fixpoint orun (s : ostate) (os : list oop) : res (list (list sdk) * ostate) :=
    match os with
    | [] => Ok ([], s)
    | o :: os' => bind (ostep s o) (fun r => bind (orun (snd r) os') (fun r' => Ok (fst r :: fst r', snd r')))
    end.
End Exporter.
