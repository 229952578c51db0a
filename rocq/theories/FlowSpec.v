(** What the SDK should be told about the groups of the analyzers, over a whole history. *)
From Verif Require Import Base Decimal AttrModel PoolModel KeyModel KeyProps AggModel AggSpec SampleModel K8sModel EnrichModel EnrichSpec EventModel TcpModel PipeModel
  AdapterModel AdapterSpec OtelModel OtelSpec FlowModel.
Open Scope string_scope. Open Scope list_scope. Open Scope Z_scope.

(** ** What a group counts for *)
(** The labels of the group with the Kubernetes metadata of the moment (C43). *)
Definition seenAs (w : collector) (g : group) (v : view) : labels :=
  match enrich (w_it w) (w_nodeIp w) (w_nodeName w) (w_k8s w) (v_clock v) (v_k8s v) (bs (gname g)) (glabels g) with Ok m => m | _ => [] end.
(** The labels kept by the aggregation: all the exported tables read, but for the code of a Dubbo answer and the type of an error
    (processor.go:144-187 does not select them). *)
Definition forget (m : labels) : labels := adel (adel m "dubbo_error_code") "error_type".

(** One due: the exported metric, its labels, the amount. *)
Definition due : Type := (string * list kv * Z)%type.
(** The four counters of a request. *)
Definition quantities : list string := ["request_count"; "request_total_time"; "request_io"; "response_io"].
Definition quantityOf (q : string) (g : group) : Z := if eqb q "request_count" then 1 else valueIn q (gmetrics g).
Definition labelled (q : string) (t : list kv) (m : labels) : list kv := if eqb q "request_count" then t ++ slowT m else t.
(** A request served here counts for its server; a request made from here, and one that came from outside when those are kept, for an edge. *)
Definition fromOutside (m : labels) : bool := eqb (strOf m "src_namespace") (bs "NOT_FOUND_EXTERNAL").
Definition requestDues (cfg : config) (g : group) (m : labels) : list due :=
  flat_map (fun q =>
    (if boolOf m "is_server"
     then [(entityName q, labelled q (if StorePodDetail cfg then fineServerT m else coarseServerT m) m, quantityOf q g)] else []) ++
    (if boolOf m "is_server"
     then if StoreExternalSrcIP cfg && fromOutside m then [(topologyName q, labelled q (fineEdgeT m) m, quantityOf q g)] else []
     else [(topologyName q, labelled q (if StorePodDetail cfg then fineEdgeT m else coarseEdgeT m) m, quantityOf q g)])) quantities.
(** A TCP group counts under the selected labels, as text. *)
Definition tcpCounters : list string :=
  ["kindling_tcp_retransmit_total"; "kindling_tcp_packet_loss_total"; "kindling_tcp_connect_total"; "kindling_tcp_connect_duration_nanoseconds_total"].
Definition textOf (sels : list selector) (m : labels) : list kv := map (fun s => S_ (fst s) (toString (selected m s))) sels.
Definition tcpDues (sels : list selector) (g : group) (m : labels) : list due := map (fun n => (n, textOf sels m, valueIn n (gmetrics g))) tcpCounters.
Definition dues (w : collector) (g : group) (v : view) : list due :=
  let m := seenAs w g v in
  if eqb (gname g) "net_request_metric_group" then requestDues (w_cfg w) g (forget m)
  else if eqb (gname g) "tcp_connect_metric_group" then tcpDues tcpConnectSelectors g m
  else tcpDues tcpSelectors g m.
(** What the sum of the metric [n] over the series with the labels [sel] is due for a step. *)
Definition dueFor (w : collector) (n : string) (sel : list (string * aval)) (o : flow_op) : Z :=
  match o with
  | FGroup g v _ _ _ =>
      zsum (map (fun d : due => let '(n', t, a) := d in if eqb n' n && matches sel (withCustom t (w_cl w)) then a else 0) (dues w g v))
  | _ => 0
  end.
(** The twelve counters. *)
Definition counterNames : list string := map entityName quantities ++ map topologyName quantities ++ tcpCounters.

(** ** Hypotheses *)
(** The metrics of a group, as its analyzer makes them. *)
Definition shaped (g : group) : Prop :=
  (gname g = "net_request_metric_group" /\ mnames g = groupMetricNames) \/
  (gname g = "tcp_rtt_metric_group" /\ mnames g = ["kindling_tcp_srtt_microseconds"]) \/
  (gname g = "tcp_retransmit_metric_group" /\ mnames g = ["kindling_tcp_retransmit_total"]) \/
  (gname g = "tcp_drop_metric_group" /\ mnames g = ["kindling_tcp_packet_loss_total"]) \/
  (gname g = "tcp_connect_metric_group" /\
     mnames g = "kindling_tcp_connect_total" :: if boolOf (glabels g) "success" then ["kindling_tcp_connect_duration_nanoseconds_total"] else []).
(** A group of an analyzer: its metrics are numbers; its labels have distinct names and the types the analyzers give them, integers are Go
    int64 values and the time stamp a Go uint64; a Redis request is not exported as a span (C44_redis_span). *)
Definition goodInput (cfg : config) (g : group) : Prop :=
  shaped g /\ int_group g /\ NoDup (keys (glabels g)) /\ int64_labels (glabels g) /\ wellTyped (glabels g) /\ 0 <= gts g < 2 ^ 64 /\
  (StoreTraceAsSpan cfg = true -> protocolIs (glabels g) "redis" = false).
(** The ports of the containers in the Kubernetes caches are Go int32 values. *)
Definition portsFit (st : kstate) : Prop :=
  forall ip port c, getContainerByHostIpPort st ip port = Some c -> forall p q, aget (ci_hostports c) p = Some q -> - 2 ^ 31 <= q < 2 ^ 31.
Definition goodFlowOp (cfg : config) (o : flow_op) : Prop :=
  match o with
  | FGroup g v _ _ it => goodInput cfg g /\ portsFit (v_k8s v) /\ forall m, Permutation.Permutation (it m) m
  | FDeliver _ it | FScrape it => forall m, Permutation.Permutation (it m) m
  | FTick => True
  end.
(** The collector is configured as shipped, but for the labels, the switches and the sampling; custom labels have names of their own. *)
Definition goodCollector (w : collector) : Prop :=
  w_km w = shippedKm /\ textCustom (w_cl w) /\ traceIsGauge (w_kinds w) /\
  forall k, In k (map fst (w_cl w)) -> ~ In k ["src_node_ip"; "dst_node_ip"; "src_port"; "errno"; "success"].
(** A counter of the exporter's configuration. *)
Definition isCounter (w : collector) (n : string) : Prop := exists k, kindOf (w_kinds w) n = Some k /\ k <> "gauge".
(** Nothing but deliveries and collections. *)
Definition onlyDelivers (o : flow_op) : Prop := match o with FDeliver _ _ | FScrape _ => True | _ => False end.
