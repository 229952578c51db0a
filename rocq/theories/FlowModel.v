(** The whole metric pipeline: groups of the analyzers, Kubernetes metadata, aggregation and sampling, the OpenTelemetry exporter.
    Wiring: collector/internal/application/application.go:109-157 (networkAnalyzer, tcpAnalyzer and tcpConnectAnalyzer -> k8sMetadataProcessor
    -> aggregateProcessor -> otelExporter).  The stages are those of EnrichModel.v, SampleModel.v and OtelModel.v.
    The ticker's goroutine (aggregateprocessor/processor.go:94-110) empties the aggregator under its lock, and then hands the groups over one by
    one, each under the exporter's lock; other groups and collections come in between.  So a tick puts the groups in a queue, and a delivery
    is a step of its own.  A group that is sampled is handed over before it is aggregated (processor.go:117-124); the two touch
    different stages, so they are one step. *)
From Verif Require Import Base Decimal AttrModel PoolModel KeyModel AggModel SampleModel K8sModel EnrichModel EventModel TcpModel PipeModel AdapterModel OtelModel.
Open Scope string_scope. Open Scope list_scope. Open Scope Z_scope.

(** A collector's configuration: iteration order of the Kubernetes caches, this node, whether metadata is added (k8sprocessor/config.go),
    aggregate_kind_map, sampling_rate, and the exporter's custom labels, adapter switches, metric_aggregation_map and span support. *)
Record collector := {
  w_it : forall A : Type, nat -> list A -> list A; w_nodeIp : bytes; w_nodeName : bytes; w_k8s : bool;
  w_km : kindMap; w_sampling : sampling;
  w_cl : list (string * aval); w_cfg : config; w_kinds : list (string * string); w_tracer : bool }.

(** collector/docker/kindling-collector-config.yml:160-184: the aggregate_kind_map shipped with the collector *)
Definition shippedKindMap : list (string * list rawKind) :=
  defaultKindMap ++ [("kindling_tcp_connect_total", [raw "sum" ""]); ("kindling_tcp_connect_duration_nanoseconds_total", [raw "sum" ""])].
Definition shippedKm : kindMap := toAggregatedConfig shippedKindMap.

Record fstate := { f_agg : agg_state; f_queue : list group; f_exp : ostate }.
Definition f0 : fstate := {| f_agg := []; f_queue := []; f_exp := o0 |}.

(** [choices], [it]: what the exporter's pools give back and how it iterates over labels (OtelModel.v) *)
Inductive flow_op :=
| FGroup (g : group) (v : view) (draw : Z) (choices : list nat) (it : labels -> labels)   (* an analyzer hands over a group *)
| FTick                                                                                   (* the ticker fires *)
| FDeliver (choices : list nat) (it : labels -> labels)                                   (* the ticker's goroutine hands over its next group *)
| FScrape (it : labels -> labels).                                                        (* the SDK collects *)

Section Flow.
  Context (w : collector).
  Definition exporterStep (s : ostate) (o : oop) : res (list sdk * ostate) := ostep (w_cl w) (w_cfg w) (w_kinds w) (w_tracer w) s o.
  (** processor.go:112-142: what [Consume] forwards at once is nothing or one sampled request *)
  Definition forward (out : list group) (choices : list nat) (it : labels -> labels) (x : ostate) : res (list sdk * ostate) :=
    match out with
    | [] => Ok ([], x)
    | g :: _ => exporterStep x (XConsume g choices it)
    end.
  Definition fstep (s : fstate) (o : flow_op) : res (list sdk * fstate) :=
    match o with
    | FGroup g v draw choices it =>
        bind (enrichGroup (w_it w) (w_nodeIp w) (w_nodeName w) (w_k8s w) v g) (fun g' =>
        bind (consume (w_km w) (w_sampling w) draw g' (f_agg s)) (fun r =>
        bind (forward (fst r) choices it (f_exp s)) (fun q =>
        Ok (fst q, {| f_agg := snd r; f_queue := f_queue s; f_exp := snd q |}))))
    | FTick =>
        bind (dump (f_agg s)) (fun r => Ok ([], {| f_agg := snd r; f_queue := f_queue s ++ fst r; f_exp := f_exp s |}))
    | FDeliver choices it =>
        match f_queue s with
        | [] => Ok ([], s)
        | g :: q => bind (exporterStep (f_exp s) (XConsume g choices it)) (fun r => Ok (fst r, {| f_agg := f_agg s; f_queue := q; f_exp := snd r |}))
        end
    | FScrape it =>
        bind (exporterStep (f_exp s) (XScrape it)) (fun r => Ok (fst r, {| f_agg := f_agg s; f_queue := f_queue s; f_exp := snd r |}))
    end.
  (** the calls of the SDK at every step *)
  Fixpoint frun (s : fstate) (os : list flow_op) : res (list (list sdk) * fstate) :=
    match os with
    | [] => Ok ([], s)
    | o :: os' => bind (fstep s o) (fun r => bind (frun (snd r) os') (fun r' => Ok (fst r :: fst r', snd r')))
    end.
End Flow.
