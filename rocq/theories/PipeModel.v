(** The pipeline of TCP events, end to end: analyzer, Kubernetes metadata, aggregation, ticks.
    Wiring: collector/internal/application/application.go:109-157 (tcpAnalyzer -> k8sMetadataProcessor -> aggregateProcessor -> otelExporter).
    The events are processed one after the other (the ones of one analyzer come from one receiver). *)
From Verif Require Import Base Decimal AttrModel PoolModel KeyModel AggModel SampleModel EventModel K8sModel EnrichModel TcpModel.
Open Scope string_scope. Open Scope list_scope. Open Scope Z_scope.

(** What the collector knows when an event arrives: the translations of the connection tracker and the Kubernetes caches. *)
Record view := { v_dnat : Z -> Z -> Z -> Z -> option (bytes * Z); v_clock : nat; v_k8s : kstate }.
Inductive pipe_op : Type :=
| QEvent (e : event) (v : view) (draw : Z)
| QTick.

Section Pipe.
  Context (it : forall A : Type, nat -> list A -> list A) (localIp localName : bytes) (enable : bool) (km : kindMap) (cfg : sampling).
  (** tcp_analyzer.go:79-92 then kubernetes_processor.go:90-110 *)
  Definition enrichGroup (v : view) (g : group) : res group :=
    bind (enrich it localIp localName enable (v_clock v) (v_k8s v) (bs (gname g)) (glabels g)) (fun m =>
    Ok {| gname := gname g; gmetrics := gmetrics g; glabels := m; gts := gts g |}).
  (** aggregateprocessor/processor.go:112-142 and, for a tick, 94-110 *)
  Definition pipe_step (s : agg_state) (o : pipe_op) : res (list group * agg_state) :=
    match o with
    | QTick => dump s
    | QEvent e v draw =>
        bind (consumeTcp (v_dnat v) e) (fun o =>
        match o with
        | None => Ok ([], s)
        | Some g => bind (enrichGroup v g) (fun g' => consume km cfg draw g' s)
        end)
    end.
  (** what reaches the exporter at every step *)
  Fixpoint pipe_run (s : agg_state) (os : list pipe_op) : res (list (list group) * agg_state) :=
    match os with
    | [] => Ok ([], s)
    | o :: os' => bind (pipe_step s o) (fun r => bind (pipe_run (snd r) os') (fun r' => Ok (fst r :: fst r', snd r')))
    end.
End Pipe.
