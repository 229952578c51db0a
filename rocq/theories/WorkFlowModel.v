(** The goroutine that exports the inventory of workloads: collector/pkg/component/analyzer/k8sinfoanalyzer/k8sinfoanalyzer.go, up to the
    OpenTelemetry exporter, its only consumer (internal/application/application.go:137-138).
    Simplifications: the lock of the inventory makes GetWorkloadDataGroup one step; the exporter's Consume is one step (OtelModel.v); debug logs
    are left out; the step of the ticker may be taken whenever the goroutine is at its select. *)
From Verif Require Import Base Decimal AttrModel PoolModel KeyModel AggModel LabelNames K8sModel EnrichModel AdapterModel OtelModel.
Open Scope string_scope. Open Scope list_scope. Open Scope Z_scope.

(** pod_watch.go:56-66: the group of a workload *)
Definition workGroup (w : winfo) : group :=
  {| gname := "k8s_workload_metric_group"; gmetrics := [(K8sWorkLoadMetricName, MInt 1)];
     glabels := [("namespace", SV (wi_ns w)); ("workload_kind", SV (wi_kind w)); ("workload_name", SV (wi_name w))]; gts := 0 |}.

(** k8sinfoanalyzer.go:17-22: what is left of the round under way, whether the goroutine runs, whether the stop channel is closed *)
Record istate := { i_left : list winfo; i_live : bool; i_closed : bool; i_otel : ostate }.
(** :59-63 Start *)
Definition i0 : istate := {| i_left := []; i_live := true; i_closed := false; i_otel := o0 |}.
Inductive iop :=
| IFire (st : kstate) (order : list winfo -> list winfo)   (* :42-44: the ticker fired; the inventory is read, in some order *)
| ISend (choices : list nat) (it : labels -> labels)       (* :45-47: the next group goes to the exporter *)
| IShutdown                                                (* :69-72 *)
| IReturn                                                  (* :40-41 *)
| IOther (o : oop).                                        (* the exporter does something else *)
Section Info.
  Context (cl : list (string * aval)) (cfg : config) (kinds : list (string * string)) (tracer : bool).
  (** [None]: the step cannot be taken now. *)
  Definition istep (s : istate) (o : iop) : option (res (list sdk * istate)) :=
    match o with
    | IFire st order =>
        match i_live s, i_left s with
        | true, [] => Some (Ok ([], {| i_left := order (workloads st); i_live := true; i_closed := i_closed s; i_otel := i_otel s |}))
        | _, _ => None
        end
    | ISend choices it =>
        match i_live s, i_left s with
        | true, w :: l => Some (bind (consumeGroup cl cfg kinds tracer (workGroup w) choices it (i_otel s)) (fun q =>
            Ok (fst q, {| i_left := l; i_live := true; i_closed := i_closed s; i_otel := snd q |})))
        | _, _ => None
        end
    | IShutdown => Some (if i_closed s then Panic else Ok ([], {| i_left := i_left s; i_live := i_live s; i_closed := true; i_otel := i_otel s |}))
    | IReturn =>
        match i_live s && i_closed s, i_left s with
        | true, [] => Some (Ok ([], {| i_left := []; i_live := false; i_closed := true; i_otel := i_otel s |}))
        | _, _ => None
        end
    | IOther o => Some (bind (ostep cl cfg kinds tracer (i_otel s) o) (fun q => Ok (fst q, {| i_left := i_left s; i_live := i_live s; i_closed := i_closed s; i_otel := snd q |})))
    end.
  Fixpoint irun (s : istate) (os : list iop) : option (res (list (list sdk) * istate)) :=
    match os with
    | [] => Some (Ok ([], s))
    | o :: os' =>
        match istep s o with
        | None => None
        | Some Panic => Some Panic
        | Some Err => Some Err
        | Some (Ok (out, s')) => match irun s' os' with Some (Ok (r, s'')) => Some (Ok (out :: r, s'')) | x => x end
        end
    end.
End Info.
