(** Model of what goes to Elasticsearch: collector/pkg/component/consumer/exporter/esexporter (one document per abnormal request) and the
    Elasticsearch half of collector/pkg/component/consumer/exporter/cameraexporter (one document per second of a thread's activity).
    Simplifications: a document is the index and the value handed to the client; what the client library does with it (encoding, batching,
    retrying, the network) is not modelled, so "indexed" means handed to the client; loggers are left out; a writer that cannot be created
    panics (Logger.Panicf). *)
From Verif Require Import Base AttrModel PoolModel EnrichModel CpuModel FileModel AdapterModel.
Open Scope string_scope. Open Scope list_scope. Open Scope Z_scope.

(** * esexporter *)
(** esexporter/config.go:16-22 GetEsIndexName *)
Definition esIndexName (configured : string) : string := if eqb configured "" then "kindling_trace" else configured.
(** esexporter/esexporter.go:79-84 TraceData *)
Record traceDoc := { td_name : string; td_metrics : list (string * Z); td_labels : list (string * bytes); td_ts : Z }.
(** esexporter.go:69-71: [metric.GetInt()] is nil for a histogram, and [nil.Value] panics *)
Fixpoint intMetrics (acc : list (string * Z)) (ms : list (string * mdata)) : res (list (string * Z)) :=
  match ms with
  | [] => Ok acc
  | (m, MInt v) :: r => intMetrics (aset acc m v) r
  | (_, MHist _ _ _ _) :: _ => Panic
  end.
(** attribute_map.go:145-154 ToStringMap, on values *)
Definition labelTexts (m : labels) : list (string * bytes) := fold_left (fun acc p => aset acc (fst p) (toString (snd p))) m [].
(** esexporter.go:58-77 sendTrace; [client] is false when the client could not be created (:28-32) *)
Definition sendTrace (client : bool) (index : string) (g : group) : res (list (string * traceDoc)) :=
  if client then
    bind (intMetrics [] (gmetrics g)) (fun ms =>
      Ok [(esIndexName index, {| td_name := gname g; td_metrics := ms; td_labels := labelTexts (glabels g); td_ts := gts g |})])
  else Ok [].
(** esexporter.go:36-56 Consume; None is a nil group (with debug logging on, which is not modelled, it panics at :39) *)
Definition esConsume (client : bool) (index : string) (g : option group) : res (list (string * traceDoc)) :=
  match g with
  | None => Ok []
  | Some g =>
      if eqb (gname g) AggregatedNetRequestMetricGroup then Ok []
      else if eqb (gname g) SingleNetRequestMetricGroup then sendTrace client index g
      else Ok []
  end.

(** * cameraexporter *)
(** cameraexporter/exporter.go:50-53: the writer an exporter has; [WNone] is the nil interface *)
Inductive writer := WEs (suffix : string) | WFile | WNone.
(** exporter.go:23-44 New. [es]: the suffix in es_config, None when the section is missing (its use is a nil dereference);
    [reachable]: NewEsClient succeeds; [files]: newFileWriter succeeds *)
Definition newCamera (storage : string) (es : option string) (reachable files : bool) : res writer :=
  if eqb storage "elasticsearch" then match es with None => Panic | Some suffix => if reachable then Ok (WEs suffix) else Panic end
  else if eqb storage "file" then if files then Ok WFile else Panic
  else Ok WNone.
(** exporter.go:75-87 esWriter.write: the documents added to the bulk processor *)
Definition esWrite (suffix : string) (g : group) : list (string * group) :=
  if intOf (glabels g) "isSent" =? 1 then []
  else [(if eqb suffix "" then gname g else append (gname g) (append "_" suffix), g)].
(** exporter.go:46-52 Consume: the documents for Elasticsearch (the file writer is FileModel.v) *)
Definition cameraConsume (w : writer) (g : group) : res (list (string * group)) :=
  match w with WEs suffix => Ok (esWrite suffix g) | WFile => Ok [] | WNone => Panic end.

(** cpuanalyzer/model.go:88-117 and send_trigger.go:205-206: the group of a segment sent for a trace with labels [fst tr] and start
    [snd tr]; [enc] is json.Marshal on a list of events *)
Definition segGroup (enc : list tev -> option bytes) (tr : labels * Z) (x : sent) : group :=
  {| gname := "camera_event_group"; gmetrics := [];
     glabels := cpuGroupLabels (fst tr) (snd tr) x (segTexts (enc (x_cpu x)) (enc (x_futex x)) (enc (x_trans x)) (enc (x_spans x)) (enc (x_inner x)));
     gts := x_start x |}.
(** What one step of the profiling analyzer, in state [s], makes the exporter add. Each step carries the trace for which it sends. *)
Definition esStep (n : nat) (enc : list tev -> option bytes) (suffix : string) (s : cpu) (o : cop) (tr : labels * Z) : list (string * group) :=
  match o with
  | OSend pid a b => flat_map (fun x => esWrite suffix (segGroup enc tr x)) (fst (sendEvents n pid a b s))
  | _ => []
  end.
Fixpoint esRun (n : nat) (d : Z) (enc : list tev -> option bytes) (suffix : string) (s : cpu) (h : list (cop * (labels * Z))) : list (list (string * group)) :=
  match h with
  | [] => []
  | (o, tr) :: r => esStep n enc suffix s o tr :: esRun n d enc suffix (cstep n d s o) r
  end.
