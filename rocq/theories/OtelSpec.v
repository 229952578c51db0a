(** What the OpenTelemetry exporter should hand to the SDK, stated on the groups it receives, with the tables of C44 ([wantAggregated],
    [wantSingle]: the results of a group, their metrics and their labels). *)
From Coq Require Import Sorting.Permutation.
From Verif Require Import Base Decimal AttrModel PoolModel KeyModel KeyProps AggModel AggSpec LabelNames EnrichModel AdapterModel AdapterSpec OtelModel.
Open Scope string_scope. Open Scope list_scope. Open Scope Z_scope.

(** A TCP or workload group is exported as it is, its labels as text. *)
Definition textLabels (m : labels) : list kv := map (fun p => S_ (fst p) (toString (snd p))) m.
Definition wanted (cfg : config) (g : group) : list want :=
  if eqb (gname g) "aggregated_net_request_metric_group" then wantAggregated cfg g
  else if eqb (gname g) "single_net_request_metric_group" then wantSingle cfg g
  else if existsb (eqb (gname g)) simpleGroups then [{| wn_type := RMetric; wn_metrics := gmetrics g; wn_labels := textLabels (glabels g) |}]
  else [].

(** The measurements of a result: its numbers whose name is in the table of kinds, but for the gauges. *)
Definition kindOf (kinds : list (string * string)) (n : string) : option string := aget kinds n.
Definition measurements (kinds : list (string * string)) (ms : list (string * mdata)) : list (string * instr * Z) :=
  flat_map (fun p : string * mdata => match kindOf kinds (fst p), snd p with
                      | Some k, MInt v => if eqb k "gauge" then [] else [(fst p, if eqb k "histogram" then IHistogram else ICounter, v)]
                      | _, _ => []
                      end) ms.
(** The calls wanted for a group, each with its labels. *)
Inductive wcall := WBatch (t : list kv) (ms : list (string * instr * Z)) | WSpan (t : list kv).
Definition callsFor (kinds : list (string * string)) (tracer : bool) (w : want) : list wcall :=
  match wn_type w with
  | RTrace => if tracer then [WSpan (wn_labels w)] else []
  | RMetric => match measurements kinds (wn_metrics w) with [] => [] | ms => [WBatch (wn_labels w) ms] end
  end.
(** A label list says exactly what a table and the custom labels say. *)
Definition saysLabels (cl : list (string * aval)) (t l : list kv) : Prop := forall k v, In (k, v) l <-> In (k, v) (withCustom t cl).
Definition answers (cl : list (string * aval)) (w : wcall) (c : sdk) : Prop :=
  match w, c with
  | WBatch t ms, SBatch l ms' => ms' = ms /\ saysLabels cl t l
  | WSpan t, SSpan l => saysLabels cl t l
  | _, _ => False
  end.

(** *** Gauges *)
(** The three gauges and the labels each shows. *)
Definition gaugeLabels (n : string) : option (list selector) := getSelector n.
(** A table as a label map. *)
Definition tableMap (t : list kv) : labels := flat_map (fun p : kv => match snd p with Some v => [(fst p, v)] | None => [] end) t.
(** The gauge readings of a group: name, labels and value. *)
Definition reading := (string * labels * Z)%type.
Definition isGauge (kinds : list (string * string)) (n : string) : bool :=
  match kindOf kinds n with Some k => eqb k "gauge" | None => false end && match gaugeLabels n with Some _ => true | None => false end.
Definition labelsOf (cl : list (string * aval)) (g : group) (w : want) : labels :=
  if existsb (eqb (gname g)) simpleGroups then glabels g else tableMap (withCustom (wn_labels w) cl).
Definition gaugeReadings (cl : list (string * aval)) (kinds : list (string * string)) (cfg : config) (g : group) : list reading :=
  flat_map (fun w => match wn_type w with
                     | RTrace => []
                     | RMetric => flat_map (fun p : string * mdata => match snd p with
                                                     | MInt v => if isGauge kinds (fst p) then [(fst p, labelsOf cl g w, v)] else []
                                                     | _ => []
                                                     end) (wn_metrics w)
                     end) (wanted cfg g).
(** The labels a gauge shows of a label map, as text. *)
Definition shownOf (n : string) (m : labels) : list (string * bytes) :=
  match gaugeLabels n with Some sels => map (fun s => (fst s, toString (selected m s))) sels | None => [] end.
(** The readings since the last scrape or restart, oldest first. *)
Definition pendingStep (cl : list (string * aval)) (kinds : list (string * string)) (cfg : config) (acc : list reading) (o : oop) : list reading :=
  match o with
  | XConsume g _ _ => acc ++ gaugeReadings cl kinds cfg g
  | XScrape _ | XRestart => []
  end.
Definition pending (cl : list (string * aval)) (kinds : list (string * string)) (cfg : config) (os : list oop) : list reading :=
  fold_left (pendingStep cl kinds cfg) os [].
(** [v] is the last of the readings [l] for the gauge [n] with the labels [L]. *)
Definition lastReading (l : list reading) (n : string) (L : list (string * bytes)) (v : Z) : Prop :=
  exists a m b, l = a ++ (n, m, v) :: b /\ shownOf n m = L /\ forall m' v', In (n, m', v') b -> shownOf n m' <> L.
Definition observes (cl : list (string * aval)) (l : list reading) (q : string * list (string * bytes)) (c : sdk) : Prop :=
  exists v at_, c = SObserve (fst q) v at_ /\ lastReading l (fst q) (snd q) v /\ saysLabels cl (map (fun p : string * bytes => S_ (fst p) (snd p)) (snd q)) at_.

(** *** Hypotheses *)
(** Custom labels are texts (otelexporter.go:76-79) under names of their own. *)
Definition textCustom (cl : list (string * aval)) : Prop := goodCustom cl /\ forall k v, In (k, v) cl -> exists t, v = SV t.
(** A group the exporter may receive: integer labels are Go int64 values and the labels of a map have distinct names;
    the times of a single request are numbers and its time stamp a Go uint64; a Redis request is not exported as a span (C44_redis_span). *)
Definition goodGroup (cl : list (string * aval)) (cfg : config) (g : group) : Prop :=
  NoDup (keys (glabels g)) /\ int64_labels (glabels g) /\
  (gname g = "single_net_request_metric_group" ->
     (StoreTraceAsMetric cfg = true -> intsOf timed (gmetrics g)) /\
     (StoreTraceAsSpan cfg = true -> intsOf measured (gmetrics g) /\ 0 <= gts g < 2 ^ 64 /\ protocolIs (glabels g) "redis" = false)) /\
  (existsb (eqb (gname g)) simpleGroups = true -> forall k, In k (map fst cl) -> ~ In k (keys (glabels g))).
(** The trace metric is a gauge, as in the configuration shipped with the collector, or not exported at all. *)
Definition traceIsGauge (kinds : list (string * string)) : Prop :=
  kindOf kinds "kindling_trace_request_duration_nanoseconds" = None \/ kindOf kinds "kindling_trace_request_duration_nanoseconds" = Some "gauge".
(** Iteration orders of Go maps. *)
Definition orderly (o : oop) : Prop := match o with XConsume _ _ it | XScrape it => forall m, Permutation (it m) m | XRestart => True end.
Definition goodOp (cl : list (string * aval)) (cfg : config) (o : oop) : Prop :=
  orderly o /\ match o with XConsume g _ _ => goodGroup cl cfg g | _ => True end.

(** *** Sums, as a query would ask for them: sum of a metric over the series with given labels *)
Definition matches (sel : list (string * aval)) (l : list kv) : bool := forallb (fun p => eqb (aget l (fst p)) (Some (Some (snd p)))) sel.
Definition amount (n : string) (ms : list (string * instr * Z)) : Z :=
  zsum (map (fun q : string * instr * Z => if eqb (fst (fst q)) n then snd q else 0) ms).
Definition sumCall (n : string) (sel : list (string * aval)) (c : sdk) : Z :=
  match c with SBatch l ms => if matches sel l then amount n ms else 0 | _ => 0 end.
Definition sumCalls (n : string) (sel : list (string * aval)) (out : list (list sdk)) : Z := zsum (map (sumCall n sel) (List.concat out)).
Definition valueIn (n : string) (ms : list (string * mdata)) : Z :=
  zsum (map (fun p : string * mdata => if eqb (fst p) n then match snd p with MInt v => v | _ => 0 end else 0) ms).
Definition wantedSum (cl : list (string * aval)) (cfg : config) (n : string) (sel : list (string * aval)) (g : group) : Z :=
  zsum (map (fun w => match wn_type w with
                      | RMetric => if matches sel (withCustom (wn_labels w) cl) then valueIn n (wn_metrics w) else 0
                      | RTrace => 0
                      end) (wanted cfg g)).
