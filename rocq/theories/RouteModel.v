(** Models of collector/pkg/component/analyzer/manager.go (which analyzers get an event),
    collector/pkg/component/receiver/cgoreceiver (delivery and the event statistics) and
    collector/pkg/component/consumer/processor/nodemetricprocessor (node traffic). *)
From Verif Require Import Base Decimal AttrModel PoolModel EnrichModel AdapterModel SocketModel.
Open Scope string_scope. Open Scope list_scope. Open Scope Z_scope.

(** ** Routing *)
(** An analyzer, known by an identity, and its ConsumableEvents. *)
Record analyzer := { an_id : nat; an_events : list string }.
(** manager.go:10 *)
Definition ConsumeAllEvents := "consumeAllEvents".
(** manager.go:12-19, without allAnalyzers (used to start and stop them) *)
Record manager := { eventMap : list (string * list analyzer); consumeAll : list analyzer }.

Definition sliceOf (m : list (string * list analyzer)) (e : string) : list analyzer := match aget m e with Some l => l | None => [] end.
(** manager.go:29-40 *)
Definition addEvent (a : analyzer) (acc : list (string * list analyzer) * list analyzer) (e : string) :=
  let '(m, all) := acc in
  if eqb e ConsumeAllEvents then (m, all ++ [a]) else (aset m e (sliceOf m e ++ [a]), all).
Definition addAnalyzer (acc : list (string * list analyzer) * list analyzer) (a : analyzer) := fold_left (addEvent a) (an_events a) acc.
(** manager.go:44-48: every catch-all analyzer is appended to the slice read at the start of the outer iteration *)
Definition putAll (all : list analyzer) (p : string * list analyzer) : string * list analyzer :=
  (fst p, fold_left (fun _ a => snd p ++ [a]) all (snd p)).
(** manager.go:21-55 NewManager *)
Definition newManager (ans : list analyzer) : option manager :=
  match ans with
  | [] => None
  | _ => let '(m, all) := fold_left addAnalyzer ans ([], []) in Some {| eventMap := map (putAll all) m; consumeAll := all |}
  end.
(** manager.go:82-92 GetConsumableAnalyzers *)
Definition getConsumable (m : manager) (name : string) : list analyzer :=
  match aget (eventMap m) name with Some l => l | None => consumeAll m end.

(** cgoreceiver.go:176-192 sendToNextConsumer, for the events of the channel in order (:104-118); errors are only logged.
    A delivery is the analyzer's identity and the event; an event is given by its name and a payload. *)
Definition sendToNext {E} (m : manager) (ev : string * E) : list (nat * (string * E)) := map (fun a => (an_id a, ev)) (getConsumable m (fst ev)).
Definition consumeEvents {E} (m : manager) (evs : list (string * E)) : list (nat * (string * E)) := flat_map (sendToNext m) evs.

(** ** Statistics of received events *)
Definition OtherEvent : bytes := bs "other".
(** self_metrics.go:113-119: the part after the first dash *)
Definition rawName (n : bytes) : bytes := match splitOn (Z.eqb 45) n with [] => [] | [a] => a | _ :: b :: _ => b end.
(** self_metrics.go:108-124 newDynamicStats *)
Definition newStats (subs : list bytes) : list (bytes * Z) := aset (fold_left (fun m n => aset m (rawName n) 0) subs []) OtherEvent 0.
Definition bump (m : list (bytes * Z)) (k : bytes) : list (bytes * Z) := aset m k (s64 (match aget m k with Some v => v | None => 0 end + 1)).
(** self_metrics.go:126-134 add, with the value 1 (cgoreceiver.go:95) *)
Definition addStat (m : list (bytes * Z)) (name : bytes) : list (bytes * Z) := if ahas m name then bump m name else bump m OtherEvent.
(** self_metrics.go:136-142 getStats after the events [evs] *)
Definition statsAfter (subs evs : list bytes) : list (bytes * Z) := fold_left addStat evs (newStats subs).

(** ** Node traffic *)
Definition NodeMetricGroupName := "node_metric_metric_group".
Definition NodeBytes := "kindling_node_transmit_bytes_total".
(** node_metric_processor.go:74-91, 97-114: one direction; a metric that is not an integer is a nil dereference *)
Definition nodeGroup (srcIp srcName dstIp dstName : bytes) (role : string) (m : option mdata) (now : Z) : res (list group) :=
  match m with
  | None => Ok []
  | Some (MInt v) => Ok [{| gname := NodeMetricGroupName; gmetrics := [(NodeBytes, MInt v)];
                            glabels := [("src_node_ip", SV srcIp); ("src_node", SV srcName); ("dst_node_ip", SV dstIp); ("dst_node", SV dstName); ("role", SV (bs role))];
                            gts := now |}]
  | Some (MHist _ _ _ _) => Panic
  end.
(** node_metric_processor.go:41-118 Consume, process: the groups sent to the next consumer *)
Definition nodeConsume (g : group) (now : Z) : res (list group) :=
  let l := glabels g in
  let role := if boolOf l "is_server" then "server" else "client" in
  let dstIp := strOf l "dst_node_ip" in
  let srcIp := strOf l "src_node_ip" in
  if eqb dstIp [] || eqb srcIp [] then Ok [] else
  bind (nodeGroup srcIp (strOf l "src_node") dstIp (strOf l "dst_node") role (aget (gmetrics g) "request_io") now) (fun a =>
  bind (nodeGroup dstIp (strOf l "dst_node") srcIp (strOf l "src_node") role (aget (gmetrics g) "response_io") now) (fun b =>
  Ok (a ++ b))).
(** A sequence of groups with the times they are processed at. *)
Fixpoint nodeRun (gs : list (group * Z)) : res (list group) :=
  match gs with
  | [] => Ok []
  | p :: gs' => bind (nodeConsume (fst p) (snd p)) (fun a => bind (nodeRun gs') (fun b => Ok (a ++ b)))
  end.
