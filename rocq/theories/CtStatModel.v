(** What the connection tracker counts about itself: the counters of collector/pkg/metadata/conntracker/internal/conntracker.go:132-290,
    the statistics it hands out (156-191, conntracker_linux.go:97-101, internal/consumer.go:319-328) and the metrics made of them (self_metrics.go:35-78).
    Simplifications: counters are integers without bound; each call is one step together with the counters it moves (the code holds a lock for the cache and
    moves the counters atomically, [gets] after the lock); the counters of the netlink consumer are given. *)
From Verif Require Import Base ConntrackModel.
Open Scope string_scope. Open Scope list_scope. Open Scope Z_scope.

(** internal/conntracker.go:65-82 realConntracker: the cache and its counters *)
Record tracker := { tr_cache : cache; tr_gets : Z; tr_registers : Z; tr_dropped : Z; tr_unregisters : Z; tr_evicts : Z }.
(** internal/conntracker.go:106-119: all counters start at zero *)
Definition tracker0 : tracker :=
  {| tr_cache := emptyCache; tr_gets := 0; tr_registers := 0; tr_dropped := 0; tr_unregisters := 0; tr_evicts := 0 |}.

(** A connection of the dump read at the start, an announced connection (each with two clock readings), a look-up, a deletion, a compaction *)
Inductive call :=
| Load (x : con) (n1 n2 : Z) | Announce (x : con) (n1 n2 : Z) | Ask (s : connStats) | Delete (s : connStats) | Tick (now : Z).

Section Tracker.
  Variable maxSize : nat.
  Variable timeout : Z.

  (** [None]: a nil pointer is followed *)
  Definition callStep (t : tracker) (o : call) : option tracker :=
    match o with
    (* internal/conntracker.go:219-232 loadInitialState *)
    | Load x n1 n2 =>
        match IsNAT x with
        | None => None
        | Some false => Some t
        | Some true =>
            match cAdd maxSize timeout (tr_cache t) x false n1 n2 with
            | None => None
            | Some (c, evicts) => Some {| tr_cache := c; tr_gets := tr_gets t; tr_registers := tr_registers t + 1; tr_dropped := tr_dropped t;
                tr_unregisters := tr_unregisters t; tr_evicts := tr_evicts t + evicts |}
            end
        end
    (* internal/conntracker.go:236-252 register *)
    | Announce x n1 n2 =>
        match IsNAT x with
        | None => None
        | Some false => Some {| tr_cache := tr_cache t; tr_gets := tr_gets t; tr_registers := tr_registers t; tr_dropped := tr_dropped t + 1;
            tr_unregisters := tr_unregisters t; tr_evicts := tr_evicts t |}
        | Some true =>
            match cAdd maxSize timeout (tr_cache t) x true n1 n2 with
            | None => None
            | Some (c, evicts) => Some {| tr_cache := c; tr_gets := tr_gets t; tr_registers := tr_registers t + 1; tr_dropped := tr_dropped t;
                tr_unregisters := tr_unregisters t; tr_evicts := tr_evicts t + evicts |}
            end
        end
    (* internal/conntracker.go:132-154 GetTranslationForConn *)
    | Ask s => Some {| tr_cache := fst (GetTranslationForConn (tr_cache t) s); tr_gets := tr_gets t + 1; tr_registers := tr_registers t;
        tr_dropped := tr_dropped t; tr_unregisters := tr_unregisters t; tr_evicts := tr_evicts t |}
    (* internal/conntracker.go:193-208 DeleteTranslation *)
    | Delete s =>
        let '(c, removed) := cRemove (tr_cache t) (keyOfStats s) in
        Some {| tr_cache := c; tr_gets := tr_gets t; tr_registers := tr_registers t; tr_dropped := tr_dropped t;
          tr_unregisters := if removed then tr_unregisters t + 1 else tr_unregisters t; tr_evicts := tr_evicts t |}
    (* internal/conntracker.go:280-290 compact *)
    | Tick now =>
        match removeOrphans (tr_cache t) now with
        | None => None
        | Some (c, removed) => Some {| tr_cache := c; tr_gets := tr_gets t; tr_registers := tr_registers t; tr_dropped := tr_dropped t;
            tr_unregisters := tr_unregisters t + removed; tr_evicts := tr_evicts t |}
        end
    end.

  Fixpoint callRun (t : tracker) (h : list call) : option tracker :=
    match h with
    | [] => Some t
    | o :: h => match callStep t o with Some t' => callRun t' h | None => None end
    end.

  (** internal/consumer.go:319-328 GetStats *)
  Record consumerStats := { cs_enobufs : Z; cs_throttles : Z; cs_sampling : Z; cs_readErrors : Z; cs_msgErrors : Z }.
  Definition consumerGetStats (x : consumerStats) : list (string * Z) :=
    [("enobufs", cs_enobufs x); ("throttles", cs_throttles x); ("sampling_pct", cs_sampling x); ("read_errors", cs_readErrors x);
     ("msg_errors", cs_msgErrors x)].

  (** internal/conntracker.go:156-191 GetStats: the sizes are read under the lock, the five counters one after the other without it,
      so each may be read at a later state.  A counter that is zero may be left out *)
  Definition GetStats (sizes gets regs drops unregs evicts : tracker) (x : consumerStats) : list (string * Z) :=
    [("state_size", zlen (lru (tr_cache sizes))); ("orphan_size", zlen (orphans (tr_cache sizes)))]
    ++ (if tr_gets gets =? 0 then [] else [("gets_total", tr_gets gets)])
    ++ (if tr_registers regs =? 0 then [] else [("registers_total", tr_registers regs)])
    ++ [("registers_dropped", tr_dropped drops)]
    ++ (if tr_unregisters unregs =? 0 then [] else [("unregisters_total", tr_unregisters unregs)])
    ++ [("evicts_total", tr_evicts evicts)]
    ++ consumerGetStats x.
  (** conntracker_linux.go:97-101 GetStats *)
  Definition NetlinkGetStats (stats : list (string * Z)) : list (string * Z) := aset stats "cache_max_size" (Z.of_nat maxSize).
End Tracker.

(** Reading a map[string]int64: a missing key is zero *)
Definition statOf (m : list (string * Z)) (k : string) : Z := match aget m k with Some v => v | None => 0 end.
(** self_metrics.go:35-78 newSelfMetrics: what one collection observes: metric, the value of its only label ("" for none), number *)
Definition observed (m : list (string * Z)) : list (string * string * Z) :=
  [("kindling_telemetry_conntracker_cache_size", "general", statOf m "state_size");
   ("kindling_telemetry_conntracker_cache_size", "orphan", statOf m "orphan_size");
   ("kindling_telemetry_conntracker_cache_max_size", "", statOf m "cache_max_size");
   ("kindling_telemetry_conntracker_operation_times_total", "add", statOf m "registers_total");
   ("kindling_telemetry_conntracker_operation_times_total", "drop", statOf m "registers_dropped");
   ("kindling_telemetry_conntracker_operation_times_total", "remove", statOf m "unregisters_total");
   ("kindling_telemetry_conntracker_operation_times_total", "get", statOf m "gets_total");
   ("kindling_telemetry_conntracker_operation_times_total", "evict", statOf m "evicts_total");
   ("kindling_telemetry_conntracker_errors_total", "enobuf", statOf m "enobufs");
   ("kindling_telemetry_conntracker_errors_total", "read_errors", statOf m "read_errors");
   ("kindling_telemetry_conntracker_errors_total", "msg_errors", statOf m "msg_errors");
   ("kindling_telemetry_conntracker_sampling_rate", "", statOf m "sampling_pct");
   ("kindling_telemetry_conntracker_throttles_total", "", statOf m "throttles")].
