(** Model of collector/pkg/component/analyzer/cpuanalyzer/cpu_analyzer.go: from kernel events and traces to the timed events of the rings.
    The JSON text of an event is a parameter, [ser]. UserAttributes is an array of 16, here the list [e_attrs]. *)
From Verif Require Import Base Decimal EventModel AttrModel PoolModel LabelNames EnrichModel RecordModel CpuModel TriggerModel.
Open Scope string_scope. Open Scope list_scope. Open Scope Z_scope.

(** model.go:199-209 *)
Record cpuEv := { ce_start : Z; ce_end : Z; ce_specs : list Z; ce_runq : list Z; ce_types : list Z; ce_on : bytes; ce_off : bytes; ce_log : bytes; ce_stack : bytes }.
Definition cpuEv0 : cpuEv := {| ce_start := 0; ce_end := 0; ce_specs := []; ce_runq := []; ce_types := []; ce_on := []; ce_off := []; ce_log := []; ce_stack := [] |}.
(** encoding/binary.Read of [n] little-endian uint64 values *)
Fixpoint readWords (n : nat) (b : bytes) : list Z :=
  match n with
  | O => []
  | S n' => match leValue 8 b with Ok v => v :: readWords n' (skipn 8 b) | _ => [] end
  end.
Definition words (b : bytes) : list Z := readWords (List.length b / 8) b.
(** cpu_analyzer.go:221-255: one attribute *)
Definition cpuAttr (kv : keyvalue) (c : cpuEv) : res cpuEv :=
  let k := kv_key kv in
  let v := kv_val kv in
  if eqb k "start_time" then bind (getUintValue kv) (fun x => Ok {| ce_start := x; ce_end := ce_end c; ce_specs := ce_specs c; ce_runq := ce_runq c; ce_types := ce_types c; ce_on := ce_on c; ce_off := ce_off c; ce_log := ce_log c; ce_stack := ce_stack c |})
  else if eqb k "end_time" then bind (getUintValue kv) (fun x => Ok {| ce_start := ce_start c; ce_end := x; ce_specs := ce_specs c; ce_runq := ce_runq c; ce_types := ce_types c; ce_on := ce_on c; ce_off := ce_off c; ce_log := ce_log c; ce_stack := ce_stack c |})
  else if eqb k "time_specs" then Ok {| ce_start := ce_start c; ce_end := ce_end c; ce_specs := words v; ce_runq := ce_runq c; ce_types := ce_types c; ce_on := ce_on c; ce_off := ce_off c; ce_log := ce_log c; ce_stack := ce_stack c |}
  else if eqb k "runq_latency" then Ok {| ce_start := ce_start c; ce_end := ce_end c; ce_specs := ce_specs c; ce_runq := words v; ce_types := ce_types c; ce_on := ce_on c; ce_off := ce_off c; ce_log := ce_log c; ce_stack := ce_stack c |}
  else if eqb k "time_type" then Ok {| ce_start := ce_start c; ce_end := ce_end c; ce_specs := ce_specs c; ce_runq := ce_runq c; ce_types := v; ce_on := ce_on c; ce_off := ce_off c; ce_log := ce_log c; ce_stack := ce_stack c |}
  else if eqb k "on_info" then Ok {| ce_start := ce_start c; ce_end := ce_end c; ce_specs := ce_specs c; ce_runq := ce_runq c; ce_types := ce_types c; ce_on := v; ce_off := ce_off c; ce_log := ce_log c; ce_stack := ce_stack c |}
  else if eqb k "off_info" then Ok {| ce_start := ce_start c; ce_end := ce_end c; ce_specs := ce_specs c; ce_runq := ce_runq c; ce_types := ce_types c; ce_on := ce_on c; ce_off := v; ce_log := ce_log c; ce_stack := ce_stack c |}
  else if eqb k "log" then Ok {| ce_start := ce_start c; ce_end := ce_end c; ce_specs := ce_specs c; ce_runq := ce_runq c; ce_types := ce_types c; ce_on := ce_on c; ce_off := ce_off c; ce_log := v; ce_stack := ce_stack c |}
  else if eqb k "stack" then Ok {| ce_start := ce_start c; ce_end := ce_end c; ce_specs := ce_specs c; ce_runq := ce_runq c; ce_types := ce_types c; ce_on := ce_on c; ce_off := ce_off c; ce_log := ce_log c; ce_stack := v |}
  else Ok c.
(** :170-178, 186-196, 219-256: the loop over the first [n] attributes; an index beyond the array panics *)
Fixpoint overAttrs {A : Type} (f : keyvalue -> A -> res A) (n : nat) (l : list keyvalue) (a : A) : res A :=
  match n with
  | O => Ok a
  | S n' => match l with [] => Panic | kv :: l' => bind (f kv a) (overAttrs f n' l') end
  end.
Definition consumeCpu (e : event) : res cpuEv := overAttrs cpuAttr (Z.to_nat (e_params e)) (e_attrs e) cpuEv0.
(** model.go:223-227, 263-268; [te_name] of a futex event is its data *)
Record textEv := { te_start : Z; te_end : Z; te_id : bytes; te_name : bytes }.
(** :172-177 *)
Definition futexAttr (kv : keyvalue) (c : textEv) : res textEv :=
  if eqb (kv_key kv) "end_time" then Ok {| te_start := te_start c; te_end := fst (parseUint 64 (kv_val kv)); te_id := te_id c; te_name := te_name c |}
  else if eqb (kv_key kv) "data" then Ok {| te_start := te_start c; te_end := te_end c; te_id := te_id c; te_name := kv_val kv |}
  else Ok c.
Definition consumeFutex (e : event) : res textEv := overAttrs futexAttr (Z.to_nat (e_params e)) (e_attrs e) {| te_start := e_ts e; te_end := 0; te_id := []; te_name := [] |}.
(** :188-195 *)
Definition spanAttr (kv : keyvalue) (c : textEv) : res textEv :=
  if eqb (kv_key kv) "end_time" then Ok {| te_start := te_start c; te_end := fst (parseUint 64 (kv_val kv)); te_id := te_id c; te_name := te_name c |}
  else if eqb (kv_key kv) "trace_id" then Ok {| te_start := te_start c; te_end := te_end c; te_id := kv_val kv; te_name := te_name c |}
  else if eqb (kv_key kv) "span" then Ok {| te_start := te_start c; te_end := te_end c; te_id := te_id c; te_name := kv_val kv |}
  else Ok c.
Definition consumeSpan (e : event) : res textEv := overAttrs spanAttr (Z.to_nat (e_params e)) (e_attrs e) {| te_start := e_ts e; te_end := 0; te_id := []; te_name := [] |}.
(** :104-114 *)
Definition consumeTransaction (e : event) : jev :=
  {| j_ts := e_ts e; j_tid := getStringUserAttribute e "trace_id"; j_entry := w32 (fst (parseUint 32 (getStringUserAttribute e "is_enter")));
     j_proto := getStringUserAttribute e "protocol"; j_url := getStringUserAttribute e "url"; j_pid := e_pid e; j_cid := bs (e_cid e) |}.

(** What the analyzer stores of an event. *)
Inductive timed := SCpu (c : cpuEv) | SFutex (t : textEv) | SSpan (t : textEv) | STransaction (j : jev) | SInner (start stop : Z) (g : group).
(** model.go:211-298 *)
Definition timedEvent (ser : timed -> bytes) (t : timed) : tev :=
  let '(k, a, b) := match t with
    | SCpu c => (KCpu, ce_start c, ce_end c)
    | SFutex f => (KFutex, te_start f, te_end f)
    | SSpan f => (KSpan, te_start f, te_end f)
    | STransaction j => (KTransaction, j_ts j, j_ts j)
    | SInner s e _ => (KInner, s, e)
    end in
  {| t_kind := k; t_start := a; t_end := b; t_data := ser t |}.
(** :83-102 and model/constnames/const.go:26-32: ConsumeEvent while profiling is on, at time [now] *)
Definition consumeEvent (ser : timed -> bytes) (e : event) (now : Z) : res (list cop) :=
  let put t := Ok [OPut (e_pid e) (e_tid e) (bs (e_comm e)) (timedEvent ser t)] in
  if eqb (e_name e) "cpu_event" then bind (consumeCpu e) (fun c => put (SCpu c))
  else if eqb (e_name e) "java_futex_info" then bind (consumeFutex e) (fun c => put (SFutex c))
  else if eqb (e_name e) "apm_trace_id_event" then put (STransaction (consumeTransaction e))
  else if eqb (e_name e) "procexit" then Ok [OExit (e_pid e) (e_tid e) now]
  else if eqb (e_name e) SpanGroup then bind (consumeSpan e) (fun c => put (SSpan c))
  else Ok [].
(** :200-215 ConsumeTraces *)
Definition consumeTrace (ser : timed -> bytes) (g : group) : res (list cop) :=
  match getMetric g RequestTotalTime with
  | None => Ok []
  | Some (MInt v) => Ok [OPut (w32 (intOf (glabels g) LPid)) (w32 (intOf (glabels g) LRequestTid)) (strOf (glabels g) LComm) (timedEvent ser (SInner (gts g) (w64 (gts g + w64 v)) g))]
  | Some (MHist _ _ _ _) => Panic
  end.
