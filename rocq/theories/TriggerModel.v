(** Model of the triggers of the CPU analyzer: the sampling of slow traces (send_trigger.go) and the pairing of the entry and exit events of
    Java traces (cpu_analyzer.go, delete_javatrace.go), in collector/pkg/component/analyzer/cpuanalyzer. Simplifications: a clone of a data
    group is the group; the channels never fill up; each operation on a sync.Map is one step, and sampleSend's range, send and delete of the
    entries is one step (LoadOrStore stores only when the key is absent, so no entry is replaced between its send and its delete); the
    sampling map starts empty at every start and stop of the profiling. *)
From Verif Require Import Base Decimal AttrModel PoolModel LabelNames EnrichModel.
Open Scope string_scope. Open Scope list_scope. Open Scope Z_scope.

Definition LPid := "pid".
Definition LIsInstallApm := "isInstallApm".
Definition RequestTotalTime := "request_total_time".
(** send_trigger.go:15-21; module_control.go:19-22, 41-42 *)
Record samp := { sp_on : bool; sp_apm : list Z; sp_map : list (bytes * group) }.
Definition samp0 : samp := {| sp_on := false; sp_apm := []; sp_map := [] |}.
(** send_trigger.go:61-66 *)
Record trig := { tg_pid : Z; tg_start : Z; tg_spend : Z; tg_data : group }.
(** :36-38, 55-56 *)
Definition sampleKey (g : group) : bytes := strOf (glabels g) LContentKey ++ formatInt (intOf (glabels g) LPid).
Definition loadOrStore (m : list (bytes * group)) (k : bytes) (g : group) : list (bytes * group) := match aget m k with Some _ => m | None => aset m k g end.
(** :25-59 ReceiveDataGroupAsSignal: the state, and what goes to traceChan *)
Definition signal (g : group) (s : samp) : samp * list group :=
  if sp_on s then
    let pid := w64 (intOf (glabels g) LPid) in
    if boolOf (glabels g) LIsInstallApm then
      let apm := pid :: sp_apm s in
      if boolOf (glabels g) LIsSlow then ({| sp_on := true; sp_apm := apm; sp_map := loadOrStore (sp_map s) (sampleKey g) g |}, [])
      else ({| sp_on := true; sp_apm := apm; sp_map := sp_map s |}, [])
    else if boolOf (glabels g) LIsSlow then
      if boolOf (glabels g) LIsServer then
        if existsb (Z.eqb pid) (sp_apm s) then (s, [])
        else ({| sp_on := true; sp_apm := sp_apm s; sp_map := loadOrStore (sp_map s) (sampleKey g) g |}, [])
      else (s, [g])
    else (s, [])
  else (s, []).
(** :139-155: one entry; GetInt is nil for a histogram metric, so its Value panics *)
Definition triggerOf (g : group) : res (list trig) :=
  match getMetric g RequestTotalTime with
  | None => Ok []
  | Some (MInt v) => Ok [{| tg_pid := w32 (intOf (glabels g) LPid); tg_start := gts g; tg_spend := w64 v; tg_data := g |}]
  | Some (MHist _ _ _ _) => Panic
  end.
Fixpoint triggers (l : list (bytes * group)) : res (list trig) :=
  match l with [] => Ok [] | p :: l' => bind (triggerOf (snd p)) (fun a => bind (triggers l') (fun b => Ok (a ++ b))) end.
(** :134-160: one tick of sampleSend *)
Definition tick (s : samp) : res (list trig) * samp :=
  if sp_on s then (triggers (sp_map s), {| sp_on := true; sp_apm := sp_apm s; sp_map := [] |}) else (Ok [], s).

Inductive sop := TStart | TStop | TSignal (g : group) | TTick.
Definition sstep (s : samp) (o : sop) : samp :=
  match o with
  | TStart => {| sp_on := true; sp_apm := []; sp_map := [] |}
  | TStop => samp0
  | TSignal g => fst (signal g s)
  | TTick => snd (tick s)
  end.
Definition srun (h : list sop) : samp := fold_left sstep h samp0.

(** * Java traces *)
(** model.go:241-249; the pid is a uint32 kept as text *)
Record jev := { j_ts : Z; j_tid : bytes; j_entry : Z; j_proto : bytes; j_url : bytes; j_pid : Z; j_cid : bytes }.
Record jst := { js_map : list (bytes * jev); js_q : list (bytes * Z); js_gc : bool }.
Definition jst0 : jst := {| js_map := []; js_q := []; js_gc := true |}.
Definition pidString (j : jev) : bytes := digits (j_pid j).
Definition jkey (j : jev) : bytes := j_tid j ++ pidString j.
(** model/constnames/const.go:29 *)
Definition SpanGroup := "apm_span_event".
(** cpu_analyzer.go:140-161; [meta] is the metadata cache: workload, container and pod of a container id, nothing when not initialised *)
Definition javaTrace (meta : bytes -> option (bytes * bytes * bytes)) (ev old : jev) (spend : Z) : group :=
  let labels := [(LIsSlow, BV true); (LPid, IV (fst (parseInt 64 (pidString ev)))); (LProtocol, SV (j_proto old)); (LContentKey, SV (j_url old));
                 (LIsInstallApm, BV true); (LIsServer, BV true); (LHttpApmTraceId, SV (j_tid ev))] in
  let labels := if eqb (j_proto old) (bs "http") then aset labels LHttpUrl (SV (j_url old)) else labels in
  let labels := match meta (j_cid ev) with
                | Some (w, c, p) => aset (aset (aset labels LbDstWorkloadName (SV w)) LbDstContainer (SV c)) LbDstPod (SV p)
                | None => labels
                end in
  {| gname := SpanGroup; gmetrics := [(RequestTotalTime, MInt (s64 spend))]; glabels := labels; gts := j_ts old |}.
(** cpu_analyzer.go:122-165, received at time [now]; the trace signalled, if any *)
Definition javaEvent (meta : bytes -> option (bytes * bytes * bytes)) (slowMs : Z) (ev : jev) (now : Z) (s : jst) : option group * jst :=
  let key := jkey ev in
  let q := js_q s ++ [(key, now)] in
  if j_entry ev =? 1 then (None, {| js_map := aset (js_map s) key ev; js_q := q; js_gc := js_gc s |})
  else
    match aget (js_map s) key with
    | None => (None, {| js_map := js_map s; js_q := q; js_gc := js_gc s |})
    | Some old =>
        let spend := w64 (j_ts ev - j_ts old) in
        (if w64 (w64 slowMs * 1000000) <? spend then Some (javaTrace meta ev old spend) else None, {| js_map := js_map s; js_q := q; js_gc := js_gc s |})
    end.
(** delete_javatrace.go:46-72: one check *)
Fixpoint javaDelete (d now : Z) (q : list (bytes * Z)) (m : list (bytes * jev)) : list (bytes * Z) * list (bytes * jev) :=
  match q with
  | [] => ([], m)
  | (k, t) :: q' => if now <? t + d then (q, m) else javaDelete d now q' (adel m k)
  end.
(** [JGone]: the profiling is stopped, which ends the goroutine that JavaTraceDelete runs in (:42-43); only Start (cpu_analyzer.go:69-74),
    called once, starts it. *)
Inductive jop := JEv (ev : jev) (now : Z) | JCheck (now : Z) | JGone.
Definition jstep (meta : bytes -> option (bytes * bytes * bytes)) (slowMs d : Z) (s : jst) (o : jop) : jst :=
  match o with
  | JEv ev now => snd (javaEvent meta slowMs ev now s)
  | JCheck now => if js_gc s then let '(q, m) := javaDelete d now (js_q s) (js_map s) in {| js_map := m; js_q := q; js_gc := true |} else s
  | JGone => {| js_map := js_map s; js_q := js_q s; js_gc := false |}
  end.
Definition jrun (meta : bytes -> option (bytes * bytes * bytes)) (slowMs d : Z) (h : list jop) : jst := fold_left (jstep meta slowMs d) h jst0.
