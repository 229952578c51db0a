(** Model of collector/pkg/component/analyzer/cpuanalyzer: the per-thread rings of one-second segments, the sending of a window of them, and
    the removal of exited threads. Simplifications: an event is its kind, its two timestamps and its content; a segment sent is a record of
    its labels, the five event lists standing for their JSON text; SegmentSize is a natural number (a negative one panics in make); every
    method that takes ca.lock is one step; loggers and self metrics are left out; the order in which Go ranges over the threads of a
    process is the order of the association list. *)
From Verif Require Import Base AttrModel.
Open Scope string_scope. Open Scope list_scope. Open Scope Z_scope.

(** model.go:13-19 *)
Inductive ekind := KCpu | KFutex | KTransaction | KSpan | KInner.
(** model.go:29-33 *)
Record tev := { t_kind : ekind; t_start : Z; t_end : Z; t_data : bytes }.
(** model.go:47-57; IndexTimestamp is not used by the code *)
Record seg := { g_start : Z; g_end : Z; g_cpu : list tev; g_futex : list tev; g_trans : list tev; g_spans : list tev; g_inner : list tev; g_sent : Z }.
(** model.go:59-71 *)
Definition newSegment (s e : Z) : seg := {| g_start := s; g_end := e; g_cpu := []; g_futex := []; g_trans := []; g_spans := []; g_inner := []; g_sent := 0 |}.
(** model.go:73-86, with the [segment.IsSend = 0] that follows every call (cpu_analyzer.go:335, 359) *)
Definition putTimedEvent (e : tev) (g : seg) : seg :=
  match t_kind e with
  | KCpu => {| g_start := g_start g; g_end := g_end g; g_cpu := g_cpu g ++ [e]; g_futex := g_futex g; g_trans := g_trans g; g_spans := g_spans g; g_inner := g_inner g; g_sent := 0 |}
  | KFutex => {| g_start := g_start g; g_end := g_end g; g_cpu := g_cpu g; g_futex := g_futex g ++ [e]; g_trans := g_trans g; g_spans := g_spans g; g_inner := g_inner g; g_sent := 0 |}
  | KTransaction => {| g_start := g_start g; g_end := g_end g; g_cpu := g_cpu g; g_futex := g_futex g; g_trans := g_trans g ++ [e]; g_spans := g_spans g; g_inner := g_inner g; g_sent := 0 |}
  | KSpan => {| g_start := g_start g; g_end := g_end g; g_cpu := g_cpu g; g_futex := g_futex g; g_trans := g_trans g; g_spans := g_spans g ++ [e]; g_inner := g_inner g; g_sent := 0 |}
  | KInner => {| g_start := g_start g; g_end := g_end g; g_cpu := g_cpu g; g_futex := g_futex g; g_trans := g_trans g; g_spans := g_spans g; g_inner := g_inner g ++ [e]; g_sent := 0 |}
  end.
(** model.go:119-121 *)
Definition isNotEmpty (g : seg) : bool := (0 <? zlen (g_cpu g)) || (0 <? zlen (g_futex g)) || (0 <? zlen (g_trans g)) || (0 <? zlen (g_spans g)) || (0 <? zlen (g_inner g)).

(** model.go:35-41 *)
Record ring := { r_name : bytes; r_base : Z; r_segs : list seg }.
Definition nano := 1000000000.

(** cpu_analyzer.go:303-307, 323-324, 347-351: the fresh segment of index [i] *)
Definition freshAt (base : Z) (i : nat) : seg := newSegment (w64 (w64 (base + Z.of_nat i) * nano)) (w64 (w64 (base + Z.of_nat (S i)) * nano)).
Definition freshAll (n : nat) (base : Z) : list seg := map (freshAt base) (seq 0 n).
(** :319-326: the loop that moves the second half to the first; [k] steps from index [i] on *)
Fixpoint shiftLoop (k i clear : nat) (base : Z) (d : list seg) : list seg :=
  match k with
  | O => d
  | S k' =>
      let d := match nth_error d (i + clear) with Some v => set_nth d i v | None => d end in
      shiftLoop k' (S i) clear base (set_nth d (i + clear) (freshAt base (i + clear)))
  end.
(** :331-337, 355-360: put the event in the segments from [so] to [eo]; the indices visited are the [i] with so <= i <= eo and i < n *)
Definition putRange (n : nat) (e : tev) (so eo : Z) (d : list seg) : list seg :=
  fold_left (fun d i => match nth_error d i with Some g => set_nth d i (putTimedEvent e g) | None => d end)
    (filter (fun i => (so <=? Z.of_nat i) && (Z.of_nat i <=? eo)) (seq 0 n)) d.
(** :340-362, the branch of a new thread *)
Definition newRing (n : nat) (name : bytes) (e : tev) : ring :=
  let base := t_start e / nano in
  let eo := s64 (w64 (t_end e / nano - base)) in
  {| r_name := name; r_base := base; r_segs := putRange n e 0 eo (freshAll n base) |}.
(** :281-337, the branch of a known thread *)
Definition putRing (n : nat) (name : bytes) (e : tev) (r : ring) : ring :=
  let N := Z.of_nat n in
  let eo := s64 (w64 (t_end e / nano - r_base r)) in
  if eo <? 0 then r
  else
    let so := Z.max 0 (s64 (w64 (t_start e / nano - r_base r))) in
    if (N <=? so) || (N <? eo) then
      if 3 * N <=? so * 2 then
        let base := t_start e / nano in
        {| r_name := name; r_base := base; r_segs := putRange n e 0 (eo - so) (freshAll n base) |}
      else
        let clear := (n / 2)%nat in
        let base := w64 (r_base r + Z.of_nat clear) in
        {| r_name := name; r_base := base;
           r_segs := putRange n e (Z.max 0 (so - Z.of_nat clear)) (eo - Z.of_nat clear) (shiftLoop clear 0%nat clear base (r_segs r)) |}
    else {| r_name := name; r_base := r_base r; r_segs := putRange n e so eo (r_segs r) |}.

(** cpu_analyzer.go:29-42; delete_tid.go:8-17 *)
Record cpu := { c_on : bool; c_rings : list (Z * list (Z * ring)); c_queue : list (Z * Z * Z) }.
Definition cpu0 : cpu := {| c_on := false; c_rings := []; c_queue := [] |}.
Definition threads (s : cpu) (pid : Z) : list (Z * ring) := match aget (c_rings s) pid with Some l => l | None => [] end.
(** :267-364 PutEventToSegments *)
Definition putEvent (n : nat) (pid tid : Z) (name : bytes) (e : tev) (s : cpu) : cpu :=
  if c_on s then
    let r := match aget (threads s pid) tid with Some r => putRing n name e r | None => newRing n name e end in
    {| c_on := true; c_rings := aset (c_rings s) pid (aset (threads s pid) tid r); c_queue := c_queue s |}
  else s.

(** A segment sent: model.go:88-117 *)
Record sent := { x_pid : Z; x_tid : Z; x_sent : Z; x_name : bytes; x_start : Z; x_end : Z;
                 x_cpu : list tev; x_futex : list tev; x_trans : list tev; x_spans : list tev; x_inner : list tev }.
Definition toDataGroup (pid tid : Z) (r : ring) (g : seg) : sent :=
  {| x_pid := pid; x_tid := tid; x_sent := g_sent g; x_name := r_name r; x_start := g_start g; x_end := g_end g;
     x_cpu := g_cpu g; x_futex := g_futex g; x_trans := g_trans g; x_spans := g_spans g; x_inner := g_inner g |}.
Definition markSent (g : seg) : seg :=
  {| g_start := g_start g; g_end := g_end g; g_cpu := g_cpu g; g_futex := g_futex g; g_trans := g_trans g; g_spans := g_spans g; g_inner := g_inner g; g_sent := 1 |}.
(** send_trigger.go:181-212: one thread; the segments sent, and the ring with those marked *)
Definition sendIndices (n : nat) (r : ring) (startTime endTime : Z) : list nat :=
  let N := Z.of_nat n in
  let ss := startTime / nano in
  let es := endTime / nano in
  if (es <? r_base r) || (w64 (r_base r + N) <? ss) then []
  else
    let si := Z.max 0 (s64 (w64 (ss - r_base r))) in
    let ei := w64 (es - r_base r) in
    let ei := if w64 (r_base r + N) <? ei then w64 (r_base r + N) else ei in
    filter (fun i => (si <=? Z.of_nat i) && (Z.of_nat i <=? s64 ei)) (seq 0 n).
Definition sendable (r : ring) (i : nat) : list seg := match nth_error (r_segs r) i with Some g => if isNotEmpty g then [g] else [] | None => [] end.
Definition sendThread (n : nat) (pid tid : Z) (r : ring) (startTime endTime : Z) : list sent * ring :=
  let ix := sendIndices n r startTime endTime in
  (map (toDataGroup pid tid r) (flat_map (sendable r) ix),
   {| r_name := r_name r; r_base := r_base r;
      r_segs := fold_left (fun d i => match nth_error d i with Some g => if isNotEmpty g then set_nth d i (markSent g) else d | None => d end) ix (r_segs r) |}).
(** send_trigger.go:162-214 sendEvents *)
Definition sendEvents (n : nat) (pid startTime endTime : Z) (s : cpu) : list sent * cpu :=
  if c_on s then
    match aget (c_rings s) pid with
    | None => ([], s)
    | Some ths =>
        (flat_map (fun p => fst (sendThread n pid (fst p) (snd p) startTime endTime)) ths,
         {| c_on := true; c_rings := aset (c_rings s) pid (map (fun p => (fst p, snd (sendThread n pid (fst p) (snd p) startTime endTime))) ths); c_queue := c_queue s |})
    end
  else ([], s).

(** delete_tid.go:46-73: one check, at time [now] *)
Fixpoint tidDelete (d now : Z) (q : list (Z * Z * Z)) (rs : list (Z * list (Z * ring))) : list (Z * Z * Z) * list (Z * list (Z * ring)) :=
  match q with
  | [] => ([], rs)
  | (pid, tid, t) :: q' =>
      if now <? t + d then (q, rs)
      else tidDelete d now q' (match aget rs pid with Some l => aset rs pid (adel l tid) | None => rs end)
  end.

(** What happens to the analyzer. [OStart], [OStop]: module_control.go:14-44; a stop without a start closes a closed channel and is left
    out (the callers check). [OExit]: cpu_analyzer.go:84-86, 94-97, 366-373, while profiling is on. [OCheck]: one turn of TidDelete (a last one may follow a stop). *)
Inductive cop := OStart | OStop | OPut (pid tid : Z) (name : bytes) (e : tev) | OSend (pid startTime endTime : Z) | OExit (pid tid now : Z) | OCheck (now : Z).
Definition cstep (n : nat) (d : Z) (s : cpu) (o : cop) : cpu :=
  match o with
  | OStart => {| c_on := true; c_rings := c_rings s; c_queue := c_queue s |}
  | OStop => if c_on s then {| c_on := false; c_rings := []; c_queue := c_queue s |} else s
  | OPut pid tid name e => putEvent n pid tid name e s
  | OSend pid a b => snd (sendEvents n pid a b s)
  | OExit pid tid now => if c_on s then {| c_on := true; c_rings := c_rings s; c_queue := c_queue s ++ [(pid, tid, now)] |} else s
  | OCheck now => let '(q, rs) := tidDelete d now (c_queue s) (c_rings s) in {| c_on := c_on s; c_rings := rs; c_queue := q |}
  end.
Definition crun (n : nat) (d : Z) (h : list cop) : cpu := fold_left (cstep n d) h cpu0.

(** send_trigger.go:125-127: the window of the [k]-th tick of a trigger *)
Definition taskWindow (k : nat) (start spend edge : Z) : Z * Z :=
  (w64 (w64 (w64 (Z.of_nat k * nano) + start) - edge), w64 (w64 (w64 (Z.of_nat k * nano) + start) + spend)).
