(** The JSON text of the events in a CPU segment: collector/pkg/component/analyzer/cpuanalyzer/model.go:47-57, 88-170, 185-298 (fields, tags, MarshalJSON, UnmarshalJSON).
    encoding/json as in JsonModel.v: [nilSlices] says whether the slices without elements of an event are nil; those of a segment are made by newSegment and are not.
    CPUType has a MarshalJSON, so that a []CPUType is written as a list of numbers and not in base64.
    Simplifications: a field is looked up by its exact name (Go also takes names that differ in case), the first one if it is there twice; loop variables are those of Go before 1.22
    (go.mod: 1.19). *)
From Verif Require Import Base Decimal EventModel AttrModel PoolModel LabelNames EnrichModel RecordModel CpuModel TriggerModel CpuDecodeModel FileModel EsModel JsonModel.
Open Scope string_scope. Open Scope list_scope. Open Scope Z_scope.

Section Nil.
Variable nilSlices : bool.
Definition numbers (l : list Z) : json := jsonSlice nilSlices (map JInt l).
(** model.go:199-209, 223-227, 241-249, 263-268, 282-286 *)
Definition jsonTimed (t : timed) : json :=
  match t with
  | SCpu c => JObj [(bs "startTime", JInt (ce_start c)); (bs "endTime", JInt (ce_end c)); (bs "typeSpecs", numbers (ce_specs c)); (bs "runqLatency", numbers (ce_runq c));
      (bs "timeType", numbers (ce_types c)); (bs "onInfo", JStr (ce_on c)); (bs "offInfo", JStr (ce_off c)); (bs "log", JStr (ce_log c)); (bs "stack", JStr (ce_stack c))]
  | SFutex f => JObj [(bs "startTime", JInt (te_start f)); (bs "endTime", JInt (te_end f)); (bs "dataValue", JStr (te_name f))]
  | SSpan f => JObj [(bs "startTime", JInt (te_start f)); (bs "endTime", JInt (te_end f)); (bs "traceId", JStr (te_id f)); (bs "name", JStr (te_name f))]
  | STransaction j => JObj [(bs "timestamp", JInt (j_ts j)); (bs "traceId", JStr (j_tid j)); (bs "isEntry", JInt (j_entry j)); (bs "protocol", JStr (j_proto j)); (bs "url", JStr (j_url j));
      (bs "pidString", JStr (pidString j)); (bs "containerId", JStr (j_cid j))]
  | SInner s e g => JObj [(bs "startTime", JInt s); (bs "endTime", JInt e); (bs "trace", jsonGroup nilSlices g)]
  end.
(** The content of an event in the rings (CpuModel.v) *)
Definition ser (t : timed) : bytes := encode (jsonTimed t).
(** json.Marshal of a list of events, of which the rings keep the texts (model.go:96-115) *)
Definition listText (l : list tev) : bytes := 91 :: commas (map t_data l) ++ [93].
(** model.go:88-117 and send_trigger.go:205-206: the group of a segment sent for a trace with these labels and start *)
Definition cpuGroup (tr : labels * Z) (x : sent) : group := segGroup (fun l => Some (listText l)) tr x.

(** model.go:47-57: a segment itself; IsSend has no tag *)
Record segment := { s_start : Z; s_end : Z; s_cpu : list cpuEv; s_futex : list textEv; s_trans : list jev; s_spans : list textEv; s_inner : list (Z * Z * group); s_sent : Z; s_index : bytes }.
Definition jsonSegment (s : segment) : json :=
  JObj [(bs "startTime", JInt (s_start s)); (bs "endTime", JInt (s_end s)); (bs "cpuEvents", JArr (map (fun c => jsonTimed (SCpu c)) (s_cpu s)));
    (bs "javaFutexEvents", JArr (map (fun c => jsonTimed (SFutex c)) (s_futex s))); (bs "transactionIds", JArr (map (fun c => jsonTimed (STransaction c)) (s_trans s)));
    (bs "spans", JArr (map (fun c => jsonTimed (SSpan c)) (s_spans s))); (bs "innerCalls", JArr (map (fun c => jsonTimed (SInner (fst (fst c)) (snd (fst c)) (snd c))) (s_inner s)));
    (bs "IsSend", JInt (s_sent s)); (bs "indexTimestamp", JStr (s_index s))].
End Nil.

(** json.Unmarshal into an unsigned number of [w] bits, a text, and a list *)
Definition field (k : string) (j : json) : option json := match j with JObj m => aget m (bs k) | _ => None end.
Definition uintOf (w : Z) (o : option json) : res Z :=
  match o with None | Some JNull => Ok 0 | Some (JInt n) => if (0 <=? n) && (n <? 2 ^ w) then Ok n else Err | _ => Err end.
Definition textOf (o : option json) : res bytes := match o with None | Some JNull => Ok [] | Some (JStr s) => Ok s | _ => Err end.
Fixpoint allOk {A} (l : list (res A)) : res (list A) := match l with [] => Ok [] | r :: l' => bind r (fun a => bind (allOk l') (fun t => Ok (a :: t))) end.
Definition listOf {A} (f : json -> res A) (o : option json) : res (list A) := match o with None | Some JNull => Ok [] | Some (JArr l) => allOk (map f l) | _ => Err end.
Definition isObject (j : json) : bool := match j with JObj _ | JNull => true | _ => false end.
(** model.go:189-197 CPUType.UnmarshalJSON: a uint16 of which the low byte is kept *)
Definition typeOf (j : json) : res Z := bind (uintOf 16 (Some j)) (fun v => Ok (v mod 256)).
(** model.go:199-209 *)
Definition readCpu (j : json) : res cpuEv :=
  if isObject j then
    bind (uintOf 64 (field "startTime" j)) (fun a => bind (uintOf 64 (field "endTime" j)) (fun b =>
    bind (listOf (fun x => uintOf 64 (Some x)) (field "typeSpecs" j)) (fun c => bind (listOf (fun x => uintOf 64 (Some x)) (field "runqLatency" j)) (fun d =>
    bind (listOf typeOf (field "timeType" j)) (fun e => bind (textOf (field "onInfo" j)) (fun f => bind (textOf (field "offInfo" j)) (fun g =>
    bind (textOf (field "log" j)) (fun h => bind (textOf (field "stack" j)) (fun i =>
    Ok {| ce_start := a; ce_end := b; ce_specs := c; ce_runq := d; ce_types := e; ce_on := f; ce_off := g; ce_log := h; ce_stack := i |})))))))))
  else Err.
(** model.go:223-227 *)
Definition readFutex (j : json) : res textEv :=
  if isObject j then
    bind (uintOf 64 (field "startTime" j)) (fun a => bind (uintOf 64 (field "endTime" j)) (fun b => bind (textOf (field "dataValue" j)) (fun d =>
    Ok {| te_start := a; te_end := b; te_id := []; te_name := d |})))
  else Err.
(** model.go:162-164: the address of the loop variable is appended each time, so that in the end each of them shows the last element *)
Definition aliased {A} (l : list A) : list A := match rev l with [] => [] | z :: _ => repeat z (List.length l) end.
(** model.go:123-170 Segment.UnmarshalJSON, into a segment without anything in it *)
Definition readSegment (j : json) : res segment :=
  if isObject j then
    bind (uintOf 64 (field "startTime" j)) (fun a => bind (uintOf 64 (field "endTime" j)) (fun b =>
    bind (listOf readCpu (field "cpuEvents" j)) (fun c => bind (listOf readFutex (field "javaFutexEvents" j)) (fun d =>
    Ok {| s_start := a; s_end := b; s_cpu := c; s_futex := aliased d; s_trans := []; s_spans := []; s_inner := []; s_sent := 0; s_index := [] |}))))
  else Err.
