(** What the connection counters of a pod should say about the connection attempts of its processes, from plain lists of events and scans. *)
From Verif Require Import Base Decimal AttrModel PoolModel AggSpec K8sModel EnrichModel EnrichSpec EventModel PipeModel AdapterModel OtelSpec FlowModel FlowSpec NetSpec
  ConnectModel ConnectSpec ConnFlowModel.
Open Scope string_scope. Open Scope list_scope. Open Scope Z_scope.

(** ** What the goroutine gets to see *)
(** The events offered, and those that were taken with the scans, in their order; [q]: the events waiting. *)
Definition offered (os : list lop) : list event := flat_map (fun o => match o with LOffer e => [e] | _ => [] end) os.
Fixpoint seenOps (q : list event) (os : list lop) : list (kop * natFn) :=
  match os with
  | [] => []
  | LOffer e :: os' => seenOps (q ++ [e]) os'
  | LTake d :: os' => match q with e :: q' => (KEvent e, d) :: seenOps q' os' | [] => [] end
  | LTick now look d :: os' | LStop now look d :: os' => (KScan now look, d) :: seenOps q os'
  end.
Definition takenEvents (h : list (kop * natFn)) : list event := flat_map (fun x => match fst x with KEvent e => [e] | KScan _ _ => [] end) h.

(** ** The attempts of a connection *)
(** A decided attempt: process and times, outcome and error number, and the connection tracker of that moment. *)
Record attempt := { a_key : ckey; a_pend : pend; a_ok : bool; a_code : Z; a_nat : natFn }.
(** An attempt without a source port is not told when an event decides it (but is when a scan gives it up). *)
Definition told (k : ckey) (o : kop) : bool := match o with KEvent _ => negb (kSport k =? 0) | KScan _ _ => true end.
(** Each operation is heard by the attempt under way, if there is one, and may decide it; then the connection is free for the next. *)
Fixpoint attempts (w : Z) (k : ckey) (p : option pend) (h : list (kop * natFn)) : list attempt :=
  match h with
  | [] => []
  | (o, d) :: r =>
      match decision w k p o, hear k p o with
      | Some (ok, code), Some p' => (if told k o then [{| a_key := k; a_pend := p'; a_ok := ok; a_code := code; a_nat := d |}] else []) ++ attempts w k None r
      | _, p' => attempts w k p' r
      end
  end.
Fixpoint distinct (l : list ckey) : list ckey := match l with [] => [] | k :: l' => if existsb (eqb k) l' then distinct l' else k :: distinct l' end.
Definition named (h : list (kop * natFn)) : list ckey := distinct (flat_map (fun x => match fst x with KEvent e => match says e with Some (k, _) => [k] | None => [] end | _ => [] end) h).
Definition allAttempts (w : Z) (h : list (kop * natFn)) : list attempt := flat_map (fun k => attempts w k None h) (named h).
Definition groupOf (cf : cconf) (a : attempt) : group := connectGroup (a_nat a) (cf_proc cf) (a_key a) (statsOf (a_pend a) (a_ok a) (a_code a)).

(** ** Hypotheses *)
(** Go's types: times of today, uint32 process numbers and ports; translated ports are uint16. *)
Definition saneLop (o : lop) : Prop :=
  match o with
  | LOffer e => 0 <= e_ts e < 2 ^ 63 /\ 0 <= e_pid e < 2 ^ 32 /\ 0 <= e_sport e < 2 ^ 32 /\ 0 <= e_dport e < 2 ^ 32
  | LTake d => forall a b c e ip port, d a b c e = Some (ip, port) -> 0 <= port < 2 ^ 16
  | LTick now _ d | LStop now _ d => 0 <= now < 2 ^ 63 /\ forall a b c e ip port, d a b c e = Some (ip, port) -> 0 <= port < 2 ^ 16
  end.
(** The connection groups of a history of the pipeline. *)
Definition connectGroups (os : list flow_op) : list group :=
  flat_map (fun o => match o with FGroup g _ _ _ _ => if eqb (gname g) "tcp_connect_metric_group" then [g] else [] | _ => [] end) os.
(** The pod that the caches name for the source of a connection: by its container, by its address when the container is not known. *)
Definition fromPod (w : collector) (v : view) (ns p cid ip : bytes) : bool :=
  match clientSource (w_it w) (v_k8s v) (v_clock v) cid ip with
  | FContainer c => eqb (pi_ns (podOf (v_k8s v) c)) ns && eqb (pi_name (podOf (v_k8s v) c)) p
  | FPod r => eqb (pi_ns r) ns && eqb (pi_name r) p
  | _ => false
  end.
(** Whenever a group is handed over the caches give the containers and addresses of [C], and no others, to the pod. *)
Definition sourcesAre (w : collector) (ns p : bytes) (C : bytes -> bytes -> bool) (o : flow_op) : Prop :=
  match o with FGroup _ v _ _ _ => forall cid ip, fromPod w v ns p cid ip = C cid ip | _ => True end.
(** The surroundings of a step: like goodFlowOp, but nothing is assumed of the groups of the connection analyzer. *)
Definition goodBeside (cfg : AdapterModel.config) (o : flow_op) : Prop :=
  match o with
  | FGroup g v _ _ it => (gname g <> "tcp_connect_metric_group" -> goodInput cfg g) /\ portsFit (v_k8s v) /\ forall m, Permutation.Permutation (it m) m
  | FDeliver _ it | FScrape it => forall m, Permutation.Permutation (it m) m
  | FTick => True
  end.

(** ** What is counted *)
(** The series of a pod, with an outcome, and with an error number if one is asked for. *)
Definition seriesOf (ns p : bytes) (ok : bool) (code : option Z) : list (string * aval) :=
  [("src_namespace", SV ns); ("src_pod", SV p); ("success", SV (bs (if ok then "true" else "false")))] ++
  match code with Some c => [("errno", SV (formatInt c))] | None => [] end.
Definition counted (C : bytes -> bytes -> bool) (ok : bool) (code : option Z) (a : attempt) : bool :=
  C (p_cid (a_pend a)) (kSip (a_key a)) && Bool.eqb (a_ok a) ok && match code with Some c => a_code a =? c | None => true end.
Definition took (a : attempt) : Z := p_last (a_pend a) - p_start (a_pend a).
(** The two metrics, and what an attempt adds to each. *)
Definition connectMetrics : list string := ["kindling_tcp_connect_total"; "kindling_tcp_connect_duration_nanoseconds_total"].
Definition perAttempt (n : string) (a : attempt) : Z := if eqb n "kindling_tcp_connect_total" then 1 else if a_ok a then took a else 0.

(** ** Events that can be read *)
(** The value of an attribute has the bytes of its type. *)
Definition fullValue (kv : keyvalue) : Prop :=
  match kv_type kv with
  | EventModel.TUint8 | EventModel.TInt8 => 1 <= List.length (kv_val kv)
  | EventModel.TUint16 | EventModel.TInt16 => 2 <= List.length (kv_val kv)
  | EventModel.TUint32 | EventModel.TInt32 => 4 <= List.length (kv_val kv)
  | EventModel.TUint64 | EventModel.TInt64 => 8 <= List.length (kv_val kv)
  | _ => 0 <= List.length (kv_val kv)
  end%nat.
Definition carries (e : event) : Prop :=
  Forall fullValue (e_attrs e) /\ (e_name e = "connect" -> isTcp e = true -> exists s ss d ds, e_sip e = s :: ss /\ e_dip e = d :: ds).
Definition carriesOp (o : lop) : Prop := match o with LOffer e => carries e | _ => True end.
