(* The locks around the Kubernetes metadata and around the tables of the profiling analyzer: which lock every function
   takes, in which order, and which shared table it touches while it holds it.

   The shared tables live in collector/pkg/metadata/kubernetes and are used at once by the informer callbacks, the
   delayed deletion loop, the lookups of the processors, the snapshots of the metadata provider and the loading of a
   snapshot by its client.  What the tables hold is modelled in K8sModel.v; here a function is the sequence of lock
   operations and table accesses it performs, the branches it takes being a parameter (so every branch is covered). *)
From Verif Require Import Base.
Open Scope list_scope.
Open Scope Z_scope.

(* The locks:
   LSem     sem, a semaphore of weight 16              metaprovider/service/service.go:23
   LRsUpd   rsUpdateMutex                              replicaset_watch.go:116, pod_watch.go:205
   LSvcUpd  serviceUpdatedMutex                        service_watch.go:171
   LC LP LS cMut, pMut, sMut of K8sMetaDataCache       k8scache.go:72-80
   LHost    HostPortMap.mutex                          hostport_map.go:13-16
   LNode    NodeMap.mutex                              node_watch.go:20-23
   LPod     podMap.mutex of GlobalPodInfo              pod_watch.go:44
   LRs      ReplicaSetMap.mut of GlobalRsInfo          replicaset_watch.go
   LQueue   podDeleteQueueMut (a plain Mutex)          pod_delete.go:14
   LSvc     ServiceMap.mut of GlobalServiceInfo        service_watch.go
   LWork    workloadMap.mutex of localWorkloadMap      pod_watch.go:48
   and those of the profiling analyzer, which looks pods up while it holds one of them:
   LTidQ    tidExpiredQueue.queueMutex                 cpuanalyzer/delete_tid.go:8-11
   LRing    CpuAnalyzer.lock (a RWMutex)               cpuanalyzer/cpu_analyzer.go:33
   LJQ      javaTraceExpiredQueue.queueMutex           cpuanalyzer/delete_javatrace.go:8-11
   LJt      CpuAnalyzer.jtlock                         cpuanalyzer/cpu_analyzer.go:34 *)
Inductive lock : Type := LSem | LRsUpd | LSvcUpd | LC | LP | LS | LHost | LNode | LPod | LRs | LQueue | LSvc | LWork | LTidQ | LRing | LJQ | LJt.

(* The shared tables.  The map of an address to its ports (k8scache.go:74-76) counts as one table with its inner maps.
   VPorts c is the HostPortMap of the container record c (k8scache.go:14), a map of its own in every record.
   Of the profiling analyzer: VRings is cpuPidEvents with its inner maps, VSeg the marks of the segments (IsSend,
   IndexTimestamp), VTids the queue of exited threads, VJava javaTraces, VJavaQ javaTraceExpiredQueue.queue, VOn
   enableProfile, VApm isInstallApm, VSample and VChan the variables sampleMap and traceChan (send_trigger.go:15-21). *)
Inductive var : Type := VC | VIp | VIpS | VHost | VNode | VPod | VRs | VQueue | VSvc | VWork | VPorts (c : Z)
| VRings | VSeg | VTids | VJava | VJavaQ | VOn | VApm | VSample | VChan.

(* One action of a goroutine.  ASend is the blocking write of a snapshot to the connection of a client
   (service.go:219, ioutil/writeflusher.go:26-36).  Fields of records (K8sPodInfo.ServiceInfo and the like) are not
   tracked. *)
Inductive act : Type :=
| ARLock (l : lock) | ARUnlock (l : lock) | ALock (l : lock) | AUnlock (l : lock)
| AAcquire | ARelease
| ARead (v : var) | AWrite (v : var) | ASend.

Definition lock_dec (a b : lock) : {a = b} + {a <> b}.
Proof. decide equality. Defined.
Lemma lock_eqb_eq (a b : lock) : (if lock_dec a b then true else false) = true <-> a = b.
Proof. destruct (lock_dec a b); split; congruence. Qed.
#[export] Instance Eqb_lock : Eqb lock := {| eqb := fun a b => if lock_dec a b then true else false; eqb_eq := lock_eqb_eq |}.

(* How a goroutine has a lock: read, write, or announced as a writer that waits for the readers to leave. *)
Inductive mode : Type := R | W | P.
Definition mode_dec (a b : mode) : {a = b} + {a <> b}.
Proof. decide equality. Defined.
Lemma mode_eqb_eq (a b : mode) : (if mode_dec a b then true else false) = true <-> a = b.
Proof. destruct (mode_dec a b); split; congruence. Qed.
#[export] Instance Eqb_mode : Eqb mode := {| eqb := fun a b => if mode_dec a b then true else false; eqb_eq := mode_eqb_eq |}.

Record thread := { t_held : list (lock * mode); t_rest : list act }.

Definition has (l : lock) (m : mode) (t : thread) : bool := existsb (fun p => eqb (fst p) l && eqb (snd p) m) (t_held t).
Definition reading (l : lock) (s : list thread) : bool := existsb (has l R) s.
(* a writer that is in, or that waits: sync.RWMutex blocks new readers in both cases *)
Definition writing (l : lock) (s : list thread) : bool := existsb (fun t => has l W t || has l P t) s.
Definition users (l : lock) (s : list thread) : nat := List.length (filter (has l R) s).

Fixpoint drop (l : lock) (m : mode) (h : list (lock * mode)) : list (lock * mode) :=
  match h with
  | [] => []
  | p :: h' => if eqb (fst p) l && eqb (snd p) m then h' else p :: drop l m h'
  end.

Fixpoint upd (i : nat) (t : thread) (s : list thread) : list thread :=
  match s, i with
  | [], _ => []
  | _ :: s', O => t :: s'
  | u :: s', S i' => u :: upd i' t s'
  end.

(* One step of goroutine i, or None when it has to wait (or has ended, or would unlock what it does not have, which
   ends a Go program).
   sync.RWMutex: RLock waits while a writer is in or waiting; Lock first waits for the other writers, then announces
   itself (from now on new readers wait), then waits for the readers to leave.  sync.Mutex is the same without readers.
   semaphore.Weighted: Acquire(1) waits while 16 are taken.
   net i: the connection of goroutine i takes data.
   Simplified: a writer that leaves does not hand over to the readers that wait, whoever comes first gets the lock; so
   there are more schedules here than in Go. *)
Definition step (net : nat -> bool) (i : nat) (s : list thread) : option (list thread) :=
  match nth_error s i with
  | None => None
  | Some t =>
    match t_rest t with
    | [] => None
    | ARLock l :: r => if writing l s then None else Some (upd i {| t_held := (l, R) :: t_held t; t_rest := r |} s)
    | ALock l :: r =>
        if has l P t
        then if reading l s then None else Some (upd i {| t_held := (l, W) :: drop l P (t_held t); t_rest := r |} s)
        else if writing l s then None else Some (upd i {| t_held := (l, P) :: t_held t; t_rest := ALock l :: r |} s)
    | ARUnlock l :: r => if has l R t then Some (upd i {| t_held := drop l R (t_held t); t_rest := r |} s) else None
    | AUnlock l :: r => if has l W t then Some (upd i {| t_held := drop l W (t_held t); t_rest := r |} s) else None
    | AAcquire :: r => if (users LSem s <? 16)%nat then Some (upd i {| t_held := (LSem, R) :: t_held t; t_rest := r |} s) else None
    | ARelease :: r => if has LSem R t then Some (upd i {| t_held := drop LSem R (t_held t); t_rest := r |} s) else None
    | ARead _ :: r | AWrite _ :: r => Some (upd i {| t_held := t_held t; t_rest := r |} s)
    | ASend :: r => if net i then Some (upd i {| t_held := t_held t; t_rest := r |} s) else None
    end
  end.

(* ---- the functions ---- *)
(* RLock; read; RUnlock *)
Definition rd (l : lock) (v : var) : list act := [ARLock l; ARead v; ARUnlock l].
(* Lock; write; Unlock *)
Definition wr (l : lock) (v : var) : list act := [ALock l; AWrite v; AUnlock l].

Fixpoint times (n : nat) (p : list act) : list act := match n with O => [] | S n' => p ++ times n' p end.

(* AddContainerByIpPort, k8scache.go:131-146: look the address up under the read lock, then write under the write lock
   (both branches write under it). *)
Definition addContainerByIpPort : list act := rd LP VIp ++ wr LP VIp.
(* DeleteContainerByIpPort, k8scache.go:201-214 *)
Definition deleteContainerByIpPort (found : bool) : list act := rd LP VIp ++ (if found then wr LP VIp else []).
(* AddServiceByIpPort, k8scache.go:228-243 *)
Definition addServiceByIpPort : list act := rd LS VIpS ++ wr LS VIpS.
(* DeleteServiceByIpPort, k8scache.go:259-272 *)
Definition deleteServiceByIpPort (found : bool) : list act := rd LS VIpS ++ (if found then wr LS VIpS else []).
(* ClearAll, k8scache.go:274-286 *)
Definition clearAll : list act := wr LP VIp ++ wr LS VIpS ++ wr LC VC.

(* The branches AddPod takes, pod_watch.go:201-313: the controller is a ReplicaSet; how many containers have an id; the
   pod has an address; its containers, each with the name of its record and, for every port, whether it has a host
   port; the pod is on this node. *)
Record podShape := { ps_rs : bool; ps_ids : nat; ps_ip : bool; ps_containers : list (Z * list bool); ps_local : bool }.

(* pod_watch.go:281-289; the HostPortMap of the record is written outside every lock *)
Definition addPort (c : Z) (hostPort : bool) : list act :=
  (if hostPort then AWrite (VPorts c) :: wr LHost VHost else []) ++ addContainerByIpPort.
(* pod_watch.go:260-291 *)
Definition addContainer (c : Z * list bool) : list act :=
  match snd c with [] => addContainerByIpPort | ports => flat_map (addPort (fst c)) ports end.
(* AddPod, pod_watch.go:201-313 (getControllerKindName 315-345) *)
Definition addPod (p : podShape) : list act :=
  [ARLock LRsUpd] ++ (if ps_rs p then rd LRs VRs else []) ++ [ARUnlock LRsUpd]
  ++ rd LSvc VSvc
  ++ times (ps_ids p) (wr LC VC)
  ++ (if ps_ip p then flat_map addContainer (ps_containers p) else [])
  ++ wr LPod VPod
  ++ (if ps_local p then wr LWork VWork else []).
(* UpdatePod, pod_watch.go:357-428: nothing for the same version; the old pod may not be cached *)
Definition updatePod (same known : bool) (p : podShape) : list act :=
  if same then [] else rd LPod VPod ++ addPod p ++ (if known then wr LQueue VQueue else []).
(* DeletePod, pod_watch.go:430-483 *)
Definition deletePod : list act := wr LQueue VQueue.

(* The branches deletePodInfo takes, pod_delete.go:63-114: a name is given and the pod is cached; the container ids; the
   ports with an address, each found or not (Some b: found, b: still there when it is deleted); the host ports, each
   found and of the same pod or not. *)
Record delShape := { ds_name : option bool; ds_ids : nat; ds_ports : list (option bool); ds_hostPorts : list bool }.
Definition deletePodInfo (d : delShape) : list act :=
  match ds_name d with
  | None => []
  | Some cached => wr LPod VPod ++ (if cached then wr LWork VWork else [])
  end
  ++ times (ds_ids d) (wr LC VC)
  ++ flat_map (fun f => rd LP VIp ++ match f with Some b => deleteContainerByIpPort b | None => [] end) (ds_ports d)
  ++ flat_map (fun f : bool => rd LHost VHost ++ if f then wr LHost VHost else []) (ds_hostPorts d).
(* one round of podDeleteLoop, pod_delete.go:40-56 *)
Definition deleteRound (ds : list delShape) : list act := wr LQueue VQueue ++ flat_map deletePodInfo ds.

(* The branches AddService takes, service_watch.go:115-155: the selector is not empty; per matching pod its ids and
   ports; an address is given; per port the number of node addresses when it is a NodePort service. *)
Record svcShape := { ss_selector : bool; ss_pods : list (nat * nat); ss_ip : bool; ss_ports : list (option nat) }.
Definition addServicePort (p : option nat) : list act :=
  addServiceByIpPort ++ match p with None => [] | Some n => rd LNode VNode ++ times n addServiceByIpPort end.
Definition addService (s : svcShape) : list act :=
  wr LSvc VSvc
  ++ (if ss_selector s then rd LPod VPod ++ flat_map (fun p => times (fst p) (rd LC VC) ++ times (snd p) (rd LP VIp)) (ss_pods s) else [])
  ++ (if ss_ip s then flat_map addServicePort (ss_ports s) else []).
(* DeleteService, service_watch.go:178-208: ServiceMap.delete (74-89), then the ports, each found or not, with the node
   addresses of a NodePort service, each found or not. *)
Record svcDelShape := { sd_ip : bool; sd_ports : list (bool * option (list bool)) }.
Definition deleteServicePort (p : bool * option (list bool)) : list act :=
  deleteServiceByIpPort (fst p)
  ++ match snd p with None => [] | Some nodes => rd LNode VNode ++ flat_map deleteServiceByIpPort nodes end.
Definition deleteService (s : svcDelShape) : list act :=
  wr LSvc VSvc ++ (if sd_ip s then flat_map deleteServicePort (sd_ports s) else []).
(* UpdateService, service_watch.go:164-176 *)
Definition updateService (same : bool) (old : svcDelShape) (new : svcShape) : list act :=
  if same then [] else [ALock LSvcUpd] ++ deleteService old ++ addService new ++ [AUnlock LSvcUpd].

(* AddReplicaSet, replicaset_watch.go:95-108: nothing without a controller *)
Definition addRs (owner : bool) : list act := if owner then wr LRs VRs else [].
(* UpdateReplicaSet, replicaset_watch.go:110-121; DeleteReplicaSet, 123-138 *)
Definition updateRs (same owner : bool) : list act :=
  if same then [] else [ALock LRsUpd] ++ wr LRs VRs ++ addRs owner ++ [AUnlock LRsUpd].

(* RLockMetadataCache, initk8s.go:216-225 *)
Definition rLockAll : list act :=
  [ARLock LC; ARLock LP; ARLock LS; ARLock LHost; ARLock LNode; ARLock LPod; ARLock LRs; ALock LQueue].
(* RUnlockMetadataCache, initk8s.go:227-236 *)
Definition rUnlockAll : list act :=
  [AUnlock LQueue; ARUnlock LRs; ARUnlock LPod; ARUnlock LNode; ARUnlock LHost; ARUnlock LS; ARUnlock LP; ARUnlock LC].
(* LockMetadataCache, initk8s.go:238-246: without the lock of the host ports *)
Definition lockAll : list act :=
  [ALock LC; ALock LP; ALock LS; ALock LNode; ALock LPod; ALock LRs; ALock LQueue].
(* UnlockMetadataCache, initk8s.go:248-256 *)
Definition unlockAll : list act :=
  [AUnlock LQueue; AUnlock LRs; AUnlock LPod; AUnlock LNode; AUnlock LS; AUnlock LP; AUnlock LC].

(* list, service.go:158-166: json.Marshal walks the exported tables, and with the containers their HostPortMap (the
   records reached are the parameter).  The tables of the services is walked too, outside its lock. *)
Definition marshal (cs : list Z) : list act :=
  [ARead VC; ARead VIp; ARead VIpS; ARead VHost] ++ map (fun c => ARead (VPorts c)) cs ++ [ARead VNode; ARead VRs; ARead VSvc].
(* ListWithSemaphore, service.go:210-232; AddFlusher uses a sync.Map, which does not block *)
Definition snapshot (cs : list Z) : list act :=
  [AAcquire] ++ rLockAll ++ marshal cs ++ [ASend] ++ rUnlockAll ++ [ARelease].

(* SetupCache, k8scache.go:300-344: which parts the snapshot carries.  The temporary maps are not shared. *)
Record setupShape := { su_c : bool; su_host : bool; su_ip : bool; su_ips : bool; su_node : bool; su_svc : bool; su_rs : bool }.
Definition setupCache (u : setupShape) : list act :=
  lockAll
  ++ (if su_c u then [AWrite VPod; AWrite VWork; AWrite VC] else [])
  ++ (if su_host u then [AWrite VHost] else [])
  ++ (if su_ip u then [AWrite VIp] else [])
  ++ (if su_ips u then [AWrite VIpS] else [])
  ++ (if su_node u then [AWrite VNode] else [])
  ++ (if su_svc u then [AWrite VSvc] else [])
  ++ (if su_rs u then [AWrite VRs] else [])
  ++ [AWrite VQueue]
  ++ unlockAll.

(* ---- the profiling analyzer, collector/pkg/component/analyzer/cpuanalyzer ---- *)
(* PutEventToSegments, cpu_analyzer.go:267-364; on: enableProfile is still true *)
Definition putEvent (on : bool) : list act :=
  [ALock LRing] ++ ([ARead VOn] ++ if on then [ARead VRings; AWrite VRings; AWrite VSeg] else []) ++ [AUnlock LRing].
(* ReceiveDataGroupAsSignal, send_trigger.go:25-59: the profiling is on; the trace is from an APM agent, slow, from the
   server side.  sampleMap is a sync.Map, whose own accesses are safe.  The send on traceChan does not wait here (C78). *)
Definition signalActs (on apm slow server : bool) : list act :=
  [ARead VOn] ++
  (if on then
     if apm then [AWrite VApm] ++ (if slow then [ARead VSample] else [])
     else if slow then (if server then [ARead VApm; ARead VSample] else [ARead VChan]) else []
   else []).
(* analyzerJavaTraceTime, cpu_analyzer.go:122-165: an entry; or an exit, of a known trace that was slow (Some k8s: whether
   the pod is looked up) or not *)
Definition javaActs (entry : bool) (slow : option bool) (on : bool) : list act :=
  [ALock LJt] ++
  (AWrite VJavaQ ::
   if entry then [AWrite VJava]
   else [ARead VJava] ++ match slow with
                         | Some k8s => (if k8s then rd LC VC else []) ++ signalActs on true true true
                         | None => []
                         end) ++
  [AUnlock LJt].
(* one round of TidDelete, delete_tid.go:45-74, with n threads to drop *)
Definition tidRound (n : nat) : list act :=
  [ALock LTidQ] ++ ([ARead VTids] ++ times n ([ALock LRing] ++ [ARead VRings; AWrite VRings; AWrite VTids] ++ [AUnlock LRing] ++ [ARead VTids])) ++ [AUnlock LTidQ].
(* one round of JavaTraceDelete, delete_javatrace.go:44-75, with n entries to drop *)
Definition javaRound (n : nat) : list act :=
  [ALock LJQ] ++ ([ARead VJavaQ] ++ times n ([ALock LJt] ++ [ARead VJava; AWrite VJava; AWrite VJavaQ] ++ [AUnlock LJt] ++ [ARead VJavaQ])) ++ [AUnlock LJQ].
(* sendEvents, send_trigger.go:162-214, with n segments that are not empty; what the next consumers do is not modelled *)
Definition sendEvents (n : nat) : list act :=
  [ARLock LRing] ++ ([ARead VOn; ARead VRings] ++ times n [AWrite VSeg; ARead VSeg; AWrite VSeg]) ++ [ARUnlock LRing].
(* StartProfile, module_control.go:14-28 *)
Definition startProfile : list act := [AWrite VChan; AWrite VApm; AWrite VSample; AWrite VOn].
(* StopProfile, module_control.go:30-44 *)
Definition stopProfile : list act :=
  [ALock LRing] ++ [AWrite VOn; AWrite VRings; AWrite VChan; AWrite VApm; AWrite VSample] ++ [AUnlock LRing].

(* What a goroutine may call. *)
Inductive op : Type :=
| OById             (* GetByContainerId, GetPodByContainerId, GetCacheContainerIdInfoSize: k8scache.go:93-122 *)
| OByIpPort         (* GetContainerByIpPort, GetPodByIpPort, GetPodByIp: k8scache.go:148-199 *)
| OServiceByIpPort  (* k8scache.go:245-257 *)
| OByHostPort (found : option Z)  (* GetContainerByHostIpPort, then the HostPortMap of the record: kubernetes_processor.go:175-183, 330-339 *)
| ONodeName         (* GetNodeNameByIp: k8scache.go:296-298, node_watch.go:40-48 *)
| ORsSize           (* replicaset_watch.go:42-46 *)
| OWorkloads        (* GetWorkloadDataGroup: pod_watch.go:51-71 *)
| OClearAll
| OAddPod (p : podShape) | OUpdatePod (same known : bool) (p : podShape) | ODeletePod | ODeleteRound (ds : list delShape)
| OAddService (s : svcShape) | OUpdateService (same : bool) (o : svcDelShape) (n : svcShape) | ODeleteService (s : svcDelShape)
| OAddNode          (* node_watch.go:96-110, 31-38 *)
| OUpdateNode       (* node_watch.go:112-115 *)
| ODeleteNode       (* node_watch.go:117-132, 60-64 *)
| OAddRs (owner : bool) | OUpdateRs (same owner : bool) | ODeleteRs
| OSnapshot (cs : list Z)
| OSetup (u : setupShape)
| OCpuEvent (on on' : bool)                                  (* ConsumeEvent with a CPU, futex or span event: cpu_analyzer.go:83-92, 99 *)
| OTransaction (on on' sampling entry : bool) (slow : option bool) (on'' : bool)  (* ConsumeTransactionIdEvent: cpu_analyzer.go:83-86, 91-92, 104-120 *)
| OExit (on : bool)                                          (* cpu_analyzer.go:83-86, 94-97, 366-373 *)
| OCall (on : bool)                                          (* ReadTraceChan with a call: send_trigger.go:69-78 *)
| OSignal (on apm slow server : bool)
| OTidRound (n : nat) | OJavaRound (n : nat) | OSend (n : nat)
| OSample                                                    (* a tick of sampleSend: send_trigger.go:138-155 *)
| OStartProfile | OStopProfile.

Definition acts (o : op) : list act :=
  match o with
  | OById => rd LC VC
  | OByIpPort => rd LP VIp
  | OServiceByIpPort => rd LS VIpS
  | OByHostPort f => rd LHost VHost ++ match f with Some c => [ARead (VPorts c)] | None => [] end
  | ONodeName => rd LNode VNode
  | ORsSize => rd LRs VRs
  | OWorkloads => rd LWork VWork
  | OClearAll => clearAll
  | OAddPod p => addPod p
  | OUpdatePod same known p => updatePod same known p
  | ODeletePod => deletePod
  | ODeleteRound ds => deleteRound ds
  | OAddService s => addService s
  | OUpdateService same o' n => updateService same o' n
  | ODeleteService s => deleteService s
  | OAddNode => wr LNode VNode
  | OUpdateNode => wr LNode VNode ++ wr LNode VNode
  | ODeleteNode => wr LNode VNode
  | OAddRs owner => addRs owner
  | OUpdateRs same owner => updateRs same owner
  | ODeleteRs => wr LRs VRs
  | OSnapshot cs => snapshot cs
  | OSetup u => setupCache u
  | OCpuEvent on on' => [ARead VOn] ++ (if on then putEvent on' else [])
  | OTransaction on on' sampling entry slow on'' =>
      [ARead VOn] ++ (if on then putEvent on' ++ (if sampling then javaActs entry slow on'' else []) else [])
  | OExit on => [ARead VOn] ++ (if on then wr LTidQ VTids else [])
  | OCall on => [ARead VChan] ++ putEvent on
  | OSignal on apm slow server => signalActs on apm slow server
  | OTidRound n => tidRound n
  | OJavaRound n => javaRound n
  | OSend n => sendEvents n
  | OSample => [ARead VSample]
  | OStartProfile => startProfile
  | OStopProfile => stopProfile
  end.

(* A goroutine that has not started: it will call these functions one after the other. *)
Definition goroutine (ops : list op) : thread := {| t_held := []; t_rest := flat_map acts ops |}.
