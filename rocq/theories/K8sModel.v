(** Model of the metadata caches: collector/pkg/metadata/kubernetes/{k8scache,hostport_map,pod_watch,pod_delete,service_watch,
    replicaset_watch,node_watch,helper}.go.
    Simplifications: one event or one run of the delete loop is one atomic step (K8sConcModel.v treats the locking of a
    single cache); the fields of an api object that the collector never reads are left out.  K8sPodInfo and K8sServiceInfo are shared by
    pointer and changed in place, so they live in two heaps and a pointer is an index.  K8sContainerInfo is shared too, but only
    changed while AddPod builds it: it is a value with its final HostPortMap. *)
From Verif Require Import Base Decimal CompareModel.
Open Scope string_scope. Open Scope list_scope. Open Scope Z_scope.

(** *** Api objects: the fields the collector reads *)
Record port := { pt_container : Z; pt_host : Z }.                     (* int32 *)
Record container := { ct_name : bytes; ct_ports : list port }.
Record owner := { ow_controller : bool; ow_kind : bytes; ow_name : bytes; ow_api : bytes }.
Record pod := {
  pd_uid : bytes; pd_rv : bytes; pd_ns : bytes; pd_name : bytes; pd_labels : list (bytes * bytes); pd_owners : list owner;
  pd_node : bytes; pd_hostnet : bool; pd_ip : bytes; pd_hostip : bytes;
  pd_statuses : list (bytes * bytes);                                 (* name and ContainerID *)
  pd_containers : list container }.
Record svcport := { sp_port : Z; sp_node : Z }.
Record service := {
  sv_rv : bytes; sv_ns : bytes; sv_name : bytes; sv_ip : bytes; sv_nodeport : bool; sv_selector : list (bytes * bytes); sv_ports : list svcport }.
Record node := { nd_name : bytes; nd_addresses : list (bytes * bytes) }. (* type and address *)
Record replicaset := { rs_rv : bytes; rs_ns : bytes; rs_name : bytes; rs_owners : list owner }.

(** *** Cached information *)
(** k8scache.go:36-45 *)
Record svcInfo := {
  si_ip : bytes; si_name : bytes; si_ns : bytes; si_nodeport : bool; si_selector : list (bytes * bytes); si_wkind : bytes; si_wname : bytes }.
(** k8scache.go:18-34 *)
Record podInfo := {
  pi_uid : bytes; pi_ip : bytes; pi_name : bytes; pi_ports : list Z; pi_hostports : list Z; pi_cids : list bytes; pi_labels : list (bytes * bytes);
  pi_wkind : bytes; pi_wname : bytes; pi_ns : bytes; pi_node : bytes; pi_nodeaddr : bytes; pi_hostnet : bool; pi_svc : option nat }.
(** k8scache.go:11-16 *)
Record cinfo := { ci_id : bytes; ci_name : bytes; ci_hostports : list (Z * Z); ci_pod : nat }.
(** replicaset_watch.go:30-34 *)
Record controller := { co_name : bytes; co_kind : bytes; co_api : bytes }.
(** node_watch.go:14-18 *)
Record nodeInfo := { ni_ip : bytes; ni_name : bytes }.
(** pod_watch.go:39-43 *)
Record winfo := { wi_ns : bytes; wi_name : bytes; wi_kind : bytes }.
(** pod_delete.go:23-32 *)
Record delInfo := {
  di_uid : bytes; di_name : bytes; di_ns : bytes; di_cids : list bytes; di_ip : bytes; di_ports : list Z; di_hostip : bytes; di_hostports : list Z }.

(** *** Maps of maps *)
Definition inner {A B V} `{Eqb A} (m : list (A * list (B * V))) (a : A) : list (B * V) := match aget m a with Some i => i | None => [] end.
Definition get2 {A B V} `{Eqb A} `{Eqb B} (m : list (A * list (B * V))) (a : A) (b : B) : option V := aget (inner m a) b.
(** the pattern of k8scache.go:131-146, 228-243, pod_watch.go:87-96, 114-123, service_watch.go:63-72 *)
Definition put2 {A B V} `{Eqb A} `{Eqb B} (m : list (A * list (B * V))) (a : A) (b : B) (v : V) := aset m a (aset (inner m a) b v).
(** pod_watch.go:98-112, 125-132: the inner map stays, even empty *)
Definition rem2 {A B V} `{Eqb A} `{Eqb B} (m : list (A * list (B * V))) (a : A) (b : B) :=
  match aget m a with None => m | Some i => aset m a (adel i b) end.
(** k8scache.go:201-214, 259-272: an inner map that becomes empty is removed *)
Definition del2 {A B V} `{Eqb A} `{Eqb B} (m : list (A * list (B * V))) (a : A) (b : B) :=
  match aget m a with
  | None => m
  | Some i => match adel i b with [] => adel m a | i' => aset m a i' end
  end.

(** *** State: the package variables *)
Record kstate := {
  k_pods : list podInfo;                              (* heap *)
  k_svcs : list svcInfo;                              (* heap *)
  k_cids : list (bytes * cinfo);                      (* MetaDataCache.ContainerIdInfo *)
  k_ips : list (bytes * list (Z * cinfo));            (* MetaDataCache.IpContainerInfo *)
  k_hosts : list (bytes * cinfo);                     (* MetaDataCache.HostPortInfo *)
  k_ipsvcs : list (bytes * list (Z * nat));           (* MetaDataCache.IpServiceInfo *)
  k_gpods : list (bytes * list (bytes * nat));        (* GlobalPodInfo *)
  k_gsvcs : list (bytes * list (bytes * nat));        (* GlobalServiceInfo *)
  k_rs : list (bytes * controller);                   (* GlobalRsInfo *)
  k_nodes : list (bytes * nodeInfo);                  (* GlobalNodeInfo *)
  k_work : list (bytes * list (bytes * winfo));       (* localWorkloadMap *)
  k_queue : list (delInfo * Z) }.                     (* podDeleteQueue *)
Definition k0 : kstate := {| k_pods := []; k_svcs := []; k_cids := []; k_ips := []; k_hosts := []; k_ipsvcs := []; k_gpods := []; k_gsvcs := [];
  k_rs := []; k_nodes := []; k_work := []; k_queue := [] |}.
Definition setHeaps s ps ss := {| k_pods := ps; k_svcs := ss; k_cids := k_cids s; k_ips := k_ips s; k_hosts := k_hosts s; k_ipsvcs := k_ipsvcs s;
  k_gpods := k_gpods s; k_gsvcs := k_gsvcs s; k_rs := k_rs s; k_nodes := k_nodes s; k_work := k_work s; k_queue := k_queue s |}.
Definition setCids s v := {| k_pods := k_pods s; k_svcs := k_svcs s; k_cids := v; k_ips := k_ips s; k_hosts := k_hosts s; k_ipsvcs := k_ipsvcs s;
  k_gpods := k_gpods s; k_gsvcs := k_gsvcs s; k_rs := k_rs s; k_nodes := k_nodes s; k_work := k_work s; k_queue := k_queue s |}.
Definition setAddrs s i h := {| k_pods := k_pods s; k_svcs := k_svcs s; k_cids := k_cids s; k_ips := i; k_hosts := h; k_ipsvcs := k_ipsvcs s;
  k_gpods := k_gpods s; k_gsvcs := k_gsvcs s; k_rs := k_rs s; k_nodes := k_nodes s; k_work := k_work s; k_queue := k_queue s |}.
Definition setGpods s g w := {| k_pods := k_pods s; k_svcs := k_svcs s; k_cids := k_cids s; k_ips := k_ips s; k_hosts := k_hosts s; k_ipsvcs := k_ipsvcs s;
  k_gpods := g; k_gsvcs := k_gsvcs s; k_rs := k_rs s; k_nodes := k_nodes s; k_work := w; k_queue := k_queue s |}.
Definition setSvcs s g i := {| k_pods := k_pods s; k_svcs := k_svcs s; k_cids := k_cids s; k_ips := k_ips s; k_hosts := k_hosts s; k_ipsvcs := i;
  k_gpods := k_gpods s; k_gsvcs := g; k_rs := k_rs s; k_nodes := k_nodes s; k_work := k_work s; k_queue := k_queue s |}.
Definition setRs s v := {| k_pods := k_pods s; k_svcs := k_svcs s; k_cids := k_cids s; k_ips := k_ips s; k_hosts := k_hosts s; k_ipsvcs := k_ipsvcs s;
  k_gpods := k_gpods s; k_gsvcs := k_gsvcs s; k_rs := v; k_nodes := k_nodes s; k_work := k_work s; k_queue := k_queue s |}.
Definition setNodes s v := {| k_pods := k_pods s; k_svcs := k_svcs s; k_cids := k_cids s; k_ips := k_ips s; k_hosts := k_hosts s; k_ipsvcs := k_ipsvcs s;
  k_gpods := k_gpods s; k_gsvcs := k_gsvcs s; k_rs := k_rs s; k_nodes := v; k_work := k_work s; k_queue := k_queue s |}.
Definition setQueue s v := {| k_pods := k_pods s; k_svcs := k_svcs s; k_cids := k_cids s; k_ips := k_ips s; k_hosts := k_hosts s; k_ipsvcs := k_ipsvcs s;
  k_gpods := k_gpods s; k_gsvcs := k_gsvcs s; k_rs := k_rs s; k_nodes := k_nodes s; k_work := k_work s; k_queue := v |}.

(** *** Heaps.  Every pointer in the caches is valid; the defaults are never used (K8sProofs.v: part of the invariant). *)
Definition nilPod : podInfo := {| pi_uid := []; pi_ip := []; pi_name := []; pi_ports := []; pi_hostports := []; pi_cids := []; pi_labels := [];
  pi_wkind := []; pi_wname := []; pi_ns := []; pi_node := []; pi_nodeaddr := []; pi_hostnet := false; pi_svc := None |}.
(** k8scache.go:47-55 emptySelf *)
Definition nilSvc : svcInfo := {| si_ip := []; si_name := []; si_ns := []; si_nodeport := false; si_selector := []; si_wkind := []; si_wname := [] |}.
Definition podAt (h : list podInfo) (i : nat) : podInfo := nth i h nilPod.
Definition svcAt (h : list svcInfo) (i : nat) : svcInfo := nth i h nilSvc.
Fixpoint upd {A} (h : list A) (i : nat) (f : A -> A) : list A :=
  match h, i with
  | [], _ => []
  | x :: h', O => f x :: h'
  | x :: h', S i' => x :: upd h' i' f
  end.
Definition withWorkload (kind name : bytes) (s : svcInfo) : svcInfo :=
  {| si_ip := si_ip s; si_name := si_name s; si_ns := si_ns s; si_nodeport := si_nodeport s; si_selector := si_selector s; si_wkind := kind; si_wname := name |}.
Definition withSvc (i : nat) (p : podInfo) : podInfo :=
  {| pi_uid := pi_uid p; pi_ip := pi_ip p; pi_name := pi_name p; pi_ports := pi_ports p; pi_hostports := pi_hostports p; pi_cids := pi_cids p; pi_labels := pi_labels p;
     pi_wkind := pi_wkind p; pi_wname := pi_wname p; pi_ns := pi_ns p; pi_node := pi_node p; pi_nodeaddr := pi_nodeaddr p; pi_hostnet := pi_hostnet p; pi_svc := Some i |}.

(** service_watch.go:210-217 SelectorsMatchLabels *)
Fixpoint selectorsMatchLabels (sel labels : list (bytes * bytes)) : bool :=
  match sel with
  | [] => true
  | (k, v) :: sel' => match aget labels k with
                      | Some v' => if eqb v' v then selectorsMatchLabels sel' labels else false
                      | None => false
                      end
  end.

(** pod_watch.go:244-250, 378-386, 457-463: the container ids of a pod, without the empty ones *)
Definition shortIds (p : pod) : list bytes := filter (fun c => negb (eqb c [])) (map (fun s => TruncateContainerId (snd s)) (pd_statuses p)).
(** pod_watch.go:391-406, 465-478: the ports of a specification, 0 for a container that declares none *)
Definition containerPorts (c : container) : list Z := match ct_ports c with [] => [0] | l => map pt_container l end.
Definition podPorts (p : pod) : list Z := flat_map containerPorts (pd_containers p).
Definition podHostPorts (p : pod) : list Z :=
  flat_map (fun c => map pt_host (filter (fun q => negb (pt_host q =? 0)) (ct_ports c))) (pd_containers p).

(** hostport_map.go:25, 32, 43: the key *)
Definition hostKey (ip : bytes) (p : Z) : bytes := ip ++ [58] ++ digits (w32 p).

Section K8s.
  (** scheme.go:22-24: client-go's list of built-in group versions; strings.ToLower; the node the collector runs on (MY_NODE_NAME). *)
  Context (builtIn : bytes -> bool) (lower : bytes -> bytes) (myNode : bytes).
  (** Go ranges over maps in any order: the n-th range statement goes through a map in the order [it _ n]. *)
  Context (it : forall A : Type, nat -> list A -> list A).

  (** helper.go:8-18 *)
  Definition completeGVK (api kind : bytes) : bytes := if eqb api [] then kind else if builtIn api then kind else api ++ [47] ++ kind.
  (** helper.go:20-22 *)
  Definition mapKey (ns name : bytes) : bytes := ns ++ [47] ++ name.
  (** pod_watch.go:332-340: the pattern is any text, a dash, then one or more of 0-9a-z up to the end.  The text is matched greedily and the class has no dash, so the dash is the last one;
      [.] does not match a line feed. *)
  Definition isSuffixChar (c : Z) : bool := ((48 <=? c) && (c <=? 57)) || ((97 <=? c) && (c <=? 122)).
  Fixpoint lastDash (s : bytes) : option (bytes * bytes) :=
    match s with
    | [] => None
    | c :: s' => match lastDash s' with
                 | Some (a, b) => Some (c :: a, b)
                 | None => if c =? 45 then Some ([], s') else None
                 end
    end.
  Definition extractDeploymentName (s : bytes) : bytes :=
    match lastDash s with
    | Some (a, b) => if negb (eqb b []) && forallb isSuffixChar b && negb (existsb (Z.eqb 10) a) then a else []
    | None => []
    end.
  (** pod_watch.go:304-330 getControllerKindName *)
  Fixpoint controllerOf (rs : list (bytes * controller)) (ns : bytes) (l : list owner) : bytes * bytes :=
    match l with
    | [] => ([], [])
    | o :: l' =>
        if ow_controller o then
          if eqb (ow_kind o) (bs "ReplicaSet")
          then match aget rs (mapKey ns (ow_name o)) with
               | Some w => (completeGVK (co_api w) (lower (co_kind w)), co_name w)
               | None => (bs "deployment", extractDeploymentName (ow_name o))
               end
          else (completeGVK (ow_api o) (lower (ow_kind o)), ow_name o)
        else controllerOf rs ns l'
    end.

  (** service_watch.go:44-61 GetServiceMatchLabels *)
  Definition servicesMatching (n : nat) (st : kstate) (ns : bytes) (labels : list (bytes * bytes)) : list nat :=
    filter (fun i => let s := svcAt (k_svcs st) i in
                     negb (eqb (si_selector s) []) && selectorsMatchLabels (si_selector s) labels)
           (map snd (it _ n (inner (k_gsvcs st) ns))).
  (** pod_watch.go:150-167 getPodsMatchSelectors *)
  Definition podsMatching (n : nat) (st : kstate) (ns : bytes) (sel : list (bytes * bytes)) : list nat :=
    if eqb sel [] then []
    else filter (fun i => selectorsMatchLabels sel (pi_labels (podAt (k_pods st) i))) (map snd (it _ n (inner (k_gpods st) ns))).

  (** k8scache.go:148-175 GetContainerByIpPort *)
  Definition getContainerByIpPort (n : nat) (st : kstate) (ip : bytes) (p : Z) : option cinfo :=
    let m := inner (k_ips st) ip in
    match aget m p with
    | Some c => Some c
    | None =>
        match aget m 0 with
        | Some c => if pi_hostnet (podAt (k_pods st) (ci_pod c)) then None else Some c
        | None => List.find (fun c => negb (pi_hostnet (podAt (k_pods st) (ci_pod c)))) (map snd (it _ n m))
        end
    end.
  (** k8scache.go:177-183 *)
  Definition getPodByIpPort (n : nat) (st : kstate) (ip : bytes) (p : Z) : option nat := option_map ci_pod (getContainerByIpPort n st ip p).
  (** k8scache.go:185-199 GetPodByIp *)
  Definition getPodByIp (n : nat) (st : kstate) (ip : bytes) : option nat :=
    option_map ci_pod (List.find (fun c => negb (pi_hostnet (podAt (k_pods st) (ci_pod c)))) (map snd (it _ n (inner (k_ips st) ip)))).
  (** k8scache.go:115-123 *)
  Definition getPodByContainerId (st : kstate) (c : bytes) : option nat := option_map ci_pod (aget (k_cids st) c).
  (** hostport_map.go:31-40 *)
  Definition getContainerByHostIpPort (st : kstate) (ip : bytes) (p : Z) : option cinfo := aget (k_hosts st) (hostKey ip p).
  (** k8scache.go:245-257 GetServiceByIpPort *)
  Definition getServiceByIpPort (st : kstate) (ip : bytes) (p : Z) : option nat := get2 (k_ipsvcs st) ip p.
  (** node_watch.go:40-48 *)
  Definition getNodeName (st : kstate) (ip : bytes) : option bytes := option_map ni_name (aget (k_nodes st) ip).

  (** pod_watch.go:243-256: the container id map *)
  Fixpoint addCids (id : nat) (l : list (bytes * bytes)) (m : list (bytes * cinfo)) : list (bytes * cinfo) :=
    match l with
    | [] => m
    | (name, full) :: l' =>
        let c := TruncateContainerId full in
        addCids id l' (if eqb c [] then m else aset m c {| ci_id := c; ci_name := name; ci_hostports := []; ci_pod := id |})
    end.
  (** pod_watch.go:280-289: the ports of one container *)
  Fixpoint addPorts (ip hostip : bytes) (c : cinfo) (l : list port) (m : list (bytes * list (Z * cinfo)) * list (bytes * cinfo)) :=
    match l with
    | [] => m
    | p :: l' =>
        let h := if pt_host p =? 0 then snd m else aset (snd m) (hostKey hostip (pt_host p)) c in
        addPorts ip hostip c l' (put2 (fst m) ip (w32 (pt_container p)) c, h)
    end.
  (** the HostPortMap of a container (pod_watch.go:283-285) *)
  Definition hostPortMap (l : list port) : list (Z * Z) :=
    fold_left (fun m p => if pt_host p =? 0 then m else aset m (pt_host p) (pt_container p)) l [].
  (** pod_watch.go:258-291: the containers of a pod *)
  Fixpoint addContainers (id : nat) (many : bool) (ip hostip : bytes) (l : list container) (m : list (bytes * list (Z * cinfo)) * list (bytes * cinfo)) :=
    match l with
    | [] => m
    | c :: l' =>
        addContainers id many ip hostip l'
          (match ct_ports c with
           | [] => (put2 (fst m) ip 0 {| ci_id := []; ci_name := if many then [] else ct_name c; ci_hostports := []; ci_pod := id |}, snd m)
           | ports => addPorts ip hostip {| ci_id := []; ci_name := ct_name c; ci_hostports := hostPortMap ports; ci_pod := id |} ports m
           end)
    end.
  (** pod_watch.go:226-241, with what the loops below append to Ports, HostPorts and ContainerIds *)
  Definition podRecord (p : pod) (w : bytes * bytes) (svc : option nat) : podInfo :=
    {| pi_uid := pd_uid p; pi_ip := pd_ip p; pi_name := pd_name p;
       pi_ports := if eqb (pd_ip p) [] then [] else podPorts p; pi_hostports := if eqb (pd_ip p) [] then [] else podHostPorts p;
       pi_cids := shortIds p; pi_labels := pd_labels p; pi_wkind := fst w; pi_wname := snd w; pi_ns := pd_ns p; pi_node := pd_node p;
       pi_nodeaddr := pd_hostip p; pi_hostnet := pd_hostnet p; pi_svc := svc |}.
  (** pod_watch.go:201-302 AddPod *)
  Definition addPod (n : nat) (p : pod) (st : kstate) : kstate :=
    let w := controllerOf (k_rs st) (pd_ns p) (pd_owners p) in
    let matched := servicesMatching n st (pd_ns p) (pd_labels p) in
    let svcs := fold_left (fun h i => upd h i (withWorkload (fst w) (snd w))) matched (k_svcs st) in
    let id := List.length (k_pods st) in
    let st := setHeaps st (k_pods st ++ [podRecord p w (hd_error matched)]) svcs in
    let st := setCids st (addCids id (pd_statuses p) (k_cids st)) in
    let st := if eqb (pd_ip p) [] then st
              else let m := addContainers id (1 <? zlen (pd_containers p)) (pd_ip p) (pd_hostip p) (pd_containers p) (k_ips st, k_hosts st) in
                   setAddrs st (fst m) (snd m) in
    setGpods st (put2 (k_gpods st) (pd_ns p) (pd_name p) id)
      (if eqb (pd_node p) myNode then put2 (k_work st) (pd_ns p) (snd w) {| wi_ns := pd_ns p; wi_name := snd w; wi_kind := fst w |} else k_work st).

  (** pod_watch.go:342-428 UpdatePod at time [now] *)
  Definition updatePod (n : nat) (now : Z) (old new : pod) (st : kstate) : kstate :=
    if eqb (pd_rv old) (pd_rv new) then st
    else match get2 (k_gpods st) (pd_ns old) (pd_name old) with
         | None => addPod n new st
         | Some id =>
             let oc := podAt (k_pods st) id in
             let st := addPod n new st in
             let d := {| di_uid := pd_uid old; di_name := if eqb (pd_name old) (pd_name new) then [] else pd_name old; di_ns := pd_ns old;
                         di_cids := GetRemovedElements (Compare (NewSlice (pi_cids oc) (shortIds new)));
                         di_ip := pd_ip old;
                         di_ports := if eqb (pd_ip old) (pd_ip new) then GetRemovedElements (Compare (NewSlice (pi_ports oc) (podPorts new))) else pi_ports oc;
                         di_hostip := pd_hostip old;
                         di_hostports := if eqb (pd_hostip old) (pd_hostip new) then GetRemovedElements (Compare (NewSlice (pi_hostports oc) (podHostPorts new))) else pi_hostports oc |} in
             setQueue st (k_queue st ++ [(d, now)])
         end.
  (** pod_watch.go:430-483 DeletePod; [None]: the object is neither a pod nor the tombstone of one *)
  Definition deletePod (now : Z) (o : option pod) (st : kstate) : kstate :=
    match o with
    | None => st
    | Some p =>
        let d := {| di_uid := pd_uid p; di_name := pd_name p; di_ns := pd_ns p; di_cids := shortIds p; di_ip := pd_ip p; di_ports := podPorts p;
                    di_hostip := pd_hostip p; di_hostports := podHostPorts p |} in
        setQueue st (k_queue st ++ [(d, now)])
    end.

  (** pod_delete.go:90-100 *)
  Fixpoint delPorts (n : nat) (uid ip : bytes) (l : list Z) (st : kstate) : kstate :=
    match l with
    | [] => st
    | p :: l' =>
        delPorts (S n) uid ip l'
          (match getContainerByIpPort n st ip (w32 p) with
           | None => st
           | Some c => if eqb (pi_uid (podAt (k_pods st) (ci_pod c))) uid then setAddrs st (del2 (k_ips st) ip (w32 p)) (k_hosts st) else st
           end)
    end.
  (** pod_delete.go:102-112 *)
  Fixpoint delHostPorts (uid ip : bytes) (l : list Z) (st : kstate) : kstate :=
    match l with
    | [] => st
    | p :: l' =>
        delHostPorts uid ip l'
          (match getContainerByHostIpPort st ip p with
           | None => st
           | Some c => if eqb (pi_uid (podAt (k_pods st) (ci_pod c))) uid then setAddrs st (k_ips st) (adel (k_hosts st) (hostKey ip p)) else st
           end)
    end.
  (** pod_delete.go:64-114 deletePodInfo *)
  Definition deletePodInfo (n : nat) (d : delInfo) (st : kstate) : kstate :=
    let st := if eqb (di_name d) [] then st
              else match get2 (k_gpods st) (di_ns d) (di_name d) with
                   | None => st
                   | Some id => let p := podAt (k_pods st) id in
                                setGpods st (rem2 (k_gpods st) (di_ns d) (di_name d)) (rem2 (k_work st) (pi_ns p) (pi_wname p))
                   end in
    let st := setCids st (fold_left adel (di_cids d) (k_cids st)) in
    let st := if eqb (di_ip d) [] then st else delPorts n (di_uid d) (di_ip d) (di_ports d) st in
    if eqb (di_hostip d) [] then st else delHostPorts (di_uid d) (di_hostip d) (di_hostports d) st.
  (** pod_delete.go:43-53: the requests whose grace period is over, up to the first that is still in it *)
  Fixpoint expired (grace now : Z) (q : list (delInfo * Z)) : list (delInfo * Z) * list (delInfo * Z) :=
    match q with
    | [] => ([], [])
    | (d, ts) :: q' => if now <? ts + grace then ([], q)
                       else let r := expired grace now q' in ((d, ts) :: fst r, snd r)
    end.
  (** pod_delete.go:54-56 *)
  Fixpoint deleteAll (n : nat) (l : list (delInfo * Z)) (st : kstate) : kstate :=
    match l with
    | [] => st
    | (d, _) :: l' => deleteAll (n + List.length (di_ports d)) l' (deletePodInfo n d st)
    end.
  (** pod_delete.go:35-62: one round of podDeleteLoop *)
  Definition deleteRound (n : nat) (grace now : Z) (st : kstate) : kstate :=
    let r := expired grace now (k_queue st) in deleteAll n (fst r) (setQueue st (snd r)).

  (** *** Services *)
  (** service_watch.go:132-149: one pod found in the cache takes the service *)
  Definition attach (id : nat) (o : option nat) (st : kstate) : kstate :=
    match o with
    | None => st
    | Some i => let p := podAt (k_pods st) i in
                setHeaps st (upd (k_pods st) i (withSvc id)) (upd (k_svcs st) id (withWorkload (pi_wkind p) (pi_wname p)))
    end.
  Fixpoint attachCids (id : nat) (l : list bytes) (st : kstate) : kstate :=
    match l with [] => st | c :: l' => attachCids id l' (attach id (getPodByContainerId st c) st) end.
  Fixpoint attachPorts (n id : nat) (ip : bytes) (l : list Z) (st : kstate) : kstate :=
    match l with [] => st | p :: l' => attachPorts (S n) id ip l' (attach id (getPodByIpPort n st ip (w32 p)) st) end.
  Fixpoint attachPods (n id : nat) (l : list nat) (st : kstate) : kstate :=
    match l with
    | [] => st
    | i :: l' => let p := podAt (k_pods st) i in
                 attachPods (n + List.length (pi_ports p)) id l' (attachPorts n id (pi_ip p) (pi_ports p) (attachCids id (pi_cids p) st))
    end.
  (** service_watch.go:151-153, 194-197 *)
  Definition hasClusterIp (s : service) : bool := negb (eqb (sv_ip s) []) && negb (eqb (sv_ip s) (bs "None")).
  (** service_watch.go:154-162; [addrs]: the addresses of the nodes *)
  Definition addSvcPort (s : service) (id : nat) (addrs : list bytes) (m : list (bytes * list (Z * nat))) (p : svcport) :=
    let m := put2 m (sv_ip s) (w32 (sp_port p)) id in
    if sv_nodeport s then fold_left (fun m a => put2 m a (w32 (sp_node p)) id) addrs m else m.
  (** service_watch.go:121-163 AddService *)
  Definition addService (n : nat) (s : service) (st : kstate) : kstate :=
    let id := List.length (k_svcs st) in
    let st := setHeaps st (k_pods st) (k_svcs st ++ [{| si_ip := sv_ip s; si_name := sv_name s; si_ns := sv_ns s; si_nodeport := sv_nodeport s;
                                                        si_selector := sv_selector s; si_wkind := []; si_wname := [] |}]) in
    let st := setSvcs st (put2 (k_gsvcs st) (sv_ns s) (sv_name s) id) (k_ipsvcs st) in
    let st := attachPods (S n) id (podsMatching n st (sv_ns s) (sv_selector s)) st in
    if hasClusterIp s
    then setSvcs st (k_gsvcs st) (fold_left (addSvcPort s id (it _ n (keys (k_nodes st)))) (sv_ports s) (k_ipsvcs st))
    else st.
  (** service_watch.go:198-206 *)
  Definition delSvcPort (s : service) (addrs : list bytes) (m : list (bytes * list (Z * nat))) (p : svcport) :=
    let m := del2 m (sv_ip s) (w32 (sp_port p)) in
    if sv_nodeport s then fold_left (fun m a => del2 m a (w32 (sp_node p))) addrs m else m.
  (** service_watch.go:178-207 DeleteService, 74-90 ServiceMap.delete; [None]: neither a service nor the tombstone of one *)
  Definition deleteService (n : nat) (o : option service) (st : kstate) : kstate :=
    match o with
    | None => st
    | Some s =>
        let st := match get2 (k_gsvcs st) (sv_ns s) (sv_name s) with
                  | Some i => setHeaps st (k_pods st) (upd (k_svcs st) i (fun _ => nilSvc))
                  | None => st
                  end in
        if hasClusterIp s
        then setSvcs st (k_gsvcs st) (fold_left (delSvcPort s (it _ n (keys (k_nodes st)))) (sv_ports s) (k_ipsvcs st))
        else st
    end.
  (** service_watch.go:165-176 UpdateService *)
  Definition updateService (n : nat) (old new : service) (st : kstate) : kstate :=
    if eqb (sv_rv old) (sv_rv new) then st else addService (S n) new (deleteService n (Some old) st).

  (** *** Replica sets *)
  (** replicaset_watch.go:96-138; metav1.GetControllerOfNoCopy: the first owner that is a controller *)
  Definition addReplicaSet (r : replicaset) (st : kstate) : kstate :=
    match List.find ow_controller (rs_owners r) with
    | None => st
    | Some o => setRs st (aset (k_rs st) (mapKey (rs_ns r) (rs_name r)) {| co_name := ow_name o; co_kind := ow_kind o; co_api := ow_api o |})
    end.
  Definition deleteReplicaSet (o : option replicaset) (st : kstate) : kstate :=
    match o with None => st | Some r => setRs st (adel (k_rs st) (mapKey (rs_ns r) (rs_name r))) end.
  Definition updateReplicaSet (old new : replicaset) (st : kstate) : kstate :=
    if eqb (rs_rv new) (rs_rv old) then st else addReplicaSet new (deleteReplicaSet (Some old) st).

  (** *** Nodes *)
  (** node_watch.go:98-112: the last internal address *)
  Definition internalIp (n : node) : bytes := fold_left (fun r a => if eqb (fst a) (bs "InternalIP") then snd a else r) (nd_addresses n) [].
  Definition addNode (n : node) (st : kstate) : kstate :=
    setNodes st (aset (k_nodes st) (internalIp n) {| ni_ip := internalIp n; ni_name := nd_name n |}).
  (** node_watch.go:119-134, 60-64: the map is keyed by address, the name is what is deleted *)
  Definition deleteNode (o : option node) (st : kstate) : kstate :=
    match o with None => st | Some n => setNodes st (adel (k_nodes st) (nd_name n)) end.
  (** node_watch.go:114-117 *)
  Definition updateNode (old new : node) (st : kstate) : kstate := addNode new (deleteNode (Some old) st).

  (** *** Histories *)
  Inductive kop : Type :=
  | OAddPod (p : pod) | OUpdatePod (old new : pod) | ODeletePod (o : option pod) | ODeleteRound
  | OAddService (s : service) | OUpdateService (old new : service) | ODeleteService (o : option service)
  | OAddRs (r : replicaset) | OUpdateRs (old new : replicaset) | ODeleteRs (o : option replicaset)
  | OAddNode (n : node) | OUpdateNode (old new : node) | ODeleteNode (o : option node).
  (** one event at time [now]; [n] numbers its first range statement *)
  Definition kstep (grace : Z) (n : nat) (now : Z) (o : kop) (st : kstate) : kstate :=
    match o with
    | OAddPod p => addPod n p st
    | OUpdatePod old new => updatePod n now old new st
    | ODeletePod p => deletePod now p st
    | ODeleteRound => deleteRound n grace now st
    | OAddService s => addService n s st
    | OUpdateService old new => updateService n old new st
    | ODeleteService s => deleteService n s st
    | OAddRs r => addReplicaSet r st
    | OUpdateRs old new => updateReplicaSet old new st
    | ODeleteRs r => deleteReplicaSet r st
    | OAddNode x => addNode x st
    | OUpdateNode old new => updateNode old new st
    | ODeleteNode x => deleteNode x st
    end.
  (** pod_watch.go:51-71 GetWorkloadDataGroup: what is exported, in some order *)
  Definition workloads (st : kstate) : list winfo := flat_map (fun e => map snd (snd e)) (k_work st).
End K8s.
